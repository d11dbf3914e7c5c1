(** The messages for files that are cut short or of another kind, and for audio
    headers. *)
From Coq Require Import ZArith String List Bool Lia.
From Verif.Base Require Import Prelude Lemmas.
From Verif.Model Require Import Util File Binary Vector Pcm Nnet Formats Fst Stt Messages.
From Verif.Spec Require Import AudioSpec PcmSpec FormatSpec TextSpec FstSpec MessageSpec.
From Verif.Proof Require Import Binary Text Messages MessagesText.
From Verif.Proof Require Formats Fst Pcm Python LinesExact NumberExact.
Import ListNotations.
Open Scope Z_scope.

(** * Reading a part *)

(** A reader does the same on a part of the file, or fails at its end. *)
Definition steady (name : bytes) {A} (m : mio A) : Prop := forall s s2 e,
  (exists r s', m (mk_file s e) = Ok (r, mk_file s' e) /\ m (mk_file (s ++ s2) e) = Ok (r, mk_file (s' ++ s2) e)) \/
  m (mk_file s e) = Ok (inr (failed_read name), mk_file [] true) \/
  exists x, m (mk_file s e) = Fault x /\ m (mk_file (s ++ s2) e) = Fault x.

Section Steady.
Variable name : bytes.
Notation steady := (steady name).

Lemma steady_ret A (a : A) : steady (m_ret a).
Proof. intros s s2 e. left. exists (inl a), s. now split. Qed.
Lemma steady_fail A msg : steady (@m_fail A msg).
Proof. intros s s2 e. left. exists (inr msg), s. now split. Qed.
Lemma steady_fault A x : steady (@m_fault A x).
Proof. intros s s2 e. right. right. exists x. now split. Qed.
Lemma steady_check b msg : steady (m_check b msg).
Proof. destruct b; [apply steady_ret|apply steady_fail]. Qed.
Lemma steady_assert b x : steady (m_assert b x).
Proof. destruct b; [apply steady_ret|apply steady_fault]. Qed.

Lemma steady_bind A B (m : mio A) (k : A -> mio B) : steady m -> (forall a, steady (k a)) -> steady (m_bind m k).
Proof.
  intros H K s s2 e. unfold m_bind. destruct (H s s2 e) as [(r & s' & E & E2)|[E|(x & E & E2)]].
  - rewrite E, E2. cbn [bind]. destruct r as [a|w]; [exact (K a s' s2 e)|]. left. exists (inr w), s'. now split.
  - rewrite E. cbn [bind]. right. now left.
  - rewrite E, E2. right. right. exists x. now split.
Qed.

Lemma steady_read n : steady (m_read name n).
Proof.
  intros s s2 e. unfold m_read, read. cbn [f_rest f_eof]. destruct (Z.ltb_spec n 0).
  - destruct s as [|c s]; [right; now left|]. right. right. exists Undef. now split.
  - destruct (Z.eqb_spec n 0).
    + left. exists (inr (failed_read name)), s. now split.
    + destruct (Z.leb_spec n (lenZ s)) as [L|L].
      * left. exists (inl (firstn (Z.to_nat n) s)), (skipn (Z.to_nat n) s).
        assert (M : (Z.to_nat n <= length s)%nat) by (unfold lenZ in L; lia).
        split; [reflexivity|]. destruct (Z.leb_spec n (lenZ (s ++ s2))) as [_|L2]; [|unfold lenZ in *; rewrite app_length in L2; lia].
        rewrite firstn_app, skipn_app. replace (Z.to_nat n - length s)%nat with 0%nat by lia. cbn [firstn skipn]. now rewrite app_nil_r.
      * right. now left.
Qed.
Lemma steady_verify s : steady (m_verify name s).
Proof. apply steady_bind; [apply steady_read|]. intros b. apply steady_check. Qed.
Lemma steady_int n : steady (m_int name n).
Proof. apply steady_bind; [apply steady_read|]. intros b. apply steady_ret. Qed.

Lemma steady_vec_header : steady (m_vec_header name).
Proof.
  apply steady_bind; [apply steady_verify|]. intros _. apply steady_bind; [apply steady_int|]. intros s.
  apply steady_bind; [apply steady_int|]. intros d. apply steady_bind; [apply steady_check|]. intros _. apply steady_ret.
Qed.

Lemma steady_vector : steady (m_vector name).
Proof.
  intros s s2 e. unfold m_vector, m_vec_read. destruct (steady_vec_header s s2 e) as [(r & s' & E & E2)|[E|(x & E & E2)]].
  - rewrite E, E2. cbn [bind]. destruct r as [d|w]; [|left; exists (inr w), s'; now split].
    destruct (vec_init 4 d) as [u|x]; cbn [bind]; [|right; right; exists x; now split].
    destruct (steady_read (d * 4) s' s2 e) as [(r & s3 & R & R2)|[R|(x & R & R2)]].
    + rewrite R, R2. cbn [bind]. destruct r as [b|w]; cbn [bind]; left; eauto.
    + rewrite R. right. now left.
    + rewrite R, R2. right. right. exists x. now split.
  - rewrite E. right. now left.
  - rewrite E, E2. right. right. exists x. now split.
Qed.

Lemma steady_array w n : steady (m_array name w n).
Proof.
  unfold m_array. destruct (n <? 0); [apply steady_fault|]. cbv zeta. destruct (wrap32 (w * n) =? w * n); [apply steady_read|].
  intros s s2 e. cbn [f_rest]. destruct (wrap32 (w * n) <? 0); cbn [andb].
  - destruct (Z.leb_spec (lenZ s) (w * n)); [right; now left|]. destruct (Z.leb_spec (lenZ (s ++ s2)) (w * n)) as [L|_].
    + unfold lenZ in *. rewrite app_length in L. lia.
    + right. right. exists Undef. now split.
  - right. right. exists Undef. now split.
Qed.

Lemma steady_fst : steady (m_fst name).
Proof.
  apply steady_bind; [apply steady_read|]. intros s. apply steady_bind; [apply steady_check|]. intros _.
  apply steady_bind; [apply steady_int|]. intros z. apply steady_bind; [apply steady_int|]. intros n.
  apply steady_bind; [apply steady_int|]. intros a. apply steady_bind; [apply steady_int|]. intros st. cbv zeta.
  apply steady_bind; [apply steady_check|]. intros _. apply steady_bind; [apply steady_array|]. intros x.
  apply steady_bind; [apply steady_array|]. intros y. apply steady_bind; [apply steady_array|]. intros u. apply steady_ret.
Qed.

Lemma steady_header : steady (m_header name).
Proof.
  apply steady_bind; [apply steady_verify|]. intros _. apply steady_bind; [apply steady_int|]. intros _.
  apply steady_bind; [apply steady_verify|]. intros _. apply steady_bind; [apply steady_verify|]. intros _.
  apply steady_bind; [apply steady_int|]. intros s1. apply steady_bind; [apply steady_check|]. intros _.
  apply steady_bind; [apply steady_int|]. intros af. apply steady_bind; [apply steady_check|]. intros _.
  apply steady_bind; [apply steady_int|]. intros ch. apply steady_bind; [apply steady_int|]. intros ra.
  apply steady_bind; [apply steady_int|]. intros br. apply steady_bind; [apply steady_int|]. intros ba.
  apply steady_bind; [apply steady_int|]. intros bi. apply steady_bind; [apply steady_assert|]. intros _.
  apply steady_bind; [apply steady_check|]. intros _. apply steady_bind; [apply steady_check|]. intros _.
  apply steady_bind; [apply steady_verify|]. intros _. apply steady_bind; [apply steady_int|]. intros _. apply steady_ret.
Qed.

Lemma cut_short A (m : mio A) (r : io A) c a k : drops m r -> steady m -> r (open c) = Ok (Some a, mk_file [] false) -> (k < length c)%nat ->
  m (open (firstn k c)) = Ok (inr (failed_read name), mk_file [] true).
Proof.
  intros D H R K. assert (E : m (mk_file c false) = Ok (inl a, mk_file [] false)).
  { unfold open in R. rewrite D in R. destruct (m (mk_file c false)) as [[[b|w] f]|x]; cbn [bind] in R; unfold drop in R; cbn [Datatypes.fst snd] in R; [|discriminate|discriminate].
    now injection R as -> ->. }
  rewrite <- (firstn_skipn k c) in E.
  destruct (H (firstn k c) (skipn k c) false) as [(q & s' & E1 & E2)|[E1|(x & E1 & E2)]].
  - rewrite E in E2. injection E2 as _ E2. exfalso. symmetry in E2. apply app_eq_nil in E2. destruct E2 as (_ & E2).
    apply (f_equal (@length Z)) in E2. rewrite skipn_length in E2. cbn in E2. lia.
  - exact E1.
  - rewrite E in E2. discriminate.
Qed.

Lemma failed_eq : failed_read name = lit "IOError: failed to read: " ++ name.
Proof.
  unfold failed_read, io_error. rewrite one_text. change (substitute (lit "failed to read: {}") [name]) with (lit "failed to read: " ++ name ++ []).
  now rewrite app_nil_r.
Qed.

Lemma vector_cut v k : storable v -> (k < length (vector_file v))%nat ->
  exists f, m_vector name (open (firstn k (vector_file v))) = Ok (inr (lit "IOError: failed to read: " ++ name), f).
Proof.
  intros S K. exists (mk_file [] true). rewrite <- failed_eq. apply (cut_short _ _ io_vector _ (map Some v)); [apply drops_vector|apply steady_vector| |exact K].
  unfold open. rewrite <- (app_nil_r (vector_file v)). now apply Formats.reads_vector.
Qed.

Lemma lm_cut t k : fst_storable t -> (k < length (fst_file t))%nat ->
  exists f, m_fst name (open (firstn k (fst_file t))) = Ok (inr (lit "IOError: failed to read: " ++ name), f).
Proof.
  intros S K. exists (mk_file [] true). rewrite <- failed_eq. apply (cut_short _ _ fst_read _ (laid_out t)); [apply drops_fst|apply steady_fst| |exact K].
  unfold open. rewrite <- (app_nil_r (fst_file t)). now apply Fst.fst_read_file.
Qed.

(** * Another kind of file *)

Lemma m_read_app c rest e n : lenZ c = n -> 0 < n -> m_read name n (mk_file (c ++ rest) e) = Ok (inl c, mk_file rest e).
Proof.
  intros L P. unfold m_read. rewrite <- L, read_app; [reflexivity|]. intros ->. cbn in L. lia.
Qed.

Lemma verify_text s b rest e : length s = 4%nat -> length b = 4%nat -> s <> b -> ~ In 0 b -> no_brace s -> no_brace b ->
  m_verify name s (mk_file (b ++ rest) e)
  = Ok (inr (lit "Corruption: ReadAndVerifyString: '" ++ s ++ lit "' expected but '" ++ b ++ lit "' found in " ++ name), mk_file rest e).
Proof.
  intros Ls Lb N N0 Bs Bb. unfold m_verify, m_bind. rewrite m_read_app by (unfold lenZ; lia). cbn [bind].
  rewrite cstr_id by exact N0. unfold m_check. destruct (str_eqb s b) eqn:E; [apply str_eqb_eq in E; contradiction|]. unfold m_fail, corruption.
  do 3 f_equal. rewrite format_substitute.
  - change (substitute (lit "ReadAndVerifyString: '{}' expected but '{}' found in {}") [s; b; name])
      with (lit "ReadAndVerifyString: '" ++ s ++ lit "' expected but '" ++ b ++ lit "' found in " ++ name ++ []). now rewrite app_nil_r.
  - constructor; [split; [intros ->; discriminate|exact Bs]|]. constructor; [split; [intros ->; discriminate|exact Bb]|constructor].
Qed.

Lemma vector_kind b rest : length b = 4%nat -> b <> lit "VEC0" -> ~ In 0 b -> no_brace b ->
  exists f, m_vector name (open (b ++ rest)) = Ok (inr (lit "Corruption: ReadAndVerifyString: 'VEC0' expected but '" ++ b ++ lit "' found in " ++ name), f).
Proof.
  intros L N N0 B. exists (mk_file rest false). unfold m_vector, m_vec_read, m_vec_header, open. unfold m_bind at 1.
  rewrite (verify_text s_vec0 b rest false) by (auto; split; cbn; intuition discriminate). reflexivity.
Qed.

Lemma network_kind b rest : length b = 4%nat -> b <> lit "NN02" -> ~ In 0 b -> no_brace b ->
  exists f, m_nnet name (open (b ++ rest)) = Ok (inr (lit "Corruption: ReadAndVerifyString: 'NN02' expected but '" ++ b ++ lit "' found in " ++ name), f).
Proof.
  intros L N N0 B. exists (mk_file rest false). unfold m_nnet, open. unfold m_bind at 1.
  rewrite (verify_text s_nn02 b rest false) by (auto; split; cbn; intuition discriminate). reflexivity.
Qed.

Lemma steps A B (m : mio A) (r : io A) (k : A -> mio B) c a rest e : drops m r -> reads r c a ->
  m_bind m k (mk_file (c ++ rest) e) = k a (mk_file rest e).
Proof.
  intros D R. specialize (R rest e). rewrite D in R. unfold m_bind. destruct (m (mk_file (c ++ rest) e)) as [[[b|w] f]|x]; cbn [bind] in R;
    unfold drop in R; cbn [Datatypes.fst snd] in R; [|discriminate|discriminate]. now injection R as -> ->.
Qed.
Lemma step_verify B s (k : unit -> mio B) rest e : s <> [] -> ~ In 0 s -> m_bind (m_verify name s) k (mk_file (s ++ rest) e) = k tt (mk_file rest e).
Proof. intros N Z0. apply (steps _ _ _ (io_verify s)); [apply drops_verify|now apply reads_verify]. Qed.
Lemma step_int4 B z (k : Z -> mio B) rest e : fits 4 z -> m_bind (m_int name 4) k (mk_file (encode 4 z ++ rest) e) = k z (mk_file rest e).
Proof. intros H. apply (steps _ _ _ (io_int 4)); [apply drops_int|]. apply (reads_int 4); [lia|exact H]. Qed.
Lemma step_int2 B z (k : Z -> mio B) rest e : fits 2 z -> m_bind (m_int name 2) k (mk_file (encode 2 z ++ rest) e) = k z (mk_file rest e).
Proof. intros H. apply (steps _ _ _ (io_int 2)); [apply drops_int|]. apply (reads_int 2); [lia|exact H]. Qed.
Lemma step_check B b msg (k : unit -> mio B) f : b = true -> m_bind (m_check b msg) k f = k tt f.
Proof. intros ->. reflexivity. Qed.
Lemma step_bad B b msg (k : unit -> mio B) f : b = false -> m_bind (m_check b msg) k f = Ok (inr msg, f).
Proof. intros ->. reflexivity. Qed.
Lemma step_assert B b x (k : unit -> mio B) f : b = true -> m_bind (m_assert b x) k f = k tt f.
Proof. intros ->. reflexivity. Qed.
Lemma step_inr A B (m : mio A) (k : A -> mio B) f t f' : m f = Ok (inr t, f') -> m_bind m k f = Ok (inr t, f').
Proof. intros E. unfold m_bind. now rewrite E. Qed.

Lemma vector_size size dim rest : fits 4 size -> fits 4 dim -> size <> dim * 4 + 4 ->
  exists d s f, decimal dim d /\ decimal size s /\
    m_vector name (open (lit "VEC0" ++ word size ++ word dim ++ rest))
    = Ok (inr (lit "Corruption: section_size = " ++ d ++ lit " * 4 + 4 expected, but " ++ s ++ lit " found: " ++ name), f).
Proof.
  intros Fs Fd N. exists (to_string dim), (to_string size), (mk_file rest false).
  split; [apply Python.to_string_decimal|]. split; [apply Python.to_string_decimal|].
  unfold m_vector, m_vec_read, m_vec_header, open, word. rewrite (step_verify _ s_vec0) by (try discriminate; cbn; intuition discriminate).
  rewrite step_int4 by exact Fs. rewrite step_int4 by exact Fd. rewrite step_bad.
  - cbn [bind]. do 3 f_equal. unfold corruption. rewrite name_text3.
    change (substitute (lit "section_size = {} * {} + 4 expected, but {} found: {}") [to_string dim; to_string 4; to_string size; name])
      with (lit "section_size = " ++ to_string dim ++ lit " * 4 + 4 expected, but " ++ to_string size ++ lit " found: " ++ name ++ []).
    now rewrite app_nil_r.
  - apply Z.eqb_neq. intros E. apply Formats.fits_4 in Fs, Fd. apply Formats.size_t_inj in E; lia.
Qed.

Lemma lm_kind h rest : length h = 32%nat -> cstr (firstn 31 h) <> lit "pk::fst_0" ->
  exists f, m_fst name (open (h ++ rest)) = Ok (inr (lit "Corruption: " ++ name), f).
Proof.
  intros L N. exists (mk_file rest false). unfold m_fst, open. unfold m_bind at 1. rewrite m_read_app by (unfold lenZ; lia). cbn [bind].
  apply step_bad. destruct (str_eqb _ _) eqn:E; [apply str_eqb_eq in E; contradiction|reflexivity].
Qed.

End Steady.

(** * Audio headers *)

Section Header.
Variables (chunk ch rate brate align bits : Z).
Hypothesis F1 : fits 4 chunk.
Hypothesis F2 : fits 2 ch.
Hypothesis F3 : fits 4 rate.
Hypothesis F4 : fits 4 brate.
Hypothesis F5 : fits 2 align.
Hypothesis F6 : fits 2 bits.

Lemma header_text_is content msg f : m_header [] (open content) = Ok (inr msg, f) -> header_text content = Ok (Some msg).
Proof. intros E. unfold header_text. now rewrite E. Qed.

Ltac solid := solve [discriminate | cbn; intuition discriminate].
Ltac riff := unfold m_header, open; rewrite (step_verify _ _ s_riff) by solid; rewrite step_int4 by assumption; rewrite (step_verify _ _ s_wave) by solid;
  rewrite (step_verify _ _ s_fmt) by solid.

Lemma header_cut size k : fits 4 size -> consistent rate brate align bits -> -2147483648 <= rate * bits <= 2147483647 ->
  (k < length (pcm_header chunk ch rate brate align bits size))%nat ->
  header_text (firstn k (pcm_header chunk ch rate brate align bits size)) = Ok (Some (lit "IOError: failed to read: ")).
Proof.
  intros F7 C R K. apply header_text_is with (f := mk_file [] true).
  change (lit "IOError: failed to read: ") with (failed_read []).
  apply (cut_short _ _ _ read_pcm_header _ (mk_format ch rate bits)); [apply drops_pcm|apply steady_header| |exact K].
  unfold open. rewrite <- (app_nil_r (pcm_header _ _ _ _ _ _ _)) at 1. now apply Pcm.header_accepted.
Qed.

Lemma header_riff b rest : length b = 4%nat -> b <> lit "RIFF" -> ~ In 0 b -> no_brace b ->
  header_text (b ++ rest) = Ok (Some (lit "Corruption: ReadAndVerifyString: 'RIFF' expected but '" ++ b ++ lit "' found in ")).
Proof.
  intros L N N0 B. eapply header_text_is. unfold m_header, open. apply step_inr.
  rewrite (verify_text [] s_riff b rest false) by (auto; split; cbn; intuition discriminate). rewrite app_nil_r. reflexivity.
Qed.

Lemma header_wave b rest : length b = 4%nat -> b <> lit "WAVE" -> ~ In 0 b -> no_brace b ->
  header_text (lit "RIFF" ++ encode 4 chunk ++ b ++ rest)
  = Ok (Some (lit "Corruption: ReadAndVerifyString: 'WAVE' expected but '" ++ b ++ lit "' found in ")).
Proof.
  intros L N N0 B. eapply header_text_is. unfold m_header, open. rewrite (step_verify _ _ s_riff) by solid. rewrite step_int4 by assumption. apply step_inr.
  rewrite (verify_text [] s_wave b rest false) by (auto; split; cbn; intuition discriminate). rewrite app_nil_r. reflexivity.
Qed.

Lemma header_fmt b rest : length b = 4%nat -> b <> lit "fmt " -> ~ In 0 b -> no_brace b ->
  header_text (lit "RIFF" ++ encode 4 chunk ++ lit "WAVE" ++ b ++ rest)
  = Ok (Some (lit "Corruption: ReadAndVerifyString: 'fmt ' expected but '" ++ b ++ lit "' found in ")).
Proof.
  intros L N N0 B. eapply header_text_is. unfold m_header, open. rewrite (step_verify _ _ s_riff) by solid. rewrite step_int4 by assumption.
  rewrite (step_verify _ _ s_wave) by solid. apply step_inr.
  rewrite (verify_text [] s_fmt b rest false) by (auto; split; cbn; intuition discriminate). rewrite app_nil_r. reflexivity.
Qed.

Lemma header_sub sub rest : fits 4 sub -> sub <> 16 -> exists s, decimal sub s /\
  header_text (lit "RIFF" ++ encode 4 chunk ++ lit "WAVE" ++ lit "fmt " ++ encode 4 sub ++ rest)
  = Ok (Some (lit "Corruption: subchunk1_size == 16 expected, but " ++ s ++ lit " found: ")).
Proof.
  intros Fs N. exists (to_string sub). split; [apply Python.to_string_decimal|]. eapply header_text_is. riff. rewrite step_int4 by assumption.
  rewrite step_bad by now apply Z.eqb_neq. unfold corruption. rewrite name_text. reflexivity.
Qed.

Lemma header_format af rest : fits 2 af -> af <> 1 -> exists s, decimal af s /\
  header_text (lit "RIFF" ++ encode 4 chunk ++ lit "WAVE" ++ lit "fmt " ++ encode 4 16 ++ encode 2 af ++ rest)
  = Ok (Some (lit "Corruption: audio_format == 1 expected, but " ++ s ++ lit " found: ")).
Proof.
  intros Fs N. exists (to_string af). split; [apply Python.to_string_decimal|]. eapply header_text_is. riff. rewrite step_int4 by (unfold fits; lia).
  rewrite step_check by reflexivity. rewrite step_int2 by assumption. rewrite step_bad by now apply Z.eqb_neq. unfold corruption. rewrite name_text. reflexivity.
Qed.

Ltac fields := riff; rewrite step_int4 by (unfold fits; lia); rewrite step_check by reflexivity; rewrite step_int2 by (unfold fits; lia);
  rewrite step_check by reflexivity; rewrite step_int2 by assumption; rewrite step_int4 by assumption; rewrite step_int4 by assumption;
  rewrite step_int2 by assumption; rewrite step_int2 by assumption.

Notation known rest := (lit "RIFF" ++ encode 4 chunk ++ lit "WAVE" ++ lit "fmt " ++ encode 4 16 ++ encode 2 1 ++ encode 2 ch ++ encode 4 rate ++
  encode 4 brate ++ encode 2 align ++ encode 2 bits ++ rest).

Lemma header_byte_rate rest : -2147483648 <= rate * bits <= 2147483647 -> brate <> Z.quot (rate * bits) 8 -> exists e s, decimal (Z.quot (rate * bits) 8) e /\ decimal brate s /\
  header_text (known rest) = Ok (Some (lit "Corruption: bytes_rate == " ++ e ++ lit " expected, but " ++ s ++ lit " found: ")).
Proof.
  intros R N. exists (to_string (Z.quot (rate * bits) 8)), (to_string brate). split; [apply Python.to_string_decimal|]. split; [apply Python.to_string_decimal|].
  eapply header_text_is. fields. rewrite step_assert by now apply in_int32_iff. rewrite step_bad by now apply Z.eqb_neq. unfold corruption.
  rewrite name_text2. reflexivity.
Qed.

Lemma header_align rest : -2147483648 <= rate * bits <= 2147483647 -> brate = Z.quot (rate * bits) 8 -> align <> Z.quot bits 8 ->
  exists e s, decimal (Z.quot bits 8) e /\ decimal brate s /\
  header_text (known rest) = Ok (Some (lit "Corruption: block_align == " ++ e ++ lit " expected, but " ++ s ++ lit " found: ")).
Proof.
  intros R B N. exists (to_string (Z.quot bits 8)), (to_string brate). split; [apply Python.to_string_decimal|]. split; [apply Python.to_string_decimal|].
  eapply header_text_is. fields. rewrite step_assert by now apply in_int32_iff. rewrite step_check by now apply Z.eqb_eq. rewrite step_bad by now apply Z.eqb_neq.
  unfold corruption. rewrite name_text2. reflexivity.
Qed.

Lemma header_data b rest : -2147483648 <= rate * bits <= 2147483647 -> brate = Z.quot (rate * bits) 8 -> align = Z.quot bits 8 ->
  length b = 4%nat -> b <> lit "data" -> ~ In 0 b -> no_brace b ->
  header_text (known (b ++ rest)) = Ok (Some (lit "Corruption: ReadAndVerifyString: 'data' expected but '" ++ b ++ lit "' found in ")).
Proof.
  intros R B1 B2 L N N0 B. eapply header_text_is. fields. rewrite step_assert by now apply in_int32_iff. rewrite step_check by now apply Z.eqb_eq.
  rewrite step_check by now apply Z.eqb_eq. apply step_inr.
  rewrite (verify_text [] s_data b rest false) by (auto; split; cbn; intuition discriminate). rewrite app_nil_r. reflexivity.
Qed.

End Header.

Lemma digits_pos n s : decimal_digits n s -> 0 <= n.
Proof. induction 1; lia. Qed.
Lemma digits_same n s : decimal_digits n s -> forall s', decimal_digits n s' -> s = s'.
Proof.
  induction 1 as [d D|n s d P H IH D]; intros s' H'.
  - inversion H' as [d' D' E|n' t d' P' J D' E]; [now f_equal|lia].
  - remember (10 * n + d) as z eqn:Z. destruct H' as [d' D'|n' t d' P' J D']; [lia|].
    assert (n' = n) by lia. assert (d' = d) by lia. subst n' d'. now rewrite (IH t J).
Qed.
Lemma decimal_inj z s s' : decimal z s -> decimal z s' -> s = s'.
Proof.
  intros D D'. destruct D as [n s D|n s P D]; inversion D' as [m t J E|m t P' J E].
  - exact (digits_same _ _ D _ J).
  - pose proof (digits_pos _ _ D). lia.
  - subst m. pose proof (digits_pos _ _ J). lia.
  - assert (m = n) by lia. subst m. f_equal. exact (digits_same _ _ D _ J).
Qed.
Lemma decimal_text z s : decimal z s -> s = to_string z.
Proof. intros D. exact (decimal_inj _ _ _ D (Python.to_string_decimal z)). Qed.

Lemma header_says content msg : header_error content msg -> header_text content = Ok (Some msg).
Proof.
  intros H. destruct H as [b rest (L & N & N0 & B1 & B2)|chunk b rest F1 (L & N & N0 & B1 & B2)|chunk b rest F1 (L & N & N0 & B1 & B2)
    |chunk sub s rest F1 F2 N D|chunk af s rest F1 F2 N D|chunk ch rate brate align bits rest x s F1 F2 F3 F4 F5 F6 R N D D2
    |chunk ch rate brate align bits rest x s F1 F2 F3 F4 F5 F6 R E N D D2|chunk ch rate brate align bits b rest F1 F2 F3 F4 F5 F6 R (E & E2) (L & N & N0 & B1 & B2)
    |chunk ch rate brate align bits size k F1 F2 F3 F4 F5 F6 F7 R C K].
  - now apply header_riff.
  - now apply header_wave.
  - now apply header_fmt.
  - destruct (header_sub chunk F1 sub rest F2 N) as (s' & D' & ->). now rewrite (decimal_text _ _ D), (decimal_text _ _ D').
  - destruct (header_format chunk F1 af rest F2 N) as (s' & D' & ->). now rewrite (decimal_text _ _ D), (decimal_text _ _ D').
  - unfold known_fields. rewrite <- !app_assoc. destruct (header_byte_rate chunk ch rate brate align bits F1 F2 F3 F4 F5 F6 rest R N) as (x' & s' & Dx & Ds & ->).
    now rewrite (decimal_text _ _ D), (decimal_text _ _ D2), (decimal_text _ _ Dx), (decimal_text _ _ Ds).
  - unfold known_fields. rewrite <- !app_assoc. destruct (header_align chunk ch rate brate align bits F1 F2 F3 F4 F5 F6 rest R E N) as (x' & s' & Dx & Ds & ->).
    now rewrite (decimal_text _ _ D), (decimal_text _ _ D2), (decimal_text _ _ Dx), (decimal_text _ _ Ds).
  - unfold known_fields. rewrite <- !app_assoc. now apply header_data.
  - now apply header_cut.
Qed.

(** The text about the block alignment does not tell the alignment. *)
Lemma align_text_same : header_text (pcm_header 36 1 16000 32000 7 16 0) = header_text (pcm_header 36 1 16000 32000 9 16 0) /\
  header_text (pcm_header 36 1 16000 32000 7 16 0) = Ok (Some (lit "Corruption: block_align == 2 expected, but 32000 found: ")).
Proof. split; vm_compute; reflexivity. Qed.

(** * All together *)

Lemma damaged_vector name :
  (forall v k, storable v -> (k < length (vector_file v))%nat ->
     exists f, m_vector name (open (firstn k (vector_file v))) = Ok (inr (lit "IOError: failed to read: " ++ name), f)) /\
  (forall b rest, other_tag (lit "VEC0") b ->
     exists f, m_vector name (open (b ++ rest)) = Ok (inr (tag_text (lit "VEC0") b ++ name), f)) /\
  (forall size dim s d rest, fits 4 size -> fits 4 dim -> size <> dim * 4 + 4 -> decimal size s -> decimal dim d ->
     exists f, m_vector name (open (lit "VEC0" ++ word size ++ word dim ++ rest))
       = Ok (inr (lit "Corruption: section_size = " ++ d ++ lit " * 4 + 4 expected, but " ++ s ++ lit " found: " ++ name), f)).
Proof.
  split; [exact (vector_cut name)|]. split.
  - intros b rest (L & N & N0 & B1 & B2). destruct (vector_kind name b rest L N N0 (conj B1 B2)) as (f & ->). exists f. do 3 f_equal.
    unfold tag_text. now rewrite <- !app_assoc.
  - intros size dim s d rest Fs Fd N Ds Dd. destruct (vector_size name size dim rest Fs Fd N) as (d' & s' & f & Dd' & Ds' & ->). exists f.
    now rewrite (decimal_text _ _ Ds), (decimal_text _ _ Dd), (decimal_text _ _ Ds'), (decimal_text _ _ Dd').
Qed.

Lemma damaged_network name b rest : other_tag (lit "NN02") b ->
  exists f, m_nnet name (open (b ++ rest)) = Ok (inr (tag_text (lit "NN02") b ++ name), f).
Proof.
  intros (L & N & N0 & B1 & B2). destruct (network_kind name b rest L N N0 (conj B1 B2)) as (f & ->). exists f. do 3 f_equal.
  unfold tag_text. now rewrite <- !app_assoc.
Qed.

Lemma damaged_lm name :
  (forall t k, fst_storable t -> (k < length (fst_file t))%nat ->
     exists f, m_fst name (open (firstn k (fst_file t))) = Ok (inr (lit "IOError: failed to read: " ++ name), f)) /\
  (forall h c rest, length h = 32%nat -> before_nul (firstn 31 h) c -> c <> lit "pk::fst_0" ->
     exists f, m_fst name (open (h ++ rest)) = Ok (inr (lit "Corruption: " ++ name), f)).
Proof.
  split; [exact (lm_cut name)|]. intros h c rest L B N. apply lm_kind; [exact L|]. now rewrite (NumberExact.before_nul_unique _ _ _ (LinesExact.cstr_shown (firstn 31 h)) B).
Qed.
