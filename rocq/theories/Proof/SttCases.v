(** Concrete sessions. *)
From Coq Require Import ZArith String List Bool Lia.
From Verif.Base Require Import Prelude ZMap Lemmas.
From Verif.Spec Require Import AudioSpec PcmSpec TextSpec FbankSpec DecoderSpec SttSpec ProgramSpec.
From Verif.Model Require Import Util File Arith Vector Pcm Fbank Nnet Am SymbolTable Pool OLabel Fst Decoder Stt.
From Verif.Proof Require Text.
From Verif.Proof Require Import Loop DecoderBase Pcm PcmCases FbankStream FbankTotal Stt SttCut QOps DecoderCases.
Import ListNotations.
Open Scope Z_scope.

Ltac Zify.zify_post_hook ::= Z.div_mod_to_equations.

Lemma firstn_repeat' : forall A (x : A) k n, (k <= n)%nat -> firstn k (repeat x n) = repeat x k.
Proof. intros A x k. induction k; intros [|n] L; cbn; auto; [lia|]. f_equal. apply IHk. lia. Qed.

Lemma repeat_spec_in : forall A (x : A) n, (0 < n)%nat -> In x (repeat x n).
Proof. intros A x [|n] L; [lia|now left]. Qed.

(** A feature extractor that sees the same in every frame. *)
Definition bank1 : fbank trop :=
  mk_fbank 512 (repeat (Num 1) 400) [(0, [Num 1])] (fun _ => Ok (repeat (Num 1) 512)).

Lemma bank1_fit : tables_fit bank1.
Proof.
  split; [reflexivity|]. split; [reflexivity|]. split.
  - repeat constructor; discriminate.
  - intros w L. exists (repeat (Num 1) 512). split; reflexivity.
Qed.

Lemma trop_nonneg : forall x, f_nonneg tops (if f_lt tops x (f_eps tops) then f_eps tops else x) = true.
Proof.
  intros [x|]; cbn; [|reflexivity]. destruct (Z.ltb_spec x 1); cbn; [reflexivity|].
  destruct (Z.ltb_spec x 0); [lia|reflexivity].
Qed.

Lemma bank1_frame : forall w, length w = 400%nat -> frame_features tops bank1 w = Ok [Num 1].
Proof.
  intros w L. destruct (frame_total tops bank1 w bank1_fit trop_nonneg L) as (r & E & _).
  unfold frame_features in *. destruct (extract_window tops w 0 (fb_window bank1) (fb_padded bank1)) as [x|]; cbn [bind] in *; [|discriminate].
  vm_compute. reflexivity.
Qed.

(** An acoustic model without context that hears the same in every frame. *)
Definition am1 (chunk : Z) (row : list trop) : am trop :=
  mk_am 0 0 chunk (map (fun _ => Num 0) row) (fun m => Ok (map (fun _ => row) m)).

Definition symbols1 : symtab :=
  mk_symtab 10 (zset (zset (zset zempty 5 (lit "so")) 7 (lit "what")) 9 (lit "ever")) [] 0 0.

Definition recognizer1 (g : graph trop) (pdf : list Z) (chunk : Z) (row : list trop) : recognizer trop unit :=
  mk_recognizer g (am1 chunk row) pdf None tt bank1 symbols1.

Lemma steps_const : forall rc ws s, rc_fbank rc = bank1 -> Forall (fun w => length w = 400%nat) ws ->
  for_each ws (window_step (C := unit) tops twide (Num 1) 50 rc) s =
  for_each (repeat [Num 1] (length ws)) (decode_frame tops twide (Num 1) 50 rc) s.
Proof.
  intros rc ws s B H. revert s. induction H as [|w ws L _ IH]; intros s; [reflexivity|].
  cbn [length repeat for_each]. unfold window_step at 1. rewrite B, bank1_frame by assumption. cbn [bind].
  destruct (decode_frame tops twide (Num 1) 50 rc s [Num 1]); cbn [bind]; auto.
Qed.

Lemma alike_fault : forall A B (R : A -> B -> Prop) a b, alike eq R a b -> forall f, b = Fault f -> a = Fault f.
Proof. intros A B R [x|x] b H f ->; cbn [alike] in H; [destruct H|now subst]. Qed.

(** A session over [m] frames. *)
Definition session_frames (rc : recognizer trop unit) (m : nat) : res (bytes * trop) :=
  d <- new_decoder tt ;;
  d <- initialize tops twide (utt_config tops (Num 1) rc) 50 d ;;
  '(a, (d, (hyp, ll))) <- for_each (repeat [Num 1] m) (decode_frame tops twide (Num 1) 50 rc) (inst_init, (d, ([0], Num 0))) ;;
  '(rows, _) <- am_end tops (rc_am rc) a ;;
  d <- for_each rows (fun d logp =>
         '(d, _) <- process tops twide (utt_config tops (Num 1) rc) (ogc label_block) 50 d logp ;; Ok d) d ;;
  store_hyp tops twide (Num 1) rc (end_of_stream d) (hyp, ll).

Definition start (rc : recognizer trop unit) (err : bytes) (bits : Z) : res (option (utt trop unit) * bytes) :=
  utt_init tops twide (Num 1) 50 err rc (mk_format 1 16000 bits).

Lemma session_run : forall rc ps err u err0, rc_fbank rc = bank1 -> rc_cache rc = tt ->
  start rc err 16 = Ok (Some u, err0) -> Forall piece ps ->
  alike eq (session_is (F := trop) (lenZ (concat ps) / 2))
    (session tops twide (Num 1) 50 err0 (Some u) ps)
    (session_frames rc (num_windows 400 160 (Z.to_nat (lenZ (concat ps) / 2)))).
Proof.
  intros rc ps err u err0 B Cc E H. unfold start, utt_init in E. rewrite Cc in E.
  unfold session_frames. destruct (new_decoder tt) as [d0|]; cbn [bind] in *; [|discriminate].
  destruct (initialize tops twide (utt_config tops (Num 1) rc) 50 d0) as [d|]; cbn [bind] in *; [|discriminate].
  cbn [set_format reader_init w_channels w_rate w_bits negb Z.eqb Pos.eqb orb r_buffer] in E. injection E as <- <-.
  assert (W : 16 = 8 \/ 16 = 16 \/ 16 = 32) by auto.
  assert (FT : frames_total tops eq rc).
  { right. intros w L. rewrite B. exists [Num 1]. apply bank1_frame. exact L. }
  destruct (session_whole tops twide (Num 1) 50 eq ltac:(reflexivity) 16 rc ps err d W H FT) as (xs & rest & D1 & A).
  pose proof (whole_samples (width 16) xs (concat ps) rest ltac:(cbv; lia) D1) as LS. change (Z.of_nat (width 16)) with 2 in LS.
  rewrite <- LS. eapply alike_trans; [intros; congruence|exact A| |].
  2: { intros x y z S1 S2. rewrite <- S2. exact S1. }
  unfold whole. rewrite steps_const.
  - unfold windows. rewrite map_length, seq_length, map_length.
    replace (Z.to_nat (lenZ xs)) with (length xs) by (unfold lenZ; lia). apply alike_refl; reflexivity.
  - assumption.
  - apply Forall_forall. intros w I. apply windows_length in I. assumption.
Qed.

Lemma session_ok : forall rc ps err u err0 hyp ll, rc_fbank rc = bank1 -> rc_cache rc = tt ->
  start rc err 16 = Ok (Some u, err0) -> Forall piece ps ->
  session_frames rc (num_windows 400 160 (Z.to_nat (lenZ (concat ps) / 2))) = Ok (hyp, ll) ->
  exists ns, session tops twide (Num 1) 50 err0 (Some u) ps = Ok (ns, hyp, ll) /\ total ns = lenZ (concat ps) / 2.
Proof.
  intros rc ps err u err0 hyp ll B Cc E H R. pose proof (session_run rc ps err u err0 B Cc E H) as A. rewrite R in A.
  destruct (session _ _ _ _ _ _ ps) as [[[ns h] l]|]; cbn [alike] in A; [|tauto].
  destruct A as (T & _ & Q). cbn [Datatypes.fst snd] in *. injection Q as -> ->. eauto.
Qed.

(** * Twenty frames, in one piece or in three *)
Definition rc7 : recognizer trop unit := recognizer1 graph7 [0; 0] 1 [Num 0].
Definition audio (n : nat) : bytes := concat (repeat [7; 250] n).
Definition cut (n : nat) (a b : nat) : list bytes :=
  [firstn a (audio n); firstn b (skipn a (audio n)); skipn (a + b) (audio n)].

Lemma cut_concat : forall n a b, concat (cut n a b) = audio n.
Proof.
  intros n a b. unfold cut. cbn [concat]. rewrite app_nil_r, <- (skipn_add _ b a).
  rewrite firstn_skipn, firstn_skipn. reflexivity.
Qed.

Lemma audio_bytes : forall n, byte_list (audio n).
Proof.
  induction n as [|n IH]; [constructor|]. unfold audio. cbn [repeat concat app].
  constructor; [lia|]. constructor; [lia|]. exact IH.
Qed.

Lemma audio_length : forall n, length (audio n) = (2 * n)%nat.
Proof. induction n as [|n IH]; [reflexivity|]. unfold audio in *. cbn [repeat concat app length]. lia. Qed.

Lemma audio_piece : forall n, (0 < n)%nat -> Z.of_nat n < 268435000 -> Forall piece [audio n].
Proof.
  intros n P L. constructor; [|constructor]. split; [apply audio_bytes|]. split.
  - intros E. apply (f_equal (@length Z)) in E. rewrite audio_length in E. cbn in E. lia.
  - unfold lenZ. rewrite audio_length. lia.
Qed.

Lemma cut_pieces : forall n a b, (0 < a)%nat -> (0 < b)%nat -> (a + b < 2 * n)%nat -> Z.of_nat n < 268435000 ->
  Forall piece (cut n a b).
Proof.
  intros n a b A B L M. pose proof (audio_bytes n) as AB. unfold byte_list in AB.
  assert (G : forall p : bytes, Forall (fun c => 0 <= c < 256) p -> (0 < length p <= 2 * n)%nat -> piece p).
  { intros p H K. split; [exact H|]. split; [intros ->; cbn in K; lia|unfold lenZ; lia]. }
  unfold cut. apply Forall_cons; [|apply Forall_cons; [|apply Forall_cons; [|apply Forall_nil]]]; apply G; rewrite ?firstn_length, ?skipn_length, ?audio_length; try lia.
  - rewrite <- (firstn_skipn a (audio n)) in AB. apply Forall_app in AB. tauto.
  - rewrite <- (firstn_skipn a (audio n)) in AB. apply Forall_app in AB. destruct AB as [_ AB].
    rewrite <- (firstn_skipn b (skipn a (audio n))) in AB. apply Forall_app in AB. tauto.
  - rewrite <- (firstn_skipn (a + b) (audio n)) in AB. apply Forall_app in AB. tauto.
Qed.

Lemma start7 : exists u, start rc7 no_error 16 = Ok (Some u, no_error).
Proof.
  assert (H : match start rc7 [] 16 with Ok (Some _, []) => true | _ => false end = true) by (vm_compute; reflexivity).
  unfold start, utt_init in *. destruct (new_decoder (rc_cache rc7)) as [d0|]; cbn [bind] in *; [|discriminate].
  destruct (initialize _ _ _ _ d0) as [d|]; cbn [bind] in *; [|discriminate].
  cbn [set_format reader_init w_channels w_rate w_bits negb Z.eqb Pos.eqb orb r_buffer]. eauto.
Qed.

Lemma session7 : exists u, start rc7 no_error 16 = Ok (Some u, no_error) /\
  Forall piece [audio 3440] /\ Forall piece (cut 3440 1 999) /\ concat [audio 3440] = concat (cut 3440 1 999) /\
  forall ps, ps = [audio 3440] \/ ps = cut 3440 1 999 ->
    exists ns, session tops twide (Num 1) 50 no_error (Some u) ps = Ok (ns, lit "so what" ++ [0], Num 0) /\ total ns = 3440.
Proof.
  destruct start7 as (u & E). exists u. split; [exact E|].
  assert (P1 : Forall piece [audio 3440]) by (apply audio_piece; lia).
  assert (P2 : Forall piece (cut 3440 1 999)) by (apply cut_pieces; lia).
  assert (C1 : concat [audio 3440] = audio 3440) by (cbn [concat]; apply app_nil_r).
  pose proof (cut_concat 3440 1 999) as C2.
  split; [exact P1|]. split; [exact P2|]. split; [congruence|].
  assert (L : lenZ (audio 3440) / 2 = 3440).
  { unfold lenZ. rewrite audio_length. lia. }
  assert (R : session_frames rc7 20 = Ok (lit "so what" ++ [0], Num 0)) by (vm_compute; reflexivity).
  intros ps [-> | ->].
  - destruct (session_ok rc7 [audio 3440] no_error u no_error _ _ eq_refl eq_refl E P1 ltac:(rewrite C1, L; exact R)) as (ns & S1 & S2).
    exists ns. split; [exact S1|]. rewrite S2, C1. exact L.
  - destruct (session_ok rc7 (cut 3440 1 999) no_error u no_error _ _ eq_refl eq_refl E P2 ltac:(rewrite C2, L; exact R)) as (ns & S1 & S2).
    exists ns. split; [exact S1|]. rewrite S2, C2. exact L.
Qed.

(** One frame more, and the collection in the decoder has freed a word. *)
Lemma crash7 : exists u, start rc7 no_error 16 = Ok (Some u, no_error) /\
  forall ps, Forall piece ps -> concat ps = audio 3600 ->
  session tops twide (Num 1) 50 no_error (Some u) ps = Fault Assert.
Proof.
  destruct start7 as (u & E). exists u. split; [exact E|]. intros ps P EC.
  pose proof (session_run rc7 ps no_error u no_error eq_refl eq_refl E P) as A.
  assert (L : lenZ (concat ps) / 2 = 3600) by (rewrite EC; unfold lenZ; rewrite audio_length; lia).
  rewrite L in A.
  assert (R : session_frames rc7 21 = Fault Assert) by (vm_compute; reflexivity).
  change (num_windows 400 160 (Z.to_nat 3600)) with 21%nat in A.
  exact (alike_fault _ _ _ _ _ A _ R).
Qed.

(** A graph that ends before the audio. *)
Definition rc4 : recognizer trop unit := recognizer1 graph4 [0; 0] 1 [Num 0].

Lemma start4 : exists u, start rc4 no_error 16 = Ok (Some u, no_error).
Proof.
  assert (H : match start rc4 [] 16 with Ok (Some _, []) => true | _ => false end = true) by (vm_compute; reflexivity).
  unfold start, utt_init in *. destruct (new_decoder (rc_cache rc4)) as [d0|]; cbn [bind] in *; [|discriminate].
  destruct (initialize _ _ _ _ d0) as [d|]; cbn [bind] in *; [|discriminate].
  cbn [set_format reader_init w_channels w_rate w_bits negb Z.eqb Pos.eqb orb r_buffer]. eauto.
Qed.

Lemma crash4 : exists u, start rc4 no_error 16 = Ok (Some u, no_error) /\
  forall ps, Forall piece ps -> concat ps = audio 720 ->
  session tops twide (Num 1) 50 no_error (Some u) ps = Fault Undef.
Proof.
  destruct start4 as (u & E). exists u. split; [exact E|]. intros ps P EC.
  pose proof (session_run rc4 ps no_error u no_error eq_refl eq_refl E P) as A.
  assert (L : lenZ (concat ps) / 2 = 720) by (rewrite EC; unfold lenZ; rewrite audio_length; lia).
  rewrite L in A.
  assert (R : session_frames rc4 3 = Fault Undef) by (vm_compute; reflexivity).
  change (num_windows 400 160 (Z.to_nat 720)) with 3%nat in A.
  exact (alike_fault _ _ _ _ _ A _ R).
Qed.

(** A long message is cut. *)
Lemma long_error : forall n, (Z.to_nat 2047 <= n)%nat ->
  exists err, call_error (F := trop) (C := unit) tops twide (Num 1) 50 no_error (CallLoad (Some (repeat 65 n))) = Ok err /\
    last_error err = repeat 65 (Z.to_nat 2047).
Proof.
  intros n L. destruct (set_error_ok no_error (repeat 65 n)) as (err & E & _ & S1 & _).
  { unfold no_error, lenZ. rewrite repeat_length. reflexivity. }
  exists err. split; [exact E|]. rewrite S1, Text.cstr_id.
  - rewrite <- (firstn_repeat' _ 65 (Z.to_nat 2047) n) by assumption. reflexivity.
  - intros I. apply repeat_spec in I. discriminate.
Qed.

Lemma crash_pieces : Forall piece [audio 720] /\ Forall piece (cut 3600 1 2) /\ concat (cut 3600 1 2) = audio 3600.
Proof.
  split; [apply audio_piece; lia|]. split; [apply cut_pieces; lia|]. apply cut_concat.
Qed.

Lemma spells_case : spells symbols1 [5; 7] (lit "so what" ++ [0]) /\ cstr (lit "so what" ++ [0]) = lit "so what" /\
  spells symbols1 [] [0].
Proof.
  split; [|split; [reflexivity|]].
  - exists [lit "so"; lit "what"]. split; [repeat constructor|reflexivity].
  - exists []. split; [constructor|reflexivity].
Qed.

Lemma complaints : forall rc : recognizer trop unit,
  complaint (None : option (utt trop unit)) = Some "utt is NULL"%string /\
  complaint (Some (mk_utt (C := unit) None [0] (Num 0))) = Some "utt->internal is NULL"%string /\
  forall v i, u_internal v = Some i -> i_recognizer i = Some rc -> complaint (Some v) = None.
Proof.
  intros rc. split; [reflexivity|]. split; [reflexivity|]. intros v i E1 E2. unfold complaint. rewrite E1, E2. reflexivity.
Qed.

Lemma error_case : lenZ no_error = error_size /\ In 0 no_error /\ last_error no_error = [] /\
  exists err err', for_each [CallLoad (C := unit) (Some (repeat 65 (Z.to_nat 3000))); CallLoad None]
                     (call_error tops twide (Num 1) 50) no_error = Ok err /\
    last_error err = repeat 65 (Z.to_nat 2047) /\
    call_error (C := unit) tops twide (Num 1) 50 err (CallProcess None None 7) = Ok err' /\
    last_error err' = lit "utt is NULL".
Proof.
  assert (L : lenZ no_error = error_size) by (unfold no_error, lenZ; rewrite repeat_length; reflexivity).
  split; [exact L|]. split; [apply (repeat_spec_in _ 0 (Z.to_nat error_size)); unfold error_size; lia|]. split; [reflexivity|].
  destruct (long_error (Z.to_nat 3000) ltac:(lia)) as (err & E & S1).
  destruct (set_error_ok no_error (repeat 65 (Z.to_nat 3000)) L) as (err1 & E1 & L1 & _).
  assert (err1 = err) as -> by (cbn [call_error] in E; congruence).
  destruct (process_bad (C := unit) tops twide (Num 1) 50 err None "utt is NULL"%string None 7 L1 eq_refl) as (err' & E2 & _ & S2).
  exists err, err'. split; [cbn [for_each]; rewrite E; reflexivity|]. split; [exact S1|]. split.
  - cbn [call_error]. rewrite E2. reflexivity.
  - rewrite S2. reflexivity.
Qed.
