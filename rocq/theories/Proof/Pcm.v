(** WAV header and sample decoding. *)
From Coq Require Import ZArith List Bool Lia.
From Verif.Base Require Import Prelude Lemmas.
From Verif.Model Require Import Util File Binary Vector Pcm.
From Verif.Spec Require Import AudioSpec PcmSpec.
From Verif.Proof Require Import Binary.
Import ListNotations.
Open Scope Z_scope.
Ltac Zify.zify_post_hook ::= Z.div_mod_to_equations.

(** * Header *)

Lemma header_accepted : forall chunk ch rate brate align bits size rest e,
  fits 4 chunk -> fits 2 ch -> fits 4 rate -> fits 4 brate -> fits 2 align -> fits 2 bits ->
  fits 4 size -> consistent rate brate align bits ->
  -2147483648 <= rate * bits <= 2147483647 ->
  read_pcm_header (mk_file (pcm_header chunk ch rate brate align bits size ++ rest) e)
  = Ok (Some (mk_format ch rate bits), mk_file rest e).
Proof.
  intros chunk ch rate brate align bits size rest e F1 F2 F3 F4 F5 F6 F7 [C1 C2] O.
  assert (H : reads read_pcm_header (pcm_header chunk ch rate brate align bits size) (mk_format ch rate bits)).
  { unfold read_pcm_header, pcm_header.
    replace (encode 4 size) with (encode 4 size ++ []) by apply app_nil_r.
    assert (V : forall s, s <> [] -> forallb (fun c => negb (c =? 0)) s = true -> reads (io_verify s) s tt).
    { intros s N B. apply reads_verify; auto. intros I. rewrite forallb_forall in B. apply B in I. discriminate. }
    assert (I4 : forall z, fits 4 z -> reads (io_int 4) (encode 4 z) z) by (intros; apply (reads_int 4); [lia|assumption]).
    assert (I2 : forall z, fits 2 z -> reads (io_int 2) (encode 2 z) z) by (intros; apply (reads_int 2); [lia|assumption]).
    assert (K : forall A (m : io unit) (k : unit -> io A) c a,
              reads m [] tt -> reads (k tt) c a -> reads (io_bind m k) c a).
    { intros. replace c with ([] ++ c) by reflexivity. eapply reads_bind; eassumption. }
    assert (f16 : fits 4 16) by (unfold fits; lia).
    assert (f1 : fits 2 1) by (unfold fits; lia).
    eapply reads_bind; [apply V; [discriminate|reflexivity]|].
    eapply reads_bind; [apply I4; assumption|].
    eapply reads_bind; [apply V; [discriminate|reflexivity]|].
    eapply reads_bind; [apply V; [discriminate|reflexivity]|].
    eapply reads_bind; [apply I4; assumption|].
    apply K; [apply reads_check; reflexivity|].
    eapply reads_bind; [apply I2; assumption|].
    apply K; [apply reads_check; reflexivity|].
    eapply reads_bind; [apply I2; eassumption|].
    eapply reads_bind; [apply I4; eassumption|].
    eapply reads_bind; [apply I4; eassumption|].
    eapply reads_bind; [apply I2; eassumption|].
    eapply reads_bind; [apply I2; eassumption|].
    apply K; [apply reads_assert; apply in_int32_iff; assumption|].
    apply K; [apply reads_check; apply Z.eqb_eq; assumption|].
    apply K; [apply reads_check; apply Z.eqb_eq; assumption|].
    eapply reads_bind; [apply V; [discriminate|reflexivity]|].
    eapply reads_bind; [apply I4; assumption|].
    apply reads_ret. }
  apply H.
Qed.

Ltac step_accept :=
  match goal with
  | H : exists c1 c2 a, _ = c1 ++ c2 /\ _ /\ _ |- _ =>
      let c1 := fresh "c" in let c2 := fresh "c" in let a := fresh "a" in
      let P := fresh "P" in
      destruct H as [c1 [c2 [a [-> [P H]]]]]; cbv beta in P, H
  end.

Lemma header_only : forall content fmt f', byte_list content ->
  read_pcm_header (open content) = Ok (Some fmt, f') ->
  exists chunk brate align size,
    content = pcm_header chunk (w_channels fmt) (w_rate fmt) brate align (w_bits fmt) size ++ f_rest f' /\
    f_eof f' = false /\
    fits 4 chunk /\ fits 2 (w_channels fmt) /\ fits 4 (w_rate fmt) /\ fits 4 brate /\ fits 2 align /\
    fits 2 (w_bits fmt) /\ fits 4 size /\
    consistent (w_rate fmt) brate align (w_bits fmt) /\
    -2147483648 <= w_rate fmt * w_bits fmt <= 2147483647.
Proof.
  intros content fmt f' By H.
  assert (V : forall s, forallb (fun c => negb (c =? 0)) s = true -> accepts (io_verify s) (fun c _ => c = s)).
  { intros s B. apply accepts_verify; auto. intros I. rewrite forallb_forall in B. apply B in I. discriminate. }
  assert (I4 : accepts (io_int 4) (fun c z => c = encode 4 z /\ fits 4 z)) by (apply (accepts_int 4); lia).
  assert (I2 : accepts (io_int 2) (fun c z => c = encode 2 z /\ fits 2 z)) by (apply (accepts_int 2); lia).
  unshelve epose proof (_ : accepts read_pcm_header _) as A; [|
    unfold read_pcm_header;
    repeat first [ apply accepts_ret | eapply accepts_bind; [first [apply V; reflexivity | apply I4 | apply I2 |
        apply accepts_check | apply accepts_assert] | intros ?] ]|].
  destruct (A (open content) _ _ By H) as [c [R [E Q]]]. clear A V I4 I2. cbv beta in Q.
  cbn [open f_rest f_eof] in *.
  repeat step_accept. destruct Q as [-> ->].
  repeat match goal with P : _ /\ _ |- _ => destruct P end. subst.
  repeat match goal with P : (_ =? _) = true |- _ => apply Z.eqb_eq in P; subst end.
  match goal with P : in_int32 _ = true |- _ => apply in_int32_iff in P end.
  cbn [w_channels w_rate w_bits]. 
  do 4 eexists. split; [unfold pcm_header; rewrite !app_nil_l, !app_nil_r, <- !app_assoc; reflexivity|].
  unfold consistent. auto 20.
Qed.

(** Anything but an overflow of the byte rate is reported as a status. *)
Lemma header_total : forall content, byte_list content ->
  (exists r, read_pcm_header (open content) = Ok r) \/
  (exists chunk ch rate brate align bits rest,
     content = [82; 73; 70; 70] ++ encode 4 chunk ++ [87; 65; 86; 69] ++ [102; 109; 116; 32] ++
       encode 4 16 ++ encode 2 1 ++ encode 2 ch ++ encode 4 rate ++ encode 4 brate ++
       encode 2 align ++ encode 2 bits ++ rest /\
     fits 4 rate /\ fits 2 bits /\ ~ -2147483648 <= rate * bits <= 2147483647).
Proof.
  intros content By.
  assert (V : forall s, forallb (fun c => negb (c =? 0)) s = true -> accepts (io_verify s) (fun c _ => c = s)).
  { intros s B. apply accepts_verify; auto. intros I. rewrite forallb_forall in B. apply B in I. discriminate. }
  assert (I4 : accepts (io_int 4) (fun c z => c = encode 4 z /\ fits 4 z)) by (apply (accepts_int 4); lia).
  assert (I2 : accepts (io_int 2) (fun c z => c = encode 2 z /\ fits 2 z)) by (apply (accepts_int 2); lia).
  assert (K : forall A B (m : io A) (k : A -> io B) P f (G : Prop), byte_list (f_rest f) ->
     accepts m P -> safe m ->
     (forall a f', m f = Ok (Some a, f') -> byte_list (f_rest f') ->
        (exists c, f_rest f = c ++ f_rest f' /\ P c a) ->
        (exists r, k a f' = Ok r) \/ G) ->
     (exists r, io_bind m k f = Ok r) \/ G).
  { intros A B m k P f G Bf Ha Hs Hk. unfold io_bind. destruct (Hs f) as [[[a|] f1] E]; rewrite E; cbn [bind].
    - destruct (Ha _ _ _ Bf E) as [c [R [_ Pc]]]. apply Hk; auto.
      + unfold byte_list in *. rewrite R in Bf. apply Forall_app in Bf. tauto.
      + eauto.
    - left. eexists. reflexivity. }
  unfold read_pcm_header.
  assert (Bf : byte_list (f_rest (open content))) by exact By.
  assert (R0 : content = f_rest (open content)) by reflexivity.
  set (f0 := open content) in *. clearbody f0.
  Ltac go K V I4 I2 :=
    eapply K; [eassumption | first [apply V; reflexivity | apply I4 | apply I2 | apply accepts_check] |
      first [apply safe_verify | apply safe_int; lia | apply safe_check] |
      let a := fresh "x" in let f' := fresh "f" in let R := fresh "R" in let B := fresh "B" in
      let c := fresh "c" in let Q := fresh "Q" in
      intros a f' _ B [c [R Q]]; cbv beta in Q].
  do 13 (go K V I4 I2).
  match goal with |- (exists r, io_bind (io_assert ?b Undef) _ _ = Ok r) \/ _ => destruct b eqn:O end.
  - left. apply safe_bind; [intros ?; eexists; reflexivity|intros ?].
    repeat (apply safe_bind; [first [apply safe_verify | apply safe_int; lia | apply safe_check] | intros ?]).
    apply safe_ret.
  - right. repeat match goal with P : _ /\ _ |- _ => destruct P end. subst.
    repeat match goal with P : (_ =? _) = true |- _ => apply Z.eqb_eq in P; subst end.
    do 7 eexists. split.
    + repeat match goal with P : f_rest ?f = _ |- context[f_rest ?f] => rewrite P end.
      rewrite !app_nil_l. reflexivity.
    + split; [eassumption|]. split; [eassumption|].
      intros C. apply in_int32_iff in C. congruence.
Qed.

(** * Samples *)

Definition width (bits : Z) : nat := Z.to_nat (Z.quot bits 8).

Lemma read_samples_ok : forall bits, bits = 8 \/ bits = 16 \/ bits = 32 ->
  forall n p, byte_list p -> (n * width bits <= length p)%nat ->
  exists xs, read_samples bits n p = Ok xs /\ length xs = n /\
    p = concat (map (encode (width bits)) xs) ++ skipn (n * width bits) p /\
    Forall (fits (width bits)) xs.
Proof.
  intros bits W n. assert (WP : (0 < width bits)%nat) by (destruct W as [-> | [-> | ->]]; cbv; lia).
  induction n as [|n IH]; intros p B L.
  - exists []. repeat split; auto.
  - cbn [read_samples].
    assert (S1 : forall q, byte_list q -> (width bits <= length q)%nat ->
      (if bits =? 8 then read_sample 1 q else if bits =? 16 then read_sample 2 q
       else if bits =? 32 then read_sample 4 q else Fault Assert)
      = Ok (le_signed (firstn (width bits) q), skipn (width bits) q)).
    { intros q _ Lq. destruct W as [-> | [-> | ->]]; cbn [Z.eqb Pos.eqb]; unfold read_sample, lenZ.
      - change (width 8) with 1%nat in *. destruct (Z.leb_spec 1 (Z.of_nat (length q))); [reflexivity|lia].
      - change (width 16) with 2%nat in *. destruct (Z.leb_spec 2 (Z.of_nat (length q))); [reflexivity|lia].
      - change (width 32) with 4%nat in *. destruct (Z.leb_spec 4 (Z.of_nat (length q))); [reflexivity|lia]. }
    rewrite S1 by (auto; lia). cbn [bind].
    set (w := width bits) in *.
    assert (Bs : byte_list (skipn w p) /\ byte_list (firstn w p)).
    { unfold byte_list in *. rewrite <- (firstn_skipn w p) in B. apply Forall_app in B. tauto. }
    destruct (IH (skipn w p)) as [xs [E [Ln [R F]]]]; [tauto|rewrite skipn_length; lia|].
    rewrite E. cbn [bind]. exists (le_signed (firstn w p) :: xs).
    assert (L1 : length (firstn w p) = w) by (rewrite firstn_length; lia).
    assert (FE : encode w (le_signed (firstn w p)) = firstn w p).
    { rewrite <- L1 at 1. apply encode_le_signed. tauto. }
    split; [reflexivity|]. split; [cbn [length]; lia|]. split.
    + cbn [map concat]. rewrite FE, <- app_assoc.
      assert (SK : forall (A : Type) a b (l : list A), skipn a (skipn b l) = skipn (b + a) l).
      { intros A a b. induction b; intros l; cbn [skipn Nat.add]; auto. destruct l; [destruct a; reflexivity|]. apply IHb. }
      rewrite SK in R. cbn [Nat.mul]. rewrite <- R. symmetry. apply firstn_skipn.
    + constructor; auto. rewrite <- L1 at 1. apply le_signed_fits; [tauto|].
      intros C. rewrite C in L1. cbn in L1. lia.
Qed.

Definition ready (bits : Z) (r : wave_reader) : Prop :=
  r_ready r = true /\ w_bits (r_format r) = bits /\
  byte_list (r_buffer r) /\ (length (r_buffer r) < width bits)%nat.

Lemma process_small : forall bits r (data : bytes), bits = 8 \/ bits = 16 \/ bits = 32 -> ready bits r ->
  byte_list data -> data <> [] ->
  (lenZ (r_buffer r) + lenZ data) / Z.of_nat (width bits) < 536870912 ->
  exists xs r', reader_process r (Some data) (lenZ data) = Ok (Some xs, r') /\ ready bits r' /\
    r_buffer r ++ data = concat (map (encode (width bits)) xs) ++ r_buffer r' /\
    Forall (fits (width bits)) xs.
Proof.
  intros bits r data W [R1 [R2 [R3 R4]]] B N L.
  assert (LP : 0 < lenZ data) by (unfold lenZ; destruct data; [congruence|cbn [length]; lia]).
  unfold reader_process. destruct (Z.leb_spec (lenZ data) 0); [lia|].
  rewrite R1. cbn [negb]. rewrite Z.leb_refl. cbn [check bind].
  replace (firstn (Z.to_nat (lenZ data)) data) with data
    by (unfold lenZ; rewrite Nat2Z.id, firstn_all; reflexivity).
  rewrite R2. set (buf := r_buffer r ++ data).
  assert (Lb : lenZ buf = lenZ (r_buffer r) + lenZ data) by (unfold buf, lenZ; rewrite app_length; lia).
  assert (WZ : Z.quot bits 8 = Z.of_nat (width bits) /\ 1 <= Z.of_nat (width bits) <= 4)
    by (destruct W as [-> | [-> | ->]]; cbv; split; [reflexivity|split; congruence | reflexivity|split; congruence | reflexivity|split; congruence]).
  destruct WZ as [WZ WB]. rewrite WZ. set (w := width bits) in *.
  assert (Lr : 0 <= lenZ (r_buffer r) < Z.of_nat w) by (unfold lenZ; lia).
  assert (Nb : 0 <= lenZ buf / Z.of_nat w <= lenZ buf).
  { split; [apply Z.div_pos; lia|]. apply Z.div_le_upper_bound; [lia|]. 
    assert (0 <= lenZ buf) by lia. nia. }
  assert (Nw : Z.of_nat w * (lenZ buf / Z.of_nat w) <= lenZ buf) by (apply Z.mul_div_le; lia).
  assert (Nr : lenZ buf < Z.of_nat w * (lenZ buf / Z.of_nat w) + Z.of_nat w)
    by (pose proof (Z.mul_succ_div_gt (lenZ buf) (Z.of_nat w)); lia).
  rewrite <- Lb in L. set (num := lenZ buf / Z.of_nat w) in *. rename L into N4. clearbody num.
  destruct (Z.eqb_spec (Z.of_nat w) 0); [lia|]. cbn [negb check bind].
  replace (in_int32 num) with true by (symmetry; apply in_int32_iff; lia). cbn [check bind].
  unfold vec_init. destruct (Z.leb_spec 0 num); [|lia]. cbn [check bind].
  assert (Wr : wrap32 (num * 4) = num * 4).
  { unfold wrap32, int_max. rewrite Z.mod_small by lia. destruct (Z.leb_spec (num * 4) 2147483647); lia. }
  rewrite Wr. destruct (Z.ltb_spec (num * 4) 0); [lia|]. rewrite Z.leb_refl. cbn [check bind].
  assert (Bb : byte_list buf) by (unfold buf, byte_list in *; apply Forall_app; tauto).
  destruct (read_samples_ok bits W (Z.to_nat num) buf Bb) as [xs [E [Lx [Rx Fx]]]].
  { fold w. unfold lenZ in *. nia. }
  rewrite E. cbn [bind]. fold w in Rx, Fx.
  replace (in_int32 (Z.of_nat w * num)) with true by (symmetry; apply in_int32_iff; clear - N4 WB Nb; nia). cbn [check bind].
  destruct (Z.leb_spec (Z.of_nat w * num) (lenZ buf)); [|lia]. cbn [check bind].
  eexists _, _. split; [reflexivity|].
  replace (Z.to_nat (Z.of_nat w * num)) with (Z.to_nat num * w)%nat by nia.
  split; [|split; assumption].
  unfold ready. cbn [r_ready r_format r_buffer]. repeat split; auto.
  - unfold byte_list in *. rewrite <- (firstn_skipn (Z.to_nat num * w) buf) in Bb. apply Forall_app in Bb. tauto.
  - rewrite skipn_length. unfold lenZ in *. fold w. nia.
Qed.

Lemma width_cases : forall bits, bits = 8 \/ bits = 16 \/ bits = 32 ->
  Z.of_nat (width bits) = 1 \/ Z.of_nat (width bits) = 2 \/ Z.of_nat (width bits) = 4.
Proof. intros bits [-> | [-> | ->]]; cbv; auto. Qed.

Lemma process_piece : forall bits r (data : bytes), bits = 8 \/ bits = 16 \/ bits = 32 -> ready bits r ->
  byte_list data -> data <> [] -> lenZ data <= 536870911 * Z.of_nat (width bits) ->
  exists xs r', reader_process r (Some data) (lenZ data) = Ok (Some xs, r') /\ ready bits r' /\
    r_buffer r ++ data = concat (map (encode (width bits)) xs) ++ r_buffer r' /\
    Forall (fits (width bits)) xs.
Proof.
  intros bits r data W R B N L. apply process_small; auto.
  destruct R as [_ [_ [_ R]]].
  assert (lenZ (r_buffer r) < Z.of_nat (width bits)) by (unfold lenZ; lia).
  apply Z.div_lt_upper_bound; [lia|]. lia.
Qed.

Lemma process_ok : forall bits r (data : bytes), bits = 8 \/ bits = 16 \/ bits = 32 -> ready bits r ->
  byte_list data -> data <> [] -> lenZ data < 536870912 ->
  exists xs r', reader_process r (Some data) (lenZ data) = Ok (Some xs, r') /\ ready bits r' /\
    r_buffer r ++ data = concat (map (encode (width bits)) xs) ++ r_buffer r' /\
    Forall (fits (width bits)) xs.
Proof.
  intros bits r data W R B N L. apply process_piece; auto.
  pose proof (width_cases bits W). lia.
Qed.

(** Too many samples for the vector they are put into. *)
Lemma process_large : forall bits r (data : bytes), bits = 8 \/ bits = 16 \/ bits = 32 -> ready bits r ->
  lenZ data <= 2147483647 ->
  536870912 <= (lenZ (r_buffer r) + lenZ data) / Z.of_nat (width bits) ->
  reader_process r (Some data) (lenZ data)
  = Fault (if Z.odd ((lenZ (r_buffer r) + lenZ data) / Z.of_nat (width bits) / 536870912) then Throw else Undef).
Proof.
  intros bits r data W [R1 [R2 [R3 R4]]] L H. pose proof (width_cases bits W) as WC.
  assert (Lr : 0 <= lenZ (r_buffer r) < Z.of_nat (width bits)) by (unfold lenZ; lia).
  assert (LP : 0 < lenZ data).
  { destruct (Z.lt_ge_cases 0 (lenZ data)); auto.
    assert ((lenZ (r_buffer r) + lenZ data) / Z.of_nat (width bits) <= 0); [|lia].
    apply Z.div_le_upper_bound; lia. }
  unfold reader_process. destruct (Z.leb_spec (lenZ data) 0); [lia|].
  rewrite R1. cbn [negb]. rewrite Z.leb_refl. cbn [check bind].
  replace (firstn (Z.to_nat (lenZ data)) data) with data
    by (unfold lenZ; rewrite Nat2Z.id, firstn_all; reflexivity).
  rewrite R2.
  assert (Lb : lenZ (r_buffer r ++ data) = lenZ (r_buffer r) + lenZ data) by (unfold lenZ; rewrite app_length; lia).
  rewrite Lb.
  assert (WZ : Z.quot bits 8 = Z.of_nat (width bits)) by (destruct W as [-> | [-> | ->]]; reflexivity).
  rewrite WZ. destruct (Z.eqb_spec (Z.of_nat (width bits)) 0); [lia|]. cbn [negb check bind].
  assert (U : (lenZ (r_buffer r) + lenZ data) / Z.of_nat (width bits) <= 2147483647).
  { destruct WC as [E|[E|E]]; rewrite E in *; lia. }
  set (num := (lenZ (r_buffer r) + lenZ data) / Z.of_nat (width bits)) in *. clearbody num.
  replace (in_int32 num) with true by (symmetry; apply in_int32_iff; lia). cbn [check bind].
  unfold vec_init. destruct (Z.leb_spec 0 num); [|lia]. cbn [check bind].
  clear - H U. assert (D : num / 536870912 = 1 \/ num / 536870912 = 2 \/ num / 536870912 = 3) by lia.
  unfold wrap32, int_max.
  destruct D as [D|[D|D]]; rewrite D; cbn [Z.odd].
  - destruct (Z.leb_spec ((num * 4) mod 4294967296) 2147483647); [lia|].
    destruct (Z.ltb_spec ((num * 4) mod 4294967296 - 4294967296) 0); [reflexivity|lia].
  - destruct (Z.leb_spec ((num * 4) mod 4294967296) 2147483647); [|lia].
    destruct (Z.ltb_spec ((num * 4) mod 4294967296) 0); [lia|].
    destruct (Z.leb_spec (num * 4) ((num * 4) mod 4294967296)); [lia|]. reflexivity.
  - destruct (Z.leb_spec ((num * 4) mod 4294967296) 2147483647); [lia|].
    destruct (Z.ltb_spec ((num * 4) mod 4294967296 - 4294967296) 0); [reflexivity|lia].
Qed.

(** Feeding a list of pieces. *)
Fixpoint feed (r : wave_reader) (ps : list bytes) : res (list (list Z) * wave_reader) :=
  match ps with
  | [] => Ok ([], r)
  | p :: ps =>
      '(xs, r) <- reader_process r (Some p) (lenZ p) ;;
      match xs with
      | None => Fault Assert
      | Some xs => '(l, r) <- feed r ps ;; Ok (xs :: l, r)
      end
  end.

Lemma feed_ok : forall bits ps r, bits = 8 \/ bits = 16 \/ bits = 32 -> ready bits r ->
  Forall (fun p => byte_list p /\ p <> [] /\ lenZ p <= 536870911 * Z.of_nat (width bits)) ps ->
  exists xss r', feed r ps = Ok (xss, r') /\ ready bits r' /\
    r_buffer r ++ concat ps = concat (map (encode (width bits)) (concat xss)) ++ r_buffer r' /\
    Forall (fits (width bits)) (concat xss).
Proof.
  induction ps as [|p ps IH]; intros r W R H.
  - exists [], r. cbn [concat map app]. rewrite app_nil_r. auto.
  - inversion H as [|? ? [B [N L]] H']; subst.
    destruct (process_piece bits r p W R B N L) as [xs [r1 [E [R1 [Q F]]]]].
    destruct (IH r1 W R1 H') as [xss [r2 [E2 [R2 [Q2 F2]]]]].
    exists (xs :: xss), r2. cbn [feed]. rewrite E. cbn [bind]. rewrite E2. cbn [bind].
    split; [reflexivity|]. split; [assumption|]. cbn [concat map].
    split.
    + rewrite map_app, concat_app, <- app_assoc, <- Q2, app_assoc, Q, <- app_assoc. reflexivity.
    + apply Forall_app. auto.
Qed.

Lemma ready_init : forall bits r, bits = 8 \/ bits = 16 \/ bits = 32 ->
  set_format reader_init (mk_format 1 16000 bits) = (true, r) -> ready bits r.
Proof.
  intros bits r W H. unfold set_format, reader_init in H. cbn in H.
  assert ((bits =? 8) || (bits =? 16) || (bits =? 32) = true) as X by (destruct W as [-> | [-> | ->]]; reflexivity).
  rewrite X in H. inversion H; subst. unfold ready. cbn. repeat split; auto. constructor.
  destruct W as [-> | [-> | ->]]; cbv; lia.
Qed.
