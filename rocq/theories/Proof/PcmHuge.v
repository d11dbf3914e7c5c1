(** Files too large for [Read16kPcm]. *)
From Coq Require Import ZArith List Bool Lia.
From Verif.Base Require Import Prelude Lemmas.
From Verif.Model Require Import Util File Binary Vector Pcm.
From Verif.Spec Require Import AudioSpec PcmSpec.
From Verif.Proof Require Import Binary Pcm PcmCases.
Import ListNotations.
Open Scope Z_scope.
Ltac Zify.zify_post_hook ::= Z.div_mod_to_equations.

Lemma some_bytes : forall n, 0 <= n -> exists p, lenZ p = n /\ byte_list p.
Proof.
  intros n N. exists (repeat 0 (Z.to_nat n)). split.
  - unfold lenZ. rewrite repeat_length. apply Z2Nat.id. exact N.
  - unfold byte_list. apply Forall_forall. intros x I. apply repeat_spec in I. subst. lia.
Qed.

Lemma header_length : forall chunk bits size tail,
  lenZ (pcm_header chunk 1 16000 (16000 * (bits / 8)) (bits / 8) bits size ++ tail) - 44 = lenZ tail.
Proof.
  intros. unfold lenZ. rewrite app_length. unfold pcm_header. rewrite !app_length, !encode_length. cbn [length]. lia.
Qed.

Lemma header_read : forall chunk bits size tail, valid_width bits -> fits 4 chunk -> fits 4 size ->
  read_pcm_header (open (pcm_header chunk 1 16000 (16000 * (bits / 8)) (bits / 8) bits size ++ tail))
  = Ok (Some (mk_format 1 16000 bits), mk_file tail false).
Proof.
  intros chunk bits size tail W F1 F2. unfold open.
  apply header_accepted; auto; try (unfold fits; cbn; lia);
    try (destruct W as [-> | [-> | ->]]; unfold fits; cbn; lia).
  destruct W as [-> | [-> | ->]]; split; reflexivity.
Qed.

Lemma huge_file : forall chunk size tail, fits 4 chunk -> fits 4 size -> lenZ tail = 1073741824 ->
  read_16k_pcm (pcm_header chunk 1 16000 16000 1 8 size ++ tail) = Fault Undef.
Proof.
  intros chunk size tail F1 F2 L. unfold read_16k_pcm.
  pose proof (header_read chunk 8 size tail (or_introl eq_refl) F1 F2) as H.
  pose proof (header_length chunk 8 size tail) as H'.
  change (16000 * (8 / 8)) with 16000 in H, H'. change (8 / 8) with 1 in H, H'.
  rewrite H. cbn [bind]. rewrite H', L.
  change (wrap32 1073741824) with 1073741824. cbn [set_format reader_init w_channels w_rate w_bits negb Z.eqb Pos.eqb orb
    Z.leb Z.compare check bind].
  assert (N : tail <> []) by (intros ->; discriminate).
  pose proof (read_app tail [] false N) as RA. rewrite app_nil_r, L in RA. rewrite RA. cbn [bind].
  unfold reader_process. cbn [r_ready r_buffer r_format w_bits negb app Z.leb Z.compare check bind].
  change (r_buffer reader_init) with (@nil Z). cbn [app].
  rewrite firstn_all2 by (unfold lenZ in L; lia). rewrite !L. reflexivity.
Qed.

Lemma negative_size : forall bits chunk size tail, valid_width bits -> fits 4 chunk -> fits 4 size ->
  2147483648 <= lenZ tail < 4294967296 ->
  read_16k_pcm (pcm_header chunk 1 16000 (16000 * (bits / 8)) (bits / 8) bits size ++ tail) = Fault Throw.
Proof.
  intros bits chunk size tail W F1 F2 L. unfold read_16k_pcm. rewrite header_read by assumption. cbn [bind].
  rewrite header_length.
  assert (N : wrap32 (lenZ tail) < 0).
  { unfold wrap32, int_max. rewrite Z.mod_small by lia. destruct (Z.leb_spec (lenZ tail) 2147483647); lia. }
  destruct (set_format reader_init (mk_format 1 16000 bits)) as [ok r] eqn:E.
  assert (ok = true) as -> by (destruct W as [-> | [-> | ->]]; inversion E; reflexivity).
  cbn [negb]. destruct (Z.leb_spec 0 (wrap32 (lenZ tail))); [lia|]. reflexivity.
Qed.

(** * Exactly which pieces and files are too large *)

Lemma buffer_left : forall bits (ps : list bytes) xss r, bits = 8 \/ bits = 16 \/ bits = 32 -> ready bits r ->
  concat ps = concat (map (encode (width bits)) xss) ++ r_buffer r ->
  lenZ (r_buffer r) = lenZ (concat ps) mod (bits / 8).
Proof.
  intros bits ps xss r W R H. destruct R as [_ [_ [_ R]]].
  assert (WZ : Z.of_nat (width bits) = bits / 8) by (destruct W as [-> | [-> | ->]]; reflexivity).
  rewrite <- WZ, H.
  assert (L : lenZ (concat (map (encode (width bits)) xss) ++ r_buffer r)
              = lenZ xss * Z.of_nat (width bits) + lenZ (r_buffer r)).
  { clear. unfold lenZ. rewrite app_length, Nat2Z.inj_add. f_equal.
    induction xss as [|x xs IH]; [reflexivity|]. cbn [map concat length].
    rewrite app_length, encode_length, Nat2Z.inj_add, IH. lia. }
  rewrite L, Z.add_comm, Z_mod_plus_full, Z.mod_small; [reflexivity|]. unfold lenZ. lia.
Qed.

Lemma piece_limit : forall bits (ps : list bytes) p, valid_width bits ->
  Forall (fun p => byte_list p /\ p <> [] /\ lenZ p <= 536870911 * (bits / 8)) ps ->
  lenZ p <= 2147483647 ->
  let n := (lenZ (concat ps) mod (bits / 8) + lenZ p) / (bits / 8) in 536870912 <= n ->
  reader_run reader_init (CallSetFormat (mk_format 1 16000 bits) ::
                          map (fun p => CallProcess (Some p) (lenZ p)) (ps ++ [p]))
  = Fault (if Z.odd (n / 536870912) then Throw else Undef).
Proof.
  intros bits ps p W H L n N. subst n.
  assert (WZ : Z.of_nat (width bits) = bits / 8) by (destruct W as [-> | [-> | ->]]; reflexivity).
  cbn [reader_run reader_step].
  destruct (set_format reader_init (mk_format 1 16000 bits)) as [ok r] eqn:E.
  assert (ok = true) as -> by (destruct W as [-> | [-> | ->]]; inversion E; reflexivity).
  assert (E0 : r_buffer r = []) by (destruct W as [-> | [-> | ->]]; inversion E; reflexivity).
  apply ready_init in E; auto.
  assert (H' := H). rewrite <- WZ in H'.
  destruct (run_feed bits ps r W E H') as [xss [r' [Q [R [X F]]]]].
  rewrite E0 in X. cbn [app] in X.
  rewrite <- (buffer_left bits ps (concat xss) r' W R X) in *.
  cbn [bind]. rewrite map_app, run_app, Q. cbn [bind fst snd map reader_run reader_step].
  rewrite <- WZ in *. rewrite (process_large bits r' p W R L N). reflexivity.
Qed.

Lemma file_limit : forall bits chunk size tail, valid_width bits -> fits 4 chunk -> fits 4 size ->
  536870912 * (bits / 8) <= lenZ tail <= 2147483647 ->
  read_16k_pcm (pcm_header chunk 1 16000 (16000 * (bits / 8)) (bits / 8) bits size ++ tail)
  = Fault (if Z.odd (lenZ tail / (bits / 8) / 536870912) then Throw else Undef).
Proof.
  intros bits chunk size tail W F1 F2 L.
  assert (WZ : Z.of_nat (width bits) = bits / 8) by (destruct W as [-> | [-> | ->]]; reflexivity).
  pose proof (width_cases bits W) as WC.
  unfold read_16k_pcm. rewrite header_read by assumption. cbn [bind].
  rewrite header_length.
  destruct (set_format reader_init (mk_format 1 16000 bits)) as [ok r] eqn:E.
  assert (ok = true) as -> by (destruct W as [-> | [-> | ->]]; inversion E; reflexivity).
  assert (E0 : r_buffer r = []) by (destruct W as [-> | [-> | ->]]; inversion E; reflexivity).
  apply ready_init in E; auto. cbn [negb].
  assert (Wr : wrap32 (lenZ tail) = lenZ tail).
  { unfold wrap32, int_max. rewrite Z.mod_small by lia. destruct (Z.leb_spec (lenZ tail) 2147483647); lia. }
  rewrite Wr. destruct (Z.leb_spec 0 (lenZ tail)); [|lia]. cbn [check bind].
  assert (N : tail <> []) by (intros ->; change (lenZ []) with 0 in L; lia).
  pose proof (read_app tail [] false N) as RA. rewrite app_nil_r in RA. rewrite RA. cbn [bind].
  assert (G : lenZ (r_buffer r) + lenZ tail = lenZ tail) by (rewrite E0; reflexivity).
  assert (NN : 536870912 <= (lenZ (r_buffer r) + lenZ tail) / Z.of_nat (width bits)).
  { rewrite G. apply Z.div_le_lower_bound; lia. }
  rewrite (process_large bits r tail W E ltac:(lia) NN). rewrite G, WZ. reflexivity.
Qed.

Lemma limit_case : exists p q r,
  lenZ p = 536870912 /\ lenZ q = 1073741824 /\ lenZ r = 1610612736 /\
  forall chunk size, fits 4 chunk -> fits 4 size ->
  read_16k_pcm (pcm_header chunk 1 16000 16000 1 8 size ++ p) = Fault Throw /\
  read_16k_pcm (pcm_header chunk 1 16000 16000 1 8 size ++ q) = Fault Undef /\
  read_16k_pcm (pcm_header chunk 1 16000 16000 1 8 size ++ r) = Fault Throw /\
  read_16k_pcm (pcm_header chunk 1 16000 32000 2 16 size ++ q) = Fault Throw.
Proof.
  destruct (some_bytes 536870912 ltac:(lia)) as [p [P _]].
  destruct (some_bytes 1073741824 ltac:(lia)) as [q [Q _]].
  destruct (some_bytes 1610612736 ltac:(lia)) as [r [R _]].
  exists p, q, r. split; [exact P|]. split; [exact Q|]. split; [exact R|]. intros chunk size F1 F2.
  pose proof (file_limit 8 chunk size p (or_introl eq_refl) F1 F2) as H1. rewrite P in H1.
  pose proof (file_limit 8 chunk size q (or_introl eq_refl) F1 F2) as H2. rewrite Q in H2.
  pose proof (file_limit 8 chunk size r (or_introl eq_refl) F1 F2) as H3. rewrite R in H3.
  pose proof (file_limit 16 chunk size q (or_intror (or_introl eq_refl)) F1 F2) as H4. rewrite Q in H4.
  change (8 / 8) with 1 in *. change (16 / 8) with 2 in H4.
  repeat split; [apply H1|apply H2|apply H3|apply H4]; lia.
Qed.
