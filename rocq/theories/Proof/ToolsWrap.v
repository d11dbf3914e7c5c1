(** Tables of transitions with negative ids. *)
From Coq Require Import ZArith String List Bool Lia.
From Verif.Base Require Import Prelude Lemmas.
From Verif.Model Require Import Util File Vector Stt Python Tools.
From Verif.Spec Require Import TextSpec AudioSpec FormatSpec ToolSpec.
From Verif.Proof Require Import Text Lines Number Loop Python Tools ToolsMore ToolCases.
Import ListNotations.
Open Scope Z_scope.
Ltac Zify.zify_post_hook ::= Z.div_mod_to_equations.

Lemma py_set_wraps {A} (l : list A) i x : - lenZ l <= i < lenZ l ->
  py_set l i x = Ok (upd l (Z.to_nat (i mod lenZ l)) x).
Proof.
  intros H. unfold py_set. destruct (Z.ltb_spec i 0).
  - replace (i mod lenZ l) with (i + lenZ l).
    + destruct (Z.leb_spec 0 (i + lenZ l)); [|lia]. destruct (Z.ltb_spec (i + lenZ l) (lenZ l)); [|lia]. reflexivity.
    + symmetry. replace i with (i + lenZ l + (-1) * lenZ l) at 1 by lia. rewrite Z.mod_add by lia. apply Z.mod_small. lia.
  - rewrite Z.mod_small by lia. destruct (Z.leb_spec 0 i); [|lia]. destruct (Z.ltb_spec i (lenZ l)); [|lia]. reflexivity.
Qed.

Definition wrapped (n : Z) (entries : list (Z * Z)) := map (fun e => (Datatypes.fst e mod n, snd e)) entries.

Lemma trans_loop_wraps : forall rest entries, Forall2 pair_line rest entries ->
  forall m, Forall (fun e => - lenZ m <= Datatypes.fst e < lenZ m) entries ->
  exists m', for_each (map strip rest) trans_step m = Ok m' /\ length m' = length m /\
    forall i, (i < length m)%nat ->
      nth i m' 0 = match latest_id (Z.of_nat i) (wrapped (lenZ m) entries) with Some p => p | None => nth i m 0 end.
Proof.
  induction 1 as [|l e rest entries PL H IH]; intros m R.
  - exists m. repeat split.
  - inversion R as [|? ? R0 R1]; subst. destruct (pair_fields _ _ PL) as (a & b & Q & B & A).
    cbn [map for_each]. unfold trans_step at 1. rewrite Q, B. cbn [bind]. rewrite A. cbn [bind].
    rewrite py_set_wraps by exact R0. cbn [bind].
    destruct (IH (upd m (Z.to_nat (Datatypes.fst e mod lenZ m)) (snd e))) as (m' & E & L & V).
    { rewrite lenZ_upd. exact R1. }
    exists m'. rewrite lenZ_upd in V. rewrite upd_length in *. repeat split; [exact E|exact L|].
    intros i I. rewrite V by exact I. unfold latest_id. unfold wrapped at 2. cbn [map latest]. fold (wrapped (lenZ m) entries).
    destruct e as (t, p). cbn [Datatypes.fst snd] in *.
    destruct (latest Z.eq_dec (Z.of_nat i) (wrapped (lenZ m) entries)); [reflexivity|].
    assert (M : 0 <= t mod lenZ m < lenZ m) by (apply Z.mod_pos_bound; lia).
    set (u := t mod lenZ m) in *. clearbody u. unfold lenZ in M.
    rewrite nth_upd by lia. destruct (Z.eq_dec (Z.of_nat i) u) as [Q2|Q2].
    + subst u. rewrite Nat2Z.id, Nat.eqb_refl. reflexivity.
    + destruct (Nat.eqb_spec (Z.to_nat u) i); [lia|]. reflexivity.
Qed.

Lemma convert_trans_wraps num_pdfs max_id entries ls content :
  text_file ls content -> listing num_pdfs max_id entries ls ->
  Forall (fun e => - (max_id + 1) <= Datatypes.fst e <= max_id) entries -> 0 <= max_id ->
  storable (table_of max_id (map (fun e => (Datatypes.fst e mod (max_id + 1), snd e)) entries)) ->
  convert_trans content =
    Ok (vector_file (table_of max_id (map (fun e => (Datatypes.fst e mod (max_id + 1), snd e)) entries))).
Proof.
  fold (wrapped (max_id + 1) entries).
  intros T (l0 & l1 & rest & a & b & -> & A & R0 & B & R1 & P) R M S.
  unfold convert_trans. rewrite (lines_of _ _ T). cbn [map].
  rewrite (row_single _ _ R0), (row_single _ _ R1), (int_decimal _ _ A), (int_decimal _ _ B). cbn [bind].
  assert (LR : lenZ (repeat 0 (Z.to_nat (max_id + 1))) = max_id + 1).
  { unfold lenZ. rewrite repeat_length. lia. }
  destruct (trans_loop_wraps rest entries P (repeat 0 (Z.to_nat (max_id + 1)))) as (m' & E & L & V).
  { eapply Forall_impl; [|exact R]. rewrite LR. intros e H. cbv beta in *. lia. }
  fold trans_step. rewrite E. cbn [bind]. rewrite LR in V. rewrite repeat_length in *.
  replace m' with (table_of max_id (wrapped (max_id + 1) entries)); [now apply write_vec_ints|].
  apply (nth_ext _ _ 0 0).
  - unfold table_of. rewrite map_length, seq_length. lia.
  - unfold table_of at 1. rewrite map_length, seq_length. intros i I. rewrite V by exact I.
    unfold table_of. set (g := fun i => _).
    rewrite (nth_indep _ 0 (g 0%nat)) by (rewrite map_length, seq_length; exact I).
    rewrite map_nth, seq_nth by exact I. unfold g. cbn [Nat.add].
    destruct (latest_id (Z.of_nat i) (wrapped (max_id + 1) entries)); [reflexivity|]. symmetry. apply nth_repeat.
Qed.

Lemma wraps_case : exists ls content, text_file ls content /\ listing 8 2 [(2, 5); (-1, 7); (1, 4)] ls /\
  table_of 2 (map (fun e => (Datatypes.fst e mod 3, snd e)) [(2, 5); (-1, 7); (1, 4)]) = [0; 4; 7].
Proof.
  exists [lit "8"; lit "2"; lit "2 5"; lit "-1 7"; lit "1 4"], (text [lit "8"; lit "2"; lit "2 5"; lit "-1 7"; lit "1 4"]).
  split; [|split; [|reflexivity]].
  - apply lines_text. repeat (constructor; [apply one_line_dec; reflexivity|]). constructor.
  - exists (lit "8"), (lit "2"), [lit "2 5"; lit "-1 7"; lit "1 4"], (lit "8"), (lit "2").
    split; [reflexivity|]. split; [apply (digit_decimal 8); lia|].
    split; [apply (spaced_row [([], lit "8")] []); reflexivity|]. split; [apply (digit_decimal 2); lia|].
    split; [apply (spaced_row [([], lit "2")] []); reflexivity|].
    repeat constructor.
    + exists (lit "2"), (lit "5"). split; [apply (digit_decimal 2); lia|]. split; [apply (digit_decimal 5); lia|].
      apply (spaced_row [([], lit "2"); (sp, lit "5")] []); reflexivity.
    + exists (lit "-1"), (lit "7"). split; [apply (DNeg 1 [49]); [lia|apply (DD1 1); lia]|].
      split; [apply (digit_decimal 7); lia|]. apply (spaced_row [([], lit "-1"); (sp, lit "7")] []); reflexivity.
    + exists (lit "1"), (lit "4"). split; [apply (digit_decimal 1); lia|]. split; [apply (digit_decimal 4); lia|].
      apply (spaced_row [([], lit "1"); (sp, lit "4")] []); reflexivity.
Qed.
