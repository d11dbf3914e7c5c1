(** The check of the converter against what the recognizer does. *)
From Coq Require Import ZArith List Bool Lia.
From Verif.Base Require Import Prelude Lemmas.
From Verif.Model Require Import Arith Vector Fbank Nnet Python Tools ConvertAm.
From Verif.Spec Require Import AudioSpec AmSpec NnetSpec AmTextSpec.
From Verif.Proof Require Import Loop Windows Am Nnet Layers.
Import ListNotations.
Open Scope Z_scope.

Section Verify.
Context {F : Type} (O : fops F).

Definition layer_out (l : layer F) (c : Z) : Z :=
  match l with Linear W _ => num_cols W | Splice idx => lenZ idx * c | _ => c end.

Lemma propagate_dim : forall l (x y : matrix F) c, uniform c x -> 0 < c -> x <> [] ->
  propagate O l x [] = Ok y -> y <> [] /\ 0 < layer_out l c /\ uniform (layer_out l c) y /\
  (forall W b, l = Linear W b -> lenZ W = c).
Proof.
  intros l x y c U C NX H.
  assert (LX : 0 < lenZ x) by (unfold lenZ; destruct x; [congruence|cbn [length]; lia]).
  destruct l as [W b| | | |idx|s o| |a z];
  [ set (l := Linear W b) in * | set (l := @ReLU F) in * | set (l := @Normalize F) in * | set (l := @Softmax F) in *
  | | set (l := BatchNorm s o) in * | set (l := @LogSoftmax F) in * | ];
  try (assert (WF : well_formed (Single l)) by exact I;
    apply (row_layer_char O l c x [] y WF U NX C) in H; destruct H as [RC R];
    split; [intros ->; inversion R; subst; congruence|];
    split; [cbn [layer_out l row_check] in *; lia|];
    split; [|intros W' b' Q; subst l; first [discriminate Q|injection Q as <- <-; cbn [row_check] in RC; lia]];
    assert (U2 : forall r r', In r x -> row_fun O l r = Ok r' -> lenZ r' = layer_out l c)
      by (intros r r' Ir E; apply (row_fun_dim O l c r r' WF); [unfold uniform in U; rewrite Forall_forall in U; auto|assumption]);
    clear - R U2; induction R; constructor;
      [apply (U2 x); [now left|assumption] | apply IHR; intros; apply (U2 r); [now right|assumption]]).
  - destruct (Z.eq_dec (lenZ idx) 0) as [E|E].
    { cbn [propagate] in H. unfold splice in H. rewrite E in H. discriminate. }
    assert (NI : idx <> []) by (intros ->; apply E; reflexivity).
    destruct (splice_formula O idx x [] c (f_zero O) NI U NX C) as [y2 [E2 [L2 [U2 _]]]].
    assert (Y : y = y2) by congruence. subst y.
    split; [intros ->; destruct x; [congruence|discriminate]|].
    cbn [layer_out]. split; [pose proof (lenZ_nonneg _ idx); nia|]. split; [exact U2|discriminate].
  - cbn [layer_out]. cbn [propagate] in H. unfold narrow in H.
    destruct (0 <=? a); [|discriminate]. cbn [check bind] in H.
    destruct (Z.leb_spec (lenZ x) (a + z)); [injection H as <-; repeat split; auto; discriminate|].
    rewrite (num_cols_uniform c x U NX) in H. unfold mat_shape in H.
    destruct (Z.eqb_spec ((lenZ x - a - z) * c) 0).
    { destruct (Z.eqb_spec c 0); [lia|]. rewrite andb_false_r in H. discriminate. }
    destruct (Z.ltb_spec 0 (lenZ x - a - z)); [|discriminate]. destruct (Z.ltb_spec 0 c); [|lia].
    cbn [andb check bind] in H. destruct (Z.ltb_spec a (lenZ x)); [|discriminate].
    destruct (Z.leb_spec (lenZ x - a - z) (lenZ x - a)); [|discriminate]. cbn [andb check bind] in H.
    injection H as <-. split.
    + intros E. apply (f_equal (@length _)) in E. rewrite firstn_length, skipn_length in E. cbn [length] in E.
      unfold lenZ in *. lia.
    + split; [assumption|]. split; [apply uniform_firstn, uniform_skipn; assumption|discriminate].
Qed.

(** What runs is accepted. *)
Lemma verify_runs ls (x y : matrix F) c : uniform c x -> 0 < c -> x <> [] -> nnet_propagate O ls x = Ok y ->
  verify ls = Ok tt.
Proof.
  intros U C NX H. apply (layers_in_order O ls x y c U C NX) in H. unfold verify.
  assert (G : forall ls x c d, uniform c x -> 0 < c -> x <> [] -> in_order (fun l m => propagate O l m []) ls x y ->
    (d = None \/ d = Some c) -> exists d', for_each ls (fun d l =>
    match d, input_dim l with
    | Some have, Some want => if have =? want then Ok (output_dim l d) else Fault Throw
    | _, _ => Ok (output_dim l d)
    end) d = Ok d').
  { clear. induction ls as [|l ls IH]; intros x c d U C NX H D; [eexists; reflexivity|].
    cbn [in_order] in H. destruct H as (x' & E & H).
    destruct (propagate_dim l x x' c U C NX E) as (NX' & C' & U' & LW).
    cbn [for_each].
    assert (S : match d, input_dim l with
      | Some have, Some want => if have =? want then Ok (output_dim l d) else Fault Throw
      | _, _ => Ok (output_dim l d)
      end = Ok (output_dim l d)).
    { destruct d as [h|]; [|reflexivity]. destruct l as [W b| | | |idx|s o| |a z]; cbn [input_dim]; try reflexivity.
      rewrite (LW W b eq_refl). destruct D as [D|D]; [discriminate|]. injection D as ->. now rewrite Z.eqb_refl. }
    rewrite S. cbn [bind]. apply (IH x' (layer_out l c) _ U' C' NX' H).
    destruct l as [W b| | | |idx|s o| |a z]; cbn [output_dim layer_out]; try exact D.
    - right. destruct W; reflexivity.
    - destruct D as [-> | ->]; [now left|right]. f_equal. lia. }
  destruct (G ls x c None U C NX H (or_introl eq_refl)) as (d' & E).
  match goal with |- bind ?m _ = _ => replace m with (Ok d') by (symmetry; exact E) end. reflexivity.
Qed.

Lemma uniform_of c (x : matrix F) : Forall (fun r => length r = c) x -> uniform (Z.of_nat c) x.
Proof. intros H. eapply Forall_impl; [|exact H]. cbv beta. unfold lenZ. intros; lia. Qed.

(** Networks whose parts fit together run. *)
Lemma runs_step l ls c' (x z : matrix F) c d : (0 < c)%nat -> x <> [] -> uniform (Z.of_nat c) x ->
  propagate O l x [] = Ok z -> z <> [] -> uniform (Z.of_nat d) z -> (0 < d)%nat ->
  ((0 < d)%nat -> forall x, x <> [] -> uniform (Z.of_nat d) x ->
     exists y, nnet_propagate O ls x = Ok y /\ y <> [] /\ uniform (Z.of_nat c') y) ->
  exists y, nnet_propagate O (l :: ls) x = Ok y /\ y <> [] /\ uniform (Z.of_nat c') y.
Proof.
  intros C NX U E NZ UZ DP G. destruct (G DP z NZ UZ) as (y & Y & NY & UY). exists y. split; [|now split].
  apply (layers_in_order O (l :: ls) x y (Z.of_nat c) U ltac:(lia) NX). cbn [in_order]. exists z. split; [exact E|].
  apply (layers_in_order O ls z y (Z.of_nat d) UZ ltac:(lia) NZ). exact Y.
Qed.
Lemma runs_ok c ls c' : runs_on c ls c' -> (0 < c)%nat -> forall x : matrix F, x <> [] -> uniform (Z.of_nat c) x ->
  exists y, nnet_propagate O ls x = Ok y /\ y <> [] /\ uniform (Z.of_nat c') y.
Proof.
  intros R. induction R as [c|c W b ls c' LW UW NB R IH|c idx ls c' NI R IH|c s o ls c' LS LO R IH|c l r ls c' L0 R0 R IH|c l ls c' K R IH];
    intros C x NX U.
  - exists x. split; [reflexivity|]. now split.
  - assert (LB : (0 < length b)%nat) by (destruct b; [congruence|cbn [length]; lia]).
    destruct (linear_formula O W b x [] (Z.of_nat c) (Z.of_nat (length b)) (f_zero O)) as (z & E & L & UZ & _); auto; try (unfold lenZ; lia).
    { now apply uniform_of. }
    apply (runs_step _ _ _ _ z c (length b)); auto. intros ->. destruct x; [congruence|discriminate].
  - destruct (splice_formula O idx x [] (Z.of_nat c) (f_zero O) NI U NX ltac:(lia)) as (z & E & L & UZ & _).
    assert (LI : (0 < length idx)%nat) by (destruct idx; [congruence|cbn [length]; lia]).
    apply (runs_step _ _ _ _ z c (length idx * c)%nat); auto; [| |nia].
    + intros ->. destruct x; [congruence|discriminate].
    + rewrite Nat2Z.inj_mul. exact UZ.
  - destruct (batch_norm_formula O s o x [] (Z.of_nat c) (f_zero O)) as (z & E & L & UZ & _); auto; try (unfold lenZ; lia).
    apply (runs_step _ _ _ _ z c c); auto. intros ->. destruct x; [congruence|discriminate].
  - destruct (narrow_formula O l r x [] (Z.of_nat c) L0 R0 U ltac:(lia)) as (z & E & _).
    destruct (propagate_dim (Narrow l r) x z (Z.of_nat c) U ltac:(lia) NX E) as (NZ & _ & UZ & _).
    now apply (runs_step _ _ _ _ z c c).
  - assert (E : exists z, propagate O l x [] = Ok z).
    { destruct K as [->|[->|[->| ->]]].
      - eexists; reflexivity.
      - destruct (normalize_formula O x [] (f_zero O)) as (z & E & _). now exists z.
      - eexists; reflexivity.
      - eexists; reflexivity. }
    destruct E as (z & E). destruct (propagate_dim l x z (Z.of_nat c) U ltac:(lia) NX E) as (NZ & _ & UZ & _).
    assert (Q : layer_out l (Z.of_nat c) = Z.of_nat c) by (destruct K as [->|[->|[->| ->]]]; reflexivity).
    rewrite Q in UZ. now apply (runs_step _ _ _ _ z c c).
Qed.

Lemma runs_accepted c ls c' : runs_on c ls c' -> (0 < c)%nat -> verify (N := F) ls = Ok tt.
Proof.
  intros R C. set (x := [repeat (f_zero O) c]). assert (U : uniform (Z.of_nat c) x).
  { constructor; [unfold lenZ; now rewrite repeat_length|constructor]. }
  destruct (runs_ok c ls c' R C x ltac:(discriminate) U) as (y & E & _).
  exact (verify_runs ls x y (Z.of_nat c) U ltac:(lia) ltac:(discriminate) E).
Qed.
End Verify.

