(** Parts of vectors (C101). A part is a [SubVector] as [Range] makes it, or a
    whole vector. *)
From Coq Require Import ZArith List.
From Verif.Base Require Import Prelude.
From Verif.Model Require Import Arith Fbank Nnet Views.
From Verif.Spec Require Import ViewSpec.
From Verif.Proof Require ViewCases ZOps.
Import ListNotations.
Open Scope Z_scope.

(** Full statement: the same for all programs. Missing: what [fair] excludes,
    negative origins, lengths and places and operands that overlap. *)
Theorem parts_partial : forall F (O : fops F) f_pow f_one m cs, all_fair O f_pow f_one (m, whole m) cs ->
  vrun O f_pow f_one (m, whole m) cs = does_all O f_pow f_one (m, whole m) cs.
Proof. exact @Proof.ViewCases.programs. Qed.
Print Assumptions parts_partial.

Theorem parts_partial_case :
  all_fair Proof.ZOps.zops Proof.ViewCases.z_pow (Z.eqb 1) (Proof.ViewCases.vectors, whole Proof.ViewCases.vectors) Proof.ViewCases.program.
Proof. exact Proof.ViewCases.program_fair. Qed.
Print Assumptions parts_partial_case.

Theorem parts_partial_result : exists ps l,
  vrun Proof.ZOps.zops Proof.ViewCases.z_pow (Z.eqb 1) (Proof.ViewCases.vectors, whole Proof.ViewCases.vectors) Proof.ViewCases.program
  = Ok ([[0; 0; 9; 16384]; [1; 1; 1]], ps, l) /\
  length ps = 6%nat /\ nth_error l 9 = Some (VValue 36) /\ nth_error l 12 = Some (VCount 1).
Proof. exact Proof.ViewCases.program_result. Qed.
Print Assumptions parts_partial_result.

(** Elements outside of the part that is changed stay as they are. *)
Theorem other_parts_unchanged : forall F (O : fops F) f_pow f_one m0 cs m ps l c m' ps' a,
  all_fair O f_pow f_one (m0, whole m0) cs -> vrun O f_pow f_one (m0, whole m0) cs = Ok ((m, ps), l) ->
  fair ps c -> vstep O f_pow f_one (m, ps) c = Ok ((m', ps'), a) ->
  forall q, inside m q -> (forall i p, target c = Some i -> nth_error ps i = Some p -> apart p q) -> contents m' q = contents m q.
Proof. exact @Proof.ViewCases.nothing_else. Qed.
Print Assumptions other_parts_unchanged.

(** Calls on parts without a common element can be made in either order. *)
Theorem parts_in_any_order : forall F (O : fops F) f_pow f_one m0 cs m ps l0 c1 c2 i1 i2 p1 p2 m1 ps1 a1 a2,
  all_fair O f_pow f_one (m0, whole m0) cs -> vrun O f_pow f_one (m0, whole m0) cs = Ok ((m, ps), l0) ->
  single c1 i1 -> single c2 i2 -> nth_error ps i1 = Some p1 -> nth_error ps i2 = Some p2 -> apart p1 p2 ->
  vrun O f_pow f_one (m, ps) [c1; c2] = Ok ((m1, ps1), [a1; a2]) -> vrun O f_pow f_one (m, ps) [c2; c1] = Ok ((m1, ps1), [a2; a1]).
Proof. exact @Proof.ViewCases.order_free. Qed.
Print Assumptions parts_in_any_order.

(** Copying between overlapping parts and adding one to the other is undefined,
    also adding a vector to itself. *)
Theorem parts_overlapping_refuted : forall F (O : fops F) f_pow f_one m ps i j p q,
  nth_error ps i = Some p -> nth_error ps j = Some q -> p_dim p = p_dim q -> ~ apart p q ->
  (p_off p <> p_off q -> vstep O f_pow f_one (m, ps) (VCopy i j) = Fault Undef) /\
  (forall alpha, vstep O f_pow f_one (m, ps) (VAddVec i alpha j) = Fault Undef).
Proof. exact @Proof.ViewCases.overlapping. Qed.
Print Assumptions parts_overlapping_refuted.

(** A part multiplied by one that begins before it. *)
Theorem parts_product_refuted : exists ps l, let cs := [VRange 0 1 2; VRange 0 0 2; VMul 1 2] in
  vrun Proof.ZOps.zops Proof.ViewCases.z_pow (Z.eqb 1) ([[2; 3; 5]], whole [[2; 3; 5]]) cs = Ok ([[2; 6; 30]], ps, l) /\
  does_all Proof.ZOps.zops Proof.ViewCases.z_pow (Z.eqb 1) ([[2; 3; 5]], whole [[2; 3; 5]]) cs = Ok ([[2; 6; 15]], ps, l).
Proof. exact Proof.ViewCases.mul_behind. Qed.
Print Assumptions parts_product_refuted.

(** A negative origin leads out of the part. *)
Theorem parts_origin_refuted : exists ps l, let cs := [VRange 0 1 2; VRange 1 (-1) 1; VSet 2 9] in
  vrun Proof.ZOps.zops Proof.ViewCases.z_pow (Z.eqb 1) ([[1; 2; 3; 4]], whole [[1; 2; 3; 4]]) cs = Ok ([[9; 2; 3; 4]], ps, l) /\
  nth_error ps 1 = Some (mk_part 0 1 2).
Proof. exact Proof.ViewCases.escapes. Qed.
Print Assumptions parts_origin_refuted.

(** So does a negative place. *)
Theorem parts_place_refuted :
  vrun Proof.ZOps.zops Proof.ViewCases.z_pow (Z.eqb 1) ([[1; 2; 3; 4]], whole [[1; 2; 3; 4]]) [VRange 0 2 2; VGet 1 (-1)] =
  Ok ([[1; 2; 3; 4]], [mk_part 0 0 4; mk_part 0 2 2], [VDone; VValue 2]).
Proof. exact Proof.ViewCases.escapes_read. Qed.
Print Assumptions parts_place_refuted.

(** A negative length is accepted; setting such a part to zero is undefined. *)
Theorem parts_length_refuted :
  vrun Proof.ZOps.zops Proof.ViewCases.z_pow (Z.eqb 1) ([[1; 2; 3; 4]], whole [[1; 2; 3; 4]]) [VRange 0 0 (-1); VSet 1 9] =
    Ok ([[1; 2; 3; 4]], [mk_part 0 0 4; mk_part 0 0 (-1)], [VDone; VDone]) /\
  vrun Proof.ZOps.zops Proof.ViewCases.z_pow (Z.eqb 1) ([[1; 2; 3; 4]], whole [[1; 2; 3; 4]]) [VRange 0 0 (-1); VZero 1] = Fault Undef.
Proof. exact Proof.ViewCases.negative_length. Qed.
Print Assumptions parts_length_refuted.

(** The functions of lists that stand for these operations in the rest of the
    model are what the loops over memory compute. *)
Theorem lists_for_loops : forall F (O : fops F) f_one m p, inside m p ->
  (forall x, bind (part_floor O m p x) (fun r => Ok (fst r)) = Ok (replaced m p (apply_floor O x (contents m p)))) /\
  part_log O m p = bind (apply_log O (contents m p)) (fun l => Ok (replaced m p l)) /\
  part_softmax O m p = Ok (replaced m p (apply_softmax O (contents m p))) /\
  part_log_softmax O m p = Ok (replaced m p (apply_log_softmax O (contents m p))) /\
  (forall q, inside m q -> part_dot O m p q = vec_vec O (contents m p) (contents m q)) /\
  (forall q, inside m q -> apart p q \/ p_off p <= p_off q ->
     part_mul O m p q = bind (mul_elements O (contents m p) (contents m q)) (fun l => Ok (replaced m p l))) /\
  (forall q alpha, inside m q -> apart p q -> part_add_vec O f_one m p alpha q =
     bind (if f_one alpha then add_vec O (contents m p) (contents m q) else add_vec_scaled O alpha (contents m p) (contents m q))
          (fun l => Ok (replaced m p l))).
Proof. exact @Proof.ViewCases.lists_suffice. Qed.
Print Assumptions lists_for_loops.
