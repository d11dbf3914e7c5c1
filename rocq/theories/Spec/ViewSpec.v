(** What operations on parts of vectors are meant to do: a part is a range of
    elements of one vector, an operation replaces these elements. *)
From Coq Require Import ZArith List Bool.
From Verif.Base Require Import Prelude.
From Verif.Model Require Import Arith Views.
Import ListNotations.
Open Scope Z_scope.

Section Spec.
Context {F : Type}.
Variable O : fops F.
Variable f_pow : F -> F -> F.
Variable f_one : F -> bool.

(** The elements of a part, and the memory with other elements there. *)
Definition contents (m : list (list F)) (p : part) : list F :=
  firstn (Z.to_nat (p_dim p)) (skipn (Z.to_nat (p_off p)) (nth (p_block p) m [])).
Definition replaced (m : list (list F)) (p : part) (l : list F) : list (list F) :=
  let b := nth (p_block p) m [] in
  upd m (p_block p) (firstn (Z.to_nat (p_off p)) b ++ l ++ skipn (Z.to_nat (p_off p) + length l) b).

(** The part is a range of elements that are there. *)
Definition inside (m : list (list F)) (p : part) : Prop :=
  (p_block p < length m)%nat /\ 0 <= p_off p /\ 0 <= p_dim p /\ p_off p + p_dim p <= lenZ (nth (p_block p) m []).

(** No element belongs to both. *)
Definition apart (p q : part) : Prop :=
  p_block p <> p_block q \/ p_off p + p_dim p <= p_off q \/ p_off q + p_dim q <= p_off p.

Definition sum (l : list F) : F := fold_left (f_add O) l (f_zero O).
Definition pairwise (f : F -> F -> F) (l l' : list F) : list F := map (fun x => f (fst x) (snd x)) (combine l l').

(** What each call does to the elements [l] of its part. *)
Definition changed (l : list F) (c : vcall F) : res (list F * vanswer F) :=
  match c with
  | VGet _ k =>
      match nth_error l (Z.to_nat k) with Some x => Ok (l, VValue x) | None => Fault Assert end
  | VPut _ k x =>
      match nth_error l (Z.to_nat k) with Some _ => Ok (upd l (Z.to_nat k) x, VDone) | None => Fault Assert end
  | VSet _ x => Ok (repeat x (length l), VDone)
  | VZero _ => Ok (repeat (f_zero O) (length l), VDone)
  | VScale _ x => Ok (map (fun y => f_mul O y x) l, VDone)
  | VAdd _ x => Ok (map (fun y => f_add O y x) l, VDone)
  | VFloor _ x =>
      Ok (map (fun y => if f_lt O y x then x else y) l, VCount (lenZ (filter (fun y => f_lt O y x) l)))
  | VLog _ => if forallb (f_nonneg O) l then Ok (map (f_log O) l, VDone) else Fault Assert
  | VPow _ x => Ok (map (fun y => f_pow y x) l, VDone)
  | VSoftmax _ =>
      let es := map (f_expf O) l in Ok (map (fun e => f_div O e (sum es)) es, VDone)
  | VLogSoftmax _ => Ok (map (fun x => f_sub O x (f_log O (sum (map (f_exp O) l)))) l, VDone)
  | _ => Ok (l, VDone)
  end.

(** The same for calls with a second part, whose elements are [l']. *)
Definition changed2 (l l' : list F) (c : vcall F) : res (list F * vanswer F) :=
  if negb (Nat.eqb (length l) (length l')) then Fault Assert
  else
    match c with
    | VCopy _ _ => Ok (l', VDone)
    | VDot _ _ => Ok (l, VValue (sum (pairwise (f_mul O) l l')))
    | VMul _ _ => Ok (pairwise (f_mul O) l l', VDone)
    | VAddVec _ x _ =>
        Ok (pairwise (fun y z => if f_one x then f_add O y z else f_add O y (f_mul O x z)) l l', VDone)
    | _ => Ok (l, VDone)
    end.

Definition does (s : vstate) (c : vcall F) : res (vstate * vanswer F) :=
  let '(m, ps) := s in
  let one i :=
    match nth_error ps i with
    | None => Fault Undef
    | Some p =>
        match changed (contents m p) c with Fault f => Fault f | Ok (l, a) => Ok ((replaced m p l, ps), a) end
    end in
  let two i j :=
    match nth_error ps i, nth_error ps j with
    | Some p, Some q =>
        match changed2 (contents m p) (contents m q) c with Fault f => Fault f | Ok (l, a) => Ok ((replaced m p l, ps), a) end
    | _, _ => Fault Undef
    end in
  match c with
  | VRange i o l =>
      match nth_error ps i with
      | None => Fault Undef
      | Some p =>
          if o + l <=? lenZ (contents m p) then Ok ((m, ps ++ [mk_part (p_block p) (p_off p + o) l]), VDone) else Fault Assert
      end
  | VGet i _ | VPut i _ _ | VSet i _ | VZero i | VScale i _ | VAdd i _ | VFloor i _ | VLog i | VPow i _
  | VSoftmax i | VLogSoftmax i => one i
  | VCopy i j | VDot i j | VMul i j | VAddVec i _ j => two i j
  end.

Fixpoint does_all (s : vstate) (cs : list (vcall F)) : res (vstate * list (vanswer F)) :=
  match cs with
  | [] => Ok (s, [])
  | c :: cs =>
      match does s c with
      | Fault f => Fault f
      | Ok (s, a) => match does_all s cs with Fault f => Fault f | Ok (s, l) => Ok (s, a :: l) end
      end
  end.

(** Calls for which this is so: origins, lengths and places are not negative;
    what is copied or added has no element in common with what is changed, or is
    just the same part in the case of a copy; a factor does not begin before the
    part that is multiplied, or has nothing in common with it. *)
Definition fair (ps : list part) (c : vcall F) : Prop :=
  match c with
  | VRange _ o l => 0 <= o /\ 0 <= l /\ o + l <= int_max
  | VGet _ k | VPut _ k _ => 0 <= k
  | VCopy i j => forall p q, nth_error ps i = Some p -> nth_error ps j = Some q ->
      apart p q \/ (p_block p = p_block q /\ p_off p = p_off q)
  | VAddVec i _ j => forall p q, nth_error ps i = Some p -> nth_error ps j = Some q -> apart p q
  | VMul i j => forall p q, nth_error ps i = Some p -> nth_error ps j = Some q -> apart p q \/ p_off p <= p_off q
  | _ => True
  end.

Fixpoint all_fair (s : vstate) (cs : list (vcall F)) : Prop :=
  match cs with
  | [] => True
  | c :: cs => fair (snd s) c /\ forall s' a, does s c = Ok (s', a) -> all_fair s' cs
  end.

(** The part a call changes. *)
Definition target (c : vcall F) : option nat :=
  match c with
  | VRange _ _ _ | VGet _ _ | VDot _ _ => None
  | VPut i _ _ | VSet i _ | VZero i | VScale i _ | VAdd i _ | VFloor i _ | VLog i | VPow i _
  | VSoftmax i | VLogSoftmax i | VCopy i _ | VMul i _ | VAddVec i _ _ => Some i
  end.

(** Calls that concern the part [i] only. *)
Definition single (c : vcall F) (i : nat) : Prop :=
  match c with
  | VGet j k | VPut j k _ => i = j /\ 0 <= k
  | VSet j _ | VZero j | VScale j _ | VAdd j _ | VFloor j _ | VLog j | VPow j _ | VSoftmax j | VLogSoftmax j => i = j
  | _ => False
  end.
End Spec.
