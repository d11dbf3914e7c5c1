(** Finite maps with [Z] keys, used for heaps and arrays. Built on the
    standard library's binary tries. *)
From Coq Require Import ZArith List Bool Lia FMapPositive.
Import ListNotations.
Open Scope Z_scope.

Definition zkey (z : Z) : positive :=
  match z with
  | Z0 => 1%positive
  | Zpos p => xO p
  | Zneg p => xI p
  end.

Lemma zkey_inj : forall a b, zkey a = zkey b -> a = b.
Proof. intros [|a|a] [|b|b]; simpl; congruence. Qed.

Definition zmap (A : Type) := PositiveMap.t A.

Definition zempty {A} : zmap A := PositiveMap.empty A.
Definition zget {A} (m : zmap A) (i : Z) : option A := PositiveMap.find (zkey i) m.
Definition zset {A} (m : zmap A) (i : Z) (x : A) : zmap A := PositiveMap.add (zkey i) x m.
Definition zdel {A} (m : zmap A) (i : Z) : zmap A := PositiveMap.remove (zkey i) m.

Lemma zget_empty : forall A i, zget (@zempty A) i = None.
Proof. intros; apply PositiveMap.gempty. Qed.

Lemma zget_zset_same : forall A (m : zmap A) i x, zget (zset m i x) i = Some x.
Proof. intros; apply PositiveMap.gss. Qed.

Lemma zget_zset_other : forall A (m : zmap A) i j x,
  i <> j -> zget (zset m i x) j = zget m j.
Proof.
  intros; apply PositiveMap.gso. intro E; apply zkey_inj in E; congruence.
Qed.

Lemma zget_zset : forall A (m : zmap A) i j x,
  zget (zset m i x) j = if Z.eqb i j then Some x else zget m j.
Proof.
  intros. destruct (Z.eqb_spec i j).
  - subst; apply zget_zset_same.
  - now apply zget_zset_other.
Qed.

Lemma zget_zdel : forall A (m : zmap A) i j,
  zget (zdel m i) j = if Z.eqb i j then None else zget m j.
Proof.
  intros. unfold zget, zdel. destruct (Z.eqb_spec i j).
  - subst. apply PositiveMap.grs.
  - apply PositiveMap.gro. intro E; apply zkey_inj in E; congruence.
Qed.
