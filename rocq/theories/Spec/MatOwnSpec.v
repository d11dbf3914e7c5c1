(** Matrices as values: lists of rows that no two variables share. *)
From Coq Require Import ZArith List Bool.
From Verif.Base Require Import Prelude.
From Verif.Model Require Import Matrix MatOwn.
From Verif.Spec Require Import MatrixSpec.
Import ListNotations.
Open Scope Z_scope.

Section Spec.
Context {F : Type}.
Variable zero : F.

Notation rows_ := (list (list F)).

(** The element in row [r] and column [c]. *)
Definition entry (m : rows_) (r c : Z) : option F :=
  match nth_error m (Z.to_nat r) with Some row => nth_error row (Z.to_nat c) | None => None end.
Definition sized (m : rows_) (rows cols : Z) : Prop :=
  lenZ m = rows /\ (forall row, In row m -> lenZ row = cols) /\ (rows = 0 -> cols = 0).

(** The matrix of that size with the elements [f]. *)
Definition built (m : rows_) (rows cols : Z) (f : Z -> Z -> option F) : Prop :=
  sized m rows cols /\ forall r c, 0 <= r < rows -> 0 <= c < cols -> entry m r c = f r c.

(** The contents of the variables; [None] for those that are no more. *)
Definition contents : Type := list (option rows_).
Definition holds (w : contents) (i : nat) (m : rows_) : Prop := nth_error w i = Some (Some m).

(** What a matrix contains after its size was changed. *)
Definition resized (t : resize_type) (old : rows_) (rows cols : Z) (new : rows_) : Prop :=
  match t with
  | SetZero => built new rows cols (fun _ _ => Some zero)
  | Undefined => sized new rows cols /\ (sized old rows cols -> new = old)
  | CopyData => built new rows cols (fun r c => match entry old r c with Some x => Some x | None => Some zero end)
  end.

(** Dimensions that can be allocated. *)
Definition possible (width rows cols : Z) (s : stride_type) : Prop :=
  (rows = 0 /\ cols = 0) \/ fits width rows cols s.

(** The calls a program may make: variables that exist, dimensions that are
    possible, places inside, copies of the same size between different matrices
    or of a matrix to itself as it is. Matrices with elements must not be copied
    by the constructor or the operator that the compiler adds. *)
Definition permitted (width : Z) (w : contents) (c : call F) : Prop :=
  match c with
  | New => True
  | NewSized rows cols _ s => possible width rows cols s
  | NewCopied i => holds w i []
  | Assign i j => holds w i [] /\ holds w j []
  | Swap i j => (exists m, holds w i m) /\ exists m, holds w j m
  | Resize i rows cols _ s => (exists m, holds w i m) /\ possible width rows cols s
  | Get i r c | Put i r c _ => exists m rows cols, holds w i m /\ sized m rows cols /\ 0 <= r < rows /\ 0 <= c < cols
  | Dims i | Zero i | Delete i => exists m, holds w i m
  | Copy i j NoTrans => exists m m' rows cols, holds w i m /\ holds w j m' /\ sized m rows cols /\ sized m' rows cols
  | Copy i j Trans => exists m m' rows cols, holds w i m /\ holds w j m' /\ sized m rows cols /\ sized m' cols rows /\
      i <> j
  | CopyPart i ro co j ro' co' r c => exists m m' rows cols rows' cols',
      holds w i m /\ holds w j m' /\ sized m rows cols /\ sized m' rows' cols' /\ i <> j /\ 0 < r /\ 0 < c /\
      0 <= ro /\ ro + r <= rows /\ 0 <= co /\ co + c <= cols /\
      0 <= ro' /\ ro' + r <= rows' /\ 0 <= co' /\ co' + c <= cols'
  | Transpose i => exists m n, holds w i m /\ sized m n n
  end.

(** What the call does. Without memory, a matrix that was to be resized is empty,
    unless its contents were to be kept. *)
Definition does (w : contents) (c : call F) (a : answer F) (w' : contents) : Prop :=
  match c with
  | New => a = Done /\ w' = w ++ [Some []]
  | NewSized rows cols t _ =>
      (a = Done /\ exists m, resized t [] rows cols m /\ w' = w ++ [Some m]) \/ (a = NoMemory /\ w' = w ++ [None])
  | NewCopied i => a = Done /\ w' = w ++ [Some []]
  | Assign i j => a = Done /\ w' = w
  | Swap i j => a = Done /\ exists m m', holds w i m /\ holds w j m' /\ w' = upd (upd w i (Some m')) j (Some m)
  | Resize i rows cols t _ => exists m, holds w i m /\
      ((a = Done /\ exists m', resized t m rows cols m' /\ w' = upd w i (Some m')) \/
       (a = NoMemory /\ w' = match t with CopyData => w | _ => upd w i (Some []) end))
  | Dims i => w' = w /\ exists m rows cols, holds w i m /\ sized m rows cols /\ a = Size rows cols
  | Get i r c => w' = w /\ exists m x, holds w i m /\ entry m r c = Some x /\ a = Value x
  | Put i r c x => a = Done /\ exists m m' rows cols, holds w i m /\ sized m rows cols /\ w' = upd w i (Some m') /\
      built m' rows cols (fun r' c' => if (r' =? r) && (c' =? c) then Some x else entry m r' c')
  | Zero i => a = Done /\ exists m m' rows cols, holds w i m /\ sized m rows cols /\ w' = upd w i (Some m') /\
      built m' rows cols (fun _ _ => Some zero)
  | Copy i j NoTrans => a = Done /\ exists m, holds w j m /\ w' = upd w i (Some m)
  | Copy i j Trans => a = Done /\ exists m m' rows cols, holds w j m /\ sized m cols rows /\ w' = upd w i (Some m') /\
      built m' rows cols (fun r c => entry m c r)
  | CopyPart i ro co j ro' co' r c => a = Done /\ exists m m1 m2 rows cols,
      holds w i m /\ holds w j m1 /\ sized m rows cols /\ w' = upd w i (Some m2) /\
      built m2 rows cols (fun r' c' =>
        if (ro <=? r') && (r' <? ro + r) && (co <=? c') && (c' <? co + c)
        then entry m1 (r' - ro + ro') (c' - co + co') else entry m r' c')
  | Transpose i => a = Done /\ exists m m' n, holds w i m /\ sized m n n /\ w' = upd w i (Some m') /\
      built m' n n (fun r c => entry m c r)
  | Delete i => a = Done /\ w' = upd w i None
  end.

(** A history of permitted calls and the contents at its end. *)
Fixpoint history (width : Z) (w : contents) (cs : list (call F)) (r : list (answer F)) (w' : contents) : Prop :=
  match cs, r with
  | [], [] => w' = w
  | c :: cs, a :: r => permitted width w c /\ exists w1, does w c a w1 /\ history width w1 cs r w'
  | _, _ => False
  end.

(** The number of variables that have elements. *)
Definition full (w : contents) : nat :=
  length (filter (fun o => match o with Some (_ :: _) => true | _ => false end) w).
End Spec.
