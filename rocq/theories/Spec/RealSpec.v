(** Rows of real numbers. *)
From Coq Require Import Reals List.
Import ListNotations.
Open Scope R_scope.

Definition total (l : list R) : R := fold_right Rplus 0 l.

Definition positive (l : list R) : Prop := forall x, In x l -> 0 < x.

(** [p] is a probability distribution whose entries are in the proportions of
    the exponentials of [x]. *)
Definition boltzmann (x p : list R) : Prop :=
  length p = length x /\ positive p /\ (x <> [] -> total p = 1) /\
  forall i j, (i < length x)%nat -> (j < length x)%nat ->
    nth i p 0 * exp (nth j x 0) = nth j p 0 * exp (nth i x 0).

(** [y] is [x] with a constant added. *)
Definition shifted (x y : list R) : Prop := exists c, y = map (fun v => c + v) x.

(** [y] is a positive multiple of [x] with mean square one. *)
Definition unit_power (x y : list R) : Prop :=
  exists k, 0 < k /\ y = map (fun v => k * v) x /\
    total (map (fun v => v * v) y) = INR (length x).

(** * Mean normalisation *)

(** The rows [i - 599] to [i], as far as there are any. *)
Definition window (raw : list (list R)) (i : nat) : list (list R) :=
  skipn (i + 1 - 600) (firstn (i + 1) raw).

(** Element [j] of row [i] after subtracting the mean of the window, to which up
    to 200 frames of the global average [nth j global 0 / count] are added until
    there are 600. *)
Definition normalised (raw : list (list R)) (global : list R) (i j : nat) : R :=
  let n := length (window raw i) in
  let extra := Nat.min 200 (600 - n) in
  let average := nth j global 0 / nth 40 global 0 in
  nth j (nth i raw []) 0 -
  (total (map (fun row => nth j row 0) (window raw i)) + INR extra * average) / INR (n + extra).
