(** Reading binary values from a [ReadableFile] (src/util.h:134-138). *)
From Coq Require Import ZArith List Bool.
From Verif.Base Require Import Prelude.
From Verif.Model Require Import Util File.
Import ListNotations.
Open Scope Z_scope.

(** Little-endian value of a byte sequence (the machines supported are
    little-endian). *)
Fixpoint le_unsigned (b : bytes) : Z :=
  match b with
  | [] => 0
  | c :: r => c + 256 * le_unsigned r
  end.

(** The same bytes as a signed integer of their width. *)
Definition le_signed (b : bytes) : Z :=
  let u := le_unsigned b in
  let m := 256 ^ lenZ b in
  if u <? m / 2 then u else u - m.

(** A function that reads from a file and returns a [Status]: [None] is an
    error status. The kind of error and its message are not modelled. *)
Definition io (A : Type) : Type := file -> res (option A * file).

Definition io_ret {A} (a : A) : io A := fun f => Ok (Some a, f).
Definition io_fail {A} : io A := fun f => Ok (None, f).
Definition io_fault {A} (e : fault) : io A := fun _ => Fault e.

(** src/status.h, [PK_CHECK_STATUS]: return the status if it is an error. *)
Definition io_bind {A B} (m : io A) (k : A -> io B) : io B := fun f =>
  '(r, f) <- m f ;;
  match r with
  | None => Ok (None, f)
  | Some a => k a f
  end.

Declare Scope io_scope.
Delimit Scope io_scope with io.
Notation "x <-- m ;; k" := (io_bind m (fun x => k))
  (at level 61, m at next level, right associativity) : io_scope.
Notation "' p <-- m ;; k" := (io_bind m (fun p => k))
  (at level 61, p pattern, m at next level, right associativity) : io_scope.
Open Scope io_scope.

(** [if (!b) return Status::Corruption(...)] *)
Definition io_check (b : bool) : io unit := if b then io_ret tt else io_fail.

(** A live [assert] or an undefined operation inside a reader. *)
Definition io_assert (b : bool) (e : fault) : io unit := if b then io_ret tt else io_fault e.

(** src/util.cc:120-126, [Read]. *)
Definition io_read (size : Z) : io bytes := fun f => read f size.

(** src/util.cc:128-143, [ReadAndVerifyString]. *)
Definition io_verify (s : bytes) : io unit := fun f =>
  '(ok, f) <- read_and_verify f s ;; Ok (if ok then Some tt else None, f).

(** src/util.h:135-138, [ReadValue<intN_t>] with [n] bytes. *)
Definition io_int (n : Z) : io Z := b <-- io_read n ;; io_ret (le_signed b).
