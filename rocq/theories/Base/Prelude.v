(** Common vocabulary of the model: outcomes of a C++ call, bytes, 32-bit
    integers and indexed access. Nothing in this file models a particular
    function of CatEars. *)
From Coq Require Import ZArith List Bool Lia.
Import ListNotations.
Open Scope Z_scope.

(** What can go wrong in a C++ call. *)
Inductive fault : Type :=
| Undef   (* undefined behaviour *)
| Assert  (* a failed assert(); the project never defines NDEBUG *)
| Throw   (* a C++ exception leaves the call *)
| Fuel.   (* the model's bound on loop iterations ran out: the loop did not end *)

Inductive res (A : Type) : Type :=
| Ok (a : A)
| Fault (f : fault).
Arguments Ok {A} a.
Arguments Fault {A} f.

Definition bind {A B} (m : res A) (k : A -> res B) : res B :=
  match m with
  | Ok a => k a
  | Fault f => Fault f
  end.

Declare Scope res_scope.
Delimit Scope res_scope with res.
Notation "x <- m ;; k" := (bind m (fun x => k))
  (at level 61, m at next level, right associativity) : res_scope.
Notation "' p <- m ;; k" := (bind m (fun p => k))
  (at level 61, p pattern, m at next level, right associativity) : res_scope.
Open Scope res_scope.

(** [check b f] goes on if [b] holds and stops with fault [f] otherwise. *)
Definition check (b : bool) (f : fault) : res unit :=
  if b then Ok tt else Fault f.

Definition is_ok {A} (m : res A) : bool :=
  match m with Ok _ => true | Fault _ => false end.

(** Range of [int32_t]. *)
Definition int_min : Z := -2147483648.
Definition int_max : Z := 2147483647.
Definition in_int32 (z : Z) : bool := (int_min <=? z) && (z <=? int_max).

(** Reduction modulo 2^32 into the signed range: conversion to [int32_t]. *)
Definition wrap32 (z : Z) : Z :=
  let m := z mod 4294967296 in
  if m <=? int_max then m else m - 4294967296.

(** Conversion to [size_t] (64 bit, unsigned). *)
Definition size_t (z : Z) : Z := z mod 18446744073709551616.

(** A byte is a number 0..255. *)
Definition is_byte (b : Z) : bool := (0 <=? b) && (b <? 256).
Definition bytes := list Z.

(** Replace the [n]-th element of a list. *)
Fixpoint upd {A} (l : list A) (n : nat) (x : A) : list A :=
  match l, n with
  | [], _ => []
  | _ :: t, O => x :: t
  | h :: t, S n => h :: upd t n x
  end.

(** Indexed read and write with a C++ index: out of range is undefined. *)
Definition getZ {A} (l : list A) (i : Z) : res A :=
  if i <? 0 then Fault Undef
  else match nth_error l (Z.to_nat i) with
       | Some x => Ok x
       | None => Fault Undef
       end.

Definition setZ {A} (l : list A) (i : Z) (x : A) : res (list A) :=
  if (i <? 0) || (Z.of_nat (length l) <=? i) then Fault Undef
  else Ok (upd l (Z.to_nat i) x).

Definition lenZ {A} (l : list A) : Z := Z.of_nat (length l).

(** [seqZ a n] = [a; a+1; ...; a+n-1]. *)
Fixpoint seqZ (a : Z) (n : nat) : list Z :=
  match n with
  | O => []
  | S n => a :: seqZ (a + 1) n
  end.
