(** Model of src/vector.h and src/vector.cc: storage and element access. A
    vector is the list of its elements. *)
From Coq Require Import ZArith List Bool.
From Verif.Base Require Import Prelude.
Import ListNotations.
Open Scope Z_scope.

(** src/vector.cc:31-50, [Init]: storage for [dim] elements of [width] bytes.
    The size is computed in [size_t] and stored in an [int]. A negative size
    becomes a huge request, which fails (std::bad_alloc); a size that was
    truncated to a smaller one leaves a buffer that the next write overruns. *)
Definition vec_init (width dim : Z) : res unit :=
  _ <- check (0 <=? dim) Assert ;;
  let size := wrap32 (dim * width) in
  if size <? 0 then Fault Throw
  else check (dim * width <=? size) Undef.

(** src/vector.h:68-77, [operator()]: only the upper bound is asserted. *)
Definition vget {A} (v : list A) (i : Z) : res A :=
  _ <- check (i <? lenZ v) Assert ;; getZ v i.
Definition vset {A} (v : list A) (i : Z) (x : A) : res (list A) :=
  _ <- check (i <? lenZ v) Assert ;; setZ v i x.

(** src/vector.h:84-95 and 238-244, [Range]. A negative origin or length is not
    asserted against. *)
Definition vrange {A} (v : list A) (o l : Z) : res (list A) :=
  _ <- check (o + l <=? lenZ v) Assert ;;
  _ <- check ((0 <=? o) && (0 <=? l)) Undef ;;
  Ok (firstn (Z.to_nat l) (skipn (Z.to_nat o) v)).

(** src/vector.cc:73-79, [CopyFromVec] into a vector of dimension [dim]. *)
Definition vcopy {A} (dim : Z) (v : list A) : res (list A) :=
  _ <- check (dim =? lenZ v) Assert ;; Ok v.

(** A [for] loop over the given indices. *)
Fixpoint for_each {S I} (is : list I) (body : S -> I -> res S) (s : S) : res S :=
  match is with
  | [] => Ok s
  | i :: is => s <- body s i ;; for_each is body s
  end.

(** [for (int i = a; i < b; ++i)] *)
Definition for_up {S} (a b : Z) (body : S -> Z -> res S) (s : S) : res S :=
  for_each (seqZ a (Z.to_nat (b - a))) body s.

(** [for (int i = a; i > b; --i)] *)
Definition for_down {S} (a b : Z) (body : S -> Z -> res S) (s : S) : res S :=
  for_each (rev (seqZ (b + 1) (Z.to_nat (a - b)))) body s.
