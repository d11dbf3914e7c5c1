(** Model of the operations of [VectorBase] on memory that several vectors share
    (src/vector.h:84-95, 231-259, src/vector.cc:61-122, 166-223, 239-258): a [SubVector]
    is a place in the memory of a vector and a length. Elsewhere in the model
    these operations are functions of lists (Model/Fbank.v, Model/Nnet.v); here
    they read and write one element after another. *)
From Coq Require Import ZArith List Bool.
From Verif.Base Require Import Prelude.
From Verif.Model Require Import Arith Vector.
Import ListNotations.
Open Scope Z_scope.

(** [data_] and [dim_]: the number of a block of memory, the element in it that
    [data_] points to, and the length. *)
Record part : Type := mk_part { p_block : nat; p_off : Z; p_dim : Z }.

Section Views.
Context {F : Type}.
Variable O : fops F.
(** [pow], and the comparison of a number with 1.0. *)
Variable f_pow : F -> F -> F.
Variable f_one : F -> bool.

(** The elements of each block. Blocks are not freed here (Model/Own.v). *)
Notation memory := (list (list F)).

(** [data_[i]]. *)
Definition rd (m : memory) (p : part) (i : Z) : res F :=
  match nth_error m (p_block p) with
  | None => Fault Undef
  | Some b => getZ b (p_off p + i)
  end.
Definition wr (m : memory) (p : part) (i : Z) (x : F) : res memory :=
  match nth_error m (p_block p) with
  | None => Fault Undef
  | Some b => b <- setZ b (p_off p + i) x ;; Ok (upd m (p_block p) b)
  end.

(** src/vector.h:84-95, 238-244, [Range]: only the end is asserted. The sum is an
    [int]; a pointer outside of the block is undefined. *)
Definition part_range (m : memory) (p : part) (origin length : Z) : res part :=
  _ <- check (in_int32 (origin + length)) Undef ;;
  _ <- check (origin + length <=? p_dim p) Assert ;;
  match nth_error m (p_block p) with
  | None => Fault Undef
  | Some b =>
      _ <- check ((0 <=? p_off p + origin) && (p_off p + origin <=? lenZ b)) Undef ;;
      Ok (mk_part (p_block p) (p_off p + origin) length)
  end.

(** src/vector.h:68-77, [operator()]. *)
Definition part_get (m : memory) (p : part) (i : Z) : res F :=
  _ <- check (i <? p_dim p) Assert ;; rd m p i.
Definition part_put (m : memory) (p : part) (i : Z) (x : F) : res memory :=
  _ <- check (i <? p_dim p) Assert ;; wr m p i x.

(** [for (int i = 0; i < dim_; i++) data_[i] = f(data_[i])]. *)
Definition each (m : memory) (p : part) (f : F -> res F) : res memory :=
  for_up 0 (p_dim p) (fun m i => x <- rd m p i ;; y <- f x ;; wr m p i y) m.

(** src/vector.cc:61-65, [Set]. *)
Definition part_set (m : memory) (p : part) (x : F) : res memory :=
  for_up 0 (p_dim p) (fun m i => wr m p i x) m.

(** src/vector.cc:67-70, [SetZero]: [memset], whose size is huge for a negative
    length. *)
Definition part_zero (m : memory) (p : part) : res memory :=
  _ <- check (0 <=? p_dim p) Undef ;; part_set m p (f_zero O).

(** src/vector.cc:193-206, [Scale] and [Add]. *)
Definition part_scale (m : memory) (p : part) (alpha : F) : res memory :=
  each m p (fun x => Ok (f_mul O x alpha)).
Definition part_add (m : memory) (p : part) (val : F) : res memory :=
  each m p (fun x => Ok (f_add O x val)).

(** src/vector.cc:166-176, [ApplyFloor]: the memory and the count. *)
Definition part_floor (m : memory) (p : part) (floor : F) : res (memory * Z) :=
  for_up 0 (p_dim p) (fun '(m, n) i =>
    x <- rd m p i ;;
    if f_lt O x floor then m <- wr m p i floor ;; Ok (m, n + 1) else Ok (m, n)) (m, 0).

(** src/vector.cc:178-191, [ApplyLog] and [ApplyPow]. *)
Definition part_log (m : memory) (p : part) : res memory :=
  each m p (fun x => _ <- check (f_nonneg O x) Assert ;; Ok (f_log O x)).
Definition part_pow (m : memory) (p : part) (power : F) : res memory :=
  each m p (fun x => Ok (f_pow x power)).

(** src/vector.cc:94-107, [ApplySoftMax]. *)
Definition part_softmax (m : memory) (p : part) : res memory :=
  '(m, sum) <- for_up 0 (p_dim p) (fun '(m, sum) i =>
      x <- part_get m p i ;;
      let exp_d := f_expf O x in
      m <- part_put m p i exp_d ;;
      Ok (m, f_add O sum exp_d)) (m, f_zero O) ;;
  for_up 0 (p_dim p) (fun m i => x <- part_get m p i ;; part_put m p i (f_div O x sum)) m.

(** src/vector.cc:109-122, [ApplyLogSoftMax]. *)
Definition part_log_softmax (m : memory) (p : part) : res memory :=
  sum <- for_up 0 (p_dim p) (fun sum i => x <- part_get m p i ;; Ok (f_add O sum (f_exp O x))) (f_zero O) ;;
  let logsum := f_log O sum in
  for_up 0 (p_dim p) (fun m i => x <- part_get m p i ;; part_put m p i (f_sub O x logsum)) m.

(** Whether two ranges of the same length have an element in common. *)
Definition overlap (p q : part) : bool :=
  Nat.eqb (p_block p) (p_block q) && (p_off p <? p_off q + p_dim q) && (p_off q <? p_off p + p_dim p) && (0 <? p_dim p).

(** src/vector.cc:73-79, [CopyFromVec] of the same type: [memcpy], undefined for
    ranges that overlap and for a negative length, which is a huge size. *)
Definition part_copy (m : memory) (p q : part) : res memory :=
  _ <- check (p_dim p =? p_dim q) Assert ;;
  if Nat.eqb (p_block p) (p_block q) && (p_off p =? p_off q) then Ok m
  else
    _ <- check (0 <=? p_dim p) Undef ;;
    _ <- check (negb (overlap p q)) Undef ;;
    for_up 0 (p_dim p) (fun m i => x <- rd m q i ;; wr m p i x) m.

(** src/vector.cc:81-92, [VecVec]. *)
Definition part_dot (m : memory) (p q : part) : res F :=
  _ <- check (p_dim q =? p_dim p) Assert ;;
  for_up 0 (p_dim q) (fun sum i => x <- rd m p i ;; y <- rd m q i ;; Ok (f_add O sum (f_mul O x y))) (f_zero O).

(** src/vector.cc:217-223, [MulElements]. *)
Definition part_mul (m : memory) (p q : part) : res memory :=
  _ <- check (p_dim q =? p_dim p) Assert ;;
  for_up 0 (p_dim p) (fun m i => x <- rd m p i ;; y <- part_get m q i ;; wr m p i (f_mul O x y)) m.

(** src/vector.cc:239-258, [AddVec] of the same type. Both pointers are
    [__restrict__]: an element that is reached through both is undefined. *)
Definition part_add_vec (m : memory) (p : part) (alpha : F) (q : part) : res memory :=
  _ <- check (p_dim p =? p_dim q) Assert ;;
  _ <- check (negb (overlap p q)) Undef ;;
  if f_one alpha
  then for_up 0 (p_dim p) (fun m i => x <- rd m p i ;; y <- rd m q i ;; wr m p i (f_add O x y)) m
  else for_up 0 (p_dim p) (fun m i => x <- rd m p i ;; y <- rd m q i ;; wr m p i (f_add O x (f_mul O alpha y))) m.

(** * Programs *)

(** Calls on the parts made so far, which have the numbers 0, 1, ... *)
Inductive vcall : Type :=
| VRange (i : nat) (origin length : Z)
| VGet (i : nat) (k : Z)
| VPut (i : nat) (k : Z) (x : F)
| VSet (i : nat) (x : F)
| VZero (i : nat)
| VScale (i : nat) (x : F)
| VAdd (i : nat) (x : F)
| VFloor (i : nat) (x : F)
| VLog (i : nat)
| VPow (i : nat) (x : F)
| VSoftmax (i : nat)
| VLogSoftmax (i : nat)
| VCopy (i j : nat)
| VDot (i j : nat)
| VMul (i j : nat)
| VAddVec (i : nat) (x : F) (j : nat).

Inductive vanswer : Type := VDone | VCount (n : Z) | VValue (x : F).

Definition vstate : Type := (memory * list part)%type.

Definition the_part (ps : list part) (i : nat) : res part :=
  match nth_error ps i with Some p => Ok p | None => Fault Undef end.

Definition vdone (ps : list part) (m : res memory) : res (vstate * vanswer) :=
  m <- m ;; Ok ((m, ps), VDone).

Definition vstep (s : vstate) (c : vcall) : res (vstate * vanswer) :=
  let '(m, ps) := s in
  match c with
  | VRange i o l => p <- the_part ps i ;; q <- part_range m p o l ;; Ok ((m, ps ++ [q]), VDone)
  | VGet i k => p <- the_part ps i ;; x <- part_get m p k ;; Ok (s, VValue x)
  | VPut i k x => p <- the_part ps i ;; vdone ps (part_put m p k x)
  | VSet i x => p <- the_part ps i ;; vdone ps (part_set m p x)
  | VZero i => p <- the_part ps i ;; vdone ps (part_zero m p)
  | VScale i x => p <- the_part ps i ;; vdone ps (part_scale m p x)
  | VAdd i x => p <- the_part ps i ;; vdone ps (part_add m p x)
  | VFloor i x => p <- the_part ps i ;; '(m, n) <- part_floor m p x ;; Ok ((m, ps), VCount n)
  | VLog i => p <- the_part ps i ;; vdone ps (part_log m p)
  | VPow i x => p <- the_part ps i ;; vdone ps (part_pow m p x)
  | VSoftmax i => p <- the_part ps i ;; vdone ps (part_softmax m p)
  | VLogSoftmax i => p <- the_part ps i ;; vdone ps (part_log_softmax m p)
  | VCopy i j => p <- the_part ps i ;; q <- the_part ps j ;; vdone ps (part_copy m p q)
  | VDot i j => p <- the_part ps i ;; q <- the_part ps j ;; x <- part_dot m p q ;; Ok (s, VValue x)
  | VMul i j => p <- the_part ps i ;; q <- the_part ps j ;; vdone ps (part_mul m p q)
  | VAddVec i x j => p <- the_part ps i ;; q <- the_part ps j ;; vdone ps (part_add_vec m p x q)
  end.

Fixpoint vrun (s : vstate) (cs : list vcall) : res (vstate * list vanswer) :=
  match cs with
  | [] => Ok (s, [])
  | c :: cs => '(s, a) <- vstep s c ;; '(s, l) <- vrun s cs ;; Ok (s, a :: l)
  end.

(** Vectors that own a block each. *)
Definition whole (m : memory) : list part :=
  map (fun b => mk_part (fst b) 0 (lenZ (snd b))) (combine (seq 0 (length m)) m).

End Views.
Arguments vcall : clear implicits.
Arguments vanswer : clear implicits.
