(** Model of src/vector.h and src/vector.cc: who owns the memory of a vector.
    Elsewhere in the model a vector is the list of its elements; here it is a
    pointer into a heap and a dimension, as in the code. *)
From Coq Require Import ZArith List Bool.
From Verif.Base Require Import Prelude.
Import ListNotations.
Open Scope Z_scope.

(** src/vector.h:180-184. *)
Inductive resize_kind : Type := SetZero | Undefined | CopyData.

(** src/vector.h:167-170, the members of [VectorBase]: the number of a block of
    the heap, or NULL, and the dimension. *)
Record vec : Type := mk_vec { x_data : option nat; x_dim : Z }.

(** src/vector.h:152-154 and 187, the constructor without arguments. *)
Definition empty : vec := mk_vec None 0.

Section Own.
Context {F : Type}.
Variable zero : F.               (* the number whose bytes are all zero *)
Variable width : Z.              (* sizeof(Real) *)
Variable junk : nat -> F.        (* what freshly allocated memory contains *)

(** The blocks allocated so far; [None] for those that were freed. The number of
    a freed block is not used again, so that pointers to it stay recognisable. *)
Definition heap : Type := list (option (list F)).
Variable room : heap -> Z -> bool.   (* whether posix_memalign finds so many bytes *)

Definition block (h : heap) (p : nat) : res (list F) :=
  match nth_error h p with Some (Some b) => Ok b | _ => Fault Undef end.

(** free. *)
Definition release (h : heap) (p : nat) : res heap := _ <- block h p ;; Ok (upd h p None).

(** memset and memcpy of [n] elements. With a null pointer they are allowed if
    there is nothing to write. *)
Definition mem_zero (h : heap) (p : option nat) (from n : Z) : res heap :=
  match p with
  | None => _ <- check (n =? 0) Undef ;; Ok h
  | Some p =>
      b <- block h p ;;
      _ <- check ((0 <=? n) && (from + n <=? lenZ b)) Undef ;;
      Ok (upd h p (Some (firstn (Z.to_nat from) b ++ repeat zero (Z.to_nat n) ++ skipn (Z.to_nat (from + n)) b)))
  end.
Definition mem_copy (h : heap) (p q : option nat) (n : Z) : res heap :=
  match p, q with
  | Some p, Some q =>
      b <- block h p ;; s <- block h q ;;
      _ <- check ((0 <=? n) && (n <=? lenZ b) && (n <=? lenZ s)) Undef ;;
      Ok (upd h p (Some (firstn (Z.to_nat n) s ++ skipn (Z.to_nat n) b)))
  | _, _ => _ <- check (n =? 0) Undef ;; Ok h
  end.

(** src/vector.cc:31-50, [Init]; [None] is the exception [std::bad_alloc]. The
    number of bytes is computed in [size_t], converted to [int] and back. *)
Definition init (h : heap) (dim : Z) : res (option (heap * vec)) :=
  _ <- check (0 <=? dim) Assert ;;
  if dim =? 0 then Ok (Some (h, empty))
  else
    let bytes := size_t (wrap32 (size_t (dim * width))) in
    if room h bytes
    then Ok (Some (h ++ [Some (map junk (seq 0 (Z.to_nat (bytes / width))))], mk_vec (Some (length h)) dim))
    else Ok None.

(** src/vector.cc:52-59, [Destroy]. *)
Definition destroy (h : heap) (v : vec) : res (heap * vec) :=
  match x_data v with
  | None => Ok (h, empty)
  | Some p => h <- release h p ;; Ok (h, empty)
  end.

(** src/vector.cc:67-70, [SetZero]. *)
Definition set_zero (h : heap) (v : vec) : res heap := mem_zero h (x_data v) 0 (x_dim v).

(** src/vector.cc:153-163, the end of [Resize]; [false] if an exception was
    thrown. *)
Definition resize_anew (h : heap) (v : vec) (dim : Z) (zeros : bool) : res (heap * vec * bool) :=
  let reset h v := if zeros then set_zero h v else Ok h in
  let start h v :=
    r <- init h dim ;;
    match r with
    | None => Ok (h, v, false)
    | Some (h, v) => h <- reset h v ;; Ok (h, v, true)
    end in
  match x_data v with
  | Some _ =>
      if x_dim v =? dim then h <- reset h v ;; Ok (h, v, true)
      else '(h, v) <- destroy h v ;; start h v
  | None => start h v
  end.

(** src/vector.cc:130-164, [Resize]. *)
Definition resize (h : heap) (v : vec) (dim : Z) (t : resize_kind) : res (heap * vec * bool) :=
  match t with
  | SetZero => resize_anew h v dim true
  | Undefined => resize_anew h v dim false
  | CopyData =>
      match x_data v with
      | None => resize_anew h v dim true
      | Some p =>
          if dim =? 0 then resize_anew h v dim true
          else if x_dim v =? dim then Ok (h, v, true)
          else
            '(h, tmp, done) <- resize_anew h empty dim false ;;
            if negb done then Ok (h, v, false)
            else
              h <- (if dim >? x_dim v
                    then h <- mem_copy h (x_data tmp) (x_data v) (x_dim v) ;;
                         mem_zero h (x_data tmp) (x_dim v) (dim - x_dim v)
                    else mem_copy h (x_data tmp) (x_data v) dim) ;;
              '(h, _) <- destroy h v ;;
              Ok (h, tmp, true)
      end
  end.

(** src/vector.h:68-77, the two operators for access to an element. *)
Definition get_at (h : heap) (v : vec) (i : Z) : res F :=
  _ <- check (i <? x_dim v) Assert ;;
  match x_data v with
  | None => Fault Undef
  | Some p => b <- block h p ;; getZ b i
  end.
Definition set_at (h : heap) (v : vec) (i : Z) (x : F) : res heap :=
  _ <- check (i <? x_dim v) Assert ;;
  match x_data v with
  | None => Fault Undef
  | Some p => b <- block h p ;; b <- setZ b i x ;; Ok (upd h p (Some b))
  end.

(** src/vector.cc:72-79, [CopyFromVec]. *)
Definition copy_from (h : heap) (v w : vec) : res heap :=
  _ <- check (x_dim v =? x_dim w) Assert ;;
  match x_data v, x_data w with
  | Some p, Some q => if Nat.eqb p q then Ok h else mem_copy h (Some p) (Some q) (x_dim v)
  | None, None => Ok h
  | p, q => mem_copy h p q (x_dim v)
  end.

(** What a program does with its vectors, which are numbered in the order of
    their construction. *)
Inductive call : Type :=
| New                                      (* Vector<Real> v; *)
| NewSized (dim : Z) (t : resize_kind)     (* Vector<Real> v(dim, t); *)
| NewMoved (i : nat)                       (* Vector<Real> v(std::move(v_i)); *)
| Assign (i j : nat)                       (* v_i = std::move(v_j); *)
| Swap (i j : nat)                         (* v_i.Swap(&v_j); *)
| Resize (i : nat) (dim : Z) (t : resize_kind)
| Get (i : nat) (k : Z)
| Set_ (i : nat) (k : Z) (x : F)
| Zero (i : nat)                           (* v_i.SetZero(); *)
| Copy (i j : nat)                         (* v_i.CopyFromVec(v_j); *)
| Delete (i : nat).                        (* the end of the scope of v_i *)

Inductive answer : Type := Done | Value (x : F) | NoMemory.

(** The heap and the vectors; [None] for those that are no more. *)
Definition state : Type := (heap * list (option vec))%type.
Definition init_state : state := ([], []).

(** Calls on vectors that are no more are undefined. *)
Definition var (vs : list (option vec)) (i : nat) : res vec :=
  match nth_error vs i with Some (Some v) => Ok v | _ => Fault Undef end.

(** One call. src/vector.cc:11-18 is the move constructor, 20-29 move
    assignment, 124-128 [Swap]; src/vector.h:195-196 the constructor with a size
    and 214 the destructor. A vector whose constructor throws does not come into
    existence. *)
Definition step (s : state) (c : call) : res (state * answer) :=
  let '(h, vs) := s in
  match c with
  | New => Ok ((h, vs ++ [Some empty]), Done)
  | NewSized dim t =>
      '(h, v, done) <- resize h empty dim t ;;
      Ok (if done then ((h, vs ++ [Some v]), Done) else ((h, vs ++ [None]), NoMemory))
  | NewMoved i =>
      v <- var vs i ;;
      Ok ((h, upd vs i (Some empty) ++ [Some v]), Done)
  | Assign i j =>
      _ <- var vs i ;; w <- var vs j ;;
      Ok ((h, upd (upd vs i (Some w)) j (Some empty)), Done)
  | Swap i j =>
      v <- var vs i ;; w <- var vs j ;;
      Ok ((h, upd (upd vs i (Some w)) j (Some v)), Done)
  | Resize i dim t =>
      v <- var vs i ;;
      '(h, v, done) <- resize h v dim t ;;
      Ok ((h, upd vs i (Some v)), if done then Done else NoMemory)
  | Get i k => v <- var vs i ;; x <- get_at h v k ;; Ok (s, Value x)
  | Set_ i k x => v <- var vs i ;; h <- set_at h v k x ;; Ok ((h, vs), Done)
  | Zero i => v <- var vs i ;; h <- set_zero h v ;; Ok ((h, vs), Done)
  | Copy i j => v <- var vs i ;; w <- var vs j ;; h <- copy_from h v w ;; Ok ((h, vs), Done)
  | Delete i => v <- var vs i ;; '(h, _) <- destroy h v ;; Ok ((h, upd vs i None), Done)
  end.

Fixpoint run (s : state) (cs : list call) : res (state * list answer) :=
  match cs with
  | [] => Ok (s, [])
  | c :: cs => '(s, a) <- step s c ;; '(s, r) <- run s cs ;; Ok (s, a :: r)
  end.
End Own.
Arguments heap : clear implicits.
Arguments call : clear implicits.
Arguments answer : clear implicits.
Arguments state : clear implicits.
