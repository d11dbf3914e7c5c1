(** Model of src/matrix.h and src/matrix.cc: who owns the memory of a matrix. In
    Model/Matrix.v a matrix comes with the block it is in; here it has a pointer
    into a heap, as in the code. The heap is that of Model/Own.v. *)
From Coq Require Import ZArith List Bool.
From Verif.Base Require Import Prelude.
From Verif.Model Require Import Vector Matrix.
From Verif.Model Require Own.
Import ListNotations.
Open Scope Z_scope.

(** src/matrix.h:127-133, the members of [MatrixBase]: the number of a block of
    the heap, or NULL, with the place of the first element in the block, the
    dimensions and the stride. *)
Record owner : Type := mk_owner { y_data : option nat; y_view : view }.

(** src/matrix.h:151-156, the constructor without arguments. *)
Definition empty : owner := mk_owner None no_view.

Section MatOwn.
Context {F : Type}.
Variable zero : F.               (* the number whose bytes are all zero *)
Variable width : Z.              (* sizeof(Real) *)
Variable junk : nat -> F.        (* what freshly allocated memory contains *)
Notation heap := (Own.heap F).
Variable room : heap -> Z -> bool.   (* whether posix_memalign finds so many bytes *)

(** src/matrix.cc:60-95, [Init]; [None] is the exception [std::bad_alloc]. *)
Definition init (h : heap) (rows cols : Z) (s : stride_type) : res (option (heap * owner)) :=
  m <- mat_init width junk rows cols s ;;
  match m_block m with
  | None => Ok (Some (h, empty))
  | Some b =>
      if room h (lenZ b * width)
      then Ok (Some (h ++ [Some b], mk_owner (Some (length h)) (m_view m)))
      else Ok None
  end.

(** src/matrix.cc:143-152, [Destroy]. *)
Definition destroy (h : heap) (m : owner) : res (heap * owner) :=
  match y_data m with
  | None => Ok (h, empty)
  | Some p => h <- Own.release h p ;; Ok (h, empty)
  end.

(** The block of a matrix changed by [f]. *)
Definition in_block (h : heap) (p : nat) (f : list F -> res (list F)) : res heap :=
  b <- Own.block h p ;; b <- f b ;; Ok (upd h p (Some b)).

(** src/matrix.cc:246-253, [SetZero]. *)
Definition set_zero (h : heap) (m : owner) : res heap :=
  match y_data m with
  | None => Ok h
  | Some p =>
      in_block h p (fun b =>
        m <- Matrix.set_zero zero (mk_mat (Some b) (y_view m)) ;;
        Ok (match m_block m with Some b => b | None => [] end))
  end.

(** src/matrix.cc:127-140, the end of [Resize]; [false] if an exception was
    thrown. *)
Definition resize_anew (h : heap) (m : owner) (rows cols : Z) (zeros : bool) (s : stride_type) : res (heap * owner * bool) :=
  let reset h m := if zeros then set_zero h m else Ok h in
  let start h m :=
    r <- init h rows cols s ;;
    match r with
    | None => Ok (h, m, false)
    | Some (h, m) => h <- reset h m ;; Ok (h, m, true)
    end in
  match y_data m with
  | Some _ =>
      if (rows =? v_rows (y_view m)) && (cols =? v_cols (y_view m)) then h <- reset h m ;; Ok (h, m, true)
      else '(h, m) <- destroy h m ;; start h m
  | None => start h m
  end.

(** src/matrix.cc:20-38, [CopyFromMat] between two matrices in the same block.
    [CopyFromVec] (src/vector.cc:72-79) does nothing if the rows are the same;
    memcpy is undefined if they overlap. *)
Definition copy_within (b : list F) (v v' : view) (t : trans) : res (list F) :=
  match t with
  | NoTrans =>
      _ <- check ((v_rows v =? v_rows v') && (v_cols v =? v_cols v')) Assert ;;
      for_up 0 (v_rows v) (fun b i =>
        dst <- row_start v i ;;
        src <- row_start v' i ;;
        _ <- check (v_cols v =? v_cols v') Assert ;;
        if dst =? src then Ok b
        else
          _ <- check (v_cols v <=? Z.abs (dst - src)) Undef ;;
          copy_cells b dst b src (v_cols v)) b
  | Trans =>
      _ <- check ((v_cols v =? v_rows v') && (v_rows v =? v_cols v')) Assert ;;
      for_up 0 (v_rows v) (fun b i =>
        for_up 0 (v_cols v) (fun b j =>
          k <- int (i * v_stride v) ;; k <- int (k + j) ;;
          k' <- int (j * v_stride v') ;; k' <- int (k' + i) ;;
          x <- getZ b (v_off v' + k') ;;
          setZ b (v_off v + k) x) b) b
  end.

(** src/matrix.cc:20-38, [CopyFromMat] of the matrix [v'] at [q] to the matrix
    [v] at [p]. Matrices without memory have no rows to copy. *)
Definition copy_mat (h : heap) (p : option nat) (v : view) (q : option nat) (v' : view) (t : trans) : res heap :=
  match p, q with
  | Some p, Some q =>
      if Nat.eqb p q then in_block h p (fun b => copy_within b v v' t)
      else b' <- Own.block h q ;; in_block h p (fun b => copy_from_mat b v b' v' t)
  | _, _ => _ <- copy_from_mat (A := F) [] v [] v' t ;; Ok h
  end.

(** src/matrix.cc:97-141, [Resize]. *)
Definition resize (h : heap) (m : owner) (rows cols : Z) (t : resize_type) (s : stride_type) : res (heap * owner * bool) :=
  match t with
  | SetZero => resize_anew h m rows cols true s
  | Undefined => resize_anew h m rows cols false s
  | CopyData =>
      let v := y_view m in
      match y_data m with
      | None => resize_anew h m rows cols true s
      | Some _ =>
          if rows =? 0 then resize_anew h m rows cols true s
          else if (rows =? v_rows v) && (cols =? v_cols v) then Ok (h, m, true)
          else
            '(h, tmp, done) <- resize_anew h empty rows cols ((rows >? v_rows v) || (cols >? v_cols v)) StrideEqualNumCols ;;
            if negb done then Ok (h, m, false)
            else
              dst <- sub_matrix (y_view tmp) 0 (Z.min rows (v_rows v)) 0 (Z.min cols (v_cols v)) ;;
              src <- sub_matrix v 0 (Z.min rows (v_rows v)) 0 (Z.min cols (v_cols v)) ;;
              h <- copy_mat h (y_data tmp) dst (y_data m) src NoTrans ;;
              '(h, _) <- destroy h m ;;
              Ok (h, tmp, true)
      end
  end.

(** src/matrix.h:59-71, the two operators for access to an element. *)
Definition get_at (h : heap) (m : owner) (r c : Z) : res F :=
  match y_data m with
  | None => _ <- place (y_view m) r c ;; Fault Undef
  | Some p => b <- Own.block h p ;; mget b (y_view m) r c
  end.
Definition put_at (h : heap) (m : owner) (r c : Z) (x : F) : res heap :=
  match y_data m with
  | None => _ <- place (y_view m) r c ;; Fault Undef
  | Some p => in_block h p (fun b => mset b (y_view m) r c x)
  end.

(** src/matrix.cc:48-58, [Transpose]. *)
Definition transpose_at (h : heap) (m : owner) : res heap :=
  match y_data m with
  | None => Ok h
  | Some p => in_block h p (fun b => transpose b (y_view m))
  end.

(** What a program does with its matrices, which are numbered in the order of
    their construction. Matrices can be copied because the compiler adds the
    constructor and the operator for it. *)
Inductive call : Type :=
| New                                             (* Matrix<Real> m; *)
| NewSized (rows cols : Z) (t : resize_type) (s : stride_type)
| NewCopied (i : nat)                             (* Matrix<Real> m(m_i); *)
| Assign (i j : nat)                              (* m_i = m_j; *)
| Swap (i j : nat)                                (* m_i.Swap(&m_j); *)
| Resize (i : nat) (rows cols : Z) (t : resize_type) (s : stride_type)
| Dims (i : nat)                                  (* m_i.NumRows(), m_i.NumCols() *)
| Get (i : nat) (r c : Z)
| Put (i : nat) (r c : Z) (x : F)
| Zero (i : nat)                                  (* m_i.SetZero(); *)
| Copy (i j : nat) (t : trans)                    (* m_i.CopyFromMat(m_j, t); *)
| CopyPart (i : nat) (ro co : Z) (j : nat) (ro' co' r c : Z)
    (* m_i.Range(ro, r, co, c).CopyFromMat(m_j.Range(ro', r, co', c)); *)
| Transpose (i : nat)                             (* m_i.Transpose(); *)
| Delete (i : nat).                               (* the end of the scope of m_i *)

Inductive answer : Type := Done | Value (x : F) | Size (rows cols : Z) | NoMemory.

(** The heap and the matrices; [None] for those that are no more. *)
Definition state : Type := (heap * list (option owner))%type.
Definition init_state : state := ([], []).

(** Calls on matrices that are no more are undefined. *)
Definition var (ms : list (option owner)) (i : nat) : res owner :=
  match nth_error ms i with Some (Some m) => Ok m | _ => Fault Undef end.

(** One call. src/matrix.h:159-164 is the constructor with a size, 170 the
    destructor, 33-37 the dimensions, 93-99 [Range]; src/matrix.cc:40-46 is
    [Swap]. The constructor and operator that the compiler adds copy the members.
    A matrix whose constructor throws does not come into existence. *)
Definition step (s : state) (c : call) : res (state * answer) :=
  let '(h, ms) := s in
  match c with
  | New => Ok ((h, ms ++ [Some empty]), Done)
  | NewSized rows cols t st =>
      '(h, m, done) <- resize h empty rows cols t st ;;
      Ok (if done then ((h, ms ++ [Some m]), Done) else ((h, ms ++ [None]), NoMemory))
  | NewCopied i => m <- var ms i ;; Ok ((h, ms ++ [Some m]), Done)
  | Assign i j => _ <- var ms i ;; m <- var ms j ;; Ok ((h, upd ms i (Some m)), Done)
  | Swap i j =>
      m <- var ms i ;; m' <- var ms j ;;
      Ok ((h, upd (upd ms i (Some m')) j (Some m)), Done)
  | Resize i rows cols t st =>
      m <- var ms i ;;
      '(h, m, done) <- resize h m rows cols t st ;;
      Ok ((h, upd ms i (Some m)), if done then Done else NoMemory)
  | Dims i => m <- var ms i ;; Ok (s, Size (v_rows (y_view m)) (v_cols (y_view m)))
  | Get i r c => m <- var ms i ;; x <- get_at h m r c ;; Ok (s, Value x)
  | Put i r c x => m <- var ms i ;; h <- put_at h m r c x ;; Ok ((h, ms), Done)
  | Zero i => m <- var ms i ;; h <- set_zero h m ;; Ok ((h, ms), Done)
  | Copy i j t =>
      m <- var ms i ;; m' <- var ms j ;;
      h <- copy_mat h (y_data m) (y_view m) (y_data m') (y_view m') t ;; Ok ((h, ms), Done)
  | CopyPart i ro co j ro' co' r c =>
      m <- var ms i ;; m' <- var ms j ;;
      v <- sub_matrix (y_view m) ro r co c ;; v' <- sub_matrix (y_view m') ro' r co' c ;;
      h <- copy_mat h (y_data m) v (y_data m') v' NoTrans ;; Ok ((h, ms), Done)
  | Transpose i => m <- var ms i ;; h <- transpose_at h m ;; Ok ((h, ms), Done)
  | Delete i => m <- var ms i ;; '(h, _) <- destroy h m ;; Ok ((h, upd ms i None), Done)
  end.

Fixpoint run (s : state) (cs : list call) : res (state * list answer) :=
  match cs with
  | [] => Ok (s, [])
  | c :: cs => '(s, a) <- step s c ;; '(s, r) <- run s cs ;; Ok (s, a :: r)
  end.
End MatOwn.
Arguments call : clear implicits.
Arguments answer : clear implicits.
Arguments state : clear implicits.
