(** Model of src/fst.h and src/fst.cc. [W] is the type of weights: 32-bit words
    when a file is read, any interpretation of [float] afterwards. *)
From Coq Require Import ZArith List Bool.
From Verif.Base Require Import Prelude.
From Verif.Model Require Import Util File Binary Arith Vector Formats.
Import ListNotations.
Open Scope Z_scope.

(** src/fst.h:18-26, [FstArc]. *)
Record arc (W : Type) : Type := mk_arc {
  next_state : Z;
  input_label : Z;
  output_label : Z;
  weight : W
}.
Arguments mk_arc {W}. Arguments next_state {W}. Arguments input_label {W}.
Arguments output_label {W}. Arguments weight {W}.

(** src/fst.h:91-95, the members of [Fst]. *)
Record fst (W : Type) : Type := mk_fst {
  start_state : Z;
  final_ : list W;
  state_idx : list Z;
  arcs_ : list (arc W)
}.
Arguments mk_fst {W}. Arguments start_state {W}. Arguments final_ {W}.
Arguments state_idx {W}. Arguments arcs_ {W}.

(** src/fst.cc:16, "pk::fst_0". *)
Definition s_fst0 : bytes := [112; 107; 58; 58; 102; 115; 116; 95; 48].

(** src/fst.cc:93-107: [resize] to [n] elements of [width] bytes, then [Read] of
    them all. [resize] throws for a negative number. The size in bytes is a
    [size_t] converted to [int]; if that changes it, an array is read that
    differs in size from the buffer: a negative size means the rest of the file
    (an error unless it is longer than the buffer), a smaller size leaves
    elements unset, which the model does not follow ([Undef]). *)
Definition io_array (width n : Z) : io bytes :=
  if n <? 0 then io_fault Throw
  else
    let size := wrap32 (width * n) in
    if size =? width * n then io_read size
    else fun f =>
      if (size <? 0) && (lenZ (f_rest f) <=? width * n) then Ok (None, mk_file [] true)
      else Fault Undef.

(** Arcs in memory are four words each (src/fst.h:18-22). *)
Fixpoint arcs_of (n : nat) (w : list Z) : list (arc Z) :=
  match n with
  | O => []
  | S n =>
      match w with
      | a :: b :: c :: d :: w => mk_arc a b c d :: arcs_of n w
      | _ => []
      end
  end.

(** src/fst.cc:51-111, [Fst::Read] into a new object. The content of the object
    after an error is not modelled. The section name is at most 31 bytes. *)
Definition fst_read : io (fst Z) :=
  name <-- io_read 32 ;;
  _ <-- io_check (str_eqb (cstr (firstn 31 name)) s_fst0) ;;
  section_size <-- io_int 4 ;;
  state_number <-- io_int 4 ;;
  arc_number <-- io_int 4 ;;
  start <-- io_int 4 ;;
  _ <-- io_check (wrap32 (12 + state_number * 8 + arc_number * 16) =? section_size) ;;
  finals <-- io_array 4 state_number ;;
  idx <-- io_array 4 state_number ;;
  a <-- io_array 16 arc_number ;;
  io_ret (mk_fst start (words (Z.to_nat state_number) finals) (words (Z.to_nat state_number) idx)
            (arcs_of (Z.to_nat arc_number) (words (4 * Z.to_nat arc_number) a))).

Section Queries.
Context {W : Type}.

(** src/fst.cc:46-49, [Fst::Final]. The comparison is one of [size_t] values. *)
Definition fst_final (g : fst W) (state : Z) : res W :=
  _ <- check (size_t state <? lenZ (final_ g)) Assert ;; getZ (final_ g) state.

(** src/fst.cc:120-127: the index of the next state that has one above zero. *)
Fixpoint next_index (idx : list Z) (size : Z) : Z :=
  match idx with
  | [] => size
  | i :: idx => if 0 <? i then i else next_index idx size
  end.

(** src/fst.cc:113-129, [CountArcs]. The number of arcs is taken to be in the
    range of [int]. *)
Definition count_arcs (g : fst W) (state : Z) : res Z :=
  idx <- getZ (state_idx g) state ;;
  if idx <? 0 then Ok 0
  else
    let next_idx := next_index (skipn (Z.to_nat (state + 1)) (state_idx g)) (lenZ (arcs_ g)) in
    Ok (next_idx - idx).

(** src/fst.cc:140-146, [std::lower_bound] as in libstdc++: the position of the
    first arc whose label is not below [ilabel]. *)
Fixpoint lower_bound (fuel : nat) (arcs : list (arc W)) (first len ilabel : Z) : res Z :=
  match fuel with
  | O => Fault Fuel
  | S fuel =>
      if len <=? 0 then Ok first
      else
        let half := len / 2 in
        a <- getZ arcs (first + half) ;;
        if input_label a <? ilabel
        then lower_bound fuel arcs (first + half + 1) (len - half - 1) ilabel
        else lower_bound fuel arcs first half ilabel
  end.

(** src/fst.cc:131-154, [Fst::GetArc]. Taking the address of an element outside
    the array is not counted as a fault, only its use. *)
Definition get_arc (g : fst W) (state ilabel : Z) : res (option (arc W)) :=
  num_arcs <- count_arcs g state ;;
  if num_arcs =? 0 then Ok None
  else
    start_idx <- getZ (state_idx g) state ;;
    found <- lower_bound (S (Z.to_nat num_arcs)) (arcs_ g) start_idx num_arcs ilabel ;;
    if found =? start_idx + num_arcs then Ok None
    else
      a <- getZ (arcs_ g) found ;;
      Ok (if input_label a =? ilabel then Some a else None).

(** src/fst.cc:156-173, [IterateArcs] followed by [Next] until it gives null. *)
Definition iterate_arcs (g : fst W) (state : Z) : res (list (arc W)) :=
  _ <- check ((0 <=? state) && (state <? lenZ (state_idx g))) Assert ;;
  total <- count_arcs g state ;;
  base <- getZ (state_idx g) state ;;
  for_up 0 total (fun l i => a <- getZ (arcs_ g) (base + i) ;; Ok (l ++ [a])) [].

(** src/fst.cc:175-197, [InitBucket0]: the table for state 0, [None] for the
    label -1 that marks an empty entry. *)
Definition init_bucket (g : fst W) : res (list (option (arc W))) :=
  l <- iterate_arcs g 0 ;;
  let max_ilabel := fold_left (fun m a => if m <? input_label a then input_label a else m) l 0 in
  _ <- check (in_int32 (max_ilabel + 1)) Undef ;;
  for_each l (fun b a => setZ b (input_label a) (Some a)) (repeat None (Z.to_nat (max_ilabel + 1))).

(** src/fst.cc:199-208, [GetBackoffArc]. *)
Definition backoff_arc (g : fst W) (state : Z) : res (option (arc W)) :=
  num_arcs <- count_arcs g state ;;
  if num_arcs =? 0 then Ok None
  else
    start_idx <- getZ (state_idx g) state ;;
    a <- getZ (arcs_ g) start_idx ;;
    Ok (if input_label a =? 0 then Some a else None).

(** src/fst.cc:213-219: the entry of the table for state 0, if it applies. *)
Definition in_bucket (bucket : list (option (arc W))) (state ilabel : Z) : res (option (arc W)) :=
  if (state =? 0) && (size_t ilabel <? lenZ bucket) then
    e <- getZ bucket ilabel ;;
    Ok (match e with
        | Some a => if input_label a =? ilabel then Some a else None
        | None => None
        end)
  else Ok None.

Variable O : fops W.

(** src/fst.cc:210-233, [LmFst::GetArc]. [fuel] bounds the depth of the
    recursion. *)
Fixpoint lm_get_arc (fuel : nat) (g : fst W) (bucket : list (option (arc W))) (state ilabel : Z)
  : res (option (arc W)) :=
  match fuel with
  | Datatypes.O => Fault Fuel
  | S fuel =>
      _ <- check (negb (ilabel =? 0)) Assert ;;
      e <- in_bucket bucket state ilabel ;;
      match e with
      | Some a => Ok (Some a)
      | None =>
          own <- get_arc g state ilabel ;;
          match own with
          | Some a => Ok (Some a)
          | None =>
              b <- backoff_arc g state ;;
              match b with
              | None => Ok None
              | Some b =>
                  r <- lm_get_arc fuel g bucket (next_state b) ilabel ;;
                  Ok (match r with
                      | None => None
                      | Some a => Some (mk_arc (next_state a) (input_label a) (output_label a)
                                          (f_add O (weight a) (weight b)))
                      end)
              end
          end
      end
  end.

(** src/fst.cc:235-251, [LmFst::Final]. *)
Fixpoint lm_final (fuel : nat) (g : fst W) (state : Z) : res W :=
  match fuel with
  | Datatypes.O => Fault Fuel
  | S fuel =>
      final <- fst_final g state ;;
      if f_finite O final then Ok final
      else
        b <- backoff_arc g state ;;
        match b with
        | None => Ok (f_inf O)
        | Some b =>
            final_w <- lm_final fuel g (next_state b) ;;
            Ok (if f_finite O final_w then f_add O final_w (weight b) else f_inf O)
        end
  end.

(** src/fst.h:150-155, the members of [DeltaLmFst]; the language model with its
    table for state 0. *)
Record delta_lm : Type := mk_delta {
  small_lm : list W;
  big_lm : fst W;
  big_bucket : list (option (arc W));
  bos_symbol : Z;
  eos_symbol : Z
}.

(** src/fst.cc:263-272, [DeltaLmFst::StartState]. *)
Definition delta_start (fuel : nat) (d : delta_lm) : res Z :=
  let start := start_state (big_lm d) in
  r <- lm_get_arc fuel (big_lm d) (big_bucket d) start (bos_symbol d) ;;
  Ok (match r with Some a => next_state a | None => start end).

(** src/fst.cc:274-281, [DeltaLmFst::GetArc]. *)
Definition delta_get_arc (fuel : nat) (d : delta_lm) (state ilabel : Z) : res (option (arc W)) :=
  r <- lm_get_arc fuel (big_lm d) (big_bucket d) state ilabel ;;
  match r with
  | None => Ok None
  | Some a =>
      s <- vget (small_lm d) ilabel ;;
      Ok (Some (mk_arc (next_state a) (input_label a) (output_label a) (f_sub O (weight a) s)))
  end.

(** src/fst.cc:283-290, [DeltaLmFst::Final]. *)
Definition delta_final (fuel : nat) (d : delta_lm) (state : Z) : res W :=
  r <- lm_get_arc fuel (big_lm d) (big_bucket d) state (eos_symbol d) ;;
  match r with
  | None => Ok (f_inf O)
  | Some a =>
      f <- lm_final fuel (big_lm d) (next_state a) ;;
      s <- vget (small_lm d) (eos_symbol d) ;;
      Ok (f_sub O (f_add O f (weight a)) s)
  end.

End Queries.
Arguments mk_delta {W}. Arguments small_lm {W}. Arguments big_lm {W}. Arguments big_bucket {W}.
Arguments bos_symbol {W}. Arguments eos_symbol {W}. Arguments delta_lm : clear implicits.

Section Cache.
Context {W : Type}.

(** src/fst.h:174: a bucket is a state and an arc; the arc is not initialised. *)
Notation bucket := (Z * option (arc W))%type.

(** src/fst.cc:292-297, the constructor of [CachedFst]. *)
Definition new_cache (bucket_size : Z) : res (list bucket) :=
  _ <- check (0 <=? bucket_size) Throw ;; Ok (repeat (-1, None) (Z.to_nat bucket_size)).

(** src/fst.h:178-184, [Hash], in [int] arithmetic. *)
Definition cache_hash (state ilabel : Z) : res Z :=
  let a := 19 * 31 + state in
  _ <- check (in_int32 a) Undef ;;
  _ <- check (in_int32 (a * 31)) Undef ;;
  let h := a * 31 + ilabel in
  _ <- check (in_int32 h) Undef ;;
  Ok h.

(** src/fst.cc:307-327, [CachedFst::GetArc] over the lookup function [query]. *)
Definition cached_get_arc (query : Z -> Z -> res (option (arc W))) (c : list bucket)
  (state ilabel : Z) : res (option (arc W) * list bucket) :=
  if state =? 0 then r <- query state ilabel ;; Ok (r, c)
  else
    h <- cache_hash state ilabel ;;
    _ <- check (negb (lenZ c =? 0)) Undef ;;
    let idx := wrap32 (size_t h mod lenZ c) in
    item <- getZ c idx ;;
    let '(key, cached) := item in
    hit <- (if key =? state then
              match cached with
              | None => Fault Undef
              | Some a => Ok (input_label a =? ilabel)
              end
            else Ok false) ;;
    if hit : bool then Ok (cached, c)
    else
      r <- query state ilabel ;;
      match r with
      | None => Ok (None, c)
      | Some a => c <- setZ c idx (state, Some a) ;; Ok (Some a, c)
      end.

End Cache.
