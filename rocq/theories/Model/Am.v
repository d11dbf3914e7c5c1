(** Model of src/am.cc, the acoustic model; [Read] is in Model/Loading.v. *)
From Coq Require Import ZArith List Bool.
From Verif.Base Require Import Prelude.
From Verif.Model Require Import Arith Vector Nnet.
Import ListNotations.
Open Scope Z_scope.

(** The members of [AcousticModel] (src/am.h) used here; the network is any
    function from matrices to matrices. *)
Record am (F : Type) : Type := mk_am {
  am_left : Z;
  am_right : Z;
  am_chunk : Z;
  am_prior : list F;                        (* log_prior_ *)
  am_nnet : matrix F -> res (matrix F)
}.
Arguments mk_am {F}. Arguments am_left {F}. Arguments am_right {F}. Arguments am_chunk {F}.
Arguments am_prior {F}. Arguments am_nnet {F}.

(** [AcousticModel::Instance] (src/am.h). *)
Record am_inst (F : Type) : Type := mk_inst {
  i_feats : list (list F);
  i_started : bool
}.
Arguments mk_inst {F}. Arguments i_feats {F}. Arguments i_started {F}.

Definition inst_init {F} : am_inst F := mk_inst [] false.

Section Float.
Context {F : Type} (O : fops F).

(** src/am.cc:73-80, [BatchAvailable]. *)
Definition batch_available (a : am F) (feats : list (list F)) : res bool :=
  _ <- check (in_int32 (am_left a + am_right a)) Undef ;;
  _ <- check (in_int32 (am_left a + am_right a + am_chunk a)) Undef ;;
  Ok (am_left a + am_right a + am_chunk a <=? lenZ feats).

(** src/am.cc:82-113, [ComputeBatch]; [batch_size] -1 is [kBatchSizeAll]. A
    batch of size 0 resizes the output to no rows and its old number of columns,
    which is taken to be 0. *)
Definition compute_batch (a : am F) (feats : list (list F)) (batch_size : Z) : res (matrix F) :=
  let all := wrap32 (lenZ feats - am_left a - am_right a) in
  _ <- check (negb (batch_size =? -1) || (0 <? all)) Assert ;;
  let batch := if batch_size =? -1 then all else batch_size in
  if batch =? 0 then Ok []
  else
    let n := batch + am_left a + am_right a in
    _ <- check (in_int32 (batch + am_left a)) Undef ;;
    _ <- check (in_int32 n) Undef ;;
    _ <- check ((0 <=? n) && (n <=? lenZ feats)) Assert ;;
    first <- getZ feats 0 ;;
    let dim := lenZ first in
    _ <- mat_shape n dim ;;
    input <- map_rows (vcopy dim) (firstn (Z.to_nat n) feats) ;;
    out <- am_nnet a input ;;
    _ <- check (lenZ out =? batch) Assert ;;
    map_rows (fun row => add_vec_scaled O (f_minus_one O) row (am_prior a)) out.

(** src/am.cc:115-142, [Process]. *)
Definition am_process (a : am F) (i : am_inst F) (frame : list F) : res (matrix F * am_inst F) :=
  let feats := if i_started i then i_feats i
               else i_feats i ++ repeat frame (Z.to_nat (am_left a)) in
  let feats := feats ++ [frame] in
  avail <- batch_available a feats ;;
  if avail then
    out <- compute_batch a feats (am_chunk a) ;;
    _ <- check (am_chunk a <=? lenZ feats) Undef ;;
    Ok (out, mk_inst (skipn (Z.to_nat (am_chunk a)) feats) true)
  else Ok ([], mk_inst feats true).

(** src/am.cc:144-164, [EndOfStream]. The comparison of line 158 is one of
    [size_t] values. *)
Definition am_end (a : am F) (i : am_inst F) : res (matrix F * am_inst F) :=
  match rev (i_feats i) with
  | [] => Ok ([], i)
  | last :: _ =>
      let feats := i_feats i ++ repeat last (Z.to_nat (am_right a)) in
      _ <- check (in_int32 (am_left a + am_right a)) Undef ;;
      let i := mk_inst feats (i_started i) in
      if lenZ feats <=? size_t (am_left a + am_right a) then Ok ([], i)
      else out <- compute_batch a feats (-1) ;; Ok (out, i)
  end.

(** Feeding frames one at a time. *)
Fixpoint am_run (a : am F) (i : am_inst F) (frames : list (list F))
  : res (list (matrix F) * am_inst F) :=
  match frames with
  | [] => Ok ([], i)
  | f :: fs =>
      '(m, i) <- am_process a i f ;;
      '(l, i) <- am_run a i fs ;;
      Ok (m :: l, i)
  end.

End Float.
