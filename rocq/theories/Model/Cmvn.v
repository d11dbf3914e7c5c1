(** Model of src/cmvn.h and src/cmvn.cc: mean normalisation with a sliding
    window. *)
From Coq Require Import ZArith List Bool.
From Verif.Base Require Import Prelude.
From Verif.Model Require Import Arith Vector Nnet.
Import ListNotations.
Open Scope Z_scope.

(** The operations on [double] and the conversions used there. *)
Record wide_ops (F D : Type) : Type := mk_wide {
  wd_of : F -> D;                  (* conversion of float to double *)
  wd_to : D -> F;                  (* conversion of double to float *)
  wd_int : Z -> D;                 (* a whole number as a double *)
  wd_add : D -> D -> D;
  wd_sub : D -> D -> D;
  wd_mul : D -> D -> D;
  wd_div : D -> D -> D;
  wd_le : D -> D -> bool;          (* x <= y, false for NaN *)
  wd_lt : D -> D -> bool;          (* x < y, false for NaN *)
  wd_neg : F -> F                  (* - x on float *)
}.
Arguments mk_wide {F D}. Arguments wd_of {F D}. Arguments wd_to {F D}. Arguments wd_int {F D}.
Arguments wd_add {F D}. Arguments wd_sub {F D}. Arguments wd_mul {F D}. Arguments wd_div {F D}.
Arguments wd_le {F D}. Arguments wd_lt {F D}. Arguments wd_neg {F D}.

Definition fbank_dim : Z := 40.          (* PK_FBANK_DIM, src/fbank.h:10 *)
Definition cmvn_window : Z := 600.       (* PK_ONLINECMVN_WINDOW, src/cmvn.h:10 *)
Definition cmvn_global : Z := 200.       (* PK_ONLINECMVN_GLOBALFRAMES, src/cmvn.h:11 *)

Section Cmvn.
Context {F D : Type}.
Variable O : fops F.
Variable W : wide_ops F D.

(** src/cmvn.h:29-32, the members. *)
Record cmvn : Type := mk_cmvn {
  n_raw : matrix F;
  n_global : list F;
  n_stats : list F;
  n_frame : Z
}.

(** src/cmvn.cc:113-119, the constructor. *)
Definition cmvn_new (global : list F) (raw : matrix F) : cmvn := mk_cmvn raw global [] (-1).

(** [Range(0, 40)] of a vector of doubles, to which [alpha] times a vector of
    floats is added (src/vector.cc:239-258); the rest stays. *)
Definition add_range (alpha : Z) (stats : list D) (feats : list F) : res (list D) :=
  _ <- check (fbank_dim <=? lenZ stats) Assert ;;
  _ <- check (fbank_dim =? lenZ feats) Assert ;;
  Ok (map2 (fun s x => wd_add W s (if alpha =? 1 then wd_of W x else wd_mul W (wd_int W alpha) (wd_of W x)))
           (firstn (Z.to_nat fbank_dim) stats) feats ++ skipn (Z.to_nat fbank_dim) stats).

(** [Row] of the raw features. *)
Definition raw_row (c : cmvn) (r : Z) : res (list F) :=
  _ <- check (r <? lenZ (n_raw c)) Assert ;; getZ (n_raw c) r.

(** src/cmvn.cc:34-68, [ComputeStats]. *)
Definition compute_stats (c : cmvn) (frame : Z) : res (list F * cmvn) :=
  _ <- check (n_frame c =? frame - 1) Assert ;;
  feats <- raw_row c frame ;;
  stats <- (if 0 <=? n_frame c
            then _ <- check (lenZ (n_stats c) =? fbank_dim + 1) Assert ;; Ok (map (wd_of W) (n_stats c))
            else Ok (repeat (wd_int W 0) (Z.to_nat (fbank_dim + 1)))) ;;
  _ <- check (lenZ feats =? fbank_dim) Assert ;;
  stats <- add_range 1 stats feats ;;
  n <- vget stats fbank_dim ;;
  stats <- vset stats fbank_dim (wd_add W n (wd_int W 1)) ;;
  let prev := frame - cmvn_window in
  stats <- (if 0 <=? prev
            then
              feats <- raw_row c prev ;;
              stats <- add_range (-1) stats feats ;;
              n <- vget stats fbank_dim ;;
              vset stats fbank_dim (wd_sub W n (wd_int W 1))
            else Ok stats) ;;
  let out := map (wd_to W) stats in
  Ok (out, mk_cmvn (n_raw c) (n_global c) out frame).

(** src/cmvn.cc:70-89, [SmoothStats]. [AddVec] does not multiply by a factor of
    one; the product is the same. *)
Definition smooth_stats (c : cmvn) (stats : list F) : res (list F) :=
  _ <- check (lenZ stats =? fbank_dim + 1) Assert ;;
  _ <- check (lenZ (n_global c) =? fbank_dim + 1) Assert ;;
  n <- vget stats fbank_dim ;;
  let count := wd_of W n in
  _ <- check (wd_le W count (wd_int W cmvn_window)) Assert ;;
  if wd_le W (wd_int W cmvn_window) count then Ok stats
  else
    let from_global := wd_sub W (wd_int W cmvn_window) count in
    g <- vget (n_global c) fbank_dim ;;
    let global_count := wd_of W g in
    _ <- check (wd_lt W (wd_int W 0) global_count) Assert ;;
    let from_global := if wd_lt W (wd_int W cmvn_global) from_global then wd_int W cmvn_global else from_global in
    add_vec_scaled O (wd_to W (wd_div W from_global global_count)) stats (n_global c).

(** src/cmvn.cc:91-98, [Apply]. *)
Definition apply_stats (stats feats : list F) : res (list F) :=
  _ <- check ((lenZ feats =? lenZ stats - 1) && (lenZ feats =? fbank_dim)) Assert ;;
  n <- vget stats fbank_dim ;;
  let count := wd_of W n in
  _ <- check (wd_lt W (wd_int W 0) count) Assert ;;
  let scale := wd_to W (wd_div W (wd_int W 1) count) in
  sums <- vrange stats 0 (lenZ feats) ;;
  add_vec_scaled O (wd_neg W scale) feats sums.

(** src/cmvn.cc:100-110, [GetFrame] into a vector of dimension [dim]. *)
Definition get_frame (c : cmvn) (frame dim : Z) : res (list F * cmvn) :=
  '(stats, c) <- compute_stats c frame ;;
  stats <- smooth_stats c stats ;;
  feats <- raw_row c frame ;;
  feats <- vcopy dim feats ;;
  feats <- apply_stats stats feats ;;
  Ok (feats, c).

(** Frames requested one after the other. *)
Fixpoint get_frames (c : cmvn) (frames : list Z) : res (list (list F) * cmvn) :=
  match frames with
  | [] => Ok ([], c)
  | f :: frames =>
      '(out, c) <- get_frame c f fbank_dim ;;
      '(outs, c) <- get_frames c frames ;;
      Ok (out :: outs, c)
  end.

End Cmvn.

Arguments cmvn : clear implicits.
