(** Tables of a feature extractor that fit together. *)
From Coq Require Import ZArith List.
From Verif.Base Require Import Prelude.
From Verif.Model Require Import Arith Fbank.
Import ListNotations.
Open Scope Z_scope.

Definition tables_fit {F} (fb : fbank F) : Prop :=
  fb_padded fb = 512 /\ length (fb_window fb) = 400%nat /\
  Forall (fun b => 0 <= fst b /\ fst b + lenZ (snd b) <= 512) (fb_bins fb) /\
  forall w, lenZ w = 512 -> exists w', fb_fft fb w = Ok w' /\ lenZ w' = 512.

(** Sum of products, accumulated from the left. *)
Definition dot_product {F} (O : fops F) (a b : list F) : F :=
  fold_left (fun t p => f_add O t (f_mul O (fst p) (snd p))) (combine a b) (f_zero O).
