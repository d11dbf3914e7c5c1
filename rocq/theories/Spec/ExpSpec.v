(** What is assumed of exp and log in double precision: coarse bounds that hold
    for every implementation of some quality. *)
From Coq Require Import ZArith List Bool Floats.SpecFloat.
From Verif.Base Require Import Prelude.
From Verif.Model Require Import Ieee.
From Verif.Spec Require Import LibmSpec.
Open Scope Z_scope.

Definition plus_inf : float32 := f32 (S754_infinity false).
Definition minus_inf : float32 := f32 (S754_infinity true).

Definition above64 (n e : Z) (x : float64) : Prop := SFleb (num64 n e) (fl_val x) = true.
Definition below64 (n e : Z) (x : float64) : Prop := SFleb (fl_val x) (num64 n e) = true.
Definition above32 (n e : Z) (x : float32) : Prop := SFleb (num32 n e) (fl_val x) = true.
Definition below32 (n e : Z) (x : float32) : Prop := SFleb (fl_val x) (num32 n e) = true.

(** Up to 80. *)
Record sane_exp (L : library) : Prop := {
  se_low : forall x, is_finite (fl_val x) = true -> below64 80 0 x -> above64 0 0 (lib_exp L x) /\ below64 1 116 (lib_exp L x);
  (** exp (-80) is more than 2 ^ -116 *)
  se_mid : forall x, below64 80 0 x -> above64 (-80) 0 x -> above64 1 (-116) (lib_exp L x);
  (** |log x| <= 128 for 2 ^ -116 <= x <= 2 ^ 127 *)
  se_log : forall x, above64 1 (-116) x -> below64 1 127 x -> in64 (1, 7) (lib_log L x)
}.

(** Beyond the range of single precision. *)
Record steep_exp (L : library) : Prop := {
  st_sign : forall x, is_finite (fl_val x) = true -> above64 0 0 (lib_exp L x);
  (** exp 89 is more than 2 ^ 128 *)
  st_over : forall x, is_finite (fl_val x) = true -> above64 89 0 x -> above64 1 128 (lib_exp L x);
  (** exp (-105) is less than 2 ^ -151 *)
  st_under : forall x, is_finite (fl_val x) = true -> below64 (-105) 0 x -> below64 1 (-151) (lib_exp L x);
  st_inf : fl_val (lib_log L (f64 (S754_infinity false))) = S754_infinity false;
  st_zero : forall s, fl_val (lib_log L (f64 (S754_zero s))) = S754_infinity true
}.

(** The activations of the units for one frame: none above 80, one of at least
    -80, none below -2 ^ 98. *)
Record mild (row : list float32) : Prop := {
  mi_values : Forall (fun x => in32 (1, 98) x /\ below32 80 0 x) row;
  mi_some : Exists (above32 (-80) 0) row;
  mi_few : lenZ row < 1024
}.
