(** What is assumed of cos, sin and logf: coarse bounds that hold for every
    implementation of some quality. *)
From Coq Require Import ZArith Bool Floats.SpecFloat.
From Verif.Model Require Import Ieee IeeeFbank.
Open Scope Z_scope.

(** [n * 2 ^ e] in both formats, for small [n] and [e]. *)
Definition num32 (n e : Z) : spec_float := binary_normalize 24 128 n e false.
Definition num64 (n e : Z) : spec_float := binary_normalize 53 1024 n e false.

(** [- b <= x <= b]; [x] is not a NaN. *)
Definition in32 (b : Z * Z) (x : float32) : Prop :=
  SFleb (num32 (- fst b) (snd b)) (fl_val x) = true /\ SFleb (fl_val x) (num32 (fst b) (snd b)) = true.
Definition in64 (b : Z * Z) (x : float64) : Prop :=
  SFleb (num64 (- fst b) (snd b)) (fl_val x) = true /\ SFleb (fl_val x) (num64 (fst b) (snd b)) = true.

Record libm (M : trig_library) : Prop := {
  lm_cos : forall x, is_finite (fl_val x) = true -> in32 (1, 0) (lib_cos M x);
  lm_sin : forall x, is_finite (fl_val x) = true -> in32 (1, 0) (lib_sin M x);
  (** |sin x| <= 1/64 for |x| <= 1/64 *)
  lm_sin_small : forall x, in32 (1, -6) x -> in32 (1, -6) (lib_sin M x);
  lm_cos_wide : forall x, is_finite (fl_val x) = true -> in64 (1, 0) (lib_cos_wide M x);
  (** |logf x| <= 4 for 1 <= x <= 16 *)
  lm_logf : forall x, SFleb (num32 1 0) (fl_val x) = true -> in32 (1, 4) x -> in32 (1, 2) (lib_logf M x)
}.

(** |log x| <= 128 for 2 ^ -23 <= x <= 2 ^ 128, in double precision. *)
Definition sane_log (L : library) : Prop :=
  forall x, SFleb (num64 1 (-23)) (fl_val x) = true -> SFleb (fl_val x) (num64 1 128) = true -> in64 (1, 7) (lib_log L x).

(** Samples: finite numbers of at most 2 ^ 31. *)
Definition sample (x : float32) : Prop := in32 (1, 31) x.
