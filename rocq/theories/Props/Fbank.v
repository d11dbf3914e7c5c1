(** Properties of the feature extraction (C22 to C25, C60, C61), for any interpretation of
    the floating-point operations. *)
From Coq Require Import ZArith List.
From Verif.Base Require Import Prelude.
From Verif.Model Require Import Arith Vector Fbank.
From Verif.Spec Require Import AudioSpec FbankSpec.
From Verif.Proof Require Fbank FbankStream FbankTotal FbankFrame ZOps.
Import ListNotations.
Open Scope Z_scope.

(** C22 for pieces below 536870000 samples: streaming gives, for each window of
    400 samples at multiples of 160, the row that a fresh extractor gives for
    this window alone. *)
Theorem stream_features_partial : forall F (O : fops F) (fb : fbank F) (ps : list (list F)),
  Forall (fun p => p <> [] /\ lenZ p < 536870000) ps ->
  (forall w, In w (windows 400 160 (concat ps)) -> exists r b, fbank_process O fb [] w = Ok ([r], b)) ->
  exists outs b, fbank_run O fb [] ps = Ok (outs, b) /\
    Forall2 (fun w r => exists b, fbank_process O fb [] w = Ok ([r], b))
      (windows 400 160 (concat ps)) (concat outs).
Proof. exact @Proof.FbankStream.stream_features. Qed.
Print Assumptions stream_features_partial.

(** C22 is false for a piece of 2^30 samples. *)
Theorem stream_features_refuted : forall F (O : fops F) (fb : fbank F) p,
  lenZ p = 1073741824 -> fbank_process O fb [] p = Fault Undef.
Proof. exact @Proof.FbankStream.huge_wave. Qed.
Print Assumptions stream_features_refuted.

(** An empty piece, which C22 excludes, fails an assertion. *)
Theorem empty_piece_asserts : forall F (O : fops F) (fb : fbank F) b,
  fbank_process O fb b [] = Fault Assert.
Proof. exact @Proof.FbankStream.empty_wave. Qed.
Print Assumptions empty_piece_asserts.

(** C60: with tables that fit together (512-point transform, window of 400,
    filters inside the spectrum) and floored energies that are not negative (so
    not NaN), extraction never fails, each row has one value per filter, and the
    number of rows is that of the windows. *)
Theorem stream_features_total_partial : forall F (O : fops F) (fb : fbank F) (ps : list (list F)),
  tables_fit fb ->
  (forall x, f_nonneg O (if f_lt O x (f_eps O) then f_eps O else x) = true) ->
  Forall (fun p => p <> [] /\ lenZ p < 536870000) ps ->
  exists outs b, fbank_run O fb [] ps = Ok (outs, b) /\
    length (concat outs) = num_windows 400 160 (length (concat ps)) /\
    Forall (fun r => length r = length (fb_bins fb)) (concat outs).
Proof. exact @Proof.FbankTotal.stream_total. Qed.
Print Assumptions stream_features_total_partial.

(** 100 and 470 samples give two frames. *)
Example stream_case :
  Forall (fun p => p <> [] /\ lenZ p < 536870000) Proof.ZOps.zpieces /\
  exists outs b, fbank_run Proof.ZOps.zops Proof.ZOps.zbank [] Proof.ZOps.zpieces = Ok (outs, b) /\
    length (concat outs) = 2%nat.
Proof. exact Proof.FbankTotal.stream_case. Qed.

(** C61: the row of a single frame. *)
Theorem feature_row_formula : forall F (O : fops F) (fb : fbank F) w r b, length w = 400%nat ->
  fbank_process O fb [] w = Ok ([r], b) ->
  exists x y s,
    process_window O (fb_window fb) w = Ok x /\
    fb_fft fb (x ++ repeat (f_zero O) (Z.to_nat (fb_padded fb - 400))) = Ok y /\
    power_spectrum O y = Ok s /\
    r = map (fun b => let e := dot_product O (snd b) (skipn (Z.to_nat (fst b)) s) in
                      f_log O (if f_lt O e (f_eps O) then f_eps O else e)) (fb_bins fb).
Proof. exact @Proof.FbankFrame.frame_formula. Qed.
Print Assumptions feature_row_formula.

(** C23. *)
Theorem round_up_least_power : forall n, 1 <= n <= 2 ^ 30 ->
  exists k, round_up n = Ok (2 ^ k) /\ 0 <= k /\ n <= 2 ^ k /\
    (forall j, 0 <= j -> n <= 2 ^ j -> 2 ^ k <= 2 ^ j).
Proof. exact Proof.Fbank.round_up_ok. Qed.
Print Assumptions round_up_least_power.

Example round_up_case : round_up 400 = Ok 512.
Proof. exact (eq_refl _). Qed.

(** C24: bin 0 and the last bin are real, packed in the first two elements. *)
Theorem power_spectrum_in_place : forall F (O : fops F) w d h,
  (1 <= h)%nat -> length w = (2 * h)%nat ->
  exists out, power_spectrum O w = Ok out /\ length out = length w /\
    nth 0 out d = f_mul O (nth 0 w d) (nth 0 w d) /\
    nth h out d = f_mul O (nth 1 w d) (nth 1 w d) /\
    forall i, (1 <= i < h)%nat ->
      nth i out d = f_add O (f_mul O (nth (2 * i) w d) (nth (2 * i) w d))
                            (f_mul O (nth (2 * i + 1) w d) (nth (2 * i + 1) w d)).
Proof. exact @Proof.Fbank.power_spectrum_ok. Qed.
Print Assumptions power_spectrum_in_place.

Example power_case : power_spectrum Proof.ZOps.zops [1; 2; 3; 4; 5; 6] = Ok [1; 25; 61; 4; 5; 6].
Proof. exact (eq_refl _). Qed.

(** C25; [f_preemph x y] is x - 0.97 y. *)
Theorem window_processing : forall F (O : fops F) wf w d, w <> [] -> length wf = length w ->
  exists out, process_window O wf w = Ok out /\ length out = length w /\
    let mean := f_div O (fold_left (f_add O) w (f_zero O)) (f_int O (lenZ w)) in
    let x := fun i => f_sub O (nth i w d) mean in
    forall i, (i < length w)%nat ->
      nth i out d = f_mul O (f_preemph O (x i) (x (i - 1)%nat)) (nth i wf d).
Proof. exact @Proof.Fbank.process_window_ok. Qed.
Print Assumptions window_processing.

(** Mean 2: the centred frame is -1 1 3 -3; its differences are weighted. *)
Example window_case : process_window Proof.ZOps.zops [1; 2; 3; 4] [1; 3; 5; -1] = Ok [0; 4; 6; -24].
Proof. exact (eq_refl _). Qed.
