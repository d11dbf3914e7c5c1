(** Model of src/fbank.cc. The frame shift is 160 samples and the frame length
    400 (src/fbank.cc:15-16 with the constants of src/fbank.h:7-9). *)
From Coq Require Import ZArith List Bool.
From Verif.Base Require Import Prelude.
From Verif.Model Require Import Arith Vector.
Import ListNotations.
Open Scope Z_scope.

Definition frame_shift : Z := 160.
Definition frame_length : Z := 400.
Definition fbank_dim : Z := 40.

(** src/fbank.cc:24-33, [RoundUpToNearestPowerOfTwo]. The final addition can
    overflow. *)
Definition round_up (n : Z) : res Z :=
  _ <- check (0 <? n) Assert ;;
  let n := n - 1 in
  let n := Z.lor n (Z.shiftr n 1) in
  let n := Z.lor n (Z.shiftr n 2) in
  let n := Z.lor n (Z.shiftr n 4) in
  let n := Z.lor n (Z.shiftr n 8) in
  let n := Z.lor n (Z.shiftr n 16) in
  _ <- check (in_int32 (n + 1)) Undef ;;
  Ok (n + 1).

(** src/fbank.cc:35-42, [CalcNumFrames]. *)
Definition calc_num_frames (num_samples : Z) : Z :=
  if num_samples <? frame_length then 0
  else 1 + Z.quot (num_samples - frame_length) frame_shift.

Section Float.
Context {F : Type} (O : fops F).

(** src/fbank.cc:44-69, [ProcessWindow], in place on [w]. *)
Definition process_window (window_function w : list F) : res (list F) :=
  let dim := lenZ w in
  sum <- for_up 0 dim (fun s i => x <- vget w i ;; Ok (f_add O s x)) (f_zero O) ;;
  let mean := f_div O sum (f_int O dim) in
  w <- for_up 0 dim (fun w i => x <- vget w i ;; vset w i (f_sub O x mean)) w ;;
  w <- for_down (dim - 1) 0 (fun w i =>
         x <- vget w i ;; y <- vget w (i - 1) ;; vset w i (f_preemph O x y)) w ;;
  x <- vget w 0 ;;
  w <- vset w 0 (f_preemph O x x) ;;
  _ <- check (lenZ window_function =? lenZ w) Assert ;;
  for_up 0 (lenZ window_function) (fun w i =>
    x <- vget w i ;; y <- vget window_function i ;; vset w i (f_mul O x y)) w.

(** src/fbank.cc:74-100, [ExtractWindow] into a window of dimension [dim]. The
    zero padding is written before [ProcessWindow], which only touches the
    first [FRAME_LENGTH] elements. *)
Definition extract_window (wave : list F) (frame_idx : Z) (window_function : list F) (dim : Z)
  : res (list F) :=
  let start := frame_idx * frame_shift in
  _ <- check ((0 <=? start) && (start + frame_length <=? lenZ wave)) Assert ;;
  _ <- check (frame_length <=? dim) Assert ;;
  w <- vrange wave start frame_length ;;
  w <- process_window window_function w ;;
  Ok (w ++ repeat (f_zero O) (Z.to_nat (dim - frame_length))).

(** src/fbank.cc:193-211, [ComputePowerSpectrum], in place. *)
Definition power_spectrum (w : list F) : res (list F) :=
  let dim := lenZ w in
  _ <- check (0 <? dim) Assert ;;
  let half_dim := Z.quot dim 2 in
  a <- vget w 0 ;;
  b <- vget w 1 ;;
  let first_energy := f_mul O a a in
  let last_energy := f_mul O b b in
  w <- for_up 1 half_dim (fun w i =>
         re <- vget w (i * 2) ;;
         im <- vget w (i * 2 + 1) ;;
         vset w i (f_add O (f_mul O re re) (f_mul O im im))) w ;;
  w <- vset w 0 first_energy ;;
  vset w half_dim last_energy.

(** src/vector.cc:81-92, [VecVec]. *)
Definition vec_vec (a b : list F) : res F :=
  _ <- check (lenZ b =? lenZ a) Assert ;;
  for_up 0 (lenZ b) (fun s i => x <- getZ a i ;; y <- getZ b i ;; Ok (f_add O s (f_mul O x y))) (f_zero O).

(** src/fbank.cc:165-184, [Melbanks::Compute]; [bins] lists offset and weights
    of the 40 filters. The warning about NaN is not modelled. *)
Definition mel_compute (bins : list (Z * list F)) (spectrum : list F) : res (list F) :=
  for_each bins (fun out '(offset, bin) =>
    sub <- vrange spectrum offset (lenZ bin) ;;
    e <- vec_vec bin sub ;;
    Ok (out ++ [e])) [].

(** src/vector.cc:166-176, [ApplyFloor]; the count is not used. *)
Definition apply_floor (floor : F) (v : list F) : list F :=
  map (fun x => if f_lt O x floor then floor else x) v.

(** src/vector.cc:178-184, [ApplyLog]. *)
Definition apply_log (v : list F) : res (list F) :=
  for_each v (fun out x => _ <- check (f_nonneg O x) Assert ;; Ok (out ++ [f_log O x])) [].

(** The members of [Fbank] (src/fbank.h): the padded frame length, the window
    function, the filters and the Fourier transform. The transform
    (src/srfft.cc) and the tables (src/fbank.cc:103-163, 248-263) are
    parameters here; Model/FbankInit.v constructs them. *)
Record fbank : Type := mk_fbank {
  fb_padded : Z;
  fb_window : list F;
  fb_bins : list (Z * list F);
  fb_fft : list F -> res (list F)
}.

(** src/fbank.cc:219-245, [ComputeFrame]. *)
Definition compute_frame (fb : fbank) (w : list F) : res (list F) :=
  w <- fb_fft fb w ;;
  w <- power_spectrum w ;;
  feature <- mel_compute (fb_bins fb) w ;;
  apply_log (apply_floor (f_eps O) feature).

(** src/fbank.cc:265-314, [Process]; the state is the wave buffer. The result
    is the list of feature rows. [Resize(0, 40)] fails an assertion in
    [Matrix::Init] (src/matrix.cc:65-66). *)
Definition fbank_process (fb : fbank) (buffer wave : list F) : res (list (list F) * list F) :=
  if lenZ wave =? 0 then Fault Assert
  else
    let buffer := buffer ++ wave in
    _ <- vec_init 4 (lenZ buffer) ;;
    let num_frames := calc_num_frames (lenZ buffer) in
    if num_frames =? 0 then Ok ([], buffer)
    else
      rows <- for_up 0 num_frames (fun rows i =>
                w <- extract_window buffer i (fb_window fb) (fb_padded fb) ;;
                row <- compute_frame fb w ;;
                Ok (rows ++ [row])) [] ;;
      let remove := frame_shift * num_frames in
      next <- vrange buffer remove (lenZ buffer - remove) ;;
      Ok (rows, next).

(** A sequence of [Process] calls. *)
Fixpoint fbank_run (fb : fbank) (buffer : list F) (waves : list (list F))
  : res (list (list (list F)) * list F) :=
  match waves with
  | [] => Ok ([], buffer)
  | w :: ws =>
      '(rows, buffer) <- fbank_process fb buffer w ;;
      '(l, buffer) <- fbank_run fb buffer ws ;;
      Ok (rows :: l, buffer)
  end.

End Float.
Arguments mk_fbank {F}. Arguments fb_padded {F}. Arguments fb_window {F}.
Arguments fb_bins {F}. Arguments fb_fft {F}. Arguments fbank : clear implicits.
