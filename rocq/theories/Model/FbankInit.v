(** Model of the constructors in src/fbank.cc: the mel filters, the Hamming
    window and the feature extractor with its Fourier transform. *)
From Coq Require Import ZArith List Bool.
From Verif.Base Require Import Prelude.
From Verif.Model Require Import Arith Vector Fbank Srfft.
Import ListNotations.
Open Scope Z_scope.

(** The operations used beyond those of Model/Arith.v and Model/Srfft.v. *)
Record init_ops (F : Type) : Type := mk_init {
  i_logf : F -> F;              (* logf *)
  i_le : F -> F -> bool;        (* x <= y, false for NaN *)
  i_step : Z -> F;              (* M_2PI / n, rounded to float *)
  i_hamming : F -> F            (* 0.54 - 0.46 * cos(x), rounded to float *)
}.
Arguments mk_init {F}. Arguments i_logf {F}. Arguments i_le {F}. Arguments i_step {F}. Arguments i_hamming {F}.

Section Init.
Context {F : Type}.
Variable O : fops F.
Variable T : trig_ops F.
Variable I : init_ops F.
Variable junk : nat -> F.
Variable junk_int : nat -> Z.

(** src/fbank.h:30-32, [MelScale]. *)
Definition mel_scale (freq : F) : F :=
  f_mul O (f_int O 1127) (i_logf I (f_add O (f_int O 1) (f_div O freq (f_int O 700)))).

(** src/fbank.cc:131-155, the loop over the bins of the transform; the state is
    the filter and the first and the last index set. *)
Definition mel_bin (width left center right : F) (n : Z) : res (list F * Z * Z) :=
  for_up 0 n (fun '(bin, first, last) i =>
    let freq := f_mul O width (f_int O i) in
    let mel := mel_scale freq in
    if f_lt O left mel && f_lt O mel right then
      let weight := if i_le I mel center
                    then f_div O (f_sub O mel left) (f_sub O center left)
                    else f_div O (f_sub O right mel) (f_sub O right center) in
      bin <- vset bin i weight ;;
      Ok (bin, if first =? -1 then i else first, i)
    else Ok (bin, first, last)) (repeat (f_zero O) (Z.to_nat n), -1, -1).

(** src/fbank.cc:103-163, the constructor of [Melbanks]. [PK_FBANK_DIM] is 40,
    the frequencies are 20 and 8000 (src/fbank.h:10-12). The comparison
    [mel > left_mel] is [left_mel < mel]. *)
Definition melbanks (padded : Z) : res (list (Z * list F)) :=
  _ <- check (Z.rem padded 2 =? 0) Assert ;;
  let n := Z.quot padded 2 in
  let width := f_div O (f_int O 16000) (f_int O padded) in
  let low := mel_scale (f_int O 20) in
  let high := mel_scale (f_int O 8000) in
  let delta := f_div O (f_sub O high low) (f_int O (fbank_dim + 1)) in
  for_up 0 fbank_dim (fun bins idx =>
    let left := f_add O low (f_mul O (f_int O idx) delta) in
    let center := f_add O low (f_mul O (f_int O (idx + 1)) delta) in
    let right := f_add O low (f_mul O (f_int O (idx + 2)) delta) in
    '(bin, first, last) <- mel_bin width left center right n ;;
    _ <- check (negb (first =? -1) && (first <? last)) Assert ;;
    sub <- vrange bin first (last + 1 - first) ;;
    Ok (bins ++ [(first, sub)])) [].

(** src/fbank.cc:248-255, [HammingWindowInit]. *)
Definition hamming : list F :=
  let a := i_step I (frame_length - 1) in
  map (fun i => i_hamming I (f_mul O a (f_int O i))) (seqZ 0 (Z.to_nat frame_length)).

(** src/fbank.cc:257-263, the constructor. The transform is called as in
    src/fbank.cc:228-233, with a work buffer as long as the window. In the code
    all frames of a call to [Process] share that buffer; here it holds [junk]
    each time, which makes no difference (fft_ignores_work_buffer). *)
Definition fbank_new : res (fbank F) :=
  padded <- round_up frame_length ;;
  bins <- melbanks padded ;;
  f <- srfft_new O T junk junk_int padded ;;
  Ok (mk_fbank padded hamming bins (fun w =>
    '(w, _) <- compute O T f w (lenZ w) true (malloc junk padded) padded ;; Ok w)).
End Init.
