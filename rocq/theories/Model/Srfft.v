(** Model of src/srfft.h and src/srfft.cc: the Fourier transform. *)
From Coq Require Import ZArith List Bool.
From Verif.Base Require Import Prelude.
From Verif.Model Require Import Arith Vector Matrix.
Import ListNotations.
Open Scope Z_scope.

(** The operations used beyond those of Model/Arith.v. *)
Record trig_ops (F : Type) : Type := mk_trig {
  t_angle : Z -> Z -> F;           (* n * M_2PI / m, rounded to float *)
  t_root : Z -> Z -> F;            (* M_2PI / n * sign, rounded to float *)
  t_cos : F -> F;                  (* cos, rounded to float *)
  t_sin : F -> F;                  (* sin, rounded to float *)
  t_neg : F -> F;                  (* - x *)
  t_sqhalf : F;                    (* M_SQRT1_2, rounded to float *)
  t_half : F -> F;                 (* 0.5 * x *)
  t_neg_half : F -> F;             (* -0.5 * x *)
  t_halve : F -> F;                (* x /= 2 *)
  t_double : F -> F                (* x *= 2.0 *)
}.
Arguments mk_trig {F}. Arguments t_angle {F}. Arguments t_root {F}. Arguments t_cos {F}. Arguments t_sin {F}.
Arguments t_neg {F}. Arguments t_sqhalf {F}. Arguments t_half {F}. Arguments t_neg_half {F}.
Arguments t_halve {F}. Arguments t_double {F}.

(** src/srfft.h:33-42, the members. *)
Record srfft (F : Type) : Type := mk_srfft {
  s_n : Z;
  s_logn : Z;
  s_brseed : list Z;
  s_tab : list (list F)
}.
Arguments mk_srfft {F}. Arguments s_n {F}. Arguments s_logn {F}. Arguments s_brseed {F}. Arguments s_tab {F}.

Section Srfft.
Context {F : Type}.
Variable O : fops F.
Variable T : trig_ops F.
Variable junk : nat -> F.      (* what freshly allocated memory contains *)
Variable junk_int : nat -> Z.

Definition malloc {A} (j : nat -> A) (n : Z) : list A := map j (seq 0 (Z.to_nat n)).

(** src/srfft.cc:80-91, the seeds of the bit reversal. *)
Definition seed_table (logn : Z) : res (list Z) :=
  let lg2 := Z.shiftr logn 1 + (if Z.odd logn then 1 else 0) in
  let b := malloc junk_int (2 ^ lg2) in
  b <- setZ b 0 0 ;;
  b <- setZ b 1 1 ;;
  for_up 2 (lg2 + 1) (fun b j =>
    let imax := 2 ^ (j - 1) in
    for_up 0 imax (fun b i =>
      x <- getZ b i ;;
      b <- setZ b i (2 * x) ;;
      setZ b (i + imax) (2 * x + 1)) b) b.

(** src/srfft.cc:111-119, the loop for one size [m]; the table has six parts of
    [nel] entries. [k] counts the entries of each part. *)
Definition fill_table (m m4 m8 nel : Z) (t : list F) : res (list F) :=
  '(t, _) <- for_up 1 m4 (fun '(t, k) n =>
    if n =? m8 then Ok (t, k)
    else
      let ang := t_angle T n m in
      let c := t_cos T ang in let s := t_sin T ang in
      t <- setZ t k c ;;
      t <- setZ t (nel + k) (t_neg T (f_add O s c)) ;;
      t <- setZ t (2 * nel + k) (f_sub O s c) ;;
      let ang := t_angle T (3 * n) m in
      let c := t_cos T ang in let s := t_sin T ang in
      t <- setZ t (3 * nel + k) c ;;
      t <- setZ t (4 * nel + k) (t_neg T (f_add O s c)) ;;
      t <- setZ t (5 * nel + k) (f_sub O s c) ;;
      Ok (t, k + 1)) (t, 0) ;;
  Ok t.

(** src/srfft.cc:93-121, the tables. [tab_] is allocated with
    [8 * logn_ - 3] bytes, which is more than needed; here it has
    as many whole pointers as that. The null pointer is the empty list. *)
Definition trig_tables (logn : Z) : res (list (list F)) :=
  if logn <? 4 then Ok []
  else
    for_down logn 3 (fun tab i =>
      let m := 2 ^ i in
      let m2 := m / 2 in let m4 := m2 / 2 in let m8 := m4 / 2 in
      let nel := m4 - 2 in
      t <- fill_table m m4 m8 nel (malloc junk (6 * nel)) ;;
      setZ tab (i - 4) t) (repeat [] (Z.to_nat ((8 * logn - 3) / 8))).

(** src/srfft.cc:350-353, [while (N > 1) { N >>= 1; ++logn_; }] *)
Fixpoint count_bits (fuel : nat) (n k : Z) : res Z :=
  match fuel with
  | 0%nat => Fault Fuel
  | S fuel => if 1 <? n then count_bits fuel (Z.shiftr n 1) (k + 1) else Ok k
  end.

(** src/srfft.cc:342-355, the constructor; 74-122 [ComputeTable]. *)
Definition srfft_new (n : Z) : res (srfft F) :=
  let n := Z.quot n 2 in
  _ <- check (negb (negb (Z.land n (n - 1) =? 0) || (n <=? 1))) Assert ;;
  logn <- count_bits 32 n 0 ;;
  seeds <- seed_table logn ;;
  tab <- trig_tables logn ;;
  Ok (mk_srfft n logn seeds tab).

(** The real and the imaginary parts. In the code they are the two halves of one
    array; here an index outside one half is out of range even if it would be in
    the other. *)
Notation cells := (list F * list F)%type.
Notation complex := (F * F)%type.

(** A step on two places. It reads before it writes; where the code writes in
    between, it writes what it does not read any more. *)
Definition pair_step (s : cells) (p q : Z) (g : complex -> complex -> complex * complex) : res cells :=
  let '(re, im) := s in
  ar <- getZ re p ;; ai <- getZ im p ;;
  br <- getZ re q ;; bi <- getZ im q ;;
  let '((ar, ai), (br, bi)) := g (ar, ai) (br, bi) in
  re <- setZ re p ar ;; re <- setZ re q br ;;
  im <- setZ im p ai ;; im <- setZ im q bi ;;
  Ok (re, im).

(** src/srfft.cc:142-147 and likewise: sum and difference. *)
Definition sum_diff (a b : complex) : complex * complex :=
  ((f_add O (fst a) (fst b), f_add O (snd a) (snd b)), (f_sub O (fst a) (fst b), f_sub O (snd a) (snd b))).
(** src/srfft.cc:170-175 and 214-220. *)
Definition quarter_turn (a b : complex) : complex * complex :=
  ((f_add O (fst a) (snd b), f_sub O (snd a) (fst b)), (f_sub O (fst a) (snd b), f_add O (snd a) (fst b))).
(** src/srfft.cc:236-241. *)
Definition eighth_turn (a b : complex) : complex * complex :=
  let h := t_sqhalf T in
  ((f_mul O h (f_add O (fst a) (snd a)), f_mul O h (f_sub O (snd a) (fst a))),
   (f_mul O h (f_sub O (snd b) (fst b)), f_mul O (t_neg T h) (f_add O (fst b) (snd b)))).
(** src/srfft.cc:243-246 and 247-250, with entries of the table. *)
Definition turn (c spc smc : F) (a : complex) : complex :=
  let tmp2 := f_mul O c (f_add O (fst a) (snd a)) in
  (f_add O (f_mul O smc (snd a)) tmp2, f_add O (f_mul O spc (fst a)) tmp2).

(** src/srfft.cc:196-208, step 1 on the [2 * m2] places from [o] on. *)
Definition step1 (o m2 : Z) (s : cells) : res cells :=
  for_up 0 m2 (fun s n => pair_step s (o + n) (o + m2 + n) sum_diff) s.
(** src/srfft.cc:210-222, step 2. *)
Definition step2 (o m2 m4 : Z) (s : cells) : res cells :=
  for_up 0 m4 (fun s n => pair_step s (o + m2 + n) (o + m2 + m4 + n) quarter_turn) s.
(** src/srfft.cc:224-253, steps 3 and 4; [k] counts the entries of the table
    that were used. *)
Definition step34 (t : list F) (o m2 m4 m8 : Z) (s : cells) : res cells :=
  let nel := m4 - 2 in
  '(s, _) <- for_up 1 m4 (fun '(s, k) n =>
    if n =? m8
    then s <- pair_step s (o + m2 + n) (o + m2 + m4 + n) eighth_turn ;; Ok (s, k)
    else
      c <- getZ t k ;; spc <- getZ t (nel + k) ;; smc <- getZ t (2 * nel + k) ;;
      c3 <- getZ t (3 * nel + k) ;; spc3 <- getZ t (4 * nel + k) ;; smc3 <- getZ t (5 * nel + k) ;;
      s <- pair_step s (o + m2 + n) (o + m2 + m4 + n) (fun a b => (turn c spc smc a, turn c3 spc3 smc3 b)) ;;
      Ok (s, k + 1)) (s, 0) ;;
  Ok s.

(** src/srfft.cc:124-265, [ComplexfftComputeRecursive] on the places from [o]
    on. *)
Fixpoint recursive (fuel : nat) (tab : list (list F)) (o logn : Z) (s : cells) : res cells :=
  match fuel with
  | 0%nat => Fault Fuel
  | S fuel =>
      _ <- check (0 <=? logn) Assert ;;
      if logn =? 2 then
        s <- pair_step s o (o + 2) sum_diff ;;
        s <- pair_step s (o + 1) (o + 3) sum_diff ;;
        s <- pair_step s o (o + 1) sum_diff ;;
        pair_step s (o + 2) (o + 3) quarter_turn
      else if logn =? 1 then pair_step s o (o + 1) sum_diff
      else if logn =? 0 then Ok s
      else
        let m := 2 ^ logn in
        let m2 := m / 2 in let m4 := m2 / 2 in let m8 := m4 / 2 in
        s <- step1 o m2 s ;;
        s <- step2 o m2 m4 s ;;
        t <- (if 4 <=? logn then getZ tab (logn - 4) else Ok []) ;;
        s <- step34 t o m2 m4 m8 s ;;
        s <- recursive fuel tab o (logn - 1) s ;;
        s <- recursive fuel tab (o + m2) (logn - 2) s ;;
        recursive fuel tab (o + 3 * (m / 4)) (logn - 2) s
  end.

Definition swap (x : list F) (i j : Z) : res (list F) :=
  a <- getZ x i ;; b <- getZ x j ;;
  x <- setZ x i b ;; setZ x j a.

(** src/srfft.cc:267-291, [BitReversePermute]. *)
Definition bit_reverse (seeds : list Z) (logn : Z) (x : list F) : res (list F) :=
  let n := 2 ^ Z.shiftr logn 1 in
  for_up 1 n (fun x off =>
    seed <- getZ seeds off ;;
    let fj := n * seed in
    x <- swap x off fj ;;
    for_up 1 seed (fun x gno =>
      r <- getZ seeds gno ;;
      swap x (off + n * gno) (fj + r)) x) x.

(** src/srfft.cc:293-307, [ComplexFFTCompute2]. *)
Definition complex_fft (f : srfft F) (forward : bool) (re im : list F) : res (list F * list F) :=
  let (xr, xi) := if forward then (re, im) else (im, re) in
  '(xr, xi) <- recursive (S (Z.to_nat (s_logn f))) (s_tab f) 0 (s_logn f) (xr, xi) ;;
  xr <- (if 1 <? s_logn f then bit_reverse (s_brseed f) (s_logn f) xr else Ok xr) ;;
  xi <- (if 1 <? s_logn f then bit_reverse (s_brseed f) (s_logn f) xi else Ok xi) ;;
  Ok (if forward then (xr, xi) else (xi, xr)).

(** src/srfft.cc:319-326, from interleaved to separate parts. *)
Definition separate (n : Z) (x buffer : list F) : res (list F * list F) :=
  '(x, buffer) <- for_up 0 n (fun '(x, buffer) i =>
    a <- getZ x (i * 2) ;;
    x <- setZ x i a ;;
    b <- getZ x (i * 2 + 1) ;;
    buffer <- setZ buffer i b ;;
    Ok (x, buffer)) (x, buffer) ;;
  x <- copy_cells x n buffer 0 n ;;
  Ok (x, buffer).

(** src/srfft.cc:329-339, back to interleaved parts. *)
Definition interleave (n : Z) (x buffer : list F) : res (list F * list F) :=
  buffer <- copy_cells buffer 0 x n n ;;
  x <- for_down (n - 1) 0 (fun x i =>
    a <- getZ x i ;;
    x <- setZ x (i * 2) a ;;
    b <- getZ buffer i ;;
    setZ x (i * 2 + 1) b) x ;;
  b <- getZ buffer 0 ;;
  x <- setZ x 1 b ;;
  Ok (x, buffer).

(** src/srfft.cc:310-340, [ComplexFFTCompute]. *)
Definition complex_compute (f : srfft F) (x : list F) (xsize : Z) (forward : bool) (buffer : list F) (bsize : Z)
  : res (list F * list F) :=
  let n := s_n f in
  _ <- check (xsize =? n * 2) Assert ;;
  _ <- check (n <=? bsize) Assert ;;
  '(x, buffer) <- separate n x buffer ;;
  let k := Z.to_nat n in
  '(re, im) <- complex_fft f forward (firstn k x) (firstn k (skipn k x)) ;;
  interleave n (re ++ im ++ skipn (k + k) x) buffer.

(** src/srfft.cc:53-57, [complex_mul]: [b * a]. *)
Definition complex_mul (a b : complex) : complex :=
  (f_sub O (f_mul O (fst b) (fst a)) (f_mul O (snd b) (snd a)),
   f_add O (f_mul O (fst b) (snd a)) (f_mul O (snd b) (fst a))).
(** src/srfft.cc:59-68, [complex_add_product] on two places of the data. *)
Definition add_product (x : list F) (p : Z) (a b : complex) : res (list F) :=
  c <- getZ x p ;;
  x <- setZ x p (f_add O c (f_sub O (f_mul O (fst b) (fst a)) (f_mul O (snd b) (snd a)))) ;;
  c <- getZ x (p + 1) ;;
  setZ x (p + 1) (f_add O c (f_add O (f_mul O (fst b) (snd a)) (f_mul O (snd b) (fst a)))).

(** src/srfft.cc:391-434, the loop over [k]. *)
Definition real_loop (n2 : Z) (root kn : complex) (x : list F) : res (list F) :=
  let n := n2 * 2 in
  '(x, _) <- for_up 1 (n2 / 2 + 1) (fun '(x, kn) k =>
    let kn := complex_mul root kn in
    br <- getZ x (2 * k) ;; br' <- getZ x (n - 2 * k) ;;
    bi <- getZ x (2 * k + 1) ;; bi' <- getZ x (n - 2 * k + 1) ;;
    let ck := (t_half T (f_add O br br'), t_half T (f_sub O bi bi')) in
    let dk := (t_half T (f_add O bi bi'), t_neg_half T (f_sub O br br')) in
    x <- setZ x (2 * k) (fst ck) ;;
    x <- setZ x (2 * k + 1) (snd ck) ;;
    x <- add_product x (2 * k) dk kn ;;
    let kdash := n2 - k in
    x <- (if kdash =? k then Ok x
          else
            x <- setZ x (2 * kdash) (fst ck) ;;
            x <- setZ x (2 * kdash + 1) (t_neg T (snd ck)) ;;
            add_product x (2 * kdash) (fst dk, t_neg T (snd dk)) (t_neg T (fst kn), snd kn)) ;;
    Ok (x, kn)) (x, kn) ;;
  Ok x.

(** src/srfft.cc:368-459, [Compute]; [data] and [buffer] have some lengths, and
    the caller says which lengths they have. *)
Definition compute (f : srfft F) (data : list F) (dsize : Z) (forward : bool) (buffer : list F) (bsize : Z)
  : res (list F * list F) :=
  let n2 := s_n f in
  let n := n2 * 2 in
  '(data, buffer) <- (if forward then complex_compute f data dsize true buffer bsize else Ok (data, buffer)) ;;
  let sign := if forward then -1 else 1 in
  let ang := t_root T n sign in
  let root := (t_cos T ang, t_sin T ang) in
  data <- real_loop n2 root (f_int O (- sign), f_zero O) data ;;
  d0 <- getZ data 0 ;; d1 <- getZ data 1 ;;
  data <- setZ data 0 (f_add O d0 d1) ;;
  data <- setZ data 1 (f_sub O d0 d1) ;;
  if forward then Ok (data, buffer)
  else
    d0 <- getZ data 0 ;; data <- setZ data 0 (t_halve T d0) ;;
    d1 <- getZ data 1 ;; data <- setZ data 1 (t_halve T d1) ;;
    '(data, buffer) <- complex_compute f data dsize false buffer bsize ;;
    data <- for_up 0 n (fun data i => x <- getZ data i ;; setZ data i (t_double T x)) data ;;
    Ok (data, buffer).
End Srfft.
