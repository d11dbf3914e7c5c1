(** The laws of arithmetic that theorems on the decoder use hold for IEEE 754
    arithmetic. *)
From Coq Require Import ZArith Bool List Lia Eqdep_dec Wellfounded Floats.SpecFloat.
From Verif.Model Require Import Arith Decoder Ieee.
From Verif.Spec Require Import DecoderSpec.
From Verif.Proof Require Import Rne Ieee.
Open Scope Z_scope.

Lemma fl_eq : forall prec emax (x y : fl prec emax), fl_val x = fl_val y -> x = y.
Proof. intros p e [x Hx] [y Hy]. cbn [fl_val]. intros <-. f_equal. apply UIP_dec. apply bool_dec. Qed.

Lemma seal_val : forall prec emax x, valid_binary prec emax x = true -> fl_val (seal prec emax x) = x.
Proof. intros p e x H. unfold seal. destruct (bool_dec _ _); [reflexivity|contradiction]. Qed.

Section Laws.
Variables S top : Z.
Hypothesis HS : 2200 <= S.
Hypothesis Htop : 2 ^ (1024 + S) <= top.

Let K {prec emax} (x : fl prec emax) : option Z := key S top (fl_val x).
Notation n32 := (near_signed 24 128 S top).
Notation n64 := (near_signed 53 1024 S top).

Lemma P32 : 1 < 24. Proof. lia. Qed.
Lemma E32 : 24 < 128. Proof. lia. Qed.
Lemma P64 : 1 < 53. Proof. lia. Qed.
Lemma E64 : 53 < 1024. Proof. lia. Qed.
Lemma S32 : - S <= emin 24 128. Proof. unfold emin. lia. Qed.
Lemma S64 : - S <= emin 53 1024. Proof. unfold emin. lia. Qed.
Lemma big : 2 ^ (128 + S) < 2 ^ (1024 + S). Proof. apply Z.pow_lt_mono_r; lia. Qed.
Lemma T32 : 2 ^ (128 + S) <= top. Proof. pose proof big. lia. Qed.
Hint Resolve P32 E32 P64 E64 S32 S64 T32 Htop : fl.

Lemma mono32 : forall a b, a <= b -> n32 a <= n32 b.
Proof. intros. apply near_signed_mono; auto with fl. Qed.
Lemma mono64 : forall a b, a <= b -> n64 a <= n64 b.
Proof. intros. apply near_signed_mono; auto with fl. Qed.

Lemma self32 : forall (x : float32) a, is_finite (fl_val x) = true -> K x = Some a -> n32 a = a.
Proof. intros x a H E. apply (near_signed_key 24 128 P32 E32 S top S32 (fl_val x)); [apply fl_valid|exact H|exact E]. Qed.
Lemma self64 : forall (x : float64) a, is_finite (fl_val x) = true -> K x = Some a -> n64 a = a.
Proof. intros x a H E. apply (near_signed_key 53 1024 P64 E64 S top S64 (fl_val x)); [apply fl_valid|exact H|exact E]. Qed.

Lemma bound32 : forall (x : float32) a, is_finite (fl_val x) = true -> K x = Some a -> - 2 ^ (128 + S) < a < 2 ^ (128 + S).
Proof. intros x a H E. apply (key_bound 24 128 P32 E32 S top S32 (fl_val x)); [apply fl_valid|exact H|exact E]. Qed.
Lemma bound64 : forall (x : float64) a, is_finite (fl_val x) = true -> K x = Some a -> - 2 ^ (1024 + S) < a < 2 ^ (1024 + S).
Proof. intros x a H E. apply (key_bound 53 1024 P64 E64 S top S64 (fl_val x)); [apply fl_valid|exact H|exact E]. Qed.

Lemma finite32 : forall (x : float32) a, K x = Some a -> - 2 ^ (128 + S) < a < 2 ^ (128 + S) -> is_finite (fl_val x) = true.
Proof. intros x a E B. apply (finite_by_key 24 128 S top T32 (fl_val x) a); [apply fl_valid|exact E|exact B]. Qed.
Lemma finite64 : forall (x : float64) a, K x = Some a -> - 2 ^ (1024 + S) < a < 2 ^ (1024 + S) -> is_finite (fl_val x) = true.
Proof. intros x a E B. apply (finite_by_key 53 1024 S top Htop (fl_val x) a); [apply fl_valid|exact E|exact B]. Qed.

Definition less (x y : option Z) : bool :=
  match x, y with Some a, Some b => a <? b | _, _ => false end.

Lemma lt32 : forall x y : float32, SFltb (fl_val x) (fl_val y) = less (K x) (K y).
Proof. intros x y. apply (lt_val 24 128); auto with fl; apply fl_valid. Qed.
Lemma lt64 : forall x y : float64, SFltb (fl_val x) (fl_val y) = less (K x) (K y).
Proof. intros x y. apply (lt_val 53 1024); auto with fl; apply fl_valid. Qed.

Lemma finite_key : forall x, is_finite x = true -> exists a, key S top x = Some a.
Proof. intros [s|s| |s m e] H; try discriminate H; cbn [key]; eexists; reflexivity. Qed.

(** Keys of all numbers. *)
Lemma key_top : forall prec emax (x : fl prec emax) a, 2 ^ (emax + S) <= top ->
  (forall a, is_finite (fl_val x) = true -> K x = Some a -> - 2 ^ (emax + S) < a < 2 ^ (emax + S)) ->
  K x = Some a -> - top <= a <= top.
Proof.
  intros prec emax x a T B E. pose proof (pow_pos (1024 + S) ltac:(lia)).
  destruct (is_finite (fl_val x)) eqn:Fx; [specialize (B a eq_refl E); lia|].
  unfold K in E. destruct (fl_val x) as [s|s| |s m e]; try discriminate Fx; cbn [key] in E; [|discriminate E].
  apply some_inj in E. subst a. destruct s; cbn [opp_if]; lia.
Qed.
Lemma top32 : forall (x : float32) a, K x = Some a -> - top <= a <= top.
Proof. intros x a. apply key_top; [apply T32|]. intros. now apply (bound32 x). Qed.
Lemma top64 : forall (x : float64) a, K x = Some a -> - top <= a <= top.
Proof. intros x a. apply key_top; [apply Htop|]. intros. now apply (bound64 x). Qed.

(** * Conversions *)

Lemma near_signed_opp_if : forall prec emax s z, 1 < prec -> prec < emax -> - S <= emin prec emax -> 0 <= z ->
  near_signed prec emax S top (opp_if s z) = opp_if s (near prec emax S top z 1).
Proof.
  intros prec emax s z P E B Z0.
  assert (G : near_signed prec emax S top z = near prec emax S top z 1) by (unfold near_signed; destruct (Z.ltb_spec z 0); [lia|reflexivity]).
  destruct s; cbn [opp_if]; [|exact G]. now rewrite near_signed_opp, G by assumption.
Qed.

Lemma round_to_val : forall prec emax p' e' x a, 1 < prec -> prec < emax -> - S <= emin prec emax ->
  1 < p' -> - S <= emin p' e' -> valid_binary p' e' x = true -> is_finite x = true -> key S top x = Some a ->
  valid_binary prec emax (round_to prec emax x) = true /\
  key S top (round_to prec emax x) = Some (near_signed prec emax S top a).
Proof.
  intros prec emax p' e' x a P E B P' B' V Fx Ka. destruct x as [s|s| |s m e]; try discriminate Fx; cbn [round_to].
  - cbn [key] in *. apply some_inj in Ka. subst a. split; [reflexivity|]. f_equal.
    pose proof (near_signed_opp prec emax P E S top B 0) as X. change (- 0) with 0 in X. lia.
  - cbn [key] in Ka. apply some_inj in Ka. subst a.
    destruct (valid_facts p' e' P' S B' s m e V) as (Be & _ & _ & Hm).
    destruct (round_val prec emax P E S top B s m e ltac:(lia)) as (V1 & K1). split; [exact V1|].
    rewrite K1. f_equal. symmetry. apply near_signed_opp_if; try assumption. lia.
Qed.

Lemma round_to_valid : forall prec emax p' e' x, 1 < prec -> prec < emax -> - S <= emin prec emax ->
  1 < p' -> - S <= emin p' e' -> valid_binary p' e' x = true -> valid_binary prec emax (round_to prec emax x) = true.
Proof.
  intros prec emax p' e' x P E B P' B' V. destruct (is_finite x) eqn:Fx.
  - destruct (finite_key x Fx) as (a & Ka). now destruct (round_to_val prec emax p' e' x a P E B P' B' V Fx Ka).
  - destruct x; try discriminate Fx; reflexivity.
Qed.

Lemma widen_val : forall x : float32, fl_val (widen x) = round_to 53 1024 (fl_val x).
Proof. intros x. apply seal_val. apply (round_to_valid 53 1024 24 128); auto with fl. apply fl_valid. Qed.
Lemma narrow_val : forall x : float64, fl_val (narrow x) = round_to 24 128 (fl_val x).
Proof. intros x. apply seal_val. apply (round_to_valid 24 128 53 1024); auto with fl. apply fl_valid. Qed.

(** A [float] is a [double]. *)
Lemma self_wide : forall (x : float32) a, is_finite (fl_val x) = true -> K x = Some a -> n64 a = a.
Proof.
  intros x a Fx Ka. pose proof (fl_valid x) as V. unfold K in Ka. destruct (fl_val x) as [s|s| |s m e]; try discriminate Fx; cbn [key] in Ka; apply some_inj in Ka; subst a.
  - pose proof (near_signed_opp 53 1024 P64 E64 S top S64 0) as X. change (- 0) with 0 in X. lia.
  - destruct (valid_facts 24 128 P32 S S32 s m e V) as (Be & Bm & _ & Hm). pose proof big.
    rewrite near_signed_opp_if by (auto with fl; lia). f_equal. unfold emin in *.
    assert (2 ^ 24 <= 2 ^ 53) by (apply Z.pow_le_mono_r; lia).
    apply near_multiple; auto with fl; unfold emin; lia.
Qed.

Lemma widen_key : forall x : float32, K (widen x) = K x.
Proof.
  intros x. unfold K. rewrite widen_val. destruct (is_finite (fl_val x)) eqn:Fx.
  - destruct (finite_key _ Fx) as (a & Ka).
    destruct (round_to_val 53 1024 24 128 (fl_val x) a P64 E64 S64 P32 S32 (fl_valid x) Fx Ka) as (_ & ->).
    rewrite Ka. f_equal. now apply (self_wide x).
  - destruct (fl_val x); try discriminate Fx; reflexivity.
Qed.

Lemma widen_finite : forall x : float32, is_finite (fl_val (widen x)) = is_finite (fl_val x).
Proof.
  intros x. destruct (is_finite (fl_val x)) eqn:Fx.
  - destruct (finite_key _ Fx) as (a & Ka). pose proof (bound32 x a Fx Ka) as B. pose proof big.
    apply (finite64 _ a); [rewrite widen_key; exact Ka|lia].
  - rewrite widen_val. destruct (fl_val x); try discriminate Fx; reflexivity.
Qed.

Lemma narrow_key : forall (x : float64) a, is_finite (fl_val x) = true -> K x = Some a -> K (narrow x) = Some (n32 a).
Proof.
  intros x a Fx Ka. unfold K. rewrite narrow_val.
  now destruct (round_to_val 24 128 53 1024 (fl_val x) a P32 E32 S32 P64 S64 (fl_valid x) Fx Ka) as (_ & ->).
Qed.

(** A number other than zero is known by its key. *)
Lemma key_inj : forall prec emax x y, 1 < prec -> prec < emax -> - S <= emin prec emax -> 2 ^ (emax + S) <= top ->
  valid_binary prec emax x = true -> valid_binary prec emax y = true -> is_finite x = true -> is_finite y = true ->
  key S top x = key S top y -> key S top x <> Some 0 -> x = y.
Proof.
  intros prec emax x y P E B T Vx Vy Fx Fy Eq Nz.
  destruct x as [s|s| |s m e]; try discriminate Fx; [now elim Nz|].
  destruct y as [s'|s'| |s' m' e']; try discriminate Fy; [now rewrite Eq in Nz; elim Nz|].
  cbn [key] in Eq. apply some_inj in Eq.
  destruct (valid_facts prec emax P S B s m e Vx) as (Be & Bm & Gm & Hm).
  destruct (valid_facts prec emax P S B s' m' e' Vy) as (Be' & Bm' & Gm' & Hm').
  assert (s = s') as <- by (destruct s, s'; cbn [opp_if] in Eq; try reflexivity; lia).
  assert (Eq' : Zpos m * 2 ^ (e + S) = Zpos m' * 2 ^ (e' + S)) by (destruct s; cbn [opp_if] in Eq; lia).
  assert (G : forall p q d d', emin prec emax <= d -> d < d' -> Zpos p < 2 ^ prec -> 2 ^ (prec - 1) <= Zpos q -> Zpos p * 2 ^ (d + S) = Zpos q * 2 ^ (d' + S) -> False).
  { intros p q d d' Hd L Hp Hq Hq'. replace (d' + S) with (1 + ((d' - d - 1) + (d + S))) in Hq' by lia.
    rewrite (pow_add 1) in Hq' by lia. rewrite (pow_add (d' - d - 1)) in Hq' by lia. change (2 ^ 1) with 2 in Hq'.
    pose proof (pow_pos (d' - d - 1) ltac:(lia)). pose proof (pow_pos (d + S) ltac:(lia)).
    assert (Hpp : 2 ^ prec = 2 * 2 ^ (prec - 1)) by (replace prec with (1 + (prec - 1)) at 1 by lia; rewrite pow_add by lia; reflexivity).
    set (u := 2 ^ (d + S)) in *. set (w := 2 ^ (d' - d - 1)) in *.
    assert (Hw : Zpos p * u = 2 * Zpos q * w * u) by (rewrite Hq'; ring).
    assert (Zpos p = 2 * Zpos q * w) by (apply (Z.mul_reg_r _ _ u); lia). nia. }
  assert (e = e') as <-.
  { destruct (Z.lt_trichotomy e e') as [L|[L|L]]; [|exact L|]; exfalso.
    - apply (G m m' e e'); try assumption; try lia; apply Gm'; lia.
    - apply (G m' m e' e); try assumption; try lia; apply Gm; lia. }
  pose proof (pow_pos (e + S) ltac:(lia)). apply Z.mul_reg_r in Eq'; [|lia]. now inversion Eq'.
Qed.

Lemma narrow_widen : forall x : float32, is_finite (fl_val x) = true -> narrow (widen x) = x.
Proof.
  intros x Fx. apply fl_eq. rewrite narrow_val.
  destruct (finite_key _ Fx) as (a & Ka).
  destruct (Z.eq_dec a 0) as [Z0|N0].
  - rewrite widen_val. pose proof (fl_valid x) as V. destruct (fl_val x) as [s|s| |s m e]; try discriminate Fx; [reflexivity|].
    destruct (valid_facts 24 128 P32 S S32 s m e V) as (_ & _ & _ & Hm).
    cbn [key] in Ka. apply some_inj in Ka. destruct s; cbn [opp_if] in Ka; lia.
  - assert (Kw : K (narrow (widen x)) = Some a).
    { rewrite (narrow_key (widen x) a); [f_equal; now apply (self32 x)|rewrite widen_finite; exact Fx|rewrite widen_key; exact Ka]. }
    rewrite <- narrow_val. apply (key_inj 24 128); auto with fl; try apply fl_valid.
    + apply (finite32 _ a Kw). now apply (bound32 x).
    + fold (K (narrow (widen x))). rewrite Kw. symmetry. exact Ka.
    + fold (K (narrow (widen x))). rewrite Kw. intros [=]. contradiction.
Qed.

(** * Sums in double *)

Lemma add64_val : forall x y : float64, fl_val (f64 (SFadd 53 1024 (fl_val x) (fl_val y))) = SFadd 53 1024 (fl_val x) (fl_val y).
Proof. intros x y. apply seal_val. apply (add_valid 53 1024 P64 E64 S top S64); apply fl_valid. Qed.
Lemma sub64_val : forall x y : float64, fl_val (f64 (SFsub 53 1024 (fl_val x) (fl_val y))) = SFsub 53 1024 (fl_val x) (fl_val y).
Proof. intros x y. apply seal_val. apply (sub_valid 53 1024 P64 E64 S top S64); apply fl_valid. Qed.

Lemma add64_key : forall (x y : float64) a b, is_finite (fl_val x) = true -> is_finite (fl_val y) = true -> K x = Some a -> K y = Some b ->
  K (f64 (SFadd 53 1024 (fl_val x) (fl_val y))) = Some (n64 (a + b)).
Proof.
  intros x y a b Fx Fy Ka Kb. unfold K. rewrite add64_val.
  now destruct (add_val 53 1024 P64 E64 S top S64 (fl_val x) (fl_val y) a b (fl_valid x) (fl_valid y) Fx Fy Ka Kb).
Qed.
Lemma sub64_key : forall (x y : float64) a b, is_finite (fl_val x) = true -> is_finite (fl_val y) = true -> K x = Some a -> K y = Some b ->
  K (f64 (SFsub 53 1024 (fl_val x) (fl_val y))) = Some (n64 (a - b)).
Proof.
  intros x y a b Fx Fy Ka Kb. unfold K. rewrite sub64_val.
  now destruct (sub_val 53 1024 P64 E64 S top S64 (fl_val x) (fl_val y) a b (fl_valid x) (fl_valid y) Fx Fy Ka Kb).
Qed.

(** Powers of two are not rounded. *)
Lemma n64_pow : forall j, 0 <= j < 1024 -> n64 (2 ^ (j + S)) = 2 ^ (j + S).
Proof.
  intros j J. pose proof (pow_pos (j + S) ltac:(lia)) as P. unfold near_signed. destruct (Z.ltb_spec (2 ^ (j + S)) 0); [lia|].
  replace (2 ^ (j + S)) with (1 * 2 ^ (j + S)) by lia. apply near_multiple; auto with fl.
  - split; [lia|]. reflexivity.
  - unfold emin. lia.
  - rewrite Z.mul_1_l. apply Z.pow_lt_mono_r; lia.
Qed.
Lemma n32_pow : forall j, 0 <= j < 128 -> n32 (2 ^ (j + S)) = 2 ^ (j + S).
Proof.
  intros j J. pose proof (pow_pos (j + S) ltac:(lia)) as P. unfold near_signed. destruct (Z.ltb_spec (2 ^ (j + S)) 0); [lia|].
  replace (2 ^ (j + S)) with (1 * 2 ^ (j + S)) by lia. apply near_multiple; auto with fl.
  - split; [lia|]. reflexivity.
  - unfold emin. lia.
  - rewrite Z.mul_1_l. apply Z.pow_lt_mono_r; lia.
Qed.

Lemma n64_zero : n64 0 = 0.
Proof. pose proof (near_signed_opp 53 1024 P64 E64 S top S64 0) as X. change (- 0) with 0 in X. lia. Qed.
Lemma n32_zero : n32 0 = 0.
Proof. pose proof (near_signed_opp 24 128 P32 E32 S top S32 0) as X. change (- 0) with 0 in X. lia. Qed.

(** A quarter of a unit above the largest [float] is rounded back to it. *)
Definition crest : Z := (2 ^ 26 - 3) * 2 ^ (102 + S).

Lemma crest64 : n64 crest = crest.
Proof.
  unfold crest. pose proof (pow_pos (102 + S) ltac:(lia)) as P. unfold near_signed. change (2 ^ 26 - 3) with 67108861.
  destruct (Z.ltb_spec (67108861 * 2 ^ (102 + S)) 0); [lia|]. apply near_multiple; auto with fl.
  - split; [lia|reflexivity].
  - unfold emin. lia.
  - replace (1024 + S) with (922 + (102 + S)) by lia. rewrite (pow_add 922) by lia.
    apply Z.mul_lt_mono_pos_r; [exact P|reflexivity].
Qed.

Lemma crest32 : n32 crest < 2 ^ (128 + S).
Proof.
  unfold crest. pose proof (pow_pos (102 + S) ltac:(lia)) as P. unfold near_signed. change (2 ^ 26 - 3) with 67108861.
  destruct (Z.ltb_spec (67108861 * 2 ^ (102 + S)) 0); [lia|]. unfold near. rewrite Z.div_1_r.
  assert (D : Zdigits2 (67108861 * 2 ^ (102 + S)) = 26 + (102 + S)).
  { pose proof (digits_shift 0 0 67108861 1 (102 + S) ltac:(lia) ltac:(lia) ltac:(reflexivity)) as X.
    rewrite !Z.div_1_r in X. rewrite X. reflexivity. }
  rewrite D. replace (Z.max _ _) with (2 + (102 + S)) by (unfold emin; lia).
  rewrite (pow_add 2) by lia. change (2 ^ 2) with 4. set (u := 2 ^ (102 + S)) in *.
  pose proof (rne_near (67108861 * u) (1 * (4 * u)) ltac:(lia)) as R. set (r := rne _ _) in *.
  replace (128 + S) with (26 + (102 + S)) by lia. rewrite (pow_add 26) by lia. fold u. change (2 ^ 26) with 67108864.
  assert (r <= 16777215) by nia.
  destruct (Z.leb_spec (67108864 * u) (r * (4 * u))); nia.
Qed.

(** The largest [float]. *)
Lemma max32 : forall (x : float32) a, is_finite (fl_val x) = true -> K x = Some a -> a <= (2 ^ 26 - 4) * 2 ^ (102 + S).
Proof.
  intros x a Fx Ka. pose proof (fl_valid x) as V. unfold K in Ka. change (2 ^ 26 - 4) with (16777215 * 4).
  pose proof (pow_pos (102 + S) ltac:(lia)) as P.
  destruct (fl_val x) as [s|s| |s m e]; try discriminate Fx; cbn [key] in Ka; apply some_inj in Ka; subst a; [lia|].
  destruct (valid_facts 24 128 P32 S S32 s m e V) as (Be & Bm & _ & Hm).
  destruct s; cbn [opp_if]; [lia|]. change (2 ^ 24) with 16777216 in Bm.
  assert (2 ^ (e + S) <= 2 ^ (2 + (102 + S))) as L by (apply Z.pow_le_mono_r; unfold emin in *; lia).
  rewrite (pow_add 2) in L by lia. change (2 ^ 2) with 4 in L.
  assert (0 < 2 ^ (e + S)) by (apply pow_pos; unfold emin in *; lia). nia.
Qed.

Variable L : library.
Notation O := (ieee L).
Notation X := ieee_wide.

(** * Beams *)

Lemma ieee_slack : forall (b : float32) kb, is_finite (fl_val b) = true -> K b = Some kb -> 0 <= kb <= 2 ^ (66 + S) -> slack O X b.
Proof.
  intros b kb Fb Kb B a.
  cbn [f_finite x_finite x_add x_wide x_narrow x_lt f_lt f_zero ieee ieee_wide].
  set (sum := f64 (SFadd 53 1024 (fl_val (widen a)) (fl_val (widen b)))). split.
  - intros Fa. destruct (finite_key _ Fa) as (ka & Ka). fold (K a) in Ka.
    assert (Ks : K sum = Some (n64 (ka + kb))).
    { apply add64_key; rewrite ?widen_finite, ?widen_key; assumption. }
    assert (Lo : ka <= n64 (ka + kb)) by (rewrite <- (self_wide a ka Fa Ka) at 1; apply mono64; lia).
    assert (Hi : n64 (ka + kb) <= crest).
    { rewrite <- crest64. apply mono64. pose proof (max32 a ka Fa Ka). unfold crest.
      assert (2 ^ (66 + S) <= 2 ^ (102 + S)) by (apply Z.pow_le_mono_r; lia). lia. }
    pose proof (bound32 a ka Fa Ka) as Ba. pose proof big as Hb.
    assert (Hc : crest < 2 ^ (128 + S)).
    { unfold crest. replace (128 + S) with (26 + (102 + S)) by lia. rewrite (pow_add 26) by lia. pose proof (pow_pos (102 + S) ltac:(lia)). lia. }
    assert (Fs : is_finite (fl_val sum) = true) by (apply (finite64 _ _ Ks); lia).
    pose proof (narrow_key sum _ Fs Ks) as Kn.
    assert (Lo' : ka <= n32 (n64 (ka + kb))) by (rewrite <- (self32 a ka Fa Ka) at 1; apply mono32; exact Lo).
    assert (Hi' : n32 (n64 (ka + kb)) <= n32 crest) by (apply mono32; exact Hi). pose proof crest32.
    repeat split.
    + exact Fs.
    + apply (finite32 _ _ Kn). lia.
    + rewrite lt64, Ks, widen_key, Ka. cbn [less]. apply Z.ltb_ge. lia.
    + rewrite lt32, Kn, Ka. cbn [less]. apply Z.ltb_ge. lia.
  - intros Fa Na y. pose proof (widen_finite b) as Fwb. rewrite Fb in Fwb.
    assert (Es : fl_val sum = fl_val (widen a)).
    { unfold sum. rewrite add64_val. pose proof (widen_finite a) as Fwa. rewrite Fa in Fwa.
      destruct (fl_val (widen a)) as [s|s| |s m e]; try discriminate Fwa; [|reflexivity].
      destruct (fl_val (widen b)) as [s'|s'| |s' m' e']; try discriminate Fwb; reflexivity. }
    rewrite Es. rewrite lt64. rewrite widen_key. unfold K.
    rewrite (seal_val 24 128 (S754_zero false) eq_refl : fl_val (f32 (S754_zero false)) = S754_zero false) in Na.
    destruct (fl_val a) as [s|s| |s m e] eqn:Ea; try discriminate Fa; [|reflexivity].
    destruct s; [discriminate Na|]. cbn [key opp_if less]. fold (K y). destruct (K y) as [c|] eqn:Ky; [|reflexivity].
    pose proof (top64 y c Ky). apply Z.ltb_ge. lia.
Qed.

Lemma key_half : K (x_half X) = Some (2 ^ (S - 1)) /\ is_finite (fl_val (x_half X)) = true.
Proof.
  assert (E : fl_val (x_half X) = S754_finite false 8388608 (-24)) by reflexivity.
  unfold K. rewrite E. split; [|reflexivity]. cbn [key opp_if]. f_equal. change (Zpos 8388608) with (2 ^ 23).
  rewrite <- pow_add by lia. f_equal. lia.
Qed.

Lemma ieee_rounding_at : forall (beam : float32) kb, is_finite (fl_val beam) = true -> K beam = Some kb -> 0 <= kb <= 2 ^ (64 + S) ->
  rounding O X beam.
Proof.
  intros beam kb Fb Kb Bb.
  assert (W64 : 2 ^ (65 + S) = 2 * 2 ^ (64 + S)).
  { replace (65 + S) with (1 + (64 + S)) by lia. rewrite (pow_add 1) by lia. reflexivity. }
  assert (W65 : 2 ^ (66 + S) = 2 * 2 ^ (65 + S)).
  { replace (66 + S) with (1 + (65 + S)) by lia. rewrite (pow_add 1) by lia. reflexivity. }
  assert (W1 : 0 < 2 ^ (S - 1) <= 2 ^ (65 + S)) by (split; [apply pow_pos; lia|apply Z.pow_le_mono_r; lia]).
  constructor; cbn [f_finite x_finite x_add x_sub x_wide x_narrow x_lt f_lt f_zero x_inf x_nan ieee ieee_wide].
  - split; [intros x|intros x y z]; rewrite !lt32.
    + destruct (K x); cbn [less]; [apply Z.ltb_irrefl|reflexivity].
    + destruct (K x), (K y), (K z); cbn [less]; try discriminate. rewrite !Z.ltb_lt. lia.
  - split; [intros x|intros x y z]; rewrite !lt64.
    + destruct (K x); cbn [less]; [apply Z.ltb_irrefl|reflexivity].
    + destruct (K x), (K y), (K z); cbn [less]; try discriminate. rewrite !Z.ltb_lt. lia.
  - intros a b. now rewrite lt64, lt32, !widen_key.
  - apply widen_finite.
  - apply narrow_widen.
  - reflexivity.
  - intros x Fx. destruct (finite_key _ Fx) as (a & Ka). fold (K x) in Ka. rewrite lt64, Ka.
    change (K (f64 (S754_infinity false))) with (Some top). cbn [less]. apply Z.ltb_lt. pose proof (bound64 x a Fx Ka). lia.
  - intros y. rewrite lt64. reflexivity.
  - intros a b c Fa Fb' Fc. destruct (finite_key _ Fa) as (ka & Ka), (finite_key _ Fb') as (kb' & Kb'), (finite_key _ Fc) as (kc & Kc).
    fold (K a) in Ka. fold (K b) in Kb'. fold (K c) in Kc. rewrite !lt32, Ka, Kb', Kc. cbn [less]. rewrite !Z.ltb_ge. lia.
  - intros a m Fa. destruct (finite_key _ Fa) as (ka & Ka). fold (K a) in Ka. rewrite !lt64, Ka.
    change (K (f64 (S754_infinity false))) with (Some top). destruct (K m) as [km|] eqn:Km; cbn [less]; [|discriminate].
    rewrite !Z.ltb_ge. intros H1 H2 _. apply (finite64 m km Km). pose proof (bound64 a ka Fa Ka). lia.
  - intros a b m Fa Fb'. destruct (finite_key _ Fa) as (ka & Ka), (finite_key _ Fb') as (kb' & Kb'). fold (K a) in Ka. fold (K b) in Kb'.
    rewrite !lt64, Ka, Kb'. destruct (K m) as [km|] eqn:Km; cbn [less]; [|discriminate].
    rewrite Z.ltb_ge, Z.ltb_lt. intros H1 H2. apply (finite64 m km Km). pose proof (bound64 a ka Fa Ka). pose proof (bound64 b kb' Fb' Kb'). lia.
  - apply (ieee_slack beam kb Fb Kb). lia.
  - intros a m Fa. destruct (finite_key _ Fa) as (ka & Ka). fold (K a) in Ka. rewrite lt32, lt64, Ka, widen_key.
    assert (Ks : K (f64 (SFadd 53 1024 (fl_val (widen a)) (fl_val (widen beam)))) = Some (n64 (ka + kb))).
    { apply add64_key; rewrite ?widen_finite, ?widen_key; assumption. }
    rewrite Ks. destruct (K m) as [km|] eqn:Km; cbn [less]; [|discriminate]. rewrite Z.ltb_ge, Z.ltb_lt. intros H1 H2.
    pose proof (bound32 a ka Fa Ka) as Ba. pose proof big as Hb.
    assert (Hk : 2 ^ (64 + S) <= 2 ^ (128 + S)) by (apply Z.pow_le_mono_r; lia).
    assert (W129 : 2 ^ (129 + S) = 2 * 2 ^ (128 + S)).
    { replace (129 + S) with (1 + (128 + S)) by lia. rewrite (pow_add 1) by lia. reflexivity. }
    assert (U : n64 (ka + kb) <= 2 ^ (129 + S)) by (rewrite <- n64_pow by lia; apply mono64; lia).
    assert (U' : 2 ^ (129 + S) < 2 ^ (1024 + S)) by (apply Z.pow_lt_mono_r; lia).
    pose proof (near_sum 53 1024 P64 E64 S top S64 Htop ka kb ltac:(lia) (self_wide a ka Fa Ka) ltac:(lia) ltac:(lia)) as N.
    assert (Fm : is_finite (fl_val m) = true).
    { destruct (is_finite (fl_val m)) eqn:Fm; [reflexivity|]. pose proof Km as Km'. unfold K in Km'.
      destruct (fl_val m) as [s|s| |s p e]; try discriminate Fm; cbn [key] in Km'; [|discriminate Km'].
      apply some_inj in Km'. destruct s; cbn [opp_if] in Km'; lia. }
    assert (Kd : K (f64 (SFsub 53 1024 (fl_val (widen m)) (fl_val (widen a)))) = Some (n64 (km - ka))).
    { apply sub64_key; rewrite ?widen_finite, ?widen_key; assumption. }
    assert (Dl : 0 <= n64 (km - ka)) by (rewrite <- n64_zero; apply mono64; lia).
    assert (Dh : n64 (km - ka) <= 2 ^ (65 + S)) by (rewrite <- n64_pow by lia; apply mono64; lia).
    assert (U2 : 2 ^ (66 + S) < 2 ^ (1024 + S)) by (apply Z.pow_lt_mono_r; lia).
    assert (Fd : is_finite (fl_val (f64 (SFsub 53 1024 (fl_val (widen m)) (fl_val (widen a))))) = true) by (apply (finite64 _ _ Kd); lia).
    destruct key_half as (Kh & Fh). set (diff := f64 (SFsub 53 1024 _ _)) in *.
    assert (Ke : K (f64 (SFadd 53 1024 (fl_val diff) (fl_val (widen (x_half X))))) = Some (n64 (n64 (km - ka) + 2 ^ (S - 1)))).
    { apply add64_key; rewrite ?widen_finite, ?widen_key; assumption. }
    clear Ks. set (tot := f64 (SFadd 53 1024 _ _)) in *.
    assert (Tl : 0 <= n64 (n64 (km - ka) + 2 ^ (S - 1))) by (rewrite <- n64_zero at 1; apply mono64; lia).
    assert (Th : n64 (n64 (km - ka) + 2 ^ (S - 1)) <= 2 ^ (66 + S)) by (rewrite <- (n64_pow 66) by lia; apply mono64; lia).
    assert (Ft : is_finite (fl_val tot) = true) by (apply (finite64 _ _ Ke); lia).
    pose proof (narrow_key tot _ Ft Ke) as Kn. set (z := n64 (n64 (km - ka) + _)) in *.
    assert (0 <= n32 z) by (rewrite <- n32_zero; apply mono32; lia).
    assert (n32 z <= 2 ^ (66 + S)) by (rewrite <- n32_pow by lia; apply mono32; lia).
    assert (2 ^ (66 + S) < 2 ^ (128 + S)) by (apply Z.pow_lt_mono_r; lia).
    apply (ieee_slack _ (n32 z)); [|exact Kn|lia]. apply (finite32 _ _ Kn). lia.
Qed.

(** * Chains of smaller costs end *)

Lemma ieee_wf_at : well_founded (fun x y => f_lt O x y = true).
Proof.
  set (f := fun x : float32 => match K x with Some a => a | None => 0 end).
  apply (wf_incl _ _ (fun x y => - top <= f x < f y)).
  - intros x y H. cbn [f_lt ieee] in H. rewrite lt32 in H. unfold f.
    destruct (K x) as [a|] eqn:Ka; [|discriminate H]. destruct (K y) as [b|] eqn:Kb; [|discriminate H].
    cbn [less] in H. apply Z.ltb_lt in H. pose proof (top32 x a Ka). lia.
  - apply (wf_inverse_image float32 Z (fun a b => - top <= a < b) f). apply Z.lt_wf.
Qed.

(** * Costs of arcs *)

Lemma add_finite : forall prec emax x y, is_finite (SFadd prec emax x y) = true -> is_finite x = true /\ is_finite y = true.
Proof.
  intros prec emax [s|s| |s m e] [s'|s'| |s' m' e'] H; try (split; reflexivity); try discriminate H.
  cbn [SFadd] in H. destruct (Bool.eqb s s'); discriminate H.
Qed.

Lemma add32_val : forall x y : float32, fl_val (f_add O x y) = SFadd 24 128 (fl_val x) (fl_val y).
Proof. intros x y. apply seal_val. apply (add_valid 24 128 P32 E32 S top S32); apply fl_valid. Qed.

Lemma add32_key : forall (x y : float32), is_finite (fl_val (f_add O x y)) = true ->
  exists a b, is_finite (fl_val x) = true /\ is_finite (fl_val y) = true /\ K x = Some a /\ K y = Some b /\ K (f_add O x y) = Some (n32 (a + b)).
Proof.
  intros x y H. rewrite add32_val in H. destruct (add_finite _ _ _ _ H) as (Fx & Fy).
  destruct (finite_key _ Fx) as (a & Ka), (finite_key _ Fy) as (b & Kb). exists a, b. repeat split; try assumption.
  unfold K. rewrite add32_val.
  now destruct (add_val 24 128 P32 E32 S top S32 (fl_val x) (fl_val y) a b (fl_valid x) (fl_valid y) Fx Fy Ka Kb).
Qed.

Lemma add64_parts : forall (x y : float64), is_finite (fl_val (x_add X x y)) = true ->
  exists a b, is_finite (fl_val x) = true /\ is_finite (fl_val y) = true /\ K x = Some a /\ K y = Some b /\ K (x_add X x y) = Some (n64 (a + b)).
Proof.
  intros x y H. cbn [x_add ieee_wide] in *. rewrite add64_val in H. destruct (add_finite _ _ _ _ H) as (Fx & Fy).
  destruct (finite_key _ Fx) as (a & Ka), (finite_key _ Fy) as (b & Kb). exists a, b. repeat split; try assumption.
  now apply add64_key.
Qed.

Lemma narrow_finite : forall x : float64, is_finite (fl_val (narrow x)) = true -> is_finite (fl_val x) = true.
Proof. intros x H. rewrite narrow_val in H. destruct (fl_val x); try reflexivity; discriminate H. Qed.

Lemma x_wide_finite : forall x : float32, is_finite (fl_val (x_wide X x)) = is_finite (fl_val x).
Proof. exact widen_finite. Qed.
Lemma x_wide_key : forall x : float32, K (x_wide X x) = K x.
Proof. exact widen_key. Qed.
Lemma x_narrow_finite : forall x : float64, is_finite (fl_val (x_narrow X x)) = true -> is_finite (fl_val x) = true.
Proof. exact narrow_finite. Qed.
Lemma x_narrow_key : forall (x : float64) a, is_finite (fl_val x) = true -> K x = Some a -> K (x_narrow X x) = Some (n32 a).
Proof. exact narrow_key. Qed.

(** The key of a finite cost after one more arc. *)
Definition after (kw kac : Z) (klw : option Z) (kc : Z) : Z :=
  let t := n32 (n32 (kc + kw) + kac) in
  match klw with None => n32 t | Some z => n32 (n64 (t + z)) end.

Lemma after_mono : forall kw kac klw a b, a <= b -> after kw kac klw a <= after kw kac klw b.
Proof.
  intros kw kac klw a b H. unfold after.
  assert (n32 (n32 (a + kw) + kac) <= n32 (n32 (b + kw) + kac)) by (apply mono32; pose proof (mono32 (a + kw) (b + kw) ltac:(lia)); lia).
  destruct klw; apply mono32; [apply mono64; lia|assumption].
Qed.

Lemma cost_key : forall (c w ac : float32) lw, is_finite (fl_val (x_narrow X (cost_after O X c w ac lw))) = true ->
  exists kc kw kac, K c = Some kc /\ K w = Some kw /\ K ac = Some kac /\
    K (x_narrow X (cost_after O X c w ac lw)) = Some (after kw kac (match lw with None => None | Some z => K z end) kc) /\
    (forall z, lw = Some z -> K z <> None).
Proof.
  intros c w ac lw H. unfold cost_after in *.
  assert (G : is_finite (fl_val (f_add O (f_add O c w) ac)) = true -> exists kc kw kac, K c = Some kc /\ K w = Some kw /\ K ac = Some kac /\
    K (f_add O (f_add O c w) ac) = Some (n32 (n32 (kc + kw) + kac))).
  { intros G. destruct (add32_key _ _ G) as (t & kac & Ft & _ & Kt & Kac & Ks). destruct (add32_key _ _ Ft) as (kc & kw & _ & _ & Kc & Kw & Kt').
    rewrite Kt' in Kt. apply some_inj in Kt. subst t. exists kc, kw, kac. auto. }
  destruct lw as [z|].
  - pose proof (x_narrow_finite _ H) as H1. destruct (add64_parts _ _ H1) as (t & kz & Ft & Fz & Kt & Kz & Ks).
    rewrite x_wide_finite in Ft, Fz. rewrite x_wide_key in Kt, Kz.
    destruct (G Ft) as (kc & kw & kac & Kc & Kw & Kac & Ks'). rewrite Ks' in Kt. apply some_inj in Kt. subst t.
    exists kc, kw, kac. repeat split; try assumption.
    + rewrite Kz. unfold after. apply x_narrow_key; [exact H1|exact Ks].
    + intros z' [= <-]. rewrite Kz. discriminate.
  - pose proof (x_narrow_finite _ H) as H1. pose proof H1 as Ft. rewrite x_wide_finite in Ft.
    destruct (G Ft) as (kc & kw & kac & Kc & Kw & Kac & Ks'). exists kc, kw, kac. repeat split; try assumption; [|discriminate].
    unfold after. apply x_narrow_key; [exact H1|]. rewrite x_wide_key. exact Ks'.
Qed.

Lemma ieee_ordered_at : ordered_costs O X (fun c => f_finite O c = true).
Proof.
  constructor.
  - split; [intros x|intros x y z]; cbn [f_lt ieee]; rewrite !lt32.
    + destruct (K x); cbn [less]; [apply Z.ltb_irrefl|reflexivity].
    + destruct (K x), (K y), (K z); cbn [less]; try discriminate. rewrite !Z.ltb_lt. lia.
  - split; [intros x|intros x y z]; cbn [x_lt ieee_wide]; rewrite !lt64.
    + destruct (K x); cbn [less]; [apply Z.ltb_irrefl|reflexivity].
    + destruct (K x), (K y), (K z); cbn [less]; try discriminate. rewrite !Z.ltb_lt. lia.
  - cbn [f_finite f_lt ieee]. intros a b c Fa Fb Fc. destruct (finite_key _ Fa) as (ka & Ka), (finite_key _ Fb) as (kb & Kb), (finite_key _ Fc) as (kc & Kc).
    fold (K a) in Ka. fold (K b) in Kb. fold (K c) in Kc. rewrite !lt32, Ka, Kb, Kc. cbn [less]. rewrite !Z.ltb_ge. lia.
  - intros a b w ac lw _ _ Fa Fb. cbn [f_finite f_lt ieee] in *.
    destruct (cost_key _ _ _ _ Fa) as (ka & kw & kac & Ka & Kw & Kac & Ra & _).
    destruct (cost_key _ _ _ _ Fb) as (kb & kw' & kac' & Kb & Kw' & Kac' & Rb & _).
    rewrite Kw in Kw'. apply some_inj in Kw'. subst kw'. rewrite Kac in Kac'. apply some_inj in Kac'. subst kac'.
    rewrite !lt32, Ka, Kb, Ra, Rb. cbn [less]. rewrite !Z.ltb_ge. intros H. now apply after_mono.
  - intros x. cbn [x_lt x_inf ieee_wide]. rewrite lt64. change (K (f64 (S754_infinity false))) with (Some top).
    destruct (K x) as [a|] eqn:Ka; [|reflexivity]. cbn [less]. apply Z.ltb_ge. pose proof (top64 x a Ka). lia.
Qed.

(** What is less than a rounded number is not above it. *)
Lemma ieee_below_at : forall next c, x_lt X (x_wide X c) (x_wide X (x_narrow X next)) = true -> x_lt X next (x_wide X c) = false.
Proof.
  intros next c. cbn [x_lt x_wide x_narrow ieee_wide]. rewrite !lt64, !widen_key.
  destruct (K c) as [kc|] eqn:Kc; [|discriminate]. pose proof (top32 c kc Kc) as Bc.
  destruct (K next) as [kn|] eqn:Kn; [|reflexivity]. destruct (is_finite (fl_val next)) eqn:Fn.
  - pose proof (narrow_key next kn Fn Kn) as E. pose proof (top32 _ _ E) as Bn. rewrite E. cbn [less]. rewrite Z.ltb_lt, Z.ltb_ge. intros H.
    destruct (Z_le_gt_dec kc kn) as [|G]; [assumption|exfalso].
    assert (Fc : is_finite (fl_val c) = true).
    { destruct (is_finite (fl_val c)) eqn:Fc; [reflexivity|]. unfold K in Kc. pose proof (bound64 next kn Fn Kn).
      destruct (fl_val c) as [s|s| |s m e]; try discriminate Fc; cbn [key] in Kc; [|discriminate Kc]. apply some_inj in Kc. destruct s; cbn [opp_if] in Kc; lia. }
    pose proof (mono32 kn kc ltac:(lia)) as M. rewrite (self32 c kc Fc Kc) in M. lia.
  - unfold K in Kn. destruct (fl_val next) as [s|s| |s m e] eqn:En; try discriminate Fn; cbn [key] in Kn; [|discriminate Kn].
    apply some_inj in Kn. subst kn. unfold K. rewrite narrow_val, En. cbn [round_to key less]. rewrite Z.ltb_lt, Z.ltb_ge. lia.
Qed.

(** * Quotients of counts *)

Lemma count_val : forall a, fl_val (f_int O a) = binary_normalize 24 128 a 0 false /\ K (f_int O a) = Some (n32 (a * 2 ^ S)).
Proof.
  intros a. destruct (normalize_val 24 128 P32 E32 S top S32 a 0 false ltac:(lia)) as (V & E).
  assert (G : fl_val (f_int O a) = binary_normalize 24 128 a 0 false) by (apply seal_val; exact V).
  split; [exact G|]. unfold K. rewrite G, E. reflexivity.
Qed.

(** A positive number. *)
Lemma positive_form : forall (x : float32) a, K x = Some a -> 0 < a < 2 ^ (128 + S) ->
  exists m e, fl_val x = S754_finite false m e /\ Zpos m * 2 ^ (e + S) = a.
Proof.
  intros x a Ka B. pose proof (finite32 x a Ka ltac:(lia)) as Fx. pose proof (fl_valid x) as V. unfold K in Ka.
  destruct (fl_val x) as [s|s| |s m e]; try discriminate Fx; cbn [key] in Ka; apply some_inj in Ka; [lia|].
  destruct (valid_facts 24 128 P32 S S32 s m e V) as (_ & _ & _ & Hm).
  destruct s; cbn [opp_if] in Ka; [lia|]. exists m, e. split; [reflexivity|exact Ka].
Qed.

Lemma div32_key : forall (x y : float32) a b, K x = Some a -> K y = Some b -> 0 < a < 2 ^ (128 + S) -> 0 < b < 2 ^ (128 + S) ->
  K (f_div O x y) = Some (near 24 128 S top (a * 2 ^ S) b).
Proof.
  intros x y a b Ka Kb Ba Bb. destruct (positive_form x a Ka Ba) as (m & e & Ex & <-). destruct (positive_form y b Kb Bb) as (m' & e' & Ey & <-).
  pose proof (fl_valid x) as Vx. pose proof (fl_valid y) as Vy. rewrite Ex in Vx. rewrite Ey in Vy.
  destruct (div_val 24 128 P32 E32 S top S32 T32 false m e false m' e' Vx Vy ltac:(unfold emin; lia)) as (V & E).
  unfold K. cbn [f_div ieee]. rewrite Ex, Ey. unfold f32. rewrite seal_val by exact V. rewrite E. reflexivity.
Qed.

Lemma n32_near : forall z, 0 <= z -> n32 z = near 24 128 S top z 1.
Proof. intros z H. unfold near_signed. destruct (Z.ltb_spec z 0); [lia|reflexivity]. Qed.

Lemma small_count : forall a, 0 <= a <= 65535 -> n32 (a * 2 ^ S) = a * 2 ^ S.
Proof.
  intros a A. pose proof (pow_pos S ltac:(lia)) as P. rewrite n32_near by nia. apply near_multiple; auto with fl.
  - change (2 ^ 24) with 16777216. lia.
  - unfold emin. lia.
  - rewrite pow_add by lia. apply Z.mul_lt_mono_pos_r; [exact P|]. apply (Z.le_lt_trans _ 65535); [lia|reflexivity].
Qed.

Lemma ieee_beam_at : forall beam, f_nonneg O beam = true -> f_lt O beam (f_int O 18446744073709551616) = true -> rounding O X beam.
Proof.
  intros beam H0 H1. cbn [f_nonneg ieee] in H0. change (SFltb (fl_val beam) (fl_val (f_int O 18446744073709551616)) = true) in H1. rewrite lt32 in H1. destruct (count_val 18446744073709551616) as (_ & Ki).
  assert (E : 18446744073709551616 * 2 ^ S = 2 ^ (64 + S)) by (rewrite pow_add by lia; reflexivity).
  rewrite E, n32_pow in Ki by lia. rewrite Ki in H1.
  destruct (K beam) as [kb|] eqn:Kb; [|discriminate H1]. cbn [less] in H1. apply Z.ltb_lt in H1.
  assert (Hp : 2 ^ (64 + S) < 2 ^ (128 + S)) by (apply Z.pow_lt_mono_r; lia). pose proof T32. pose proof (pow_pos (64 + S) ltac:(lia)).
  assert (B : 0 <= kb /\ is_finite (fl_val beam) = true).
  { unfold K in Kb. pose proof (fl_valid beam) as V. destruct (fl_val beam) as [s|s| |s m e]; cbn [key] in Kb; try discriminate Kb; apply some_inj in Kb.
    - split; [lia|reflexivity].
    - exfalso. destruct s; cbn [opp_if] in Kb; [discriminate H0|lia].
    - split; [|reflexivity]. destruct s; [discriminate H0|]. cbn [opp_if] in Kb.
      destruct (valid_facts 24 128 P32 S S32 false m e V) as (_ & _ & _ & Hm). lia. }
  destruct B as (B & Fb). apply (ieee_rounding_at beam kb); [exact Fb|exact Kb|lia].
Qed.

Lemma ieee_divides_at : divides_well O.
Proof.
  intros a b c d A B C D Q. cbn [f_lt ieee]. rewrite lt32. pose proof (pow_pos S ltac:(lia)) as P.
  destruct (count_val a) as (Va & Ka), (count_val b) as (Vb & Kb), (count_val c) as (Vc & Kc), (count_val d) as (Vd & Kd).
  rewrite small_count in Ka, Kb, Kc by lia.
  assert (P64' : 2 ^ (64 + S) = 18446744073709551616 * 2 ^ S) by (rewrite pow_add by lia; reflexivity).
  assert (Q64 : 2 ^ (64 + S) < 2 ^ (128 + S)) by (apply Z.pow_lt_mono_r; lia).
  set (d' := n32 (d * 2 ^ S)) in *.
  assert (Dl : 2 ^ S <= d').
  { pose proof (n32_pow 0 ltac:(lia)) as E0. rewrite Z.add_0_l in E0. rewrite <- E0. apply mono32. nia. }
  assert (Dh : d' <= 2 ^ (64 + S)) by (rewrite <- (n32_pow 64) by lia; apply mono32; nia).
  assert (Em : emin 24 128 + 24 - 1 + S = S - 126) by (unfold emin; lia).
  assert (Pm : 0 < 2 ^ (S - 126)) by (apply pow_pos; lia).
  assert (PS : 2 ^ S = 2 ^ 126 * 2 ^ (S - 126)) by (rewrite <- pow_add by lia; f_equal; lia).
  assert (De : 2 ^ 24 * d' <= (2 ^ 24 + 1) * (d * 2 ^ S)).
  { unfold d'. rewrite n32_near by nia.
    destruct (near_error 24 128 P32 S top S32 T32 (d * 2 ^ S) 1 ltac:(nia) ltac:(lia)) as (H & _).
    - rewrite Em, PS. change (2 ^ 126) with 85070591730234615865843651857942052864. set (u := 2 ^ (S - 126)) in *. nia.
    - rewrite <- n32_near by nia. fold d'. lia.
    - rewrite Z.mul_1_r in H. exact H. }
  assert (Bb : forall z, 0 < z <= 65535 -> 0 < z * 2 ^ S < 2 ^ (128 + S)) by (intros z Hz; split; nia).
  assert (Ky : K (f_div O (f_int O c) (f_int O d)) = Some (near 24 128 S top (c * 2 ^ S * 2 ^ S) d')).
  { apply div32_key; [exact Kc|exact Kd|apply Bb; lia|lia]. }
  (* quotients are in the range of normal numbers *)
  assert (T : forall n m, 0 < n <= 65535 -> 2 ^ S <= m <= 2 ^ (64 + S) ->
    2 ^ (emin 24 128 + 24 - 1 + S) * m <= n * 2 ^ S * 2 ^ S /\ near 24 128 S top (n * 2 ^ S * 2 ^ S) m < 2 ^ (128 + S)).
  { intros n m Hn Hm. split.
    - rewrite Em. apply (Z.le_trans _ (2 ^ (S - 126) * (18446744073709551616 * 2 ^ S))); [apply Z.mul_le_mono_nonneg_l; lia|].
      rewrite Z.mul_assoc. apply Z.mul_le_mono_nonneg_r; [lia|]. rewrite PS.
      change (2 ^ 126) with 85070591730234615865843651857942052864. nia.
    - apply (Z.le_lt_trans _ (near 24 128 S top (2 ^ (64 + S)) 1)).
      + apply near_mono; auto with fl; try nia; rewrite P64', Z.mul_1_r; nia.
      + rewrite <- n32_near by lia. rewrite n32_pow by lia. exact Q64. }
  destruct (T c d' C ltac:(lia)) as (Tc & Uc).
  destruct (near_error 24 128 P32 S top S32 T32 (c * 2 ^ S * 2 ^ S) d' ltac:(nia) ltac:(lia) Tc Uc) as (_ & Ec).
  set (y := near 24 128 S top (c * 2 ^ S * 2 ^ S) d') in *.
  change (2 ^ 24) with 16777216 in *.
  assert (Yp : 0 < y) by nia.
  rewrite Ky. destruct (Z.eq_dec a 0) as [->|Na].
  - (* nothing divided *)
    assert (Ex : fl_val (f_div O (f_int O 0) (f_int O b)) = S754_zero false).
    { destruct (positive_form _ _ Kb ltac:(apply Bb; lia)) as (m & e & E & _). cbn [f_div ieee] in *. rewrite E.
      change (fl_val (f_int O 0)) with (S754_zero false). reflexivity. }
    unfold K at 1. rewrite Ex. cbn [key less]. apply Z.ltb_lt. exact Yp.
  - assert (Kx : K (f_div O (f_int O a) (f_int O b)) = Some (near 24 128 S top (a * 2 ^ S * 2 ^ S) (b * 2 ^ S))).
    { apply div32_key; [exact Ka|exact Kb|apply Bb; lia|apply Bb; lia]. }
    destruct (T a (b * 2 ^ S) ltac:(lia) ltac:(nia)) as (Ta & Ua).
    destruct (near_error 24 128 P32 S top S32 T32 (a * 2 ^ S * 2 ^ S) (b * 2 ^ S) ltac:(nia) ltac:(nia) Ta Ua) as (Ea & _).
    rewrite Kx. set (x := near 24 128 S top (a * 2 ^ S * 2 ^ S) (b * 2 ^ S)) in *. cbn [less]. apply Z.ltb_lt.
    change (2 ^ 24) with 16777216 in Ea.
    set (p := 2 ^ S) in *. clearbody x y p d'. clear - A B C D Q P Dl De Ec Ea Na Yp.
    assert (Ea' : 16777216 * (x * b) <= 16777217 * (a * p)) by nia.
    destruct (Z_lt_le_dec x y) as [|G]; [assumption|exfalso].
    assert (H1 : 16777215 * (c * p * p) <= 16777216 * (x * d')) by nia.
    assert (H2 : 16777215 * (c * p * p) * b <= 16777217 * (a * p) * d') by nia.
    assert (H3 : 16777216 * (16777217 * (a * p) * d') <= 16777217 * (a * p) * (16777217 * (d * p))) by nia.
    assert (H4 : (2 * a * d) * (p * p) <= (b * c) * (p * p)) by (apply Z.mul_le_mono_nonneg_r; nia).
    assert (0 < a * d * (p * p)) by (assert (0 < a * d) by nia; nia).
    nia.
Qed.

End Laws.

(** * The laws *)

Lemma ieee_strict : forall L, strict (f_lt (ieee L)) /\ strict (x_lt ieee_wide).
Proof.
  assert (G : forall prec emax, 1 < prec -> prec < emax -> strict (fun x y : fl prec emax => SFltb (fl_val x) (fl_val y))).
  { intros prec emax P E. set (S := - emin prec emax). assert (HS : - S <= emin prec emax) by (unfold S; lia).
    split; [intros x|intros x y z]; rewrite !(lt_val prec emax P E S (2 ^ (emax + S)) HS (Z.le_refl _)) by apply fl_valid.
    - destruct (key S (2 ^ (emax + S)) (fl_val x)); [apply Z.ltb_irrefl|reflexivity].
    - destruct (key S (2 ^ (emax + S)) (fl_val x)), (key S (2 ^ (emax + S)) (fl_val y)), (key S (2 ^ (emax + S)) (fl_val z)); try discriminate. rewrite !Z.ltb_lt. lia. }
  intros L. split; apply G; lia.
Qed.

Lemma ieee_wf : forall L, well_founded (fun x y => f_lt (ieee L) x y = true).
Proof. intros L. exact (ieee_wf_at 2200 (2 ^ (1024 + 2200)) (Z.le_refl _) (Z.le_refl _) L). Qed.

Lemma ieee_rounding : forall L beam, f_nonneg (ieee L) beam = true -> f_lt (ieee L) beam (f_int (ieee L) 18446744073709551616) = true ->
  rounding (ieee L) ieee_wide beam.
Proof. intros L. exact (ieee_beam_at 2200 (2 ^ (1024 + 2200)) (Z.le_refl _) (Z.le_refl _) L). Qed.

Lemma ieee_ordered : forall L, ordered_costs (ieee L) ieee_wide (fun c => f_finite (ieee L) c = true).
Proof. intros L. exact (ieee_ordered_at 2200 (2 ^ (1024 + 2200)) (Z.le_refl _) (Z.le_refl _) L). Qed.

Lemma ieee_below : forall next c, x_lt ieee_wide (x_wide ieee_wide c) (x_wide ieee_wide (x_narrow ieee_wide next)) = true ->
  x_lt ieee_wide next (x_wide ieee_wide c) = false.
Proof. exact (ieee_below_at 2200 (2 ^ (1024 + 2200)) (Z.le_refl _) (Z.le_refl _)). Qed.

Lemma ieee_divides : forall L, divides_well (ieee L).
Proof. intros L. exact (ieee_divides_at 2200 (2 ^ (1024 + 2200)) (Z.le_refl _) (Z.le_refl _) L). Qed.
