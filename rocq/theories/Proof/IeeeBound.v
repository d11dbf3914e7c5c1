(** Bounds on the numbers of IEEE 754 arithmetic: integers as bounds, operations
    on bounds, and a relation that the operations of the transform keep. *)
From Coq Require Import ZArith Bool List Lia Floats.SpecFloat.
From Verif.Model Require Import Arith Srfft FbankInit Ieee IeeeFbank.
From Verif.Proof Require Import Rne Ieee IeeeLaws Relate.
Open Scope Z_scope.

Lemma abs_opp_if : forall s z, Z.abs (opp_if s z) = Z.abs z.
Proof. intros [|] z; cbn [opp_if]; lia. Qed.

Section Format.
Variables prec emax : Z.
Hypothesis Hprec : 1 < prec.
Hypothesis Hemax : prec < emax.
Variables S top : Z.
Hypothesis HS : - S <= emin prec emax.
Hypothesis Htop : 2 ^ (emax + S) <= top.
Notation ns := (near_signed prec emax S top).
Notation near := (near prec emax S top).
Notation key := (key S top).

Lemma ns_abs : forall a V, Z.abs a <= V -> ns V = V -> Z.abs (ns a) <= V.
Proof.
  intros a V B E. pose proof (near_signed_mono prec emax Hprec Hemax S top HS Htop a V ltac:(lia)) as M1.
  pose proof (near_signed_mono prec emax Hprec Hemax S top HS Htop (- V) a ltac:(lia)) as M2.
  rewrite near_signed_opp in M2 by assumption. lia.
Qed.

Lemma near_le : forall n m V, 0 <= n -> 0 < m -> 0 <= V -> n <= V * m -> ns V = V -> 0 <= near n m <= V.
Proof.
  intros n m V N M P B E. split; [now apply near_nonneg|].
  rewrite <- E. unfold near_signed. destruct (Z.ltb_spec V 0); [lia|]. apply near_mono; try assumption; lia.
Qed.

Lemma add_le : forall x y a b V, valid_binary prec emax x = true -> valid_binary prec emax y = true ->
  is_finite x = true -> is_finite y = true -> key x = Some a -> key y = Some b -> Z.abs a + Z.abs b <= V -> ns V = V ->
  exists k, key (SFadd prec emax x y) = Some k /\ Z.abs k <= V.
Proof.
  intros x y a b V Vx Vy Fx Fy Kx Ky B E. destruct (add_val prec emax Hprec Hemax S top HS x y a b Vx Vy Fx Fy Kx Ky) as (_ & K).
  eexists. split; [exact K|]. apply ns_abs; [lia|exact E].
Qed.

Lemma sub_le : forall x y a b V, valid_binary prec emax x = true -> valid_binary prec emax y = true ->
  is_finite x = true -> is_finite y = true -> key x = Some a -> key y = Some b -> Z.abs a + Z.abs b <= V -> ns V = V ->
  exists k, key (SFsub prec emax x y) = Some k /\ Z.abs k <= V.
Proof.
  intros x y a b V Vx Vy Fx Fy Kx Ky B E. destruct (sub_val prec emax Hprec Hemax S top HS x y a b Vx Vy Fx Fy Kx Ky) as (_ & K).
  eexists. split; [exact K|]. apply ns_abs; [lia|exact E].
Qed.

Lemma mul_le : forall x y a b V, - S <= 2 * emin prec emax -> valid_binary prec emax x = true -> valid_binary prec emax y = true ->
  is_finite x = true -> is_finite y = true -> key x = Some a -> key y = Some b ->
  0 <= V -> Z.abs a * Z.abs b <= V * 2 ^ S -> ns V = V ->
  exists k, key (SFmul prec emax x y) = Some k /\ Z.abs k <= V.
Proof.
  intros x y a b V H2 Vx Vy Fx Fy Kx Ky P B E.
  destruct x as [sx|sx| |sx mx ex], y as [sy|sy| |sy my ey]; try discriminate;
    try (exists 0; split; [reflexivity|exact P]).
  destruct (mul_val prec emax Hprec Hemax S top HS Htop sx mx ex sy my ey Vx Vy H2) as (_ & K).
  eexists. split; [exact K|]. rewrite abs_opp_if.
  pose proof (valid_facts prec emax Hprec S HS _ _ _ Vx) as (Bx & _ & _ & Gx). pose proof (valid_facts prec emax Hprec S HS _ _ _ Vy) as (By & _ & _ & Gy).
  cbn [Ieee.key] in Kx, Ky. apply some_inj in Kx; apply some_inj in Ky. subst a b. rewrite !abs_opp_if in B.
  rewrite (Z.abs_eq (Z.pos mx * _)), (Z.abs_eq (Z.pos my * _)) in B by lia.
  assert (0 < 2 ^ S) by (apply pow_pos; unfold emin in HS; lia).
  destruct (near_le (Z.pos mx * 2 ^ (ex + S) * (Z.pos my * 2 ^ (ey + S))) (2 ^ S) V); try assumption; [nia|]. lia.
Qed.

Lemma div_le : forall x y a b V, - S <= emin prec emax - (emax - prec) -> valid_binary prec emax x = true -> valid_binary prec emax y = true ->
  is_finite x = true -> is_finite y = true -> key x = Some a -> key y = Some b -> b <> 0 ->
  0 <= V -> Z.abs a * 2 ^ S <= V * Z.abs b -> ns V = V ->
  exists k, key (SFdiv prec emax x y) = Some k /\ Z.abs k <= V.
Proof.
  intros x y a b V H2 Vx Vy Fx Fy Kx Ky N P B E.
  destruct y as [sy|sy| |sy my ey]; try discriminate; cbn [Ieee.key] in Ky; apply some_inj in Ky; subst b; [contradiction N; reflexivity|].
  destruct x as [sx|sx| |sx mx ex]; try discriminate; [exists 0; split; [reflexivity|exact P]|].
  destruct (div_val prec emax Hprec Hemax S top HS Htop sx mx ex sy my ey Vx Vy H2) as (_ & K).
  eexists. split; [exact K|]. rewrite abs_opp_if.
  pose proof (valid_facts prec emax Hprec S HS _ _ _ Vx) as (Bx & _ & _ & Gx). pose proof (valid_facts prec emax Hprec S HS _ _ _ Vy) as (By & _ & _ & Gy).
  cbn [Ieee.key] in Kx. apply some_inj in Kx. subst a. rewrite !abs_opp_if in B.
  rewrite (Z.abs_eq (Z.pos mx * _)), (Z.abs_eq (Z.pos my * _)) in B by lia.
  assert (0 < 2 ^ S) by (apply pow_pos; unfold emin in HS; lia).
  destruct (near_le (Z.pos mx * 2 ^ (ex + S) * 2 ^ S) (Z.pos my * 2 ^ (ey + S)) V); try assumption; [nia| |lia].
  pose proof (pow_pos (ey + S) ltac:(lia)). lia.
Qed.

(** Comparison. *)
Lemma le_val : forall x y, valid_binary prec emax x = true -> valid_binary prec emax y = true ->
  SFleb x y = match key x, key y with Some a, Some b => a <=? b | _, _ => false end.
Proof.
  intros x y Vx Vy. pose proof (lt_val prec emax Hprec Hemax S top HS Htop y x Vy Vx) as L.
  assert (Sym : SFcompare y x = match SFcompare x y with Some c => Some (CompOpp c) | None => None end).
  { destruct x as [[]|[]| |[] mx ex], y as [[]|[]| |[] my ey]; cbn [SFcompare CompOpp]; try reflexivity;
      rewrite (Z.compare_antisym ey ex); destruct (ey ?= ex); cbn [CompOpp]; try reflexivity;
      change (Pos.compare_cont Eq mx my) with (Pos.compare mx my); change (Pos.compare_cont Eq my mx) with (Pos.compare my mx);
      rewrite (Pos.compare_antisym my mx); destruct (Pos.compare my mx); reflexivity. }
  assert (G : forall a b, key x = Some a -> key y = Some b -> SFcompare x y <> None).
  { intros a b Ka Kb. destruct x as [[]|[]| |[] mx ex], y as [[]|[]| |[] my ey]; try discriminate; cbn [SFcompare]; discriminate. }
  unfold SFltb in L. unfold SFleb. rewrite Sym in L. destruct (key x) as [a|] eqn:Ka.
  - destruct (key y) as [b|] eqn:Kb.
    + specialize (G a b eq_refl eq_refl). rewrite Z.leb_antisym, <- L. destruct (SFcompare x y) as [[]|]; try reflexivity. contradiction.
    + destruct y as [[]|[]| |[] my ey]; try discriminate. destruct x as [[]|[]| |[] mx ex]; reflexivity.
  - destruct x as [[]|[]| |[] mx ex]; try discriminate. destruct y as [[]|[]| |[] my ey]; reflexivity.
Qed.
End Format.

(** * Bounds

    A bound is a number of units of 2 ^ -40; beyond 2 ^ 126 it says nothing. *)
Definition one : Z := 2 ^ 40.
Definition lim : Z := 2 ^ 166.
Definition cap (z : Z) : Z := if z <=? lim then z else lim + 1.
(** The next number with 24 digits. *)
Definition up (z : Z) : Z :=
  let k := Z.max 0 (Z.log2 z - 23) in cap (Z.shiftl (Z.shiftr (z + Z.ones k) k) k).
Definition up_mul (a b : Z) : Z :=
  if (lim <? a) || (lim <? b) then lim + 1 else up (Z.shiftr (a * b + Z.ones 40) 40).

(** Operations on bounds; those that are not needed are trivial. *)
Definition bounds : fops Z := mk_fops Z
  0 (fun z => up (Z.abs z * one))
  (fun a b => up (a + b)) (fun a b => up (a + b)) up_mul (fun a b => a)
  (fun _ _ => true) (fun _ => true) 0 (fun a => a) (fun a => a) (fun a => a)
  (fun a b => up (a + b))
  (fun a b => a) 0 (fun _ => true) 0 (fun _ _ => 0).
Definition bounds_trig : trig_ops Z := mk_trig
  (fun _ _ => 0) (fun _ _ => 1)
  (fun _ => one) (fun x => if x =? 1 then one / 64 else one)
  (fun x => x) one (fun x => x) (fun x => x) (fun x => x) (fun x => x).

Lemma up_facts : forall z, 0 <= z -> 0 <= up z /\
  (up z <= lim -> z <= up z /\ exists c k, up z = c * 2 ^ k /\ 0 <= c < 2 ^ 24 /\ 0 <= k).
Proof.
  intros z Hz. unfold up, cap. set (k := Z.max 0 (Z.log2 z - 23)).
  assert (Hk : 0 <= k) by lia. pose proof (pow_pos k Hk) as Pk.
  rewrite Z.shiftl_mul_pow2, Z.shiftr_div_pow2, Z.ones_equiv by exact Hk.
  set (c := (z + Z.pred (2 ^ k)) / 2 ^ k).
  assert (Hc : z <= c * 2 ^ k < z + 2 ^ k).
  { unfold c. pose proof (Z.div_mod (z + Z.pred (2 ^ k)) (2 ^ k) ltac:(lia)). pose proof (Z.mod_pos_bound (z + Z.pred (2 ^ k)) (2 ^ k) Pk). lia. }
  assert (C0 : 0 <= c) by nia.
  assert (L : lim = 2 ^ 166) by reflexivity. pose proof (pow_pos 166 ltac:(lia)).
  destruct (Z.leb_spec (c * 2 ^ k) lim); [|split; lia]. split; [lia|]. intros _. split; [lia|].
  assert (Z24 : z < 2 ^ (24 + k)).
  { destruct (Z.eq_dec z 0) as [->|N]; [apply pow_pos; lia|]. pose proof (Z.log2_spec z ltac:(lia)) as (_ & U).
    apply (Z.lt_le_trans _ _ _ U). apply Z.pow_le_mono_r; lia. }
  rewrite Z.pow_add_r in Z24 by lia. assert (c <= 2 ^ 24) by nia.
  destruct (Z.eq_dec c (2 ^ 24)) as [->|N].
  - exists (2 ^ 23), (k + 1). split; [|split; [split; reflexivity || discriminate|lia]].
    rewrite Z.pow_add_r by lia. change (2 ^ 24) with (2 ^ 23 * 2). change (2 ^ 1) with 2. ring.
  - exists c, k. repeat split; lia.
Qed.

Section Bounds.
Variables S top : Z.
Hypothesis HS : 2200 <= S.
Hypothesis Htop : 2 ^ (1024 + S) <= top.
Variable L : library.
Variable M : trig_library.

Notation K x := (key S top (fl_val x)).
Notation n32 := (near_signed 24 128 S top).
Notation n64 := (near_signed 53 1024 S top).
Notation O := (ieee L).
Let P32 : 1 < 24. Proof. lia. Qed.
Let E32 : 24 < 128. Proof. lia. Qed.
Let P64 : 1 < 53. Proof. lia. Qed.
Let E64 : 53 < 1024. Proof. lia. Qed.
Let S32 : - S <= emin 24 128. Proof. unfold emin. lia. Qed.
Let S64 : - S <= emin 53 1024. Proof. unfold emin. lia. Qed.
Let T32 : 2 ^ (128 + S) <= top. Proof. pose proof (big S top HS). lia. Qed.

Definition within {prec emax} (x : fl prec emax) (b : Z) : Prop :=
  is_finite (fl_val x) = true /\ exists a, K x = Some a /\ Z.abs a <= b * 2 ^ (S - 40).

(** [b] is a bound of [x]. *)
Definition bounded (x : float32) (b : Z) : Prop := 0 <= b /\ (b <= lim -> within x b).

Lemma scale_pos : 0 < 2 ^ (S - 40). Proof. apply pow_pos. lia. Qed.
Lemma scale_one : one * 2 ^ (S - 40) = 2 ^ S.
Proof. unfold one. rewrite <- Z.pow_add_r by lia. f_equal. lia. Qed.
Lemma scale_lim : lim * 2 ^ (S - 40) = 2 ^ (126 + S).
Proof. unfold lim. rewrite <- Z.pow_add_r by lia. f_equal. lia. Qed.

(** Numbers with 24 digits are not changed by rounding. *)
Lemma stays : forall c k, 0 <= c < 2 ^ 24 -> 0 <= k -> c * 2 ^ k <= lim ->
  n32 (c * 2 ^ k * 2 ^ (S - 40)) = c * 2 ^ k * 2 ^ (S - 40) /\ n64 (c * 2 ^ k * 2 ^ (S - 40)) = c * 2 ^ k * 2 ^ (S - 40).
Proof.
  intros c k Hc Hk Hl. pose proof scale_pos as SP. pose proof (pow_pos k Hk) as PK. pose proof scale_lim as SL.
  assert (B : c * 2 ^ k * 2 ^ (S - 40) <= 2 ^ (126 + S)) by (rewrite <- SL; apply Z.mul_le_mono_nonneg_r; lia).
  assert (2 ^ (126 + S) < 2 ^ (128 + S)) by (apply Z.pow_lt_mono_r; lia). pose proof (big S top HS).
  rewrite <- Z.mul_assoc, <- Z.pow_add_r in * by lia. pose proof (pow_pos (k + (S - 40)) ltac:(lia)).
  assert (2 ^ 24 < 2 ^ 53) by reflexivity.
  split; unfold near_signed; (destruct (Z.ltb_spec (c * 2 ^ (k + (S - 40))) 0); [lia|]); apply near_multiple; auto; unfold emin; lia.
Qed.

Lemma up_stays : forall z, 0 <= z -> up z <= lim ->
  n32 (up z * 2 ^ (S - 40)) = up z * 2 ^ (S - 40) /\ n64 (up z * 2 ^ (S - 40)) = up z * 2 ^ (S - 40).
Proof. intros z Hz H. destruct (up_facts z Hz) as (_ & G). destruct (G H) as (_ & c & k & E & Hc & Hk). rewrite E in *. now apply stays. Qed.

Lemma within_by : forall (x : float32) k b, K x = Some k -> Z.abs k <= b * 2 ^ (S - 40) -> b <= lim -> within x b.
Proof.
  intros x k b E B H. split; [|exists k; auto]. apply (finite32 S top HS Htop x k E).
  assert (b * 2 ^ (S - 40) <= 2 ^ (126 + S)) by (rewrite <- scale_lim; apply Z.mul_le_mono_nonneg_r; [pose proof scale_pos; lia|exact H]).
  assert (2 ^ (126 + S) < 2 ^ (128 + S)) by (apply Z.pow_lt_mono_r; lia). lia.
Qed.

Lemma valid32 : forall x : float32, valid_binary 24 128 (fl_val x) = true. Proof. intros x. apply fl_valid. Qed.

Lemma bounded_up : forall (x : float32) z, 0 <= z ->
  (forall V, z * 2 ^ (S - 40) <= V -> 0 <= V -> n32 V = V -> n64 V = V -> up z <= lim -> exists k, K x = Some k /\ Z.abs k <= V) -> bounded x (up z).
Proof.
  intros x z Hz G. destruct (up_facts z Hz) as (N & U). split; [exact N|]. intros H. destruct (U H) as (Le & _).
  destruct (up_stays z Hz H) as (E1 & E2). pose proof scale_pos.
  destruct (G (up z * 2 ^ (S - 40)) ltac:(nia) ltac:(nia) E1 E2 H) as (k & Kx & B). now apply (within_by x k).
Qed.

Lemma up_le_lim : forall a b, 0 <= a -> 0 <= b -> up (a + b) <= lim -> a <= lim /\ b <= lim.
Proof. intros a b A B H. destruct (up_facts (a + b) ltac:(lia)) as (_ & U). destruct (U H). lia. Qed.

Lemma bounded_add : forall x y a b, bounded x a -> bounded y b -> bounded (f_add O x y) (up (a + b)).
Proof.
  intros x y a b (A & Hx) (B & Hy). apply bounded_up; [lia|]. intros V LV PV E _ H. destruct (up_le_lim a b A B H) as (La & Lb).
  destruct (Hx La) as (Fx & ka & Ka & Ba), (Hy Lb) as (Fy & kb & Kb & Bb). rewrite (add32_val S top HS).
  apply (add_le 24 128 P32 E32 S top S32 T32 _ _ ka kb); auto using valid32. lia.
Qed.

Lemma sub32_val : forall x y : float32, fl_val (f_sub O x y) = SFsub 24 128 (fl_val x) (fl_val y).
Proof. intros x y. apply seal_val. apply (sub_valid 24 128 P32 E32 S top S32); apply valid32. Qed.
Lemma mul32_val : forall x y : float32, fl_val (f_mul O x y) = SFmul 24 128 (fl_val x) (fl_val y).
Proof. intros x y. apply seal_val. apply (mul_valid 24 128 P32 E32 S top S32 T32); try apply valid32. unfold emin. lia. Qed.
Lemma div32_val : forall x y : float32, fl_val (f_div O x y) = SFdiv 24 128 (fl_val x) (fl_val y).
Proof. intros x y. apply seal_val. apply (div_valid 24 128 P32 E32 S top S32 T32); try apply valid32. unfold emin. lia. Qed.

Lemma bounded_sub : forall x y a b, bounded x a -> bounded y b -> bounded (f_sub O x y) (up (a + b)).
Proof.
  intros x y a b (A & Hx) (B & Hy). apply bounded_up; [lia|]. intros V LV PV E _ H. destruct (up_le_lim a b A B H) as (La & Lb).
  destruct (Hx La) as (Fx & ka & Ka & Ba), (Hy Lb) as (Fy & kb & Kb & Bb). rewrite sub32_val.
  apply (sub_le 24 128 P32 E32 S top S32 T32 _ _ ka kb); auto using valid32. lia.
Qed.

Lemma bounded_mul : forall x y a b, bounded x a -> bounded y b -> bounded (f_mul O x y) (up_mul a b).
Proof.
  intros x y a b (A & Hx) (B & Hy). unfold up_mul. assert (0 < lim) by reflexivity.
  destruct (Z.ltb_spec lim a) as [?|La]; [split; cbn [orb]; lia|]. destruct (Z.ltb_spec lim b) as [?|Lb]; [split; cbn [orb]; lia|]. cbn [orb].
  rewrite Z.shiftr_div_pow2, Z.ones_equiv by lia. set (z := (a * b + Z.pred (2 ^ 40)) / 2 ^ 40).
  assert (Hz : a * b <= z * 2 ^ 40).
  { unfold z. pose proof (pow_pos 40 ltac:(lia)). pose proof (Z.div_mod (a * b + Z.pred (2 ^ 40)) (2 ^ 40) ltac:(lia)).
    pose proof (Z.mod_pos_bound (a * b + Z.pred (2 ^ 40)) (2 ^ 40) ltac:(lia)). lia. }
  assert (Z0 : 0 <= z) by (pose proof (pow_pos 40 ltac:(lia)); nia).
  apply bounded_up; [exact Z0|]. intros V LV PV E _ _.
  destruct (Hx La) as (Fx & ka & Ka & Ba), (Hy Lb) as (Fy & kb & Kb & Bb). rewrite mul32_val.
  apply (mul_le 24 128 P32 E32 S top S32 T32 _ _ ka kb); auto using valid32; [unfold emin; lia|].
  transitivity (z * 2 ^ (S - 40) * 2 ^ S); [|apply Z.mul_le_mono_nonneg_r; [pose proof (pow_pos S ltac:(lia)); lia|exact LV]].
  rewrite <- scale_one. unfold one. pose proof scale_pos as SP.
  transitivity (a * 2 ^ (S - 40) * (b * 2 ^ (S - 40))); [apply Z.mul_le_mono_nonneg; lia|].
  replace (a * 2 ^ (S - 40) * (b * 2 ^ (S - 40))) with (a * b * (2 ^ (S - 40) * 2 ^ (S - 40))) by ring.
  replace (z * 2 ^ (S - 40) * (2 ^ 40 * 2 ^ (S - 40))) with (z * 2 ^ 40 * (2 ^ (S - 40) * 2 ^ (S - 40))) by ring.
  apply Z.mul_le_mono_nonneg_r; [nia|exact Hz].
Qed.

Lemma bounded_int : forall z, bounded (f_int O z) (up (Z.abs z * one)).
Proof.
  intros z. assert (0 < one) by reflexivity. apply bounded_up; [nia|]. intros V LV PV E _ _.
  eexists. split; [apply (count_val S top HS)|]. apply (ns_abs 24 128 P32 E32 S top S32 T32); [|exact E].
  rewrite Z.abs_mul, (Z.abs_eq (2 ^ S)) by (pose proof (pow_pos S ltac:(lia)); lia). rewrite <- scale_one. lia.
Qed.

Lemma bounded_zero : bounded (f_zero O) 0.
Proof. split; [lia|]. intros _. split; [reflexivity|]. exists 0. split; [reflexivity|lia]. Qed.

Lemma bounded_neg : forall x a, bounded x a -> bounded (f32 (SFopp (fl_val x))) a.
Proof.
  intros x a (A & Hx). split; [exact A|]. intros H. destruct (Hx H) as (Fx & k & Ka & B).
  assert (E : fl_val (f32 (SFopp (fl_val x))) = SFopp (fl_val x)).
  { apply seal_val. pose proof (valid32 x) as V. destruct (fl_val x); exact V. }
  split; rewrite E; destruct (fl_val x) as [s|s| |s m e]; try discriminate; try reflexivity.
  - exists 0. split; [reflexivity|]. pose proof scale_pos. nia.
  - exists (- k). cbn [SFopp key] in *. apply some_inj in Ka. subst k. split; [destruct s; cbn [negb opp_if]; f_equal; ring|]. now rewrite Z.abs_opp.
Qed.

(** * Products and differences in double precision *)

Lemma mul64_le : forall (c : spec_float) (y : float64) kc ky, valid_binary 53 1024 c = true -> is_finite c = true -> key S top c = Some kc ->
  Z.abs kc <= 2 ^ S -> is_finite (fl_val y) = true -> K y = Some ky ->
  fl_val (f64 (SFmul 53 1024 c (fl_val y))) = SFmul 53 1024 c (fl_val y) /\
  exists k, key S top (SFmul 53 1024 c (fl_val y)) = Some k /\ Z.abs k <= Z.abs ky.
Proof.
  intros c y kc ky Vc Fc Kc B Fy Ky. assert (S2 : - S <= 2 * emin 53 1024) by (unfold emin; lia).
  split; [apply seal_val; apply (mul_valid 53 1024 P64 E64 S top S64 Htop); auto using fl_valid|].
  apply (mul_le 53 1024 P64 E64 S top S64 Htop c (fl_val y) kc ky); auto using fl_valid; [lia|nia|].
  pose proof (self64 S top HS y ky Fy Ky) as E. destruct (Z.abs_eq_or_opp ky) as [->| ->]; [exact E|].
  rewrite near_signed_opp by assumption. lia.
Qed.

(** A constant of [double] between -1 and 1 times a [float], rounded to [float]. *)
Lemma bounded_times : forall (c : spec_float) kc x a, valid_binary 53 1024 c = true -> is_finite c = true -> key S top c = Some kc ->
  Z.abs kc <= 2 ^ S -> bounded x a -> bounded (narrow (f64 (SFmul 53 1024 c (fl_val (widen x))))) a.
Proof.
  intros c kc x a Vc Fc Kc B (A & Hx). split; [exact A|]. intros H. destruct (Hx H) as (Fx & k & Ka & Ba).
  destruct (mul64_le c (widen x) kc k Vc Fc Kc B) as (E & k' & K' & B'); [rewrite (widen_finite S top HS Htop); exact Fx|rewrite (widen_key S top HS); exact Ka|].
  set (p := f64 (SFmul 53 1024 c (fl_val (widen x)))) in *. pose proof (bound32 S top HS x k Fx Ka) as Bk. pose proof (big S top HS).
  assert (Kp : K p = Some k') by (rewrite E; exact K').
  assert (Fp : is_finite (fl_val p) = true) by (apply (finite64 S top Htop p k' Kp); lia).
  apply (within_by _ (n32 k')); [exact (narrow_key S top HS p k' Fp Kp)| |exact H].
  transitivity (Z.abs k); [|exact Ba]. apply (ns_abs 24 128 P32 E32 S top S32 T32); [lia|].
  pose proof (self32 S top HS x k Fx Ka) as Q. destruct (Z.abs_eq_or_opp k) as [->| ->]; [exact Q|].
  rewrite near_signed_opp by assumption. lia.
Qed.

(** [x - c * y] computed in [double], with a constant between -1 and 1. *)
Lemma bounded_minus : forall (c : spec_float) kc x y a b, valid_binary 53 1024 c = true -> is_finite c = true -> key S top c = Some kc ->
  Z.abs kc <= 2 ^ S -> bounded x a -> bounded y b ->
  bounded (narrow (f64 (SFsub 53 1024 (fl_val (widen x)) (SFmul 53 1024 c (fl_val (widen y)))))) (up (a + b)).
Proof.
  intros c kc x y a b Vc Fc Kc Bc (A & Hx) (B & Hy). apply bounded_up; [lia|]. intros V LV PV E E' H.
  destruct (up_le_lim a b A B H) as (La & Lb).
  destruct (Hx La) as (Fx & ka & Ka & Ba), (Hy Lb) as (Fy & kb & Kb & Bb).
  destruct (mul64_le c (widen y) kc kb Vc Fc Kc Bc) as (Ep & k' & K' & B'); [rewrite (widen_finite S top HS Htop); exact Fy|rewrite (widen_key S top HS); exact Kb|].
  pose proof (bound32 S top HS y kb Fy Kb) as Bk. pose proof (big S top HS).
  set (p := f64 (SFmul 53 1024 c (fl_val (widen y)))) in *. rewrite <- Ep in *.
  assert (Fp : is_finite (fl_val p) = true) by (apply (finite64 S top Htop p k' K'); lia).
  assert (Fw : is_finite (fl_val (widen x)) = true) by (rewrite (widen_finite S top HS Htop); exact Fx).
  assert (Kw : K (widen x) = Some ka) by (rewrite (widen_key S top HS); exact Ka).
  pose proof (sub64_key S top HS (widen x) p ka k' Fw Fp Kw K') as Kd.
  set (d := f64 (SFsub 53 1024 (fl_val (widen x)) (fl_val p))) in *.
  assert (Bd : Z.abs (n64 (ka - k')) <= V) by (apply (ns_abs 53 1024 P64 E64 S top S64 Htop); [lia|exact E']).
  eexists. split.
  - apply (narrow_key S top HS d (n64 (ka - k'))); [|exact Kd]. apply (finite64 S top Htop d _ Kd).
    assert (2 * Z.abs (ka - k') < 2 ^ (1024 + S)).
    { pose proof (bound32 S top HS x ka Fx Ka). assert (2 ^ (128 + S) * 8 <= 2 ^ (1024 + S)); [|lia].
      change 8 with (2 ^ 3). rewrite <- Z.pow_add_r by lia. apply Z.pow_le_mono_r; lia. }
    pose proof (up_facts (a + b) ltac:(lia)) as (U0 & U1). destruct (up_stays (a + b) ltac:(lia) H) as (_ & U3).
    assert (Z.abs (n64 (ka - k')) <= up (a + b) * 2 ^ (S - 40)).
    { apply (ns_abs 53 1024 P64 E64 S top S64 Htop); [|exact U3]. destruct (U1 H) as (U2 & _). pose proof scale_pos. nia. }
    assert (up (a + b) * 2 ^ (S - 40) <= 2 ^ (126 + S)) by (rewrite <- scale_lim; apply Z.mul_le_mono_nonneg_r; [pose proof scale_pos; lia|exact H]).
    assert (2 ^ (126 + S) < 2 ^ (128 + S)) by (apply Z.pow_lt_mono_r; lia). lia.
  - apply (ns_abs 24 128 P32 E32 S top S32 T32); [exact Bd|exact E].
Qed.

(** Constants. *)
Lemma ratio_le : forall c, c = ratio64 97 100 \/ c = ratio64 1 2 \/ c = ratio64 (-1) 2 ->
  valid_binary 53 1024 c = true /\ is_finite c = true /\ exists kc, key S top c = Some kc /\ Z.abs kc <= 2 ^ S.
Proof.
  assert (G : forall s m e, - S <= e -> e <= 0 -> Zpos m <= 2 ^ (- e) -> Z.abs (opp_if s (Zpos m * 2 ^ (e + S))) <= 2 ^ S).
  { intros s m e E1 E2 B. rewrite abs_opp_if. pose proof (pow_pos (e + S) ltac:(lia)). rewrite Z.abs_eq by nia.
    replace (2 ^ S) with (2 ^ (- e) * 2 ^ (e + S)); [nia|]. rewrite <- Z.pow_add_r by lia. f_equal. lia. }
  assert (C1 : ratio64 97 100 = S754_finite false 8736983277098762 (-53)) by (vm_compute; reflexivity).
  assert (C2 : ratio64 1 2 = S754_finite false 4503599627370496 (-53)) by (vm_compute; reflexivity).
  assert (C3 : ratio64 (-1) 2 = S754_finite true 4503599627370496 (-53)) by (vm_compute; reflexivity).
  rewrite C1, C2, C3. intros c [-> | [-> | ->]]; (split; [reflexivity|]); (split; [reflexivity|]); cbn [key];
    eexists; (split; [reflexivity|]); apply G; try lia; discriminate.
Qed.

Lemma ops_bounded : ops_alike bounded O bounds.
Proof.
  split.
  - exact bounded_zero.
  - exact bounded_int.
  - exact bounded_add.
  - exact bounded_sub.
  - exact bounded_mul.
  - intros x y a b Hx Hy. destruct (ratio_le (ratio64 97 100) ltac:(auto)) as (V & F & kc & Kc & B). exact (bounded_minus _ kc x y a b V F Kc B Hx Hy).
Qed.

(** The mean of [n] numbers is not above their sum. *)
Lemma bounded_mean : forall n x a, 1 <= n <= 65535 -> bounded x a -> bounded (f_div O x (f_int O n)) a.
Proof.
  intros n x a Hn (A & Hx). split; [exact A|]. intros H. destruct (Hx H) as (Fx & k & Ka & B).
  destruct (count_val S top HS L n) as (_ & Kn). rewrite (small_count S top HS n) in Kn by lia.
  pose proof (pow_pos S ltac:(lia)) as PS.
  assert (Fn : is_finite (fl_val (f_int O n)) = true).
  { apply (finite32 S top HS Htop _ _ Kn). rewrite Z.pow_add_r by lia. assert (65535 < 2 ^ 128) by reflexivity. nia. }
  destruct (div_le 24 128 P32 E32 S top S32 T32 (fl_val x) (fl_val (f_int O n)) k (n * 2 ^ S) (Z.abs k)) as (q & Kq & Bq);
    auto using valid32; [unfold emin; lia|nia|lia|nia| |].
  - pose proof (self32 S top HS x k Fx Ka) as Q. destruct (Z.abs_eq_or_opp k) as [->| ->]; [exact Q|].
    rewrite near_signed_opp by assumption. lia.
  - apply (within_by _ q); [|lia|exact H]. rewrite div32_val. exact Kq.
Qed.

End Bounds.
