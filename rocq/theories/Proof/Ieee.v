(** The operations of SpecFloat on whole numbers: every number of a format is a
    multiple of 2 ^ -S for one large S, and operations round exact results. *)
From Coq Require Import ZArith Bool Lia Floats.SpecFloat.
From Verif.Model Require Import Ieee.
From Verif.Proof Require Import Rne.
Open Scope Z_scope.

Lemma some_inj : forall A (a b : A), Some a = Some b -> a = b.
Proof. intros A a b E. now injection E. Qed.

Section Format.
Variables prec emax : Z.
Hypothesis Hprec : 1 < prec.
Hypothesis Hemax : prec < emax.
(** The scale, and a number for infinity. *)
Variable S : Z.
Variable top : Z.
Hypothesis HS : - S <= emin prec emax.
Hypothesis Htop : 2 ^ (emax + S) <= top.

Notation emin := (emin prec emax).
Notation fexp := (fexp prec emax).

Lemma emin_le : emin <= emax - prec.
Proof. unfold SpecFloat.emin. lia. Qed.

Lemma S_pos : 0 < emax + S.
Proof. unfold SpecFloat.emin in HS. lia. Qed.

(** The nearest number of the format to [n / m]. *)
Definition near (n m : Z) : Z :=
  let k := Z.max (Zdigits2 (n / m) - prec) (emin + S) in
  let v := rne n (m * 2 ^ k) * 2 ^ k in
  if 2 ^ (emax + S) <=? v then top else v.

Definition opp_if (s : bool) (z : Z) : Z := if s then - z else z.

(** The number as a multiple of 2 ^ -S. *)
Definition key (x : spec_float) : option Z :=
  match x with
  | S754_zero _ => Some 0
  | S754_infinity s => Some (opp_if s top)
  | S754_nan => None
  | S754_finite s m e => Some (opp_if s (Zpos m * 2 ^ (e + S)))
  end.

Lemma k_nonneg : forall d, 0 <= Z.max (d - prec) (emin + S).
Proof. intros d. lia. Qed.

Lemma digits_shift : forall n m j, 0 < m -> 0 <= j -> 0 < n / m -> Zdigits2 (n * 2 ^ j / m) = Zdigits2 (n / m) + j.
Proof.
  intros n m j M J Q. pose proof (pow_pos j J) as P. pose proof (digits_bounds _ Q) as (L & U).
  pose proof (digits_positive _ Q) as D.
  pose proof (Z.div_mod n m ltac:(lia)) as E. pose proof (Z.mod_pos_bound n m M) as B.
  apply digits_unique.
  - apply Z.div_str_pos. split; [lia|]. assert (m <= n) by nia. nia.
  - split.
    + replace (Zdigits2 (n / m) + j - 1) with (Zdigits2 (n / m) - 1 + j) by lia. rewrite pow_add by lia.
      apply Z.div_le_lower_bound; [lia|]. assert (m * 2 ^ (Zdigits2 (n / m) - 1) <= n) by nia.
      rewrite Z.mul_assoc. apply Z.mul_le_mono_nonneg_r; lia.
    + rewrite pow_add by lia. apply Z.div_lt_upper_bound; [lia|]. assert (n < m * 2 ^ Zdigits2 (n / m)) by nia.
      rewrite Z.mul_assoc. apply Z.mul_lt_mono_pos_r; lia.
Qed.

Lemma canonical : forall s m e, valid_binary prec emax (S754_finite s m e) = true <->
  fexp (Zdigits2 (Zpos m) + e) = e /\ e <= emax - prec.
Proof.
  intros s m e. cbn [valid_binary Zdigits2]. unfold bounded, canonical_mantissa. rewrite andb_true_iff.
  rewrite Z.leb_le. rewrite <- Zeq_is_eq_bool. tauto.
Qed.

(** * Rounding *)

Lemma shr_fexp_rep : forall m e l n d, rep (shr_record_of_loc m l) n d -> e <= fexp (Zdigits2 m + e) ->
  exists mrs, shr_fexp prec emax m e l = (mrs, fexp (Zdigits2 m + e)) /\ rep mrs n (d * 2 ^ (fexp (Zdigits2 m + e) - e)).
Proof.
  intros m e l n d R H. unfold shr_fexp, shr. destruct (fexp (Zdigits2 m + e) - e) as [|p|p] eqn:E; [| |lia].
  - exists (shr_record_of_loc m l). split; [f_equal; lia|]. change (2 ^ 0) with 1. now rewrite Z.mul_1_r.
  - eexists. split; [f_equal; lia|]. now apply iter_shift.
Qed.

Lemma shr_fexp_same : forall m e, fexp (Zdigits2 m + e) <= e -> shr_fexp prec emax m e loc_Exact = (Build_shr_record m false false, e).
Proof. intros m e H. unfold shr_fexp, shr. destruct (fexp (Zdigits2 m + e) - e) as [|p|p] eqn:E; [reflexivity|lia|reflexivity]. Qed.

Theorem round_aux : forall sx mx ex lx n m, rep (shr_record_of_loc mx lx) n m -> - S <= ex -> ex <= fexp (Zdigits2 mx + ex) ->
  valid_binary prec emax (binary_round_aux prec emax sx mx ex lx) = true /\
  key (binary_round_aux prec emax sx mx ex lx) = Some (opp_if sx (near (n * 2 ^ (ex + S)) m)).
Proof.
  intros sx mx ex lx n m R HE HF. pose proof R as (Hn & Hm & Hq & _).
  assert (Eq : mx = n / m). { rewrite <- Hq. destruct lx as [|[| |]]; reflexivity. } clear Hq.
  set (e1 := fexp (Zdigits2 mx + ex)) in *.
  assert (E1 : emin <= e1) by (unfold e1, SpecFloat.fexp; lia).
  set (m1 := rne n (m * 2 ^ (e1 - ex))).
  pose proof (pow_pos (e1 - ex) ltac:(lia)) as P1.
  (* what is near *)
  assert (K : Z.max (Zdigits2 (n * 2 ^ (ex + S) / m) - prec) (emin + S) = e1 + S).
  { assert (0 <= mx) by (rewrite Eq; apply Z.div_pos; lia).
    destruct (Z.eq_dec mx 0) as [Z0|NZ].
    - assert (ex <= emin). { revert HF. unfold e1, SpecFloat.fexp. rewrite Z0. cbn [Zdigits2]. lia. }
      assert (e1 = emin) as ->. { unfold e1, SpecFloat.fexp. rewrite Z0. cbn [Zdigits2]. lia. }
      assert (Zdigits2 (n * 2 ^ (ex + S) / m) <= ex + S); [|lia].
      pose proof (pow_pos (ex + S) ltac:(lia)).
      apply digits_above; [apply Z.div_pos; nia|lia|]. apply Z.div_lt_upper_bound; [lia|].
      assert (Lt0 : n / m = 0) by congruence. apply Z.div_small_iff in Lt0; [|lia]. nia.
    - rewrite digits_shift by lia. rewrite <- Eq. unfold e1, SpecFloat.fexp. lia. }
  assert (V : rne (n * 2 ^ (ex + S)) (m * 2 ^ (e1 + S)) = m1).
  { replace (e1 + S) with (e1 - ex + (ex + S)) by lia. rewrite (pow_add (e1 - ex)) by lia. rewrite Z.mul_assoc.
    apply rne_scale; [nia|apply pow_pos; lia]. }
  unfold near. rewrite K, V. clear K V.
  (* the size of the rounded mantissa *)
  assert (M0 : 0 <= m1) by (apply rne_nonneg; nia).
  assert (Hd : n < m * 2 ^ Zdigits2 mx).
  { destruct (Z.eq_dec mx 0) as [Z0|NZ].
    - rewrite Z0. cbn [Zdigits2]. change (2 ^ 0) with 1. assert (Lt0 : n / m = 0) by congruence. apply Z.div_small_iff in Lt0; lia.
    - assert (0 <= mx) by (rewrite Eq; apply Z.div_pos; lia). pose proof (digits_bounds mx ltac:(lia)).
      pose proof (Z.div_mod n m ltac:(lia)). pose proof (Z.mod_pos_bound n m Hm). nia. }
  assert (M1 : m1 <= 2 ^ prec).
  { apply rne_le; [nia|]. 
    assert (2 ^ Zdigits2 mx <= 2 ^ prec * 2 ^ (e1 - ex)); [|nia].
    rewrite <- pow_add by lia. apply Z.pow_le_mono_r; [lia|]. unfold e1, SpecFloat.fexp. lia. }
  assert (M2 : emin < e1 -> 2 ^ (prec - 1) <= m1).
  { intros L. apply rne_ge; [nia|].
    assert (Hx : Zdigits2 mx = prec + (e1 - ex)) by (revert L; unfold e1, SpecFloat.fexp; lia).
    assert (0 < mx). { destruct mx; [cbn in Hx; lia|lia|]. pose proof (Z.div_pos n m Hn Hm). lia. }
    pose proof (digits_bounds mx H) as (L1 & _). rewrite Hx in L1. replace (prec + (e1 - ex) - 1) with (prec - 1 + (e1 - ex)) in L1 by lia.
    rewrite pow_add in L1 by lia. pose proof (Z.div_mod n m ltac:(lia)). pose proof (Z.mod_pos_bound n m Hm). nia. }
  unfold binary_round_aux. destruct (shr_fexp_rep mx ex lx n m R HF) as (mrs & -> & R1). fold e1 in R1 |- *.
  rewrite (rep_round _ _ _ R1). fold m1. clearbody m1 e1.
  (* the mantissa that is kept *)
  assert (G : exists m2 e2, shr_fexp prec emax m1 e1 loc_Exact = (Build_shr_record m2 false false, e2) /\
            m2 * 2 ^ (e2 + S) = m1 * 2 ^ (e1 + S) /\ 0 <= m2 < 2 ^ prec /\ emin <= e2 /\ (emin < e2 -> 2 ^ (prec - 1) <= m2)).
  { destruct (Z.eq_dec m1 (2 ^ prec)) as [Em|Nm].
    - exists (2 ^ (prec - 1)), (e1 + 1).
      assert (D : Zdigits2 m1 = prec + 1).
      { apply digits_unique; rewrite Em; [apply pow_pos; lia|]. replace (prec + 1 - 1) with prec by lia.
        split; [lia|]. rewrite pow_add by lia. change (2 ^ 1) with 2. pose proof (pow_pos prec ltac:(lia)). lia. }
      assert (P : 2 ^ prec = 2 * 2 ^ (prec - 1)).
      { replace prec with (1 + (prec - 1)) at 1 by lia. rewrite pow_add by lia. reflexivity. }
      pose proof (pow_pos (prec - 1) ltac:(lia)) as P0.
      split; [|split; [|split; [lia|split; [lia|lia]]]].
      + unfold shr_fexp, shr. replace (fexp (Zdigits2 m1 + e1) - e1) with 1 by (rewrite D; unfold SpecFloat.fexp; lia).
        cbn [iter_pos shr_record_of_loc]. f_equal. rewrite Em, P. destruct (2 ^ (prec - 1)) as [|q|q]; [lia| |lia]. reflexivity.
      + rewrite Em, P. replace (e1 + 1 + S) with (1 + (e1 + S)) by lia. rewrite pow_add by lia. change (2 ^ 1) with 2. ring.
    - exists m1, e1. assert (D : Zdigits2 m1 <= prec) by (apply digits_above; lia).
      split; [|split; [reflexivity|split; [lia|split; [lia|assumption]]]].
      apply shr_fexp_same. unfold SpecFloat.fexp. lia. }
  destruct G as (m2 & e2 & -> & Ev & B2 & L2 & H2). rewrite <- Ev. clear Ev M0 M1 M2 m1 R1 mrs P1 Hd.
  cbn [shr_m]. pose proof (pow_pos (e2 + S) ltac:(lia)) as Pe.
  pose proof S_pos as SP.
  destruct m2 as [|p|p]; [| |lia].
  - split; [reflexivity|]. cbn [key]. pose proof (pow_pos (emax + S) ltac:(lia)).
    destruct (Z.leb_spec (2 ^ (emax + S)) (0 * 2 ^ (e2 + S))); [lia|]. destruct sx; reflexivity.
  - destruct (Z.leb_spec e2 (emax - prec)) as [L|G].
    + split.
      * apply canonical. split; [|exact L]. unfold SpecFloat.fexp.
        assert (Zdigits2 (Z.pos p) <= prec) by (apply digits_above; lia).
        destruct (Z.eq_dec e2 emin) as [Ee|Ne]; [lia|].
        assert (prec - 1 < Zdigits2 (Z.pos p)); [|lia]. apply digits_below; [lia|]. apply H2; lia.
      * cbn [key]. destruct (Z.leb_spec (2 ^ (emax + S)) (Z.pos p * 2 ^ (e2 + S))) as [C|C]; [|destruct sx; reflexivity].
        exfalso. assert (2 ^ prec * 2 ^ (e2 + S) <= 2 ^ (emax + S)); [|nia].
        rewrite <- pow_add by lia. apply Z.pow_le_mono_r; lia.
    + split; [reflexivity|]. cbn [key].
      destruct (Z.leb_spec (2 ^ (emax + S)) (Z.pos p * 2 ^ (e2 + S))) as [C|C]; [destruct sx; reflexivity|].
      exfalso. pose proof emin_le. specialize (H2 ltac:(lia)).
      assert (2 ^ (emax + S) <= 2 ^ (prec - 1) * 2 ^ (e2 + S)); [|nia].
      rewrite <- pow_add by lia. apply Z.pow_le_mono_r; lia.
Qed.

Lemma shift_pos_mul : forall d m, Zpos (shift_pos d m) = Zpos m * 2 ^ Zpos d.
Proof. intros d m. rewrite shift_pos_correct. rewrite Z.pow_pos_fold. ring. Qed.

Theorem round_val : forall s m e, - S <= e ->
  valid_binary prec emax (binary_round prec emax s m e) = true /\
  key (binary_round prec emax s m e) = Some (opp_if s (near (Zpos m * 2 ^ (e + S)) 1)).
Proof.
  intros s m e H. unfold binary_round, shl_align. set (e' := fexp (Zpos (digits2_pos m) + e)).
  assert (E' : emin <= e') by (unfold e', SpecFloat.fexp; lia).
  destruct (e' - e) as [|d|d] eqn:E.
  - apply round_aux; [now apply rep_exact|exact H|]. change (Zdigits2 (Z.pos m)) with (Zpos (digits2_pos m)). fold e'. lia.
  - apply round_aux; [now apply rep_exact|exact H|]. change (Zdigits2 (Z.pos m)) with (Zpos (digits2_pos m)). fold e'. lia.
  - assert (D : Zdigits2 (Zpos (shift_pos d m)) + e' = Zpos (digits2_pos m) + e).
    { rewrite shift_pos_mul. pose proof (digits_shift (Zpos m) 1 (Zpos d) ltac:(lia) ltac:(lia)) as X.
      rewrite !Z.div_1_r in X. rewrite X by lia. cbn [Zdigits2]. lia. }
    replace (Zpos m * 2 ^ (e + S)) with (Zpos (shift_pos d m) * 2 ^ (e' + S)).
    + apply round_aux; [now apply rep_exact|lia|]. rewrite D. fold e'. lia.
    + rewrite shift_pos_mul, <- Z.mul_assoc, <- pow_add by lia. f_equal. f_equal. lia.
Qed.

(** Rounding with signs. *)
Definition near_signed (z : Z) : Z := if z <? 0 then - near (- z) 1 else near z 1.

Theorem normalize_val : forall z e s, - S <= e ->
  valid_binary prec emax (binary_normalize prec emax z e s) = true /\
  key (binary_normalize prec emax z e s) = Some (near_signed (z * 2 ^ (e + S))).
Proof.
  intros z e s H. pose proof (pow_pos (e + S) ltac:(lia)) as P. unfold near_signed.
  destruct z as [|p|p]; cbn [binary_normalize].
  - split; [reflexivity|]. cbn [key]. rewrite Z.mul_0_l. cbn [Z.ltb Z.compare]. f_equal. unfold near. change (0 / 1) with 0. 
    set (k := Z.max _ _). assert (rne 0 (1 * 2 ^ k) = 0) as ->.
    { pose proof (pow_pos k ltac:(subst k; apply k_nonneg)). apply (rne_exact 0 (1 * 2 ^ k)). lia. }
    pose proof S_pos. pose proof (pow_pos (emax + S) ltac:(lia)). destruct (Z.leb_spec (2 ^ (emax + S)) (0 * 2 ^ k)); lia.
  - destruct (Z.ltb_spec (Z.pos p * 2 ^ (e + S)) 0); [nia|]. exact (round_val false p e H).
  - destruct (Z.ltb_spec (Z.neg p * 2 ^ (e + S)) 0); [|nia].
    replace (- (Z.neg p * 2 ^ (e + S))) with (Z.pos p * 2 ^ (e + S)) by (rewrite <- Z.mul_opp_l; reflexivity).
    exact (round_val true p e H).
Qed.

(** * Larger numbers are not rounded to smaller ones *)

Lemma near_mono : forall n m n' m', 0 <= n -> 0 < m -> 0 <= n' -> 0 < m' -> n * m' <= n' * m -> near n m <= near n' m'.
Proof.
  intros n m n' m' N M N' M' H.
  assert (Q : n / m <= n' / m').
  { apply Z.div_le_lower_bound; [lia|]. pose proof (Z.div_mod n m ltac:(lia)). pose proof (Z.mod_pos_bound n m M).
    assert (m' * (n / m) * m <= n' * m) by nia. nia. }
  assert (Q0 : 0 <= n / m) by (apply Z.div_pos; lia).
  pose proof (digits_mono _ _ (conj Q0 Q)) as D.
  unfold near. set (k := Z.max (Zdigits2 (n / m) - prec) _). set (k' := Z.max (Zdigits2 (n' / m') - prec) _).
  assert (K : 0 <= k <= k') by (unfold k, k'; lia).
  pose proof (pow_pos k ltac:(lia)) as P. pose proof (pow_pos k' ltac:(lia)) as P'.
  assert (V : rne n (m * 2 ^ k) * 2 ^ k <= rne n' (m' * 2 ^ k') * 2 ^ k').
  { destruct (Z.eq_dec k k') as [<-|Nk].
    - apply Z.mul_le_mono_nonneg_r; [lia|]. apply rne_mono; [nia|nia|]. nia.
    - (* a power of two is between *)
      assert (Zdigits2 (n / m) < Zdigits2 (n' / m')) as Dl by (unfold k, k' in Nk; lia).
      assert (Hk' : k' = Zdigits2 (n' / m') - prec) by (unfold k, k' in *; lia).
      pose proof (digits_nonneg (n / m)) as D0.
      assert (Pn' : 0 < n' / m'). { destruct (n' / m'); [cbn in Dl; lia|lia|lia]. }
      set (d := Zdigits2 (n' / m') - 1). assert (Hd : k <= d).
      { unfold d. lia. }
      transitivity (2 ^ d).
      + replace (2 ^ d) with (2 ^ (d - k) * 2 ^ k) by (rewrite <- pow_add by lia; f_equal; lia).
        apply Z.mul_le_mono_nonneg_r; [lia|]. apply rne_le; [nia|].
        replace (2 ^ (d - k) * (m * 2 ^ k)) with (m * (2 ^ (d - k) * 2 ^ k)) by ring. rewrite <- pow_add by lia.
        replace (d - k + k) with d by lia.
        assert (n / m < 2 ^ d).
        { destruct (Z.eq_dec (n / m) 0) as [->|]; [apply pow_pos; lia|].
          pose proof (digits_bounds (n / m) ltac:(lia)). assert (2 ^ Zdigits2 (n / m) <= 2 ^ d); [|lia].
          apply Z.pow_le_mono_r; [lia|]. unfold d. lia. }
        pose proof (Z.div_mod n m ltac:(lia)). pose proof (Z.mod_pos_bound n m M). nia.
      + replace (2 ^ d) with (2 ^ (d - k') * 2 ^ k') by (rewrite <- pow_add by lia; f_equal; lia).
        apply Z.mul_le_mono_nonneg_r; [lia|]. apply rne_ge; [nia|].
        replace (2 ^ (d - k') * (m' * 2 ^ k')) with (m' * (2 ^ (d - k') * 2 ^ k')) by ring. rewrite <- pow_add by lia.
        replace (d - k' + k') with d by lia.
        pose proof (digits_bounds (n' / m') Pn') as (L & _). fold d in L.
        pose proof (Z.div_mod n' m' ltac:(lia)). pose proof (Z.mod_pos_bound n' m' M'). nia. }
  destruct (Z.leb_spec (2 ^ (emax + S)) (rne n (m * 2 ^ k) * 2 ^ k)), (Z.leb_spec (2 ^ (emax + S)) (rne n' (m' * 2 ^ k') * 2 ^ k')); lia.
Qed.

Lemma near_nonneg : forall n m, 0 <= n -> 0 < m -> 0 <= near n m.
Proof.
  intros n m N M. unfold near. pose proof S_pos. pose proof (pow_pos (emax + S) ltac:(lia)).
  destruct (_ <=? _); [lia|]. set (k := Z.max _ _). pose proof (pow_pos k ltac:(apply k_nonneg)).
  pose proof (rne_nonneg n (m * 2 ^ k) ltac:(nia) N). nia.
Qed.

Lemma near_signed_mono : forall a b, a <= b -> near_signed a <= near_signed b.
Proof.
  intros a b H. unfold near_signed. destruct (Z.ltb_spec a 0), (Z.ltb_spec b 0); [| |lia|].
  - pose proof (near_mono (- b) 1 (- a) 1 ltac:(lia) ltac:(lia) ltac:(lia) ltac:(lia) ltac:(lia)). lia.
  - pose proof (near_nonneg (- a) 1 ltac:(lia) ltac:(lia)). pose proof (near_nonneg b 1 ltac:(lia) ltac:(lia)). lia.
  - apply near_mono; lia.
Qed.

Lemma near_signed_opp : forall z, near_signed (- z) = - near_signed z.
Proof.
  intros z. unfold near_signed. destruct (Z.ltb_spec (- z) 0), (Z.ltb_spec z 0); try lia.
  - now rewrite Z.opp_involutive.
  - replace z with 0 by lia. cbn [Z.opp].
    assert (near 0 1 = 0); [|lia]. pose proof (normalize_val 0 0 false) as X. unfold near. change (0 / 1) with 0.
    set (k := Z.max _ _). pose proof (pow_pos k ltac:(subst k; apply k_nonneg)).
    assert (rne 0 (1 * 2 ^ k) = 0) as -> by (apply (rne_exact 0 (1 * 2 ^ k)); lia).
    pose proof S_pos. pose proof (pow_pos (emax + S) ltac:(lia)). destruct (Z.leb_spec (2 ^ (emax + S)) (0 * 2 ^ k)); lia.
Qed.

(** * Numbers of the format *)

Lemma valid_facts : forall s m e, valid_binary prec emax (S754_finite s m e) = true ->
  emin <= e <= emax - prec /\ Zpos m < 2 ^ prec /\ (emin < e -> 2 ^ (prec - 1) <= Zpos m) /\ 0 < Zpos m * 2 ^ (e + S) < 2 ^ (emax + S).
Proof.
  intros s m e V. apply canonical in V. destruct V as (C & L). unfold SpecFloat.fexp in C.
  pose proof (digits_bounds (Zpos m) ltac:(lia)) as (B1 & B2). pose proof (digits_positive (Zpos m) ltac:(lia)).
  assert (U : Zpos m < 2 ^ prec). { assert (2 ^ Zdigits2 (Zpos m) <= 2 ^ prec) by (apply Z.pow_le_mono_r; lia). lia. }
  split; [lia|]. split; [exact U|]. split.
  - intros G. assert (Zdigits2 (Zpos m) = prec) as D by lia. now rewrite D in B1.
  - pose proof (pow_pos (e + S) ltac:(lia)). split; [nia|].
    assert (2 ^ prec * 2 ^ (e + S) <= 2 ^ (emax + S)); [|nia]. rewrite <- pow_add by lia. apply Z.pow_le_mono_r; lia.
Qed.

(** They are not changed by rounding. *)
Lemma near_key : forall s m e, valid_binary prec emax (S754_finite s m e) = true ->
  near (Zpos m * 2 ^ (e + S)) 1 = Zpos m * 2 ^ (e + S).
Proof.
  intros s m e V. pose proof (valid_facts s m e V) as (Be & Bm & Nm & Bz). apply canonical in V. destruct V as (C & L).
  unfold near. rewrite Z.div_1_r. assert (D : Zdigits2 (Zpos m * 2 ^ (e + S)) = Zdigits2 (Zpos m) + (e + S)).
  { pose proof (digits_shift (Zpos m) 1 (e + S) ltac:(lia) ltac:(lia)) as X. rewrite !Z.div_1_r in X. apply X. lia. }
  rewrite D. replace (Z.max (Zdigits2 (Z.pos m) + (e + S) - prec) (emin + S)) with (e + S) by (unfold SpecFloat.fexp in C; lia).
  rewrite Z.mul_1_l, rne_exact by (apply pow_pos; lia). destruct (Z.leb_spec (2 ^ (emax + S)) (Zpos m * 2 ^ (e + S))); lia.
Qed.

Lemma near_signed_key : forall x z, valid_binary prec emax x = true -> is_finite x = true -> key x = Some z -> near_signed z = z.
Proof.
  intros [s|s| |s m e] z V Fx K; try discriminate; cbn [key] in K; apply some_inj in K; rewrite <- K in *; clear K.
  - pose proof (near_signed_opp 0) as X. cbn [Z.opp] in X. lia.
  - pose proof (near_key s m e V) as E. pose proof (valid_facts s m e V) as (_ & _ & _ & B).
    assert (P : near_signed (Z.pos m * 2 ^ (e + S)) = Z.pos m * 2 ^ (e + S)).
    { unfold near_signed. destruct (Z.ltb_spec (Z.pos m * 2 ^ (e + S)) 0); [lia|exact E]. }
    destruct s; cbn [opp_if]; [|exact P]. rewrite near_signed_opp. f_equal. exact P.
Qed.

Lemma key_bound : forall x z, valid_binary prec emax x = true -> is_finite x = true -> key x = Some z ->
  - 2 ^ (emax + S) < z < 2 ^ (emax + S).
Proof.
  intros [s|s| |s m e] z V Fx K; try discriminate; cbn [key] in K; apply some_inj in K; rewrite <- K in *; clear K.
  - pose proof S_pos. pose proof (pow_pos (emax + S) ltac:(lia)). lia.
  - pose proof (valid_facts s m e V) as (_ & _ & _ & B). destruct s; cbn [opp_if]; lia.
Qed.

Lemma finite_by_key : forall x z, valid_binary prec emax x = true -> key x = Some z -> - 2 ^ (emax + S) < z < 2 ^ (emax + S) -> is_finite x = true.
Proof.
  intros [s|s| |s m e] z V K B; try reflexivity; cbn [key] in K; [apply some_inj in K; rewrite <- K in *; clear K; destruct s; cbn [opp_if] in B; lia|discriminate].
Qed.

(** Comparison. *)
Theorem lt_val : forall x y, valid_binary prec emax x = true -> valid_binary prec emax y = true ->
  SFltb x y = match key x, key y with Some a, Some b => a <? b | _, _ => false end.
Proof.
  intros x y Vx Vy. pose proof S_pos as SP. pose proof (pow_pos (emax + S) ltac:(lia)) as TP. unfold SFltb.
  assert (G : forall s1 m1 e1 s2 m2 e2, valid_binary prec emax (S754_finite s1 m1 e1) = true ->
            valid_binary prec emax (S754_finite s2 m2 e2) = true ->
            match match e1 ?= e2 with Eq => Pos.compare_cont Eq m1 m2 | Lt => Lt | Gt => Gt end with
            | Lt => Zpos m1 * 2 ^ (e1 + S) < Zpos m2 * 2 ^ (e2 + S)
            | Eq => Zpos m1 * 2 ^ (e1 + S) = Zpos m2 * 2 ^ (e2 + S)
            | Gt => Zpos m2 * 2 ^ (e2 + S) < Zpos m1 * 2 ^ (e1 + S)
            end).
  { assert (H : forall s1 m1 e1 s2 m2 e2, valid_binary prec emax (S754_finite s1 m1 e1) = true ->
            valid_binary prec emax (S754_finite s2 m2 e2) = true -> e1 < e2 -> Zpos m1 * 2 ^ (e1 + S) < Zpos m2 * 2 ^ (e2 + S)).
    { intros s1 m1 e1 s2 m2 e2 V1 V2 L. pose proof (valid_facts _ _ _ V1) as (A1 & A2 & _). pose proof (valid_facts _ _ _ V2) as (B1 & _ & B3 & _).
      specialize (B3 ltac:(lia)). pose proof (pow_pos (e1 + S) ltac:(lia)). pose proof (pow_pos (e2 + S) ltac:(lia)).
      assert (2 ^ prec * 2 ^ (e1 + S) <= 2 ^ (prec - 1) * 2 ^ (e2 + S)); [|nia].
      rewrite <- !pow_add by lia. apply Z.pow_le_mono_r; lia. }
    intros s1 m1 e1 s2 m2 e2 V1 V2. destruct (Z.compare_spec e1 e2) as [->|L|L].
    - pose proof (valid_facts _ _ _ V1) as (A1 & _). pose proof (pow_pos (e2 + S) ltac:(lia)).
      change (Pos.compare_cont Eq m1 m2) with (Pos.compare m1 m2). destruct (Pos.compare_spec m1 m2) as [->|C|C]; nia.
    - eauto.
    - eauto. }
  destruct x as [sx|sx| |sx mx ex], y as [sy|sy| |sy my ey]; cbn [SFcompare key];
    try (destruct sx, sy; cbn [opp_if]; lia); try reflexivity;
    repeat match goal with
    | V : valid_binary _ _ (S754_finite ?s ?m ?e) = true |- _ =>
        lazymatch goal with H : _ <= e <= _ |- _ => fail | _ => pose proof (valid_facts s m e V) as (? & ? & ? & ?) end
    end.
  all: try (destruct sx; cbn [opp_if]; lia). all: try (destruct sy; cbn [opp_if]; lia).
  all: try (destruct sx, sy; cbn [opp_if]; lia).
  specialize (G _ _ _ _ _ _ Vx Vy).
  destruct (match ex ?= ey with Eq => Pos.compare_cont Eq mx my | Lt => Lt | Gt => Gt end) eqn:C;
    destruct sx, sy; cbn [opp_if];
    destruct (ex ?= ey); try discriminate; rewrite ?C; cbn [CompOpp]; try lia.
Qed.

(** * Sums and differences *)

Lemma align_val : forall m e e', e' <= e -> - S <= e' -> Zpos (Datatypes.fst (shl_align m e e')) * 2 ^ (e' + S) = Zpos m * 2 ^ (e + S).
Proof.
  intros m e e' L H. unfold shl_align. destruct (e' - e) as [|d|d] eqn:E; cbn [Datatypes.fst].
  - replace e' with e by lia. reflexivity.
  - lia.
  - rewrite shift_pos_mul, <- Z.mul_assoc, <- pow_add by lia. f_equal. f_equal. lia.
Qed.

Lemma opp_if_mul : forall s a b, opp_if s (a * b) = cond_Zopp s a * b.
Proof. intros [|] a b; cbn [opp_if cond_Zopp]; ring. Qed.

Lemma key_seal_nonneg : forall s m e, valid_binary prec emax (S754_finite s m e) = true -> - S <= e.
Proof. intros s m e V. apply valid_facts in V. lia. Qed.

Theorem add_val : forall x y a b, valid_binary prec emax x = true -> valid_binary prec emax y = true ->
  is_finite x = true -> is_finite y = true -> key x = Some a -> key y = Some b ->
  valid_binary prec emax (SFadd prec emax x y) = true /\ key (SFadd prec emax x y) = Some (near_signed (a + b)).
Proof.
  intros x y a b Vx Vy Fx Fy Kx Ky.
  destruct x as [sx|sx| |sx mx ex], y as [sy|sy| |sy my ey]; try discriminate.
  - cbn [key] in Kx, Ky. apply some_inj in Kx; rewrite <- Kx in *; clear Kx. apply some_inj in Ky; rewrite <- Ky in *; clear Ky. cbn [SFadd].
    assert (near_signed (0 + 0) = 0) as -> by exact (near_signed_key (S754_zero true) 0 eq_refl eq_refl eq_refl).
    destruct (Bool.eqb sx sy); split; reflexivity.
  - pose proof (near_signed_key _ _ Vy Fy Ky) as E. cbn [key] in Kx. apply some_inj in Kx; rewrite <- Kx in *; clear Kx. cbn [SFadd]. rewrite Z.add_0_l, E. now split.
  - pose proof (near_signed_key _ _ Vx Fx Kx) as E. cbn [key] in Ky. apply some_inj in Ky; rewrite <- Ky in *; clear Ky. cbn [SFadd]. rewrite Z.add_0_r, E. now split.
  - cbn [SFadd]. pose proof (key_seal_nonneg _ _ _ Vx). pose proof (key_seal_nonneg _ _ _ Vy).
    cbn [key] in Kx, Ky. apply some_inj in Kx; rewrite <- Kx in *; clear Kx. apply some_inj in Ky; rewrite <- Ky in *; clear Ky.
    match goal with |- context [binary_normalize _ _ ?z ?e false] => destruct (normalize_val z e false ltac:(lia)) as (V & K) end.
    split; [exact V|]. rewrite K. f_equal. f_equal. rewrite Z.mul_add_distr_r, <- !opp_if_mul, !align_val by lia. reflexivity.
Qed.

Theorem sub_val : forall x y a b, valid_binary prec emax x = true -> valid_binary prec emax y = true ->
  is_finite x = true -> is_finite y = true -> key x = Some a -> key y = Some b ->
  valid_binary prec emax (SFsub prec emax x y) = true /\ key (SFsub prec emax x y) = Some (near_signed (a - b)).
Proof.
  intros x y a b Vx Vy Fx Fy Kx Ky.
  destruct x as [sx|sx| |sx mx ex], y as [sy|sy| |sy my ey]; try discriminate.
  - cbn [key] in Kx, Ky. apply some_inj in Kx; rewrite <- Kx in *; clear Kx. apply some_inj in Ky; rewrite <- Ky in *; clear Ky. cbn [SFsub].
    assert (near_signed (0 - 0) = 0) as -> by exact (near_signed_key (S754_zero true) 0 eq_refl eq_refl eq_refl).
    destruct (Bool.eqb sx (negb sy)); split; reflexivity.
  - pose proof (near_signed_key _ _ Vy Fy Ky) as E. cbn [key] in Kx, Ky. apply some_inj in Kx; rewrite <- Kx in *; clear Kx. apply some_inj in Ky; rewrite <- Ky in *; clear Ky. cbn [SFsub].
    rewrite Z.sub_0_l, near_signed_opp, E. split; [exact Vy|]. cbn [key]. destruct sy; cbn [negb opp_if]; f_equal; ring.
  - pose proof (near_signed_key _ _ Vx Fx Kx) as E. cbn [key] in Ky. apply some_inj in Ky; rewrite <- Ky in *; clear Ky. cbn [SFsub]. rewrite Z.sub_0_r, E. now split.
  - cbn [SFsub]. pose proof (key_seal_nonneg _ _ _ Vx). pose proof (key_seal_nonneg _ _ _ Vy).
    cbn [key] in Kx, Ky. apply some_inj in Kx; rewrite <- Kx in *; clear Kx. apply some_inj in Ky; rewrite <- Ky in *; clear Ky.
    match goal with |- context [binary_normalize _ _ ?z ?e false] => destruct (normalize_val z e false ltac:(lia)) as (V & K) end.
    split; [exact V|]. rewrite K. f_equal. f_equal. rewrite Z.mul_sub_distr_r, <- !opp_if_mul, !align_val by lia. reflexivity.
Qed.

Lemma add_valid : forall x y, valid_binary prec emax x = true -> valid_binary prec emax y = true ->
  valid_binary prec emax (SFadd prec emax x y) = true.
Proof.
  intros x y Vx Vy. destruct (is_finite x) eqn:Fx, (is_finite y) eqn:Fy.
  - destruct (key x) as [a|] eqn:Kx; [|destruct x; discriminate]. destruct (key y) as [b|] eqn:Ky; [|destruct y; discriminate].
    exact (proj1 (add_val x y a b Vx Vy Fx Fy Kx Ky)).
  - destruct x as [sx|sx| |sx mx ex], y as [sy|sy| |sy my ey]; try discriminate; assumption || reflexivity.
  - destruct x as [sx|sx| |sx mx ex], y as [sy|sy| |sy my ey]; try discriminate; assumption || reflexivity.
  - destruct x as [sx|sx| |sx mx ex], y as [sy|sy| |sy my ey]; try discriminate; cbn [SFadd]; try reflexivity. destruct (Bool.eqb sx sy); reflexivity.
Qed.

Lemma sub_valid : forall x y, valid_binary prec emax x = true -> valid_binary prec emax y = true ->
  valid_binary prec emax (SFsub prec emax x y) = true.
Proof.
  intros x y Vx Vy. destruct (is_finite x) eqn:Fx, (is_finite y) eqn:Fy.
  - destruct (key x) as [a|] eqn:Kx; [|destruct x; discriminate]. destruct (key y) as [b|] eqn:Ky; [|destruct y; discriminate].
    exact (proj1 (sub_val x y a b Vx Vy Fx Fy Kx Ky)).
  - destruct x as [sx|sx| |sx mx ex], y as [sy|sy| |sy my ey]; try discriminate; assumption || reflexivity.
  - destruct x as [sx|sx| |sx mx ex], y as [sy|sy| |sy my ey]; try discriminate; assumption || reflexivity.
  - destruct x as [sx|sx| |sx mx ex], y as [sy|sy| |sy my ey]; try discriminate; cbn [SFsub]; try reflexivity. destruct (Bool.eqb sx (negb sy)); reflexivity.
Qed.

(** * Products and quotients *)

Lemma near_scale : forall n m c, 0 <= n -> 0 < m -> 0 < c -> near (n * c) (m * c) = near n m.
Proof. intros n m c N M C. apply Z.le_antisymm; apply near_mono; nia. Qed.

Theorem mul_val : forall sx mx ex sy my ey, valid_binary prec emax (S754_finite sx mx ex) = true ->
  valid_binary prec emax (S754_finite sy my ey) = true -> - S <= 2 * emin ->
  valid_binary prec emax (SFmul prec emax (S754_finite sx mx ex) (S754_finite sy my ey)) = true /\
  key (SFmul prec emax (S754_finite sx mx ex) (S754_finite sy my ey))
  = Some (opp_if (xorb sx sy) (near (Zpos mx * 2 ^ (ex + S) * (Zpos my * 2 ^ (ey + S))) (2 ^ S))).
Proof.
  intros sx mx ex sy my ey Vx Vy HS2. cbn [SFmul].
  pose proof (valid_facts _ _ _ Vx) as (Bx & Ux & Nx & _). pose proof (valid_facts _ _ _ Vy) as (By & Uy & Ny & _).
  assert (En : emin < 0) by (unfold SpecFloat.emin; lia).
  assert (E : Zpos mx * 2 ^ (ex + S) * (Zpos my * 2 ^ (ey + S)) = Zpos (mx * my) * 2 ^ (ex + ey + S) * 2 ^ S).
  { rewrite Pos2Z.inj_mul. rewrite <- (Z.mul_assoc _ (2 ^ (ex + ey + S)) (2 ^ S)), <- pow_add by lia.
    replace (ex + ey + S + S) with ((ex + S) + (ey + S)) by lia. rewrite (pow_add (ex + S)) by lia. ring. }
  rewrite E. pose proof (pow_pos S ltac:(lia)) as PS. pose proof (pow_pos (ex + ey + S) ltac:(lia)) as PE.
  pose proof (near_scale (Z.pos (mx * my) * 2 ^ (ex + ey + S)) 1 (2 ^ S) ltac:(lia) ltac:(lia) PS) as NS.
  rewrite Z.mul_1_l in NS. rewrite NS. clear NS.
  apply round_aux; [now apply rep_exact|lia|]. unfold SpecFloat.fexp.
  destruct (Z.eq_dec ex emin), (Z.eq_dec ey emin); [lia| | |].
  - specialize (Ny ltac:(lia)). assert (prec - 1 < Zdigits2 (Z.pos (mx * my))); [|lia]. apply digits_below; nia.
  - specialize (Nx ltac:(lia)). assert (prec - 1 < Zdigits2 (Z.pos (mx * my))); [|lia]. apply digits_below; nia.
  - specialize (Ny ltac:(lia)). assert (prec - 1 < Zdigits2 (Z.pos (mx * my))); [|lia]. apply digits_below; nia.
Qed.

Lemma location_rep : forall n m, 0 <= n -> 0 < m -> rep (shr_record_of_loc (n / m) (new_location m (n mod m))) n m.
Proof.
  intros n m N M. split; [exact N|]. split; [exact M|]. pose proof (Z.mod_pos_bound n m M) as B.
  unfold new_location, new_location_even, new_location_odd.
  assert (V : Z.even m = true -> exists h, m = 2 * h) by (intros V; apply Z.even_spec in V; exact V).
  assert (V' : Z.even m = false -> exists h, m = 2 * h + 1).
  { intros V'. rewrite <- Z.negb_odd in V'. apply negb_false_iff in V'. apply Z.odd_spec in V'. exact V'. }
  destruct (Z.even m); destruct (Zeq_bool (n mod m) 0) eqn:R.
  - apply Zeq_bool_eq in R. cbn [shr_record_of_loc shr_m shr_r shr_s]. now split.
  - apply Zeq_bool_neq in R.
    destruct (Z.compare_spec (2 * (n mod m)) m); cbn [shr_record_of_loc shr_m shr_r shr_s]; split; try reflexivity; lia.
  - apply Zeq_bool_eq in R. cbn [shr_record_of_loc shr_m shr_r shr_s]. now split.
  - apply Zeq_bool_neq in R. destruct (V' eq_refl) as (h & Eh).
    destruct (Z.compare_spec (2 * (n mod m) + 1) m); cbn [shr_record_of_loc shr_m shr_r shr_s]; split; try reflexivity; lia.
Qed.

Theorem div_val : forall sx mx ex sy my ey, valid_binary prec emax (S754_finite sx mx ex) = true ->
  valid_binary prec emax (S754_finite sy my ey) = true -> - S <= emin - (emax - prec) ->
  valid_binary prec emax (SFdiv prec emax (S754_finite sx mx ex) (S754_finite sy my ey)) = true /\
  key (SFdiv prec emax (S754_finite sx mx ex) (S754_finite sy my ey))
  = Some (opp_if (xorb sx sy) (near (Zpos mx * 2 ^ (ex + S) * 2 ^ S) (Zpos my * 2 ^ (ey + S)))).
Proof.
  intros sx mx ex sy my ey Vx Vy HS2. cbn [SFdiv]. unfold SFdiv_core_binary.
  pose proof (valid_facts _ _ _ Vx) as (Bx & _). pose proof (valid_facts _ _ _ Vy) as (By & _).
  set (t := Zdigits2 (Zpos mx) + ex - (Zdigits2 (Zpos my) + ey)).
  set (e := Z.min (fexp t) (ex - ey)). set (s := ex - ey - e).
  assert (Hs : 0 <= s) by (unfold s, e; lia).
  assert (He : - S <= e). { unfold e. assert (emin <= fexp t) by (unfold SpecFloat.fexp; lia). lia. }
  replace (match s with 0 => Z.pos mx | Z.pos _ => Z.shiftl (Z.pos mx) s | Z.neg _ => 0 end) with (Zpos mx * 2 ^ s).
  2: { destruct s as [|p|p] eqn:Es; [now rewrite Z.mul_1_r|rewrite Z.shiftl_mul_pow2 by lia; reflexivity|lia]. }
  pose proof (pow_pos s Hs) as Ps. set (n := Zpos mx * 2 ^ s).
  assert (Q : Z.div_eucl n (Zpos my) = (n / Zpos my, n mod Zpos my)).
  { unfold Z.div, Z.modulo. destruct (Z.div_eucl n (Zpos my)). reflexivity. }
  rewrite Q. 
  assert (E : near (Zpos mx * 2 ^ (ex + S) * 2 ^ S) (Zpos my * 2 ^ (ey + S)) = near (n * 2 ^ (e + S)) (Zpos my)).
  { rewrite <- (near_scale (n * 2 ^ (e + S)) (Zpos my) (2 ^ (ey + S))).
    - f_equal. unfold n. rewrite <- !Z.mul_assoc, <- !pow_add by lia. f_equal. f_equal. unfold s. lia.
    - unfold n. pose proof (pow_pos (e + S) ltac:(lia)). nia.
    - lia.
    - apply pow_pos. lia. }
  rewrite E. apply round_aux; [apply location_rep; unfold n; nia|exact He|].
  assert (T : t <= Zdigits2 (n / Zpos my) + e).
  { destruct (Z_le_gt_dec (t - e) 0) as [L|G]; [pose proof (digits_nonneg (n / Zpos my)); lia|].
    pose proof (digits_bounds (Zpos mx) ltac:(lia)) as (B1 & _). pose proof (digits_bounds (Zpos my) ltac:(lia)) as (_ & B2).
    pose proof (digits_positive (Zpos mx) ltac:(lia)). pose proof (digits_positive (Zpos my) ltac:(lia)).
    assert (H2 : 2 ^ (t - e - 1) <= n / Zpos my).
    { apply Z.div_le_lower_bound; [lia|]. unfold n. transitivity (2 ^ Zdigits2 (Z.pos my) * 2 ^ (t - e - 1)).
      - apply Z.mul_le_mono_nonneg_r; [pose proof (pow_pos (t - e - 1) ltac:(lia)); lia|lia].
      - rewrite <- pow_add by lia. replace (Zdigits2 (Z.pos my) + (t - e - 1)) with (Zdigits2 (Z.pos mx) - 1 + s) by (unfold t, s; lia).
        rewrite pow_add by lia. apply Z.mul_le_mono_nonneg_r; lia. }
    pose proof (pow_pos (t - e - 1) ltac:(lia)).
    assert (t - e - 1 < Zdigits2 (n / Zpos my)) by (apply digits_below; lia). lia. }
  assert (e <= fexp t) by (unfold e; lia). unfold SpecFloat.fexp in *. lia.
Qed.

Lemma mul_valid : forall x y, - S <= 2 * emin -> valid_binary prec emax x = true -> valid_binary prec emax y = true ->
  valid_binary prec emax (SFmul prec emax x y) = true.
Proof.
  intros [sx|sx| |sx mx ex] [sy|sy| |sy my ey] H Vx Vy; try reflexivity. exact (proj1 (mul_val _ _ _ _ _ _ Vx Vy H)).
Qed.

Lemma div_valid : forall x y, - S <= emin - (emax - prec) -> valid_binary prec emax x = true -> valid_binary prec emax y = true ->
  valid_binary prec emax (SFdiv prec emax x y) = true.
Proof.
  intros [sx|sx| |sx mx ex] [sy|sy| |sy my ey] H Vx Vy; try reflexivity. exact (proj1 (div_val _ _ _ _ _ _ Vx Vy H)).
Qed.

(** * Which numbers are rounded to themselves, and how far the others move *)

Lemma near_multiple : forall c j, 0 <= c < 2 ^ prec -> emin + S <= j -> c * 2 ^ j < 2 ^ (emax + S) -> near (c * 2 ^ j) 1 = c * 2 ^ j.
Proof.
  intros c j C J U. pose proof (pow_pos j ltac:(lia)) as P. unfold near. rewrite Z.div_1_r.
  set (k := Z.max _ _).
  assert (K : 0 <= k <= j).
  { unfold k. split; [apply k_nonneg|]. destruct (Z.eq_dec c 0) as [->|]; [rewrite Z.mul_0_l; cbn [Zdigits2]; lia|].
    pose proof (digits_shift c 1 j ltac:(lia) ltac:(lia)) as X. rewrite !Z.div_1_r in X. rewrite X by lia.
    assert (Zdigits2 c <= prec) by (apply digits_above; lia). lia. }
  assert (E : c * 2 ^ j = c * 2 ^ (j - k) * (1 * 2 ^ k)).
  { rewrite Z.mul_1_l, <- Z.mul_assoc, <- pow_add by lia. f_equal. f_equal. lia. }
  assert (R : rne (c * 2 ^ j) (1 * 2 ^ k) * 2 ^ k = c * 2 ^ j).
  { rewrite E at 1. rewrite rne_exact by (pose proof (pow_pos k ltac:(lia)); lia). lia. }
  rewrite R. destruct (Z.leb_spec (2 ^ (emax + S)) (c * 2 ^ j)); lia.
Qed.

(** [f] is one of them. *)
Lemma near_self : forall f, 0 <= f < 2 ^ (emax + S) -> near f 1 = f ->
  exists c, f = c * 2 ^ Z.max (Zdigits2 f - prec) (emin + S).
Proof.
  intros f B E. unfold near in E. rewrite Z.div_1_r in E. set (k := Z.max _ _) in *.
  destruct (Z.leb_spec (2 ^ (emax + S)) (rne f (1 * 2 ^ k) * 2 ^ k)); [lia|]. eexists. symmetry. exact E.
Qed.

Lemma near_error : forall n m, 0 <= n -> 0 < m -> 2 ^ (emin + prec - 1 + S) * m <= n -> near n m < 2 ^ (emax + S) ->
  2 ^ prec * (near n m * m) <= (2 ^ prec + 1) * n /\ (2 ^ prec - 1) * n <= 2 ^ prec * (near n m * m).
Proof.
  intros n m N M L. unfold near. set (k := Z.max _ _). pose proof (pow_pos k ltac:(apply k_nonneg)) as Pk.
  destruct (Z.leb_spec (2 ^ (emax + S)) (rne n (m * 2 ^ k) * 2 ^ k)); [lia|]. intros _.
  pose proof (pow_pos (emin + prec - 1 + S) ltac:(lia)) as P0.
  assert (Q : 2 ^ (emin + prec - 1 + S) <= n / m) by (apply Z.div_le_lower_bound; lia).
  assert (D : emin + prec - 1 + S < Zdigits2 (n / m)) by (apply digits_below; lia).
  assert (K : k = Zdigits2 (n / m) - prec) by (unfold k; lia).
  pose proof (digits_bounds (n / m) ltac:(lia)) as (B & _).
  assert (R : 2 ^ (prec - 1) * 2 ^ k * m <= n).
  { rewrite <- pow_add by lia. replace (prec - 1 + k) with (Zdigits2 (n / m) - 1) by lia.
    pose proof (Z.div_mod n m ltac:(lia)). pose proof (Z.mod_pos_bound n m M). nia. }
  pose proof (rne_near n (m * 2 ^ k) ltac:(nia)) as E.
  replace (rne n (m * 2 ^ k) * (m * 2 ^ k)) with (rne n (m * 2 ^ k) * 2 ^ k * m) in E by ring.
  set (v := rne n (m * 2 ^ k) * 2 ^ k * m) in *.
  assert (P : 2 ^ prec = 2 * 2 ^ (prec - 1)) by (replace prec with (1 + (prec - 1)) at 1 by lia; rewrite pow_add by lia; reflexivity).
  pose proof (pow_pos (prec - 1) ltac:(lia)) as P1. rewrite P.
  set (p := 2 ^ (prec - 1)) in *. replace (p * 2 ^ k * m) with (p * (m * 2 ^ k)) in R by ring. set (u := m * 2 ^ k) in *.
  clearbody p u v. clear - E R P1. split; nia.
Qed.

(** No number of the format is closer. *)
Lemma near_best_up : forall z f, 0 <= f <= z -> near z 1 < 2 ^ (emax + S) -> f < 2 ^ (emax + S) -> near f 1 = f -> near z 1 - z <= z - f.
Proof.
  intros z f B V Uf Ef. destruct (near_self f ltac:(lia) Ef) as (c & Ec).
  unfold near in *. rewrite Z.div_1_r in *. set (k := Z.max (Zdigits2 z - prec) _) in *. set (kf := Z.max (Zdigits2 f - prec) _) in *.
  pose proof (pow_pos k ltac:(apply k_nonneg)) as Pk. pose proof (pow_pos kf ltac:(apply k_nonneg)) as Pf.
  destruct (Z.leb_spec (2 ^ (emax + S)) (rne z (1 * 2 ^ k) * 2 ^ k)); [lia|].
  rewrite Z.mul_1_l in *. pose proof (rne_near z (2 ^ k) Pk) as E. set (v := rne z (2 ^ k)) in *.
  destruct (Z_le_gt_dec (v * 2 ^ k) z) as [|G]; [lia|].
  destruct (Z_le_gt_dec f ((v - 1) * 2 ^ k)) as [|Gf]; [nia|exfalso].
  (* f would be strictly between two neighbours *)
  assert (W : exists c', f = c' * 2 ^ k).
  { destruct (Z_le_gt_dec k kf) as [Lk|Gk].
    - exists (c * 2 ^ (kf - k)). rewrite <- Z.mul_assoc, <- pow_add by (pose proof (k_nonneg (Zdigits2 z)); lia).
      rewrite Ec. f_equal. f_equal. lia.
    - exfalso. assert (Kz : k = Zdigits2 z - prec) by (unfold k, kf in *; lia).
      assert (0 <= k) by apply k_nonneg.
      assert (0 < z). { destruct z; [cbn [Zdigits2] in Kz; lia|lia|lia]. }
      pose proof (digits_bounds z ltac:(lia)) as (Lz & _).
      assert (Zdigits2 f <= Zdigits2 z - 1) as Df by (unfold k, kf in *; lia).
      assert (f < 2 ^ (Zdigits2 z - 1)).
      { destruct (Z.eq_dec f 0) as [->|]; [apply pow_pos; lia|].
        pose proof (digits_bounds f ltac:(lia)). assert (2 ^ Zdigits2 f <= 2 ^ (Zdigits2 z - 1)) by (apply Z.pow_le_mono_r; lia). lia. }
      replace (Zdigits2 z - 1) with (prec - 1 + k) in * by lia. rewrite pow_add in * by lia.
      assert (2 ^ (prec - 1) <= v - 1); [|nia].
      assert (2 ^ (prec - 1) < v); [|lia]. nia. }
  destruct W as (c' & Ec'). assert (v - 1 < c') by nia. assert (c' < v) by nia. lia.
Qed.

Lemma near_best_down : forall w g, 0 <= w <= g -> g < 2 ^ (emax + S) -> near g 1 = g -> w - near w 1 <= g - w.
Proof.
  intros w g B Ug Eg. destruct (near_self g ltac:(lia) Eg) as (c & Ec).
  assert (V : near w 1 < 2 ^ (emax + S)) by (pose proof (near_mono w 1 g 1 ltac:(lia) ltac:(lia) ltac:(lia) ltac:(lia) ltac:(lia)); lia).
  unfold near in *. rewrite Z.div_1_r in *. set (k := Z.max (Zdigits2 w - prec) _) in *. set (kg := Z.max (Zdigits2 g - prec) _) in *.
  pose proof (pow_pos k ltac:(apply k_nonneg)) as Pk. pose proof (pow_pos kg ltac:(apply k_nonneg)) as Pg.
  destruct (Z.leb_spec (2 ^ (emax + S)) (rne w (1 * 2 ^ k) * 2 ^ k)); [lia|].
  rewrite Z.mul_1_l in *. pose proof (rne_near w (2 ^ k) Pk) as E. set (v := rne w (2 ^ k)) in *.
  destruct (Z_le_gt_dec w (v * 2 ^ k)) as [|G]; [lia|].
  destruct (Z_le_gt_dec ((v + 1) * 2 ^ k) g) as [|Gg]; [nia|exfalso].
  assert (Lk : k <= kg) by (pose proof (digits_mono w g ltac:(lia)); unfold k, kg; lia).
  assert (W : g = c * 2 ^ (kg - k) * 2 ^ k).
  { rewrite <- Z.mul_assoc, <- pow_add by (pose proof (k_nonneg (Zdigits2 w)); lia). rewrite Ec at 1. f_equal. f_equal. lia. }
  set (c' := c * 2 ^ (kg - k)) in *. assert (v < c') by nia. assert (c' < v + 1) by nia. lia.
Qed.

(** So a sum of a number of the format and a nonnegative one is at most twice
    as far away after rounding. *)
Lemma near_sum : forall a b, - 2 ^ (emax + S) < a < 2 ^ (emax + S) -> near_signed a = a -> 0 <= b -> near_signed (a + b) < 2 ^ (emax + S) ->
  near_signed (a + b) <= a + 2 * b.
Proof.
  intros a b Ba Ea Hb V. pose proof (near_signed_opp a) as Eo. unfold near_signed in *.
  destruct (Z.ltb_spec (a + b) 0) as [Hs|Hs].
  - destruct (Z.ltb_spec a 0); [|lia]. pose proof (near_best_down (- (a + b)) (- a) ltac:(lia) ltac:(lia) ltac:(lia)). lia.
  - destruct (Z.ltb_spec a 0) as [Ha|Ha].
    + assert (Z0 : near 0 1 = 0). { pose proof (near_signed_opp 0) as X. unfold near_signed in X. cbn in X. lia. }
      pose proof S_pos. pose proof (pow_pos (emax + S) ltac:(lia)).
      pose proof (near_best_up (a + b) 0 ltac:(lia) V ltac:(lia) Z0). lia.
    + pose proof (near_best_up (a + b) a ltac:(lia) V ltac:(lia) Ea). lia.
Qed.

End Format.
