(** The tables of the feature extractor, for any arithmetic. *)
From Coq Require Import ZArith List Bool Lia.
From Verif.Base Require Import Prelude Lemmas.
From Verif.Model Require Import Arith Vector Fbank Srfft FbankInit.
From Verif.Spec Require Import AudioSpec FbankSpec.
From Verif.Proof Require Import Loop Cmvn FbankTotal FftCases.
Import ListNotations.
Open Scope Z_scope.

Lemma seqZ_nth : forall n a i, (i < n)%nat -> nth i (seqZ a n) 0 = a + Z.of_nat i.
Proof.
  induction n as [|n IH]; intros a i H; [lia|]. cbn [seqZ]. destruct i as [|i]; cbn [nth]; [lia|].
  rewrite IH by lia. lia.
Qed.

Section Init.
Context {F : Type}.
Variable O : fops F.
Variable T : trig_ops F.
Variable I : init_ops F.
Variable junk : nat -> F.
Variable junk_int : nat -> Z.

Section Bin.
Variables width left center right : F.
Let at_bin (i : Z) : F := mel_scale O I (f_mul O width (f_int O i)).
Definition inside (i : Z) : bool :=
  f_lt O left (mel_scale O I (f_mul O width (f_int O i))) &&
  f_lt O (mel_scale O I (f_mul O width (f_int O i))) right.
Definition bin_weight (i : Z) : F :=
  if i_le I (at_bin i) center
  then f_div O (f_sub O (at_bin i) left) (f_sub O center left)
  else f_div O (f_sub O right (at_bin i)) (f_sub O right center).
Definition bin_value (i : Z) : F := if inside i then bin_weight i else f_zero O.

Definition found (k first last : Z) : Prop :=
  (first = -1 /\ last = -1 /\ forall i, 0 <= i < k -> inside i = false) \/
  (0 <= first <= last /\ last < k /\ inside first = true /\ inside last = true /\
   forall i, 0 <= i < k -> inside i = true -> first <= i <= last).

Lemma mel_bin_ok : forall n, 0 <= n ->
  exists bin first last, mel_bin O I width left center right n = Ok (bin, first, last) /\
    lenZ bin = n /\ (forall i, 0 <= i < n -> nth (Z.to_nat i) bin (f_zero O) = bin_value i) /\ found n first last.
Proof.
  intros n Hn. unfold mel_bin.
  match goal with |- context [for_up _ _ ?f _] => set (body := f) end.
  destruct (for_up_inv _ (fun k '(bin, first, last) =>
    lenZ bin = n /\ (forall i, 0 <= i < n -> nth (Z.to_nat i) bin (f_zero O) = if i <? k then bin_value i else f_zero O) /\
    found k first last) body 0 n (repeat (f_zero O) (Z.to_nat n), -1, -1)) as [[[bin first] last] [E [H1 [H2 H3]]]].
  - exact Hn.
  - split; [unfold lenZ; rewrite repeat_length; lia|]. split.
    + intros i Hi. destruct (Z.ltb_spec i 0); [lia|]. apply nth_repeat.
    + left. split; [reflexivity|]. split; [reflexivity|]. intros; lia.
  - intros k [[bin first] last] Hk [L [V W]]. unfold body. cbv zeta. fold (inside k).
    destruct (inside k) eqn:J.
    + rewrite vset_ok by lia. cbn [bind]. eexists. split; [reflexivity|].
      split; [rewrite lenZ_upd; exact L|]. split.
      * intros i Hi. rewrite nth_upd by (unfold lenZ in L; lia).
        destruct (Nat.eqb_spec (Z.to_nat k) (Z.to_nat i)) as [Q|Q].
        -- assert (i = k) as -> by lia. destruct (Z.ltb_spec k (k + 1)); [|lia].
           unfold bin_value. rewrite J. reflexivity.
        -- rewrite V by lia. destruct (Z.ltb_spec i k), (Z.ltb_spec i (k + 1)); try lia; reflexivity.
      * right. destruct W as [[-> [-> W]]|[W1 [W2 [W3 [W4 W5]]]]].
        -- cbn [Z.eqb Pos.eqb]. split; [lia|]. split; [lia|]. split; [exact J|]. split; [exact J|].
           intros i Hi Q. destruct (Z.eq_dec i k); [lia|]. rewrite W in Q by lia. discriminate.
        -- destruct (Z.eqb_spec first (-1)); [lia|]. split; [lia|]. split; [lia|]. split; [exact W3|].
           split; [exact J|]. intros i Hi Q. destruct (Z.eq_dec i k); [lia|].
           specialize (W5 i ltac:(lia) Q). lia.
    + eexists. split; [reflexivity|]. split; [exact L|]. split.
      * intros i Hi. rewrite V by lia. destruct (Z.ltb_spec i k), (Z.ltb_spec i (k + 1)); try lia; try reflexivity.
        assert (i = k) as -> by lia. unfold bin_value. rewrite J. reflexivity.
      * destruct W as [[-> [-> W]]|[W1 [W2 [W3 [W4 W5]]]]]; [left|right].
        -- split; [reflexivity|]. split; [reflexivity|]. intros i Hi. destruct (Z.eq_dec i k) as [->|]; [exact J|].
           apply W; lia.
        -- split; [lia|]. split; [lia|]. split; [exact W3|]. split; [exact W4|].
           intros i Hi Q. destruct (Z.eq_dec i k) as [->|]; [congruence|]. apply W5; [lia|exact Q].
  - exists bin, first, last. split; [exact E|]. split; [exact H1|]. split; [|exact H3].
    intros i Hi. rewrite H2 by lia. destruct (Z.ltb_spec i n); [reflexivity|lia].
Qed.

(** A finished filter. *)
Definition filter_ok (n : Z) (b : Z * list F) : Prop :=
  0 <= fst b /\ 2 <= lenZ (snd b) /\ fst b + lenZ (snd b) <= n /\
  (forall i, fst b <= i < fst b + lenZ (snd b) -> nth (Z.to_nat (i - fst b)) (snd b) (f_zero O) = bin_value i) /\
  forall i, 0 <= i < n -> ~ (fst b <= i < fst b + lenZ (snd b)) -> inside i = false.

Lemma bin_step : forall n, 0 <= n ->
  let r := '(bin, first, last) <- mel_bin O I width left center right n ;;
           _ <- check (negb (first =? -1) && (first <? last)) Assert ;;
           sub <- vrange bin first (last + 1 - first) ;; Ok (first, sub) in
  (r = Fault Assert /\ forall i j, 0 <= i < j -> j < n -> inside i = true -> inside j = true -> False) \/
  exists b, r = Ok b /\ filter_ok n b.
Proof.
  intros n Hn r. destruct (mel_bin_ok n Hn) as [bin [first [last [E [L [V W]]]]]].
  subst r. rewrite E. cbn [bind]. destruct W as [[-> [-> W]]|[W1 [W2 [W3 [W4 W5]]]]].
  - left. cbn [Z.eqb Pos.eqb negb andb check bind]. split; [reflexivity|].
    intros i j Hi Hj Q _. rewrite W in Q by lia. discriminate.
  - destruct (Z.eqb_spec first (-1)); [lia|]. cbn [negb andb].
    destruct (Z.ltb_spec first last) as [Q|Q]; cbn [check bind].
    + right. rewrite vrange_ok by lia. cbn [bind]. eexists. split; [reflexivity|].
      set (sub := firstn _ _). assert (LS : lenZ sub = last + 1 - first).
      { unfold sub, lenZ in *. rewrite firstn_length, skipn_length. lia. }
      unfold filter_ok. cbn [fst snd]. rewrite LS. split; [lia|]. split; [lia|]. split; [lia|]. split.
      * intros i Hi. rewrite <- V by lia. unfold sub. rewrite nth_firstn' by lia. rewrite nth_skipn'. f_equal. lia.
      * intros i Hi Q2. destruct (inside i) eqn:J; [|reflexivity]. specialize (W5 i Hi J). lia.
    + left. split; [reflexivity|]. intros i j Hi Hj J1 J2.
      pose proof (W5 i ltac:(lia) J1). pose proof (W5 j ltac:(lia) J2). lia.
Qed.
End Bin.

Definition bank_width : F := f_div O (f_int O 16000) (f_int O 512).
Definition bank_edge (j : Z) : F :=
  let low := mel_scale O I (f_int O 20) in
  f_add O low (f_mul O (f_int O j) (f_div O (f_sub O (mel_scale O I (f_int O 8000)) low) (f_int O 41))).

Definition filter_at (j : Z) : Z * list F -> Prop :=
  filter_ok bank_width (bank_edge j) (bank_edge (j + 1)) (bank_edge (j + 2)) 256.
Definition two_inside (j : Z) : Prop :=
  exists a b, 0 <= a < b /\ b < 256 /\ inside bank_width (bank_edge j) (bank_edge (j + 2)) a = true /\
    inside bank_width (bank_edge j) (bank_edge (j + 2)) b = true.

Lemma melbanks_ok :
  (melbanks O I 512 = Fault Assert /\ ~ (forall j, 0 <= j < 40 -> two_inside j)) \/
  exists bins, melbanks O I 512 = Ok bins /\ length bins = 40%nat /\
    forall j, 0 <= j < 40 -> filter_at j (nth (Z.to_nat j) bins (0, [])).
Proof.
  unfold melbanks. change (Z.rem 512 2 =? 0) with true. cbn [check bind]. cbv zeta.
  change (Z.quot 512 2) with 256. change (fbank_dim + 1) with 41. change fbank_dim with 40.
  match goal with |- context [for_up _ _ ?f _] => set (body := f) end.
  assert (P : forall k, 0 <= k <= 40 ->
    (for_up 0 k body [] = Fault Assert /\ ~ (forall j, 0 <= j < 40 -> two_inside j)) \/
    exists bins, for_up 0 k body [] = Ok bins /\ lenZ bins = k /\
      forall j, 0 <= j < k -> filter_at j (nth (Z.to_nat j) bins (0, []))).
  { intros k [K0 K1]. revert K1. pattern k. apply natlike_ind; [|clear k K0|exact K0].
    - intros _. right. exists []. split; [reflexivity|]. split; [reflexivity|]. intros; lia.
    - intros k K0 IH K1. unfold Z.succ. rewrite (for_up_app _ body 0 k (k + 1)) by lia.
      destruct IH as [[E N]|[bins [E [L H]]]]; [lia| |].
      + left. rewrite E. split; [reflexivity|exact N].
      + rewrite E. cbn [bind]. unfold for_up. replace (Z.to_nat (k + 1 - k)) with 1%nat by lia.
        cbn [seqZ for_each].
        destruct (bin_step bank_width (bank_edge k) (bank_edge (k + 1)) (bank_edge (k + 2)) 256 ltac:(lia))
          as [[E2 N]|[b [E2 B]]].
        * left. assert (E3 : body bins k = Fault Assert).
          { unfold body. fold bank_width. fold (bank_edge k). fold (bank_edge (k + 1)). fold (bank_edge (k + 2)).
            destruct (mel_bin _ _ _ _ _ _ _) as [[[bin first] last]|]; cbn [bind] in *; [|congruence].
            destruct (check _ _); cbn [bind] in *; [|congruence]. destruct (vrange _ _ _); cbn [bind] in *; congruence. }
          rewrite E3. split; [reflexivity|]. intros Q. destruct (Q k ltac:(lia)) as [a [c [A1 [A2 [A3 A4]]]]].
          exact (N a c A1 A2 A3 A4).
        * right. assert (E3 : body bins k = Ok (bins ++ [b])).
          { unfold body. fold bank_width. fold (bank_edge k). fold (bank_edge (k + 1)). fold (bank_edge (k + 2)).
            destruct (mel_bin _ _ _ _ _ _ _) as [[[bin first] last]|]; cbn [bind] in *; [|discriminate].
            destruct (check _ _); cbn [bind] in *; [|discriminate]. destruct (vrange _ _ _); cbn [bind] in *; [|discriminate].
            inversion E2. reflexivity. }
          rewrite E3. cbn [bind]. eexists. split; [reflexivity|].
          split; [rewrite lenZ_app, L; reflexivity|]. intros j Hj. unfold lenZ in L.
          destruct (Z.eq_dec j k) as [->|].
          -- rewrite app_nth2 by lia. replace (Z.to_nat k - length bins)%nat with 0%nat by lia. exact B.
          -- rewrite app_nth1 by lia. apply H. lia. }
  destruct (P 40 ltac:(lia)) as [[E N]|[bins [E [L H]]]]; [left|right].
  - split; assumption.
  - exists bins. split; [exact E|]. split; [unfold lenZ in L; lia|exact H].
Qed.

Lemma hamming_length : length (hamming O I) = 400%nat.
Proof. unfold hamming. rewrite map_length, seqZ_length. reflexivity. Qed.

Lemma hamming_nth : forall i, (i < 400)%nat ->
  nth i (hamming O I) (f_zero O) = i_hamming I (f_mul O (i_step I 399) (f_int O (Z.of_nat i))).
Proof.
  intros i Hi. unfold hamming. change (frame_length - 1) with 399. change (Z.to_nat frame_length) with 400%nat.
  set (g := fun z : Z => _). rewrite (nth_indep _ (f_zero O) (g 0)) by (rewrite map_length, seqZ_length; exact Hi).
  rewrite map_nth. unfold g. rewrite seqZ_nth by exact Hi. reflexivity.
Qed.

Lemma fbank_new_ok :
  (fbank_new O T I junk junk_int = Fault Assert /\ ~ (forall j, 0 <= j < 40 -> two_inside j)) \/
  exists fb f, fbank_new O T I junk junk_int = Ok fb /\ srfft_new O T junk junk_int 512 = Ok f /\
    tables_fit fb /\ length (fb_bins fb) = 40%nat /\ fb_window fb = hamming O I /\
    (forall j, 0 <= j < 40 -> filter_at j (nth (Z.to_nat j) (fb_bins fb) (0, []))) /\
    forall w, fb_fft fb w = '(w, _) <- compute O T f w (lenZ w) true (malloc junk 512) 512 ;; Ok w.
Proof.
  unfold fbank_new. change (round_up frame_length) with (Ok 512). cbn [bind].
  destruct melbanks_ok as [[E N]|[bins [E [L H]]]].
  - left. rewrite E. split; [reflexivity|exact N].
  - right. rewrite E. cbn [bind].
    destruct (fft_total F O T junk junk_int 9 ltac:(lia)) as [f [Ef HF]].
    change (2 ^ Z.of_nat 9) with 512 in *. rewrite Ef. cbn [bind].
    assert (LM : lenZ (malloc junk 512) = 512) by (unfold malloc, lenZ; rewrite map_length, seq_length; reflexivity).
    eexists. exists f. split; [reflexivity|]. split; [reflexivity|]. cbn [fb_bins fb_window fb_fft].
    split; [|split; [exact L|split; [reflexivity|split; [exact H|reflexivity]]]].
    unfold tables_fit. cbn [fb_bins fb_window fb_fft fb_padded]. split; [reflexivity|]. split; [exact hamming_length|]. split.
    + apply Forall_forall. intros b Hb. destruct (In_nth _ _ (0, []) Hb) as [j [Hj <-]].
      rewrite L in Hj. specialize (H (Z.of_nat j) ltac:(lia)). rewrite Nat2Z.id in H.
      destruct H as [H1 [_ [H2 _]]]. split; lia.
    + intros w Hw. destruct (HF w true (malloc junk 512)) as [d [b E2]]; [exact Hw|lia|].
      rewrite LM in E2. rewrite E2. cbn [bind]. exists d. split; [reflexivity|].
      destruct (fft_bounds F O T junk junk_int 512 ltac:(unfold int_max; lia)) as [E3|[f' [E3 HB]]]; [congruence|].
      assert (f' = f) as -> by congruence.
      destruct (HB w true (malloc junk 512) (or_introl eq_refl)) as [E4|[d' [b' [E4 [L4 _]]]]];
        rewrite LM in E4; [congruence|].
      assert (d' = d) as -> by congruence. unfold lenZ in *. lia.
Qed.
End Init.

Lemma fbank_new_fits : forall F (O : fops F) (T : trig_ops F) (I : init_ops F) junk junk_int,
  fbank_new O T I junk junk_int = Fault Assert \/
  exists fb, fbank_new O T I junk junk_int = Ok fb /\ tables_fit fb /\ length (fb_bins fb) = 40%nat /\
    Forall (fun b => (2 <= length (snd b))%nat) (fb_bins fb).
Proof.
  intros. destruct (fbank_new_ok O T I junk junk_int) as [[E _]|[fb [f [E [_ [TF [LB [_ [HB _]]]]]]]]]; [left; exact E|].
  right. exists fb. split; [exact E|]. split; [exact TF|]. split; [exact LB|].
  apply Forall_forall. intros b Hb. destruct (In_nth _ _ (0, []) Hb) as [j [Hj <-]].
  rewrite LB in Hj. specialize (HB (Z.of_nat j) ltac:(lia)). rewrite Nat2Z.id in HB.
  destruct HB as [_ [H2 _]]. unfold lenZ in H2. lia.
Qed.

Lemma new_stream_total : forall F (O : fops F) (T : trig_ops F) (I : init_ops F) junk junk_int fb (ps : list (list F)),
  fbank_new O T I junk junk_int = Ok fb ->
  (forall x, f_nonneg O (if f_lt O x (f_eps O) then f_eps O else x) = true) ->
  Forall (fun p => p <> [] /\ lenZ p < 536870000) ps ->
  exists outs b, fbank_run O fb [] ps = Ok (outs, b) /\
    length (concat outs) = num_windows 400 160 (length (concat ps)) /\
    Forall (fun r => length r = 40%nat) (concat outs).
Proof.
  intros F O T I junk junk_int fb ps E N HP.
  destruct (fbank_new_fits F O T I junk junk_int) as [E2|[fb' [E2 [TF [LB _]]]]]; [congruence|].
  assert (fb' = fb) as -> by congruence. pose proof (stream_total O fb ps TF N HP) as H. rewrite LB in H. exact H.
Qed.
