(** Streaming features are the features of the whole stream. *)
From Coq Require Import ZArith List Bool Lia.
From Verif.Base Require Import Prelude Lemmas.
From Verif.Model Require Import Arith Vector Fbank.
From Verif.Spec Require Import AudioSpec.
From Verif.Proof Require Import Loop.
Import ListNotations.
Open Scope Z_scope.
Ltac Zify.zify_post_hook ::= Z.div_mod_to_equations.

Lemma num_windows_split : forall n m,
  num_windows 400 160 (n + m) =
  (num_windows 400 160 n + num_windows 400 160 (n - 160 * num_windows 400 160 n + m))%nat /\
  (160 * num_windows 400 160 n <= n)%nat /\
  (n - 160 * num_windows 400 160 n < 400)%nat.
Proof.
  intros n m. unfold num_windows.
  destruct (Nat.ltb_spec n 400).
  - destruct (Nat.ltb_spec (n + m) 400).
    + destruct (Nat.ltb_spec (n - 160 * 0 + m) 400); lia.
    + destruct (Nat.ltb_spec (n - 160 * 0 + m) 400); [lia|].
      replace (n - 160 * 0 + m)%nat with (n + m)%nat by lia. lia.
  - destruct (Nat.ltb_spec (n + m) 400); [lia|].
    pose proof (Nat.div_mod (n - 400) 160 ltac:(lia)) as D.
    pose proof (Nat.mod_upper_bound (n - 400) 160 ltac:(lia)) as U.
    set (q := ((n - 400) / 160)%nat) in *. set (r := ((n - 400) mod 160)%nat) in *.
    split; [|lia].
    destruct (Nat.ltb_spec (n - 160 * S q + m) 400).
    + assert (X : ((n + m - 400) / 160 = q)%nat) by (symmetry; apply (Nat.div_unique _ 160 q (r + m)); lia).
      rewrite X. lia.
    + set (t := (n - 160 * S q + m - 400)%nat).
      assert (X : ((n + m - 400) / 160 = S q + t / 160)%nat).
      { symmetry. pose proof (Nat.div_mod t 160 ltac:(lia)). pose proof (Nat.mod_upper_bound t 160 ltac:(lia)).
        apply (Nat.div_unique _ 160 _ (t mod 160)); lia. }
      rewrite X. lia.
Qed.

Lemma calc_windows : forall A (s : list A),
  calc_num_frames (lenZ s) = Z.of_nat (num_windows 400 160 (length s)).
Proof.
  intros. unfold calc_num_frames, frame_length, frame_shift, num_windows, lenZ.
  destruct (Z.ltb_spec (Z.of_nat (length s)) 400), (Nat.ltb_spec (length s) 400); try lia.
  rewrite Z.quot_div_nonneg by lia.
  rewrite Nat2Z.inj_succ, Nat2Z.inj_div, Nat2Z.inj_sub by lia. change (Z.of_nat 400) with 400. change (Z.of_nat 160) with 160. lia.
Qed.

Lemma window_skip : forall A (s : list A) k i,
  window 400 160 (skipn (160 * k) s) i = window 400 160 s (k + i).
Proof. intros. unfold window. rewrite skipn_add. do 2 f_equal. lia. Qed.

Lemma windows_app : forall A (s p : list A),
  windows 400 160 (s ++ p) =
  windows 400 160 s ++ windows 400 160 (skipn (160 * num_windows 400 160 (length s)) (s ++ p)).
Proof.
  intros A s p. unfold windows. rewrite skipn_length, !app_length.
  destruct (num_windows_split (length s) (length p)) as [E [B1 B2]]. rewrite E.
  set (k := num_windows 400 160 (length s)) in *.
  replace (length s + length p - 160 * k)%nat with (length s - 160 * k + length p)%nat by lia.
  rewrite seq_app, map_app. f_equal.
  - apply map_ext_in. intros i I. apply in_seq in I. unfold window.
    assert (K : (i < k)%nat) by lia.
    assert (W : (i * 160 + 400 <= length s)%nat).
    { unfold k, num_windows in K. destruct (Nat.ltb_spec (length s) 400); [lia|].
      pose proof (Nat.mul_div_le (length s - 400) 160 ltac:(lia)). lia. }
    rewrite skipn_app, firstn_app.
    replace (400 - length (skipn (i * 160) s))%nat with 0%nat by (rewrite skipn_length; lia).
    rewrite firstn_O, app_nil_r. reflexivity.
  - rewrite Nat.add_0_l. rewrite <- (Nat.add_0_r k) at 1.
    generalize (num_windows 400 160 (length s - 160 * k + length p)). intros n.
    rewrite <- (map_id (seq 0 n)). 
    assert (S : forall n a b, seq (a + b) n = map (fun i => (a + i)%nat) (seq b n)).
    { clear. induction n; intros; cbn [seq map]; auto. f_equal.
      replace (S (a + b)) with (a + S b)%nat by lia. apply IHn. }
    rewrite S, map_map, map_id. apply map_ext. intros i. symmetry. apply window_skip.
Qed.

Section Float.
Context {F : Type} (O : fops F).

(** The features of one frame of 400 samples. *)
Definition frame_features (fb : fbank F) (w : list F) : res (list F) :=
  x <- extract_window O w 0 (fb_window fb) (fb_padded fb) ;; compute_frame O fb x.

Lemma extract_window_eq : forall wave i wf dim,
  (i < num_windows 400 160 (length wave))%nat ->
  extract_window O wave (Z.of_nat i) wf dim = extract_window O (window 400 160 wave i) 0 wf dim.
Proof.
  intros wave i wf dim Hi.
  assert (W : (i * 160 + 400 <= length wave)%nat).
  { unfold num_windows in Hi. destruct (Nat.ltb_spec (length wave) 400); [lia|].
    pose proof (Nat.mul_div_le (length wave - 400) 160 ltac:(lia)). lia. }
  assert (Lw : length (window 400 160 wave i) = 400%nat).
  { unfold window. rewrite firstn_length, skipn_length. lia. }
  unfold extract_window, frame_shift, frame_length.
  unfold lenZ at 1 2. rewrite Lw.
  destruct (Z.leb_spec 0 (Z.of_nat i * 160)); [|lia].
  destruct (Z.leb_spec (Z.of_nat i * 160 + 400) (Z.of_nat (length wave))); [|lia].
  cbn [andb check bind]. 
  change ((0 <=? 0 * 160) && (0 * 160 + 400 <=? Z.of_nat 400)) with true. cbn [check bind].
  destruct (400 <=? dim); [|reflexivity]. cbn [check bind].
  rewrite !vrange_ok by (unfold lenZ; rewrite ?Lw; lia). cbn [bind].
  change (Z.to_nat (0 * 160)) with 0%nat. cbn [skipn].
  rewrite (firstn_all2 (window 400 160 wave i)) by lia.
  unfold window. replace (Z.to_nat (Z.of_nat i * 160)) with (i * 160)%nat by lia. reflexivity.
Qed.

Lemma frames_loop : forall fb (wave : list F),
  (forall w, In w (windows 400 160 wave) -> exists r, frame_features fb w = Ok r) ->
  exists rows,
    for_up 0 (calc_num_frames (lenZ wave)) (fun rows i =>
      w <- extract_window O wave i (fb_window fb) (fb_padded fb) ;;
      row <- compute_frame O fb w ;;
      Ok (rows ++ [row])) [] = Ok rows /\
    Forall2 (fun w r => frame_features fb w = Ok r) (windows 400 160 wave) rows.
Proof.
  intros fb wave H. rewrite calc_windows.
  set (n := num_windows 400 160 (length wave)).
  destruct (for_up_inv (list (list F))
    (fun k rows => Forall2 (fun w r => frame_features fb w = Ok r)
        (map (window 400 160 wave) (seq 0 (Z.to_nat k))) rows)
    (fun rows i => w <- extract_window O wave i (fb_window fb) (fb_padded fb) ;;
      row <- compute_frame O fb w ;; Ok (rows ++ [row])) 0 (Z.of_nat n) []) as [rows [E I]].
  - lia.
  - constructor.
  - intros k rows Hk I.
    assert (K : (Z.to_nat k < n)%nat) by lia.
    destruct (H (window 400 160 wave (Z.to_nat k))) as [r Er].
    { unfold windows. apply in_map. apply in_seq. fold n. lia. }
    unfold frame_features in Er. rewrite <- (extract_window_eq wave (Z.to_nat k)) in Er by exact K.
    rewrite Z2Nat.id in Er by lia.
    destruct (extract_window O wave k (fb_window fb) (fb_padded fb)) as [x|] eqn:Ex; cbn [bind] in *; [|discriminate].
    rewrite Er. cbn [bind]. eexists. split; [reflexivity|].
    replace (Z.to_nat (k + 1)) with (Z.to_nat k + 1)%nat by lia.
    rewrite seq_app, map_app. apply Forall2_app; [assumption|]. cbn [seq map Nat.add].
    constructor; [|constructor]. unfold frame_features.
    rewrite <- (extract_window_eq wave (Z.to_nat k)) by exact K.
    rewrite Z2Nat.id by lia. rewrite Ex. cbn [bind]. assumption.
  - exists rows. split; [assumption|]. rewrite Nat2Z.id in I. exact I.
Qed.

Lemma fbank_process_ok : forall fb s p,
  p <> [] -> lenZ p < 536870000 ->
  (forall w, In w (windows 400 160 (s ++ p)) -> exists r, frame_features fb w = Ok r) ->
  exists rows,
    fbank_process O fb (skipn (160 * num_windows 400 160 (length s)) s) p
    = Ok (rows, skipn (160 * num_windows 400 160 (length (s ++ p))) (s ++ p)) /\
    Forall2 (fun w r => frame_features fb w = Ok r)
      (windows 400 160 (skipn (160 * num_windows 400 160 (length s)) (s ++ p))) rows.
Proof.
  intros fb s p N L H. unfold fbank_process.
  assert (LP : 0 < lenZ p) by (unfold lenZ; destruct p; [congruence|cbn [length]; lia]).
  destruct (Z.eqb_spec (lenZ p) 0); [lia|].
  destruct (num_windows_split (length s) (length p)) as [E [B1 B2]].
  set (k := num_windows 400 160 (length s)) in *.
  assert (Eb : skipn (160 * k) s ++ p = skipn (160 * k) (s ++ p)).
  { rewrite skipn_app. replace (160 * k - length s)%nat with 0%nat by lia. reflexivity. }
  rewrite Eb. set (buf := skipn (160 * k) (s ++ p)) in *.
  assert (Lb : length buf = (length s - 160 * k + length p)%nat).
  { unfold buf. rewrite skipn_length, app_length. lia. }
  assert (V : vec_init 4 (lenZ buf) = Ok tt).
  { unfold vec_init. unfold lenZ in *. rewrite Lb.
    destruct (Z.leb_spec 0 (Z.of_nat (length s - 160 * k + length p))); [|lia]. cbn [check bind].
    set (z := Z.of_nat (length s - 160 * k + length p)). assert (0 <= z < 536870400) by (unfold z; lia).
    assert (Wr : wrap32 (z * 4) = z * 4).
    { unfold wrap32, int_max. rewrite Z.mod_small by lia. destruct (Z.leb_spec (z * 4) 2147483647); lia. }
    rewrite Wr. destruct (Z.ltb_spec (z * 4) 0); [lia|]. rewrite Z.leb_refl. reflexivity. }
  rewrite V. cbn [bind].
  destruct (frames_loop fb buf) as [rows [Er Fr]].
  { intros w I. apply H. rewrite windows_app. apply in_or_app. right. exact I. }
  assert (En : num_windows 400 160 (length (s ++ p)) = (k + num_windows 400 160 (length buf))%nat).
  { rewrite app_length, E, Lb. reflexivity. }
  rewrite En.
  destruct (Z.eqb_spec (calc_num_frames (lenZ buf)) 0) as [Z0|Z0].
  - rewrite calc_windows in Z0. assert (Zn : num_windows 400 160 (length buf) = 0%nat) by lia.
    exists []. rewrite Zn, Nat.add_0_r. fold buf. split; [reflexivity|].
    unfold windows. rewrite Zn. constructor.
  - rewrite Er. cbn [bind]. rewrite calc_windows.
    set (j := num_windows 400 160 (length buf)) in *.
    assert (J : (160 * j <= length buf)%nat) by (apply (num_windows_split (length buf) 0)).
    unfold frame_shift. rewrite vrange_ok by (unfold lenZ; lia). cbn [bind].
    exists rows. split; [|assumption].
    rewrite firstn_all2 by (rewrite skipn_length; unfold lenZ; lia).
    do 2 f_equal. unfold buf. rewrite skipn_add. f_equal. lia.
Qed.

Lemma Forall2_app_l : forall A B (R : A -> B -> Prop) a1 a2 b1 b2,
  Forall2 R a1 b1 -> Forall2 R a2 b2 -> Forall2 R (a1 ++ a2) (b1 ++ b2).
Proof. intros. apply Forall2_app; assumption. Qed.

Lemma fbank_run_ok : forall fb ps s,
  Forall (fun p => p <> [] /\ lenZ p < 536870000) ps ->
  (forall w, In w (windows 400 160 (s ++ concat ps)) -> exists r, frame_features fb w = Ok r) ->
  exists outs,
    fbank_run O fb (skipn (160 * num_windows 400 160 (length s)) s) ps
    = Ok (outs, skipn (160 * num_windows 400 160 (length (s ++ concat ps))) (s ++ concat ps)) /\
    Forall2 (fun w r => frame_features fb w = Ok r)
      (windows 400 160 (skipn (160 * num_windows 400 160 (length s)) (s ++ concat ps))) (concat outs).
Proof.
  intros fb ps. induction ps as [|p ps IH]; intros s HP H.
  - exists []. cbn [fbank_run concat]. rewrite app_nil_r. split; [reflexivity|].
    destruct (num_windows_split (length s) 0) as [E [B1 B2]].
    unfold windows. rewrite skipn_length.
    replace (num_windows 400 160 (length s - 160 * num_windows 400 160 (length s))) with 0%nat
      by (rewrite Nat.add_0_r in E; rewrite Nat.add_0_r in E; lia).
    constructor.
  - inversion HP as [|? ? [N L] HP']; subst. cbn [concat] in *.
    rewrite app_assoc in *.
    destruct (fbank_process_ok fb s p N L) as [rows [E1 F1]].
    { intros w I. apply H. rewrite (windows_app _ (s ++ p)). apply in_or_app. now left. }
    destruct (IH (s ++ p) HP' H) as [outs [E2 F2]].
    exists (rows :: outs). cbn [fbank_run]. rewrite E1. cbn [bind]. rewrite E2. cbn [bind].
    split; [reflexivity|]. cbn [concat].
    destruct (num_windows_split (length s) (length p)) as [E [B1 B2]].
    set (k := num_windows 400 160 (length s)) in *.
    assert (X : skipn (160 * k) ((s ++ p) ++ concat ps) = skipn (160 * k) (s ++ p) ++ concat ps).
    { rewrite skipn_app. replace (160 * k - length (s ++ p))%nat with 0%nat by (rewrite app_length; lia).
      reflexivity. }
    rewrite X, windows_app. apply Forall2_app; [exact F1|].
    rewrite <- X, skipn_add.
    replace (160 * k + 160 * num_windows 400 160 (length (skipn (160 * k) (s ++ p))))%nat
      with (160 * num_windows 400 160 (length (s ++ p)))%nat; [exact F2|].
    rewrite skipn_length, app_length, E.
    replace (length s + length p - 160 * k)%nat with (length s - 160 * k + length p)%nat by lia. lia.
Qed.

(** A fresh extractor given exactly one frame returns its features. *)
Lemma single_frame : forall fb w r, length w = 400%nat ->
  (frame_features fb w = Ok r <-> exists b, fbank_process O fb [] w = Ok ([r], b)).
Proof.
  intros fb w r L.
  assert (N : w <> []) by (intros ->; discriminate L).
  assert (W1 : windows 400 160 w = [w]).
  { unfold windows. rewrite L. cbn [num_windows Nat.ltb Nat.leb]. 
    replace (num_windows 400 160 400) with 1%nat by reflexivity. cbn [seq map]. unfold window.
    cbn [Nat.mul skipn]. rewrite firstn_all2 by lia. reflexivity. }
  split.
  - intros H. destruct (fbank_process_ok fb [] w N) as [rows [E Fr]].
    + unfold lenZ. rewrite L. reflexivity.
    + cbn [app]. rewrite W1. intros v [<-|[]]. eauto.
    + cbn [app length] in *. change (160 * num_windows 400 160 0)%nat with 0%nat in *. cbn [skipn] in *.
      rewrite W1 in Fr. inversion Fr as [|? r' ? ? Hr Fr']; subst. inversion Fr'; subst.
      rewrite H in Hr. injection Hr as <-. eauto.
  - intros [b H]. unfold fbank_process in H. unfold lenZ at 1 in H. rewrite L in H.
    change (Z.of_nat 400 =? 0) with false in H. cbn [app] in H.
    match type of H with bind ?m _ = _ => destruct m; cbn [bind] in H; [|discriminate] end.
    rewrite calc_windows, L in H. change (Z.of_nat (num_windows 400 160 400)) with 1 in H. cbn [Z.eqb] in H.
    change (for_up 0 1) with (@for_up (list (list F)) 0 1) in H.
    unfold for_up in H. change (seqZ 0 (Z.to_nat (1 - 0))) with [0] in H. cbn [for_each] in H.
    unfold frame_features.
    destruct (extract_window O w 0 (fb_window fb) (fb_padded fb)) as [x|]; cbn [bind] in *; [|discriminate].
    destruct (compute_frame O fb x) as [y|]; cbn [bind] in *; [|discriminate].
    match type of H with bind ?m _ = _ => destruct m; cbn [bind] in H; [|discriminate] end.
    cbn [app] in H. injection H as <- _. reflexivity.
Qed.

Lemma windows_length : forall A (s w : list A), In w (windows 400 160 s) -> length w = 400%nat.
Proof.
  intros A s w H. unfold windows in H. apply in_map_iff in H. destruct H as [i [<- I]].
  apply in_seq in I. unfold window. rewrite firstn_length, skipn_length.
  unfold num_windows in I. destruct (Nat.ltb_spec (length s) 400); [lia|].
  pose proof (Nat.mul_div_le (length s - 400) 160 ltac:(lia)). lia.
Qed.

Lemma stream_features : forall fb (ps : list (list F)),
  Forall (fun p => p <> [] /\ lenZ p < 536870000) ps ->
  (forall w, In w (windows 400 160 (concat ps)) -> exists r b, fbank_process O fb [] w = Ok ([r], b)) ->
  exists outs b, fbank_run O fb [] ps = Ok (outs, b) /\
    Forall2 (fun w r => exists b, fbank_process O fb [] w = Ok ([r], b))
      (windows 400 160 (concat ps)) (concat outs).
Proof.
  intros fb ps HP H.
  destruct (fbank_run_ok fb ps [] HP) as [outs [E Fr]].
  - cbn [app]. intros w I. destruct (H w I) as [r [b Hb]]. exists r. apply single_frame; eauto.
    apply (windows_length _ _ _ I).
  - cbn [app length] in *. change (160 * num_windows 400 160 0)%nat with 0%nat in *. cbn [skipn] in *.
    eexists _, _. split; [exact E|].
    assert (A : Forall (fun w : list F => length w = 400%nat) (windows 400 160 (concat ps)))
      by (apply Forall_forall; intros w; apply windows_length).
    clear - Fr A. induction Fr; constructor; inversion A; subst; auto. now apply single_frame.
Qed.

(** 2^30 samples at once: the byte size of the buffer wraps to 0. *)
Lemma huge_wave : forall fb p, lenZ p = 1073741824 -> fbank_process O fb [] p = Fault Undef.
Proof.
  intros fb p L. unfold fbank_process. cbn [app]. rewrite L. reflexivity.
Qed.

Lemma empty_wave : forall fb b, fbank_process O fb b [] = Fault Assert.
Proof. reflexivity. Qed.

End Float.
