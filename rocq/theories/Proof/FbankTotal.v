(** With tables that fit, every frame has features. *)
From Coq Require Import ZArith List Bool Lia.
From Verif.Base Require Import Prelude Lemmas.
From Verif.Model Require Import Arith Vector Fbank.
From Verif.Spec Require Import AudioSpec FbankSpec.
From Verif.Proof Require Import Loop Fbank FbankStream ZOps.
Import ListNotations.
Open Scope Z_scope.

Lemma getZ_nth : forall A (v : list A) i d, 0 <= i < lenZ v -> getZ v i = Ok (nth (Z.to_nat i) v d).
Proof.
  intros A v i d H. unfold getZ. destruct (Z.ltb_spec i 0); [lia|].
  rewrite (nth_error_nth' v d) by (unfold lenZ in H; lia). reflexivity.
Qed.

Section Float.
Context {F : Type} (O : fops F).

Lemma vec_vec_ok : forall a b : list F, lenZ a = lenZ b -> exists s, vec_vec O a b = Ok s.
Proof.
  intros a b L. unfold vec_vec. rewrite L, Z.eqb_refl. cbn [check bind].
  destruct (for_up_inv F (fun _ _ => True)
    (fun s i => x <- getZ a i ;; y <- getZ b i ;; Ok (f_add O s (f_mul O x y))) 0 (lenZ b) (f_zero O))
    as [s [E _]]; eauto using lenZ_nonneg.
  intros k s Hk _. rewrite (getZ_nth _ a k (f_zero O)), (getZ_nth _ b k (f_zero O)) by lia. cbn [bind].
  eexists. split; [reflexivity|exact I].
Qed.

Lemma mel_ok : forall spectrum, lenZ spectrum = 512 -> forall bins out,
  Forall (fun b => 0 <= fst b /\ fst b + lenZ (snd b) <= 512) bins ->
  exists e, for_each bins (fun out '(offset, bin) =>
    sub <- vrange spectrum offset (lenZ bin) ;;
    e <- vec_vec O bin sub ;;
    Ok (out ++ [e])) out = Ok e /\ length e = (length out + length bins)%nat.
Proof.
  intros sp L bins. induction bins as [|[o b] bins IH]; intros out H; cbn [for_each].
  - exists out. split; [reflexivity|cbn; lia].
  - inversion H as [|? ? [H1 H2] H3]; subst. cbn [fst snd] in *.
    rewrite vrange_ok by (pose proof (lenZ_nonneg _ b); lia). cbn [bind].
    destruct (vec_vec_ok b (firstn (Z.to_nat (lenZ b)) (skipn (Z.to_nat o) sp))) as [s E].
    { unfold lenZ in *. rewrite firstn_length, skipn_length. lia. }
    rewrite E. cbn [bind]. destruct (IH (out ++ [s]) H3) as [e [E2 L2]]. exists e. split; [exact E2|].
    rewrite L2, app_length. cbn [length]. lia.
Qed.

Lemma log_ok : forall (v out : list F), Forall (fun x => f_nonneg O x = true) v ->
  exists e, for_each v (fun out x => _ <- check (f_nonneg O x) Assert ;; Ok (out ++ [f_log O x])) out = Ok e /\
    length e = (length out + length v)%nat.
Proof.
  induction v as [|x v IH]; intros out H; cbn [for_each].
  - exists out. split; [reflexivity|cbn; lia].
  - inversion H as [|? ? H1 H2]; subst. rewrite H1. cbn [check bind].
    destruct (IH (out ++ [f_log O x]) H2) as [e [E L]]. exists e. split; [exact E|].
    rewrite L, app_length. cbn [length]. lia.
Qed.

Lemma frame_total : forall fb w, tables_fit fb ->
  (forall x, f_nonneg O (if f_lt O x (f_eps O) then f_eps O else x) = true) ->
  length w = 400%nat -> exists r, frame_features O fb w = Ok r /\ length r = length (fb_bins fb).
Proof.
  intros fb w [P [W [B T]]] N L. unfold frame_features, extract_window, frame_shift, frame_length.
  rewrite P. unfold lenZ at 1. rewrite L.
  change ((0 <=? 0 * 160) && (0 * 160 + 400 <=? Z.of_nat 400)) with true.
  change (400 <=? 512) with true. cbn [check bind].
  rewrite vrange_ok by (unfold lenZ; rewrite ?L; lia). cbn [bind].
  change (Z.to_nat (0 * 160)) with 0%nat. cbn [skipn].
  rewrite firstn_all2 by lia.
  destruct (process_window_ok O (fb_window fb) w (f_zero O)) as [x [E [Lx _]]];
    [intros ->; discriminate L|lia|].
  rewrite E. cbn [bind]. change (Z.to_nat (512 - 400)) with 112%nat.
  unfold compute_frame.
  destruct (T (x ++ repeat (f_zero O) 112)) as [y [Ey Ly]].
  { unfold lenZ. rewrite app_length, repeat_length, Lx, L. reflexivity. }
  rewrite Ey. cbn [bind].
  destruct (power_spectrum_ok O y (f_zero O) 256) as [z [Ez [Lz _]]].
  { apply Nat.leb_le. reflexivity. }
  { unfold lenZ in Ly. lia. }
  rewrite Ez. cbn [bind]. unfold mel_compute.
  destruct (mel_ok z ltac:(unfold lenZ in *; lia) (fb_bins fb) [] B) as [e [Ee Le]].
  rewrite Ee. cbn [bind]. unfold apply_log.
  destruct (log_ok (apply_floor O (f_eps O) e) []) as [r [Er Lr]].
  { unfold apply_floor. apply Forall_map. apply Forall_forall. intros v _. apply N. }
  exists r. split; [exact Er|]. rewrite Lr. unfold apply_floor. rewrite map_length, Le. reflexivity.
Qed.

Lemma stream_total : forall fb (ps : list (list F)), tables_fit fb ->
  (forall x, f_nonneg O (if f_lt O x (f_eps O) then f_eps O else x) = true) ->
  Forall (fun p => p <> [] /\ lenZ p < 536870000) ps ->
  exists outs b, fbank_run O fb [] ps = Ok (outs, b) /\
    length (concat outs) = num_windows 400 160 (length (concat ps)) /\
    Forall (fun r => length r = length (fb_bins fb)) (concat outs).
Proof.
  intros fb ps T N H.
  assert (W : forall w, In w (windows 400 160 (concat ps)) ->
     exists r, frame_features O fb w = Ok r /\ length r = length (fb_bins fb)).
  { intros w I. apply frame_total; auto. apply (windows_length _ _ _ I). }
  destruct (stream_features O fb ps H) as [outs [b [E Fr]]].
  { intros w I. destruct (W w I) as [r [Er _]]. apply single_frame in Er; [|apply (windows_length _ _ _ I)].
    destruct Er as [b Eb]. eauto. }
  exists outs, b. split; [exact E|]. split.
  - rewrite <- (Forall2_len _ _ _ _ _ Fr). unfold windows. rewrite map_length, seq_length. reflexivity.
  - assert (A : forall w, In w (windows 400 160 (concat ps)) -> length w = 400%nat) by (intros; eapply windows_length; eauto).
    clear E. revert A W Fr. generalize (windows 400 160 (concat ps)). generalize (concat outs).
    intros rs ws A W Fr. induction Fr as [|w r ws rs [b0 Hr] Fr IH]; constructor.
    + destruct (W w (or_introl eq_refl)) as [r' [Er Lr]].
      assert (frame_features O fb w = Ok r) by (apply single_frame; [apply A; now left|eauto]). congruence.
    + apply IH; intros; [apply A|apply W]; now right.
Qed.

End Float.

Lemma ztables_fit : tables_fit zbank.
Proof.
  split; [reflexivity|]. split; [reflexivity|]. split.
  - repeat constructor; discriminate.
  - intros w L. exists w. auto.
Qed.

Lemma znonneg : forall x, f_nonneg zops (if f_lt zops x (f_eps zops) then f_eps zops else x) = true.
Proof. intros x. cbn. destruct (Z.ltb_spec x 1); [reflexivity|]. apply Z.leb_le. lia. Qed.

Lemma stream_case :
  Forall (fun p => p <> [] /\ lenZ p < 536870000) zpieces /\
  exists outs b, fbank_run zops zbank [] zpieces = Ok (outs, b) /\ length (concat outs) = 2%nat.
Proof.
  assert (H : Forall (fun p => p <> [] /\ lenZ p < 536870000) zpieces) by (repeat constructor; discriminate).
  split; [exact H|].
  destruct (stream_total zops zbank zpieces ztables_fit znonneg H) as [outs [b [E [L _]]]].
  exists outs, b. split; [exact E|]. exact L.
Qed.
