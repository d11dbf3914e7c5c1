(** The formula for one feature row. *)
From Coq Require Import ZArith List Bool Lia.
From Verif.Base Require Import Prelude Lemmas.
From Verif.Model Require Import Arith Vector Fbank.
From Verif.Spec Require Import AudioSpec FbankSpec.
From Verif.Proof Require Import Loop Fbank FbankStream FbankTotal ZOps.
Import ListNotations.
Open Scope Z_scope.

Section Float.
Context {F : Type} (O : fops F).

Lemma vec_vec_fold : forall a b s, vec_vec O a b = Ok s ->
  length a = length b /\ s = dot_product O a b.
Proof.
  intros a b s H. unfold vec_vec in H. destruct (Z.eqb_spec (lenZ b) (lenZ a)) as [L|]; [|discriminate].
  cbn [check bind] in H. assert (LL : length a = length b) by (unfold lenZ in L; lia). split; [assumption|].
  destruct (for_up_inv F (fun k t => t = fold_left (fun t p => f_add O t (f_mul O (fst p) (snd p)))
                                       (firstn (Z.to_nat k) (combine a b)) (f_zero O))
    (fun s i => x <- getZ a i ;; y <- getZ b i ;; Ok (f_add O s (f_mul O x y))) 0 (lenZ b) (f_zero O))
    as [t [E I]].
  - apply lenZ_nonneg.
  - reflexivity.
  - intros k t Hk ->. rewrite (getZ_nth _ a k (f_zero O)), (getZ_nth _ b k (f_zero O)) by lia. cbn [bind].
    eexists. split; [reflexivity|].
    replace (Z.to_nat (k + 1)) with (S (Z.to_nat k)) by lia.
    set (d := (f_zero O, f_zero O)).
    assert (LC : (Z.to_nat k < length (combine a b))%nat) by (rewrite combine_length; unfold lenZ in *; lia).
    assert (X : firstn (S (Z.to_nat k)) (combine a b) = firstn (Z.to_nat k) (combine a b) ++ [nth (Z.to_nat k) (combine a b) d]).
    { revert LC. generalize (Z.to_nat k), (combine a b). clear. induction n; intros [|x l] L; cbn in L; try lia; [reflexivity|].
      cbn [firstn nth app]. f_equal. apply IHn. lia. }
    rewrite X, fold_left_app. cbn [fold_left]. unfold d. rewrite combine_nth by assumption. reflexivity.
  - rewrite H in E. injection E as ->. rewrite I. unfold dot_product.
    rewrite firstn_all2; [reflexivity|]. rewrite combine_length. unfold lenZ. lia.
Qed.

Lemma combine_prefix : forall A B (a : list A) (b : list B), (length a <= length b)%nat ->
  combine a (firstn (length a) b) = combine a b.
Proof. induction a; intros [|y b] L; cbn [length firstn combine] in *; auto; try lia. f_equal. apply IHa. lia. Qed.

Lemma mel_map : forall spectrum bins out r,
  for_each bins (fun out '(offset, bin) =>
    sub <- vrange spectrum offset (lenZ bin) ;;
    e <- vec_vec O bin sub ;;
    Ok (out ++ [e])) out = Ok r ->
  r = out ++ map (fun b => dot_product O (snd b) (skipn (Z.to_nat (fst b)) spectrum)) bins.
Proof.
  intros sp bins. induction bins as [|[o b] bins IH]; intros out r H; cbn [for_each map] in *.
  - injection H as <-. rewrite app_nil_r. reflexivity.
  - unfold vrange in H.
    destruct (Z.leb_spec (o + lenZ b) (lenZ sp)); [|discriminate]. cbn [check bind] in H.
    destruct (Z.leb_spec 0 o); [|discriminate]. destruct (Z.leb_spec 0 (lenZ b)); [|discriminate].
    cbn [andb check bind] in H.
    destruct (vec_vec O b (firstn (Z.to_nat (lenZ b)) (skipn (Z.to_nat o) sp))) as [e|] eqn:E; cbn [bind] in H; [|discriminate].
    apply IH in H. rewrite H, <- app_assoc. cbn [app fst snd]. do 2 f_equal.
    apply vec_vec_fold in E. destruct E as [_ ->]. unfold dot_product.
    replace (Z.to_nat (lenZ b)) with (length b) by (unfold lenZ; lia).
    rewrite combine_prefix; [reflexivity|]. rewrite skipn_length. unfold lenZ in *. lia.
Qed.

Lemma log_map : forall (v out r : list F),
  for_each v (fun out x => _ <- check (f_nonneg O x) Assert ;; Ok (out ++ [f_log O x])) out = Ok r ->
  r = out ++ map (f_log O) v.
Proof.
  induction v as [|x v IH]; intros out r H; cbn [for_each map] in *.
  - injection H as <-. rewrite app_nil_r. reflexivity.
  - destruct (f_nonneg O x); cbn [check bind] in H; [|discriminate]. apply IH in H.
    rewrite H, <- app_assoc. reflexivity.
Qed.

Lemma frame_formula : forall fb w r b, length w = 400%nat ->
  fbank_process O fb [] w = Ok ([r], b) ->
  exists x y s,
    process_window O (fb_window fb) w = Ok x /\
    fb_fft fb (x ++ repeat (f_zero O) (Z.to_nat (fb_padded fb - 400))) = Ok y /\
    power_spectrum O y = Ok s /\
    r = map (fun b => let e := dot_product O (snd b) (skipn (Z.to_nat (fst b)) s) in
                      f_log O (if f_lt O e (f_eps O) then f_eps O else e)) (fb_bins fb).
Proof.
  intros fb w r b L H.
  assert (Hf : frame_features O fb w = Ok r) by (apply single_frame; eauto). clear H b.
  unfold frame_features, extract_window, frame_shift, frame_length in Hf.
  unfold lenZ at 1 in Hf. rewrite L in Hf.
  change ((0 <=? 0 * 160) && (0 * 160 + 400 <=? Z.of_nat 400)) with true in Hf. cbn [check bind] in Hf.
  destruct (400 <=? fb_padded fb); cbn [check bind] in Hf; [|discriminate].
  rewrite vrange_ok in Hf by (unfold lenZ; rewrite ?L; lia). cbn [bind] in Hf.
  change (Z.to_nat (0 * 160)) with 0%nat in Hf. cbn [skipn] in Hf.
  rewrite firstn_all2 in Hf by lia.
  destruct (process_window O (fb_window fb) w) as [x|]; cbn [bind] in Hf; [|discriminate].
  unfold compute_frame in Hf.
  destruct (fb_fft fb _) as [y|] eqn:Ey; cbn [bind] in Hf; [|discriminate].
  destruct (power_spectrum O y) as [s|] eqn:Es; cbn [bind] in Hf; [|discriminate].
  destruct (mel_compute O (fb_bins fb) s) as [e|] eqn:Em; cbn [bind] in Hf; [|discriminate].
  exists x, y, s. repeat split; auto.
  apply mel_map in Em. cbn [app] in Em. apply log_map in Hf. cbn [app] in Hf.
  rewrite Hf, Em. unfold apply_floor. rewrite !map_map. reflexivity.
Qed.

End Float.
