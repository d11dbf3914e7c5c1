(** The acoustic model emits one row per frame. *)
From Coq Require Import ZArith List Bool Lia.
From Verif.Base Require Import Prelude Lemmas.
From Verif.Model Require Import Arith Vector Nnet Am.
From Verif.Spec Require Import AudioSpec AmSpec.
From Verif.Proof Require Import Loop Windows.
Import ListNotations.
Open Scope Z_scope.
Ltac Zify.zify_post_hook ::= Z.div_mod_to_equations.

Lemma map_rows_ok : forall A B (f : A -> res B) m r,
  map_rows f m = Ok r <-> Forall2 (fun x y => f x = Ok y) m r.
Proof.
  intros A B f m. induction m as [|x m IH]; intros r; cbn [map_rows].
  - split; [intros H; injection H as <-; constructor|intros H; inversion H; reflexivity].
  - split.
    + intros H. destruct (f x) as [y|] eqn:E; cbn [bind] in H; [|discriminate].
      destruct (map_rows f m) as [ys|]; cbn [bind] in H; [|discriminate]. injection H as <-.
      constructor; [assumption|]. now apply IH.
    + intros H. inversion H as [|? y ? ys E F]; subst. rewrite E. cbn [bind].
      apply IH in F. rewrite F. reflexivity.
Qed.

Lemma map2_length : forall A B C (f : A -> B -> C) a b, length a = length b -> length (map2 f a b) = length a.
Proof. induction a; destruct b; cbn; intros; auto; discriminate || (f_equal; auto). Qed.

Lemma map2_nth : forall A B C (f : A -> B -> C) a b i da db dc, length a = length b -> (i < length a)%nat ->
  nth i (map2 f a b) dc = f (nth i a da) (nth i b db).
Proof.
  induction a; destruct b; cbn [map2 length]; intros i da db dc L H; try lia.
  destruct i; cbn [nth]; [reflexivity|]. apply IHa; lia.
Qed.

Lemma wrap32_id : forall z, -2147483648 <= z <= 2147483647 -> wrap32 z = z.
Proof.
  intros z H. unfold wrap32, int_max. destruct (Z.leb_spec (z mod 4294967296) 2147483647); lia.
Qed.

Section Float.
Context {F : Type} (O : fops F) (a : am F) (L R c : nat) (d : Z).
Hypothesis HL : am_left a = Z.of_nat L.
Hypothesis HR : am_right a = Z.of_nat R.
Hypothesis HC : am_chunk a = Z.of_nat c.
Hypothesis Hc : (1 <= c)%nat.
Hypothesis Hmax : Z.of_nat L + 2 * Z.of_nat R + Z.of_nat c <= 2147483647.
Hypothesis Hd : 0 < d.
Hypothesis Hloc : local (am_nnet a) L R d.

Definition row_of (w : list (list F)) (row : list F) : Prop :=
  exists r, am_nnet a w = Ok [r] /\
    subtracted (fun x y => f_add O x (f_mul O (f_minus_one O) y)) r (am_prior a) row.

Definition window_ok (w : list (list F)) : Prop :=
  exists r, am_nnet a w = Ok [r] /\ length r = length (am_prior a).

Lemma batch_ok : forall feats b m, uniform d feats -> length feats = (m + L + R)%nat -> (1 <= m)%nat ->
  Z.of_nat m + Z.of_nat L + Z.of_nat R <= 2147483647 ->
  b = -1 \/ b = Z.of_nat m ->
  (forall w, In w (windows (S (L + R)) 1 feats) -> window_ok w) ->
  exists rows, compute_batch O a feats b = Ok rows /\
    Forall2 row_of (windows (S (L + R)) 1 feats) rows.
Proof.
  intros feats b m U Len Hm B Hb W. unfold compute_batch. rewrite HL, HR.
  assert (LZ : lenZ feats = Z.of_nat m + Z.of_nat L + Z.of_nat R) by (unfold lenZ; lia).
  rewrite LZ.
  replace (Z.of_nat m + Z.of_nat L + Z.of_nat R - Z.of_nat L - Z.of_nat R) with (Z.of_nat m) by lia.
  rewrite wrap32_id by lia.
  assert (Eb : (if b =? -1 then Z.of_nat m else b) = Z.of_nat m).
  { destruct Hb as [-> | ->]; [reflexivity|]. destruct (Z.eqb_spec (Z.of_nat m) (-1)); [lia|reflexivity]. }
  cbv zeta. rewrite Eb.
  destruct (Z.ltb_spec 0 (Z.of_nat m)); [|lia]. rewrite orb_true_r. cbn [check bind].
  destruct (Z.eqb_spec (Z.of_nat m) 0); [lia|].
  replace (in_int32 (Z.of_nat m + Z.of_nat L)) with true by (symmetry; apply in_int32_iff; lia).
  replace (in_int32 (Z.of_nat m + Z.of_nat L + Z.of_nat R)) with true by (symmetry; apply in_int32_iff; lia).
  cbn [check bind].
  destruct (Z.leb_spec 0 (Z.of_nat m + Z.of_nat L + Z.of_nat R)); [|lia].
  rewrite Z.leb_refl. cbn [andb check bind].
  destruct feats as [|f0 fs] eqn:Ef; [cbn in Len; lia|]. rewrite <- Ef in *.
  assert (G0 : getZ feats 0 = Ok f0) by (rewrite Ef; reflexivity).
  rewrite G0. cbn [bind].
  assert (D0 : lenZ f0 = d) by (unfold uniform in U; rewrite Ef in U; inversion U; assumption).
  rewrite D0. unfold mat_shape.
  destruct (Z.eqb_spec ((Z.of_nat m + Z.of_nat L + Z.of_nat R) * d) 0); [nia|].
  destruct (Z.ltb_spec 0 (Z.of_nat m + Z.of_nat L + Z.of_nat R)); [|lia].
  destruct (Z.ltb_spec 0 d); [|lia]. cbn [andb check bind].
  rewrite firstn_all2 by lia.
  assert (Ec : map_rows (vcopy d) feats = Ok feats).
  { apply map_rows_ok. clear - U. unfold uniform in U. induction U as [|r x E U IH]; constructor; auto.
    unfold vcopy. rewrite E, Z.eqb_refl. reflexivity. }
  rewrite Ec. cbn [bind].
  assert (HW : exists ys, Forall2 (fun w r => am_nnet a w = Ok [r]) (windows (S (L + R)) 1 feats) ys /\
     Forall (fun r => length r = length (am_prior a)) ys).
  { clear - W. induction (windows (S (L + R)) 1 feats) as [|w ws IH].
    - exists []. split; constructor.
    - destruct IH as [ys [I1 I2]]; [intros; apply W; now right|].
      destruct (W w (or_introl eq_refl)) as [r [E1 E2]]. exists (r :: ys). split; constructor; auto. }
  destruct HW as [ys [Y1 Y2]].
  assert (N : am_nnet a feats = Ok ys) by (apply (Hloc feats ys U); [lia|assumption]).
  rewrite N. cbn [bind].
  assert (Ly : lenZ ys = Z.of_nat m).
  { unfold lenZ. rewrite <- (Forall2_len _ _ _ _ _ Y1), windows_1_length. lia. }
  rewrite Ly, Z.eqb_refl. cbn [check bind].
  clear - Y1 Y2.
  exists (map (fun r => map2 (fun x y => f_add O x (f_mul O (f_minus_one O) y)) r (am_prior a)) ys).
  split.
  - apply map_rows_ok. clear Y1. induction Y2 as [|r ys E Y2 IH]; cbn [map]; constructor; auto.
    unfold add_vec_scaled, lenZ. rewrite E, Z.eqb_refl. reflexivity.
  - induction Y1 as [|w r ws ys E Y1 IH]; cbn [map]; constructor; inversion Y2; subst; auto.
    exists r. split; [assumption|]. split; [apply map2_length; assumption|].
    intros i dd Hi.
    apply (map2_nth _ _ _ (fun x y => f_add O x (f_mul O (f_minus_one O) y))); assumption.
Qed.

(** After [t] frames, [e] rows have been emitted. *)
Definition progress (t e : nat) : Prop :=
  (e <= t)%nat /\ (t < e + R + c)%nat /\ (e = 0 \/ e + R <= t)%nat.

Lemma process_step : forall P pre f post t e,
  P = pre ++ f :: post -> length pre = (L + t)%nat -> progress t e -> uniform d P ->
  (forall w, In w (windows (S (L + R)) 1 P) -> window_ok w) ->
  exists rows e', am_process O a (mk_inst (skipn e pre) true) f
      = Ok (rows, mk_inst (skipn e' (pre ++ [f])) true) /\
    progress (S t) e' /\ (e <= e')%nat /\
    Forall2 row_of (windows (S (L + R)) 1 (skipn e (firstn (e' + (L + R)) P))) rows.
Proof.
  intros P pre f post t e EP Lp [P1 [P2 P3]] U W. unfold am_process. cbn [i_started i_feats].
  assert (Es : skipn e pre ++ [f] = skipn e (pre ++ [f])).
  { rewrite skipn_app. replace (e - length pre)%nat with 0%nat by lia. reflexivity. }
  rewrite Es. set (feats := skipn e (pre ++ [f])).
  assert (Lf : length feats = (L + t + 1 - e)%nat).
  { unfold feats. rewrite skipn_length, app_length. cbn [length]. lia. }
  unfold batch_available. rewrite HL, HR, HC.
  replace (in_int32 (Z.of_nat L + Z.of_nat R)) with true by (symmetry; apply in_int32_iff; lia).
  replace (in_int32 (Z.of_nat L + Z.of_nat R + Z.of_nat c)) with true by (symmetry; apply in_int32_iff; lia).
  cbn [check bind].
  assert (Ep : pre ++ [f] = firstn (L + t + 1) P).
  { rewrite EP. replace (pre ++ f :: post) with ((pre ++ [f]) ++ post) by (rewrite <- app_assoc; reflexivity).
    rewrite firstn_app. replace (L + t + 1 - length (pre ++ [f]))%nat with 0%nat
      by (rewrite app_length; cbn [length]; lia).
    rewrite firstn_O, app_nil_r, firstn_all2 by (rewrite app_length; cbn [length]; lia). reflexivity. }
  assert (LP : (L + t + 1 <= length P)%nat) by (rewrite EP, app_length; cbn [length]; lia).
  destruct (Z.leb_spec (Z.of_nat L + Z.of_nat R + Z.of_nat c) (lenZ feats)) as [A|A]; unfold lenZ in A.
  - destruct (batch_ok feats (Z.of_nat c) c) as [rows [Er Fr]]; auto; try lia.
    + unfold feats. rewrite Ep. apply uniform_skipn, uniform_firstn. assumption.
    + intros w I. apply W. rewrite (windows_1_split _ (L + R) (t + 1 - R) P) by lia.
      apply in_or_app. left.
      replace (t + 1 - R + (L + R))%nat with (L + t + 1)%nat by lia. rewrite <- Ep.
      rewrite (windows_1_split _ (L + R) e (pre ++ [f])) by (rewrite app_length; cbn [length]; lia).
      apply in_or_app. now right.
    + rewrite Er. cbn [bind]. destruct (Z.leb_spec (Z.of_nat c) (lenZ feats)); [|unfold lenZ in *; lia].
      cbn [check bind]. rewrite Nat2Z.id. exists rows, (e + c)%nat.
      split; [unfold feats; rewrite skipn_add; reflexivity|].
      split; [unfold progress; lia|]. split; [lia|].
      replace (e + c + (L + R))%nat with (L + t + 1)%nat by lia. rewrite <- Ep. exact Fr.
  - exists [], e. split; [reflexivity|]. split; [unfold progress; lia|]. split; [lia|].
    rewrite windows_1_short; [constructor|]. rewrite skipn_length, firstn_length. lia.
Qed.

Lemma run_ok : forall P fs pre post t e em,
  P = pre ++ fs ++ post -> length pre = (L + t)%nat -> progress t e -> uniform d P ->
  (forall w, In w (windows (S (L + R)) 1 P) -> window_ok w) ->
  (e + (L + R) <= length P)%nat -> (R <= length post)%nat ->
  Forall2 row_of (windows (S (L + R)) 1 (firstn (e + (L + R)) P)) em ->
  exists outs e', am_run O a (mk_inst (skipn e pre) true) fs
      = Ok (outs, mk_inst (skipn e' (pre ++ fs)) true) /\
    progress (t + length fs) e' /\
    Forall2 row_of (windows (S (L + R)) 1 (firstn (e' + (L + R)) P)) (em ++ concat outs).
Proof.
  intros P fs. induction fs as [|f fs IH]; intros pre post t e em EP Lp Pr U W Le Lpo Em.
  - exists [], e. cbn [am_run concat length]. rewrite !app_nil_r, Nat.add_0_r. auto.
  - cbn [app] in EP.
    destruct (process_step P pre f (fs ++ post) t e EP Lp Pr U W) as [rows [e1 [E1 [Pr1 [Le1 F1]]]]].
    assert (LP : (L + S t + R <= length P)%nat) by (rewrite EP, app_length; cbn [length]; rewrite app_length; lia).
    assert (Q : (e1 + (L + R) <= length P)%nat) by (destruct Pr1 as [? [? ?]]; lia).
    destruct (IH (pre ++ [f]) post (S t) e1 (em ++ rows)) as [outs [e2 [E2 [Pr2 F2]]]]; auto.
    + rewrite EP, <- app_assoc. reflexivity.
    + rewrite app_length. cbn [length]. lia.
    + rewrite (windows_1_split _ (L + R) e) by (rewrite firstn_length; lia).
      apply Forall2_app; [|exact F1]. rewrite firstn_firstn. replace (Nat.min (e + (L + R)) (e1 + (L + R))) with (e + (L + R))%nat by lia.
      exact Em.
    + exists (rows :: outs), e2. cbn [am_run]. rewrite E1. cbn [bind]. rewrite E2. cbn [bind concat length].
      rewrite <- app_assoc in *. cbn [app] in *. split; [reflexivity|].
      replace (t + S (length fs))%nat with (S t + length fs)%nat by lia. split; [exact Pr2|].
      exact F2.
Qed.

Lemma stream_ok : forall frames, frames <> [] -> uniform d frames ->
  (forall w, In w (windows (S (L + R)) 1 (padded L R frames)) -> window_ok w) ->
  exists outs i rest i',
    am_run O a inst_init frames = Ok (outs, i) /\ am_end O a i = Ok (rest, i') /\
    length (concat outs ++ rest) = length frames /\
    Forall2 row_of (windows (S (L + R)) 1 (padded L R frames)) (concat outs ++ rest).
Proof.
  intros frames N U W. destruct frames as [|f0 fs]; [congruence|].
  set (frames := f0 :: fs) in *. 
  assert (EP : padded L R frames = repeat f0 L ++ frames ++ repeat (last frames f0) R) by reflexivity.
  set (P := padded L R frames) in *.
  assert (Ul : In (last frames f0) frames).
  { unfold frames. clear. revert f0. induction fs as [|g fs IH]; intros f0; [now left|].
    right. change (last (f0 :: g :: fs) f0) with (last (g :: fs) f0).
    assert (X : last (g :: fs) f0 = last (g :: fs) g) by (clear; revert g; induction fs as [|h fs IH]; intros g; [reflexivity|]; cbn [last] in *; destruct fs; auto).
    rewrite X. apply IH. }
  assert (UP : uniform d P).
  { rewrite EP. unfold uniform in *. apply Forall_app. split; [|apply Forall_app; split; [assumption|]];
      apply Forall_forall; intros x I; apply repeat_spec in I; subst x; rewrite Forall_forall in U; apply U;
      [now left|assumption]. }
  assert (LP : length P = (L + length frames + R)%nat) by (rewrite EP, !app_length, !repeat_length; lia).
  assert (Start : am_run O a inst_init frames = am_run O a (mk_inst (skipn 0 (repeat f0 L)) true) frames).
  { unfold frames. cbn [am_run]. unfold am_process. cbn [i_started i_feats inst_init app skipn].
    rewrite HL, Nat2Z.id. reflexivity. }
  destruct (run_ok P frames (repeat f0 L) (repeat (last frames f0) R) 0 0 []) as [outs [e [E [[Q1 [Q2 Q3]] Fr]]]]; auto.
  - rewrite repeat_length. lia.
  - unfold progress. lia.
  - lia.
  - rewrite repeat_length. lia.
  - rewrite windows_1_short; [constructor|]. rewrite firstn_length. lia.
  - cbn [app Nat.add] in *. rewrite Start, E. exists outs, (mk_inst (skipn e (repeat f0 L ++ frames)) true).
    set (S := repeat f0 L ++ frames) in *.
    assert (LS : length S = (L + length frames)%nat) by (unfold S; rewrite app_length, repeat_length; reflexivity).
    assert (PS : P = S ++ repeat (last frames f0) R) by (unfold S; rewrite <- app_assoc; exact EP).
    assert (Len : forall rest, Forall2 row_of (windows (Datatypes.S (L + R)) 1 P) (concat outs ++ rest) ->
       length (concat outs ++ rest) = length frames).
    { intros rest H. rewrite <- (Forall2_len _ _ _ _ _ H), windows_1_length. lia. }
    unfold am_end. cbn [i_feats i_started].
    destruct (Nat.eq_dec (length S) e) as [Z0|NZ].
    + rewrite skipn_all2 by lia. cbn [rev]. exists [], (mk_inst [] true). split; [reflexivity|]. split; [reflexivity|].
      assert (X : Forall2 row_of (windows (Datatypes.S (L + R)) 1 P) (concat outs ++ [])).
      { rewrite app_nil_r. rewrite firstn_all2 in Fr by lia. exact Fr. }
      split; [apply Len|]; exact X.
    + assert (ES : exists S', S = S' ++ [last frames f0]).
      { destruct (exists_last (l := frames)) as [fs' [l El]]; [discriminate|].
        exists (repeat f0 L ++ fs'). unfold S. rewrite <- app_assoc. f_equal.
        rewrite El at 1. do 2 f_equal. rewrite El. rewrite last_last. reflexivity. }
      destruct ES as [S' ES].
      assert (Er : rev (skipn e S) = last frames f0 :: rev (skipn e S')).
      { rewrite ES in LS, NZ. rewrite app_length in LS, NZ. cbn [length] in LS, NZ.
        rewrite ES, skipn_app. replace (e - length S')%nat with 0%nat by lia. cbn [skipn].
        rewrite rev_app_distr. reflexivity. }
      rewrite Er. rewrite HL, HR, Nat2Z.id.
      replace (in_int32 (Z.of_nat L + Z.of_nat R)) with true by (symmetry; apply in_int32_iff; lia).
      cbn [check bind].
      assert (Ef : skipn e S ++ repeat (last frames f0) R = skipn e P).
      { rewrite PS, skipn_app. replace (e - length S)%nat with 0%nat by lia. reflexivity. }
      rewrite Ef.
      assert (St : size_t (Z.of_nat L + Z.of_nat R) = Z.of_nat L + Z.of_nat R).
      { unfold size_t. apply Z.mod_small. split; [lia|]. apply Z.le_lt_trans with 2147483647; [lia|reflexivity]. }
      rewrite St.
      destruct (Z.leb_spec (lenZ (skipn e P)) (Z.of_nat L + Z.of_nat R)) as [A|A];
        unfold lenZ in A; rewrite skipn_length, LP in A.
      * exists [], (mk_inst (skipn e P) true). split; [reflexivity|]. split; [reflexivity|].
        assert (X : Forall2 row_of (windows (Datatypes.S (L + R)) 1 P) (concat outs ++ [])).
        { rewrite app_nil_r. rewrite firstn_all2 in Fr by lia. exact Fr. }
        split; [apply Len|]; exact X.
      * destruct (batch_ok (skipn e P) (-1) (length frames - e)) as [rows [Eb Fb]]; auto; try lia.
        -- apply uniform_skipn. assumption.
        -- rewrite skipn_length. lia.
        -- intros w I. apply W. rewrite (windows_1_split _ (L + R) e P) by lia. apply in_or_app. now right.
        -- rewrite Eb. cbn [bind]. exists rows, (mk_inst (skipn e P) true).
           split; [reflexivity|]. split; [reflexivity|].
           assert (X : Forall2 row_of (windows (Datatypes.S (L + R)) 1 P) (concat outs ++ rows)).
           { rewrite (windows_1_split _ (L + R) e P) by lia. apply Forall2_app; assumption. }
           split; [apply Len|]; exact X.
Qed.

End Float.
