From Coq Require Import ZArith String List Bool Lia.
From Verif.Base Require Import Prelude Lemmas.
From Verif.Model Require Import Util File Arith Pcm Vector Fbank Am Pool OLabel Fst Decoder Stt Api.
From Verif.Spec Require Import PcmSpec SttSpec ApiSpec.
From Verif.Proof Require Import Stt Api ApiError.
From Verif.Proof Require PcmCases.
Import ListNotations.
Open Scope Z_scope.

Section Api.
Context {F D C : Type}.
Variable O : fops F.
Variable X : xops F D.
Variable tenth : F.
Variable fuel : nat.
Variable loads : bytes -> res (recognizer F C + bytes).
Notation step := (step O X tenth fuel loads).
Notation run := (run O X tenth fuel loads).
Variables (k r : nat).

Definition answers (t : list (call * answer F)) : list (answer F) :=
  map snd (filter (fun x => of_utt k (Datatypes.fst x)) t).

Lemma others : forall c s s1 a, step s c = Ok (s1, a) -> of_utt k c = false -> c <> Unload r ->
  s_utt s1 k = s_utt s k /\ forall v, nth_error (s_stt s) r = Some v -> nth_error (s_stt s1) r = Some v.
Proof.
  intros c s s1 a E N U. destruct (concerns k c) eqn:Cn.
  - destruct s as [err stts utts]. destruct c as [config|r'|k' r' f|k' data size|k'|k'|k'|f why|]; unfold of_utt in N; cbn in *;
      try congruence.
    + inv_bind E. assert (K : forall x v, nth_error stts r = Some v -> nth_error (stts ++ [x]) r = Some v).
      { intros x v H. rewrite nth_error_app1; [assumption|]. apply nth_error_Some. congruence. }
      destruct a0 as [rc|why]; [|inv_bind E]; injection E as <- _; cbn; auto.
    + inv_bind E. assert (K : forall v, nth_error stts r = Some v -> nth_error (upd stts r' Emptied) r = Some v).
      { intros v H. rewrite nth_error_upd. destruct (Nat.eqb_spec r' r) as [->|]; [congruence|assumption]. }
      destruct a0; try discriminate; injection E as <- _; cbn; auto.
  - destruct (step_other O X tenth fuel loads k c s s1 a Cn E) as [E1 E2]. rewrite E1, E2. auto.
Qed.

Lemma after_end : forall cs s u t, run s cs = Ok t -> s_utt s k = Utt r u -> ~ In (Unload r) cs ->
  filter (of_utt k) cs = [Look k] -> answers t = [Text (cstr (u_hyp u)) (u_loglik u)].
Proof.
  induction cs as [|c cs IH]; intros s u t E U N Ef; [discriminate|]. cbn [Api.run] in E.
  apply bind_ok in E. destruct E as [[s1 a] [E1 E]]. inv_bind E. injection E as <-.
  unfold answers. cbn [filter Datatypes.fst] in *. destruct (of_utt k c) eqn:Oc.
  - injection Ef as -> Ef. destruct s as [err stts utts]. cbn [Api.step s_utt] in *. rewrite U in E1. inv_bind E1.
    injection E1 as <- <-. cbn [map snd]. f_equal.
    assert (G : forall cs s t, run s cs = Ok t -> filter (of_utt k) cs = [] -> answers t = []).
    { clear. induction cs as [|c cs IH]; intros s t E Ef; cbn [Api.run] in E; [injection E as <-; reflexivity|].
      apply bind_ok in E. destruct E as [[s1 a] [E1 E]]. inv_bind E. injection E as <-.
      unfold answers. cbn [filter Datatypes.fst] in *. destruct (of_utt k c); [discriminate|]. exact (IH _ _ Hb Ef). }
    exact (G _ _ _ Hb Ef).
  - destruct (others c s s1 a E1 Oc) as [X1 X2]; [intros ->; apply N; now left|].
    apply (IH s1 u a0 Hb); [congruence| |assumption]. intros I. apply N. now right.
Qed.

Lemma during : forall rc cs s u ps t err, run s cs = Ok t -> fits (s_err s) -> fits err -> good u ->
  s_utt s k = Utt r u -> nth_error (s_stt s) r = Some (Stt rc) -> ~ In (Unload r) cs ->
  filter (of_utt k) cs = map (fun p => Feed k (Some p) (lenZ p)) ps ++ [Finish k; Look k] ->
  exists ns hyp ll, session O X tenth fuel err (Some u) ps = Ok (ns, hyp, ll) /\
    answers t = map Number ns ++ [Nothing; Text (cstr hyp) ll].
Proof.
  intros rc. induction cs as [|c cs IH]; intros s u ps t err E L L' G U R N Ef.
  { cbn in Ef. destruct ps; discriminate. }
  cbn [Api.run] in E.
  apply bind_ok in E. destruct E as [[s1 a] [E1 E]]. inv_bind E. injection E as <-.
  pose proof (step_fits O X tenth fuel loads c s s1 a L E1) as L1.
  assert (N1 : ~ In (Unload r) cs) by (intros I; apply N; now right).
  unfold answers. cbn [filter Datatypes.fst] in *. destruct (of_utt k c) eqn:Oc.
  - destruct ps as [|p ps]; cbn [map app] in Ef; injection Ef as -> Ef.
    + destruct s as [err1 stts utts]. cbn [Api.step s_utt s_stt s_err] in *. rewrite U in E1. unfold stt_of in E1. cbn [s_stt] in E1.
      rewrite R in E1. cbn [bind] in E1. apply bind_ok in E1. destruct E1 as [[u' e] [E2 E1]]. injection E1 as <- <-.
      pose proof (end_same O X tenth fuel err1 err (Some u) L L') as H. rewrite E2 in H.
      destruct (end_good O X tenth fuel _ _ _ _ G E2) as (u1 & -> & G1 & ->).
      destruct (stt_end _ _ _ _ err _) as [[u2 e2]|] eqn:E3; cbn in H; [|contradiction].
      destruct H as (H & _ & _). cbn [Datatypes.fst] in H. subst u2.
      exists [], (u_hyp u1), (u_loglik u1). unfold session. cbn [process_pieces bind]. rewrite E3. cbn [bind]. split; [reflexivity|].
      cbn [map snd app]. f_equal. apply (after_end cs _ u1 a0 Hb); [|assumption|assumption]. cbn [s_utt utt_pointer].
      apply set_utt_same.
    + destruct s as [err1 stts utts]. cbn [Api.step s_utt s_stt s_err] in *. rewrite U in E1. unfold stt_of in E1. cbn [s_stt] in E1.
      rewrite R in E1. cbn [bind] in E1. apply bind_ok in E1. destruct E1 as [[[n u'] e] [E2 E1]]. injection E1 as <- <-.
      pose proof (process_same O X tenth fuel err1 err (Some u) (Some p) (lenZ p) L L') as H. rewrite E2 in H.
      destruct (process_fed O X tenth fuel loads _ _ _ _ _ _ _ G E2) as (u1 & -> & G1 & _).
      destruct (stt_process _ _ _ _ err _ _ _) as [[[n2 u2] e2]|] eqn:E3; cbn in H; [|contradiction].
      destruct H as (H & _ & L2). cbn [Datatypes.fst snd] in *. injection H as <- <-.
      destruct (IH _ u1 ps a0 e2 Hb L1 L2 G1 (set_utt_same _ _ _) R N1 Ef) as (ns & hyp & ll & S1 & S2).
      exists (n :: ns), hyp, ll. split.
      * unfold session in *. cbn [process_pieces]. rewrite E3. cbn [bind].
        destruct (process_pieces _ _ _ _ e2 _ ps) as [[[ms v] e3]|]; cbn [bind] in *; [|discriminate].
        destruct (stt_end _ _ _ _ e3 _) as [[v1 e4]|]; cbn [bind] in *; [|discriminate].
        destruct v1; [|discriminate]. injection S1 as -> <- <-. reflexivity.
      * cbn [map snd app]. f_equal. exact S2.
  - destruct (others c s s1 a E1 Oc) as [X1 X2]; [intros ->; apply N; now left|].
    apply (IH s1 u ps a0 err Hb); auto. congruence.
Qed.

Lemma before : forall config rc f ps cs s t err, run s cs = Ok t -> fits (s_err s) -> fits err ->
  (nth_error (s_stt s) r = Some (Stt rc) \/
   (length (s_stt s) <= r)%nat /\ nth_error (configs cs) (r - length (s_stt s)) = Some config) ->
  loads config = Ok (inl rc) -> ~ In (Unload r) cs ->
  filter (of_utt k) cs = whole_session k r f ps ->
  exists u e ns hyp ll, utt_init O X tenth fuel err rc f = Ok (Some u, e) /\ session O X tenth fuel err (Some u) ps = Ok (ns, hyp, ll) /\
    answers t = Pointer false :: map Number ns ++ [Nothing; Text (cstr hyp) ll].
Proof.
  intros config rc f ps. unfold whole_session. induction cs as [|c cs IH]; intros s t err E L L' R Ld N Ef; [discriminate|].
  cbn [Api.run] in E.
  apply bind_ok in E. destruct E as [[s1 a] [E1 E]]. inv_bind E. injection E as <-.
  pose proof (step_fits O X tenth fuel loads c s s1 a L E1) as L1.
  assert (N1 : ~ In (Unload r) cs) by (intros I; apply N; now right).
  unfold answers. cbn [filter Datatypes.fst] in *. destruct (of_utt k c) eqn:Oc.
  - injection Ef as -> Ef. destruct s as [err1 stts utts]. cbn [Api.step s_utt s_stt s_err] in *. unfold stt_of in E1. cbn [s_stt] in E1.
    destruct R as [R|[R _]].
    2:{ rewrite (proj2 (nth_error_None stts r) R) in E1. discriminate. }
    rewrite R in E1. cbn [bind] in E1. apply bind_ok in E1. destruct E1 as [[u' e] [E2 E1]]. injection E1 as <- <-.
    pose proof (init_same O X tenth fuel err1 err rc f L L') as H. rewrite E2 in H.
    destruct (utt_init _ _ _ _ err _ _) as [[u2 e2]|] eqn:E3; cbn in H; [|contradiction].
    destruct H as (H & _ & L2). cbn [Datatypes.fst snd] in *. subst u2.
    destruct (init_good O X tenth fuel _ _ _ _ _ E2) as [(u1 & -> & G & ->)|[-> E4]].
    + destruct (during rc cs _ u1 ps a0 err Hb L1 L' G (set_utt_same _ _ _) R N1 Ef) as (ns & hyp & ll & S1 & S2).
      exists u1, e2, ns, hyp, ll. split; [reflexivity|]. split; [assumption|]. cbn [map snd]. f_equal. exact S2.
    + exfalso. cbn [utt_pointer] in *.
      (* a null utterance cannot be ended *)
      assert (Bad : forall cs s t ps, run s cs = Ok t -> s_utt s k = NoUtt -> ~ In (Unload r) cs ->
                 filter (of_utt k) cs = map (fun p => Feed k (Some p) (lenZ p)) ps ++ [Finish k; Look k] -> False).
      { clear. induction cs as [|c cs IH]; intros s t ps E U N Ef; [destruct ps; discriminate|]. cbn [Api.run] in E.
        apply bind_ok in E. destruct E as [[s1 a] [E1 E]]. inv_bind E. injection E as <-.
        assert (N1 : ~ In (Unload r) cs) by (intros I; apply N; now right).
        cbn [filter] in Ef. destruct (of_utt k c) eqn:Oc.
        - destruct ps as [|p ps]; cbn [map app] in Ef; injection Ef as -> Ef; destruct s as [err1 stts utts];
            cbn [Api.step s_utt] in *; rewrite U in E1; [discriminate|].
          apply bind_ok in E1. destruct E1 as [[[n u'] e] [E2 E1]]. injection E1 as <- <-. exact (IH _ _ ps Hb U N1 Ef).
        - destruct (others c s s1 a E1 Oc) as [X1 X2]; [intros ->; apply N; now left|].
          apply (IH s1 a0 ps Hb); auto. congruence. }
      exact (Bad cs _ a0 ps Hb (set_utt_same _ _ _) N1 Ef).
  - destruct (others c s s1 a E1 Oc) as [X1 X2]; [intros ->; apply N; now left|].
    apply (IH s1 a0 err Hb); auto. destruct R as [R|[R1 R2]]; [left; auto|].
    destruct (concerns k c) eqn:Cn.
    + destruct s as [err1 stts utts]. destruct c as [cf|r'|k' r' f'|k' data size|k'|k'|k'|f' why|]; unfold of_utt in Oc; cbn in Oc, Cn;
        try congruence; cbn [Api.step s_stt] in *.
      * cbn [configs flat_map app] in R2. inv_bind E1.
        destruct (Nat.eq_dec r (length stts)) as [->|Ne].
        -- rewrite Nat.sub_diag in R2. injection R2 as ->. rewrite Ld in Hb0. injection Hb0 as <-.
           injection E1 as <- _. left. cbn [s_stt]. rewrite nth_error_app2, Nat.sub_diag by lia. reflexivity.
        -- right. assert (Ls : length (s_stt s1) = S (length stts)).
           { destruct a1 as [rc'|why]; [|inv_bind E1]; injection E1 as <- _; cbn [s_stt]; rewrite app_length; cbn; lia. }
           rewrite Ls. split; [lia|]. replace (r - length stts)%nat with (S (r - S (length stts))) in R2 by lia. exact R2.
      * right. inv_bind E1. assert (Ls : length (s_stt s1) = length stts).
        { destruct a1; try discriminate; injection E1 as <- _; cbn [s_stt]; apply upd_length. }
        rewrite Ls. auto.
    + right. destruct (step_other O X tenth fuel loads k c s s1 a Cn E1) as [Y _]. rewrite Y. split; [assumption|].
      destruct c; try discriminate; exact R2.
Qed.

Lemma sessions : forall cs t config rc f ps, run init_state cs = Ok t ->
  nth_error (configs cs) r = Some config -> loads config = Ok (inl rc) -> ~ In (Unload r) cs ->
  filter (of_utt k) cs = whole_session k r f ps ->
  exists u e ns hyp ll, utt_init O X tenth fuel (s_err (init_state : state F C)) rc f = Ok (Some u, e) /\
    session O X tenth fuel (s_err (init_state : state F C)) (Some u) ps = Ok (ns, hyp, ll) /\
    answers t = Pointer false :: map Number ns ++ [Nothing; Text (cstr hyp) ll].
Proof.
  intros cs t config rc f ps E Cf Ld N Ef.
  apply (before config rc f ps cs init_state t _ E); auto using (init_fits (F := F) (C := C)).
  right. cbn. rewrite Nat.sub_0_r. split; [lia|assumption].
Qed.

Lemma pieces_same : forall ps (u : option (utt F C)) e e', fits e -> fits e' ->
  alike eq same2 (process_pieces O X tenth fuel e u ps) (process_pieces O X tenth fuel e' u ps).
Proof.
  induction ps as [|p ps IH]; intros u e e' L L'; cbn [process_pieces].
  - cbn. unfold same2. auto.
  - pose proof (process_same O X tenth fuel e e' u (Some p) (lenZ p) L L') as Q.
    destruct (stt_process _ _ _ _ e _ _ _) as [[[n v] e1]|], (stt_process _ _ _ _ e' _ _ _) as [[[n' v'] e1']|]; cbn in Q;
      try contradiction; cbn [bind]; [|exact Q].
    destruct Q as (Q & Q1 & Q2). cbn [Datatypes.fst snd] in *. injection Q as <- <-.
    specialize (IH v e1 e1' Q1 Q2).
    destruct (process_pieces _ _ _ _ e1 _ ps) as [[[ns w] e2]|], (process_pieces _ _ _ _ e1' _ ps) as [[[ns' w'] e2']|]; cbn in IH;
      try contradiction; cbn [bind]; [|exact IH].
    destruct IH as (I0 & I1 & I2). cbn [Datatypes.fst snd] in *. injection I0 as <- <-. cbn. unfold same2. auto.
Qed.

Lemma session_same : forall ps (u : option (utt F C)) e e', fits e -> fits e' ->
  session O X tenth fuel e u ps = session O X tenth fuel e' u ps.
Proof.
  intros ps u e e' L L'. unfold session. pose proof (pieces_same ps u e e' L L') as Q.
  destruct (process_pieces _ _ _ _ e _ ps) as [[[ns w] e2]|], (process_pieces _ _ _ _ e' _ ps) as [[[ns' w'] e2']|]; cbn in Q;
    try contradiction; cbn [bind]; [|congruence].
  destruct Q as (Q & Q1 & Q2). cbn [Datatypes.fst snd] in *. injection Q as <- <-.
  pose proof (end_same O X tenth fuel e2 e2' w Q1 Q2) as H.
  destruct (stt_end _ _ _ _ e2 _) as [[v e3]|], (stt_end _ _ _ _ e2' _) as [[v' e3']|]; cbn in H; try contradiction;
    cbn [bind]; [|congruence].
  destruct H as (H & _). cbn [Datatypes.fst] in H. subst v'. reflexivity.
Qed.

(** A session alone. *)
Lemma pieces_run : forall rc stts ps utts e (u : utt F C) ns u2 e2 rest t, utts k = Utt r u ->
  nth_error stts r = Some (Stt rc) -> good u ->
  process_pieces O X tenth fuel e (Some u) ps = Ok (ns, u2, e2) ->
  (forall u' utts', utts' k = Utt r u' -> u2 = Some u' -> run (mk_state e2 stts utts') rest = Ok t) ->
  exists t0, run (mk_state e stts utts) (map (fun p => Feed k (Some p) (lenZ p)) ps ++ rest) = Ok (t0 ++ t).
Proof.
  intros rc stts. induction ps as [|p ps IH]; intros utts e u ns u2 e2 rest t U R G E H; cbn [process_pieces map app] in *.
  - injection E as <- <- <-. exists []. eapply H; eauto.
  - apply bind_ok in E. destruct E as [[[n u1] e1] [E1 E]]. apply bind_ok in E. destruct E as [[[ms v] e3] [E2 E]].
    injection E as <- -> ->. destruct (process_fed O X tenth fuel loads _ _ _ _ _ _ _ G E1) as (u3 & -> & G1 & _).
    destruct (IH (set_utt utts k (Utt r u3)) e1 u3 ms u2 e2 rest t (set_utt_same _ _ _) R G1 E2 H) as [t0 T].
    exists ((Feed k (Some p) (lenZ p), Number n) :: t0). cbn [Api.run]. cbn [Api.step]. rewrite U.
    unfold stt_of. cbn [s_stt]. rewrite R. cbn [bind]. rewrite E1. cbn [bind utt_pointer].
    rewrite T. reflexivity.
Qed.

Lemma session_runs : forall rc e stts utts f u e1 ps ns hyp ll, nth_error stts r = Some (Stt rc) ->
  utt_init O X tenth fuel e rc f = Ok (Some u, e1) -> session O X tenth fuel e1 (Some u) ps = Ok (ns, hyp, ll) -> In 0 hyp ->
  exists t, run (mk_state e stts utts) (whole_session k r f ps) = Ok t.
Proof.
  intros rc e stts utts f u e1 ps ns hyp ll R E S H0. unfold whole_session. cbn [Api.run Api.step]. unfold stt_of. cbn [s_stt].
  rewrite R. cbn [bind]. rewrite E. cbn [bind utt_pointer].
  destruct (init_good O X tenth fuel _ _ _ _ _ E) as [(u1 & Eu & G & ->)|[Eu _]]; [|discriminate]. injection Eu as <-.
  unfold session in S. apply bind_ok in S. destruct S as [[[ms v] e2] [S1 S]]. apply bind_ok in S. destruct S as [[v1 e3] [S2 S]].
  destruct v1 as [v1|]; [|discriminate]. injection S as -> <- <-.
  edestruct (pieces_run rc stts ps (set_utt utts k (Utt r u)) e u ns v e2 [Finish k; Look k]) as [t0 T];
    [apply set_utt_same|exact R|exact G|exact S1| |].
  - intros u' utts' U' ->. cbn [Api.run Api.step]. rewrite U'. unfold stt_of. cbn [s_stt]. rewrite R. cbn [bind]. rewrite S2.
    cbn [bind utt_pointer Api.step]. rewrite set_utt_same.
    assert (X0 : existsb (Z.eqb 0) (u_hyp v1) = true) by (apply existsb_exists; exists 0; auto).
    rewrite X0. cbn [check bind]. reflexivity.
  - eexists. rewrite T. reflexivity.
Qed.

(** A recognizer that is destroyed too early. *)
Lemma early : forall config rc f u e p, loads config = Ok (inl rc) ->
  utt_init O X tenth fuel (s_err (init_state : state F C)) rc f = Ok (Some u, e) -> lenZ p = 4 ->
  run init_state [Load config; Start k 0 f; Unload 0; Feed k (Some p) 4] = Fault Undef /\
  run init_state [Load config; Start k 0 f; Unload 0; Finish k] = Fault Undef /\
  exists t, run init_state [Load config; Start k 0 f; Unload 0; Unload 0; Feed k None 0; Look k; Stop k] = Ok t.
Proof.
  intros config rc f u e p Ld E Lp. pose proof E as E0.
  assert (W : exists i, u_internal u = Some i /\ i_recognizer i = Some rc /\ i_reader i = mk_reader [] f true /\ supported f /\ u_hyp u = [0]).
  { unfold utt_init in E. inv_bind E. inv_bind E.
    destruct (PcmCases.set_format_cases reader_init f) as [[Sf S]|[_ S]]; rewrite S in E.
    - injection E as <- <-. eexists. cbn. auto.
    - inv_bind E. discriminate. }
  destruct W as (i & W1 & W2 & W3 & W4 & W5). destruct (init_good O X tenth fuel _ _ _ _ _ E0) as [(u1 & Eu & G & ->)|[Eu _]]; [|discriminate].
  injection Eu as <-.
  pose proof (init_fits (F := F) (C := C)) as L. set (e0 := s_err _) in *.
  set (s1 := mk_state e0 [Stt rc] (fun _ : nat => @Dangling F C)).
  set (s2 := mk_state e0 [Stt rc] (set_utt (fun _ : nat => @Dangling F C) k (Utt 0 u))).
  set (s3 := mk_state e0 [Emptied] (set_utt (fun _ : nat => @Dangling F C) k (Utt 0 u))).
  assert (T1 : step init_state (Load config) = Ok (s1, Pointer false)).
  { cbn [Api.step init_state]. rewrite Ld. reflexivity. }
  assert (T2 : step s1 (Start k 0 f) = Ok (s2, Pointer false)).
  { unfold s1. cbn [Api.step]. unfold stt_of. cbn [s_stt nth_error bind]. rewrite E0. reflexivity. }
  assert (T3 : step s2 (Unload 0) = Ok (s3, Nothing)) by reflexivity.
  assert (T4 : step s3 (Unload 0) = Ok (s3, Nothing)) by reflexivity.
  assert (Run : forall c cs t, run s3 (c :: cs) = t -> run init_state (Load config :: Start k 0 f :: Unload 0 :: c :: cs) =
            (t <- t ;; Ok ((Load config, Pointer false) :: (Start k 0 f, Pointer false) :: (Unload 0, Nothing) :: t))).
  { intros c cs t <-. cbn [Api.run]. rewrite T1. cbn [bind]. rewrite T2. cbn [bind]. rewrite T3. cbn [bind].
    destruct (step s3 c) as [[s4 a]|]; cbn [bind]; [|reflexivity]. destruct (run s4 cs); reflexivity. }
  assert (Fd : forall data size, step s3 (Feed k data size) =
            ('(n, u, err) <- process_emptied e0 u data size ;;
             Ok (mk_state err [Emptied] (set_utt (s_utt s3) k (utt_pointer 0 u)), Number n))).
  { intros data size. unfold s3. cbn [Api.step s_utt]. rewrite set_utt_same. reflexivity. }
  assert (P4 : process_emptied e0 u (Some p) 4 = Fault Undef).
  { unfold process_emptied. rewrite (check_good e0 u i rc W1 W2). cbn [bind].
    rewrite W3. unfold reader_process. cbn [r_ready negb r_buffer r_format app]. change (4 <=? 0) with false. cbv iota.
    rewrite Lp. change (4 <=? 4) with true. cbn [check bind].
    replace (firstn (Z.to_nat 4) p) with p by (symmetry; apply firstn_all2; unfold lenZ in Lp; lia).
    destruct p as [|a [|b [|c [|d [|? ?]]]]]; unfold lenZ in Lp; cbn [length] in Lp; try lia.
    destruct W4 as (Wc & Wr & Wb). destruct f as [ch rate bits]. cbn [w_bits w_channels w_rate] in *. unfold valid_width in *.
    destruct Wb as [->|[->| ->]]; vm_compute; reflexivity. }
  split; [|split].
  - rewrite (Run _ _ (Fault Undef)); [reflexivity|]. cbn [Api.run]. rewrite Fd, P4. reflexivity.
  - rewrite (Run _ _ (Fault Undef)); [reflexivity|]. cbn [Api.run]. unfold s3. cbn [Api.step]. rewrite set_utt_same.
    cbn [stt_of s_stt nth_error bind]. unfold stt_of. cbn [s_stt nth_error bind]. unfold end_emptied.
    rewrite (check_good e0 u i rc W1 W2). reflexivity.
  - destruct (set_error_ok e0 (process_error None 0) L) as (e' & E' & L2 & _).
    eexists. rewrite (Run _ _ _ eq_refl). cbn [Api.run]. rewrite T4. cbn [bind]. rewrite Fd. unfold process_emptied.
    rewrite (check_good e0 u i rc W1 W2). cbn [bind]. rewrite reader_process_null. cbn [bind]. rewrite E'. cbn [bind utt_pointer].
    cbn [Api.step]. rewrite set_utt_same, W5. cbn [existsb Z.eqb orb check bind]. cbn [Api.step]. rewrite set_utt_same.
    cbn [utt_destroy bind]. reflexivity.
Qed.
End Api.
