From Coq Require Import ZArith String List Bool Lia.
From Verif.Base Require Import Prelude Lemmas.
From Verif.Model Require Import Util File Arith Pcm Vector Fbank Am Pool OLabel Fst Decoder Stt Api.
From Verif.Spec Require Import PcmSpec SttSpec ApiSpec.
From Verif.Proof Require Import Stt.
From Verif.Proof Require PcmCases.
Import ListNotations.
Open Scope Z_scope.

Definition fits (e : bytes) : Prop := lenZ e = error_size.

Lemma set_error_fits : forall err err1 m, fits err -> fits err1 ->
  exists e e1, set_error err m = Ok e /\ set_error err1 m = Ok e1 /\ fits e /\ fits e1.
Proof.
  intros err err1 m L L1. destruct (set_error_ok err m L) as (e & E & Le & _).
  destruct (set_error_ok err1 m L1) as (e1 & E1 & Le1 & _). exists e, e1. auto.
Qed.

Section Api.
Context {F D C : Type}.
Variable O : fops F.
Variable X : xops F D.
Variable tenth : F.
Variable fuel : nat.
Variable loads : bytes -> res (recognizer F C + bytes).
Notation step := (step O X tenth fuel loads).
Notation run := (run O X tenth fuel loads).

(** * The error buffer does not matter *)
Definition same3 (x y : Z * option (utt F C) * bytes) : Prop :=
  Datatypes.fst x = Datatypes.fst y /\ fits (snd x) /\ fits (snd y).
Definition same2 {A} (x y : A * bytes) : Prop :=
  Datatypes.fst x = Datatypes.fst y /\ fits (snd x) /\ fits (snd y).

Lemma check_same : forall err err1 (u : option (utt F C)), fits err -> fits err1 ->
  alike eq same2 (check_utt err u) (check_utt err1 u).
Proof.
  intros err err1 u L L1. unfold check_utt.
  destruct u as [v|].
  - destruct (u_internal v) as [i|].
    + destruct (i_recognizer i) as [rc|].
      * cbn. unfold same2. auto.
      * destruct (set_error_fits err err1 (lit "utt->internal->recognizer is NULL") L L1) as (e & e1 & -> & -> & ? & ?).
        cbn. unfold same2. auto.
    + destruct (set_error_fits err err1 (lit "utt->internal is NULL") L L1) as (e & e1 & -> & -> & ? & ?).
      cbn. unfold same2. auto.
  - destruct (set_error_fits err err1 (lit "utt is NULL") L L1) as (e & e1 & -> & -> & ? & ?).
    cbn. unfold same2. auto.
Qed.

Lemma process_same : forall err err1 (u : option (utt F C)) data size, fits err -> fits err1 ->
  alike eq same3 (stt_process O X tenth fuel err u data size) (stt_process O X tenth fuel err1 u data size).
Proof.
  intros err err1 u data size L L1. unfold stt_process.
  pose proof (check_same err err1 u L L1) as H.
  destruct (check_utt err u) as [[p e]|], (check_utt err1 u) as [[p1 e1]|]; cbn in H; try contradiction; [|cbn; assumption].
  destruct H as (H & Le & Le1). cbn [Datatypes.fst snd] in *. subst p1. cbn [bind].
  destruct p as [[[v i] rc]|]; [|cbn; unfold same3; auto].
  destruct (reader_process (i_reader i) data size) as [[samples r]|]; cbn [bind]; [|reflexivity].
  destruct samples as [samples|].
  - destruct (lenZ samples =? 0); [cbn; unfold same3; auto|].
    destruct (fbank_process _ _ _ _) as [[feats wave]|]; cbn [bind]; [|reflexivity].
    destruct (for_each feats _ _) as [[a [d [hyp ll]]]|]; cbn [bind]; [|reflexivity].
    cbn. unfold same3. auto.
  - destruct (set_error_fits e e1 (process_error data size) Le Le1) as (e' & e1' & -> & -> & ? & ?).
    cbn. unfold same3. auto.
Qed.

Lemma emptied_same : forall err err1 (u : utt F C) data size, fits err -> fits err1 ->
  alike eq same3 (process_emptied err u data size) (process_emptied err1 u data size).
Proof.
  intros err err1 u data size L L1. unfold process_emptied.
  pose proof (check_same err err1 (Some u) L L1) as H.
  destruct (check_utt err _) as [[p e]|], (check_utt err1 _) as [[p1 e1]|]; cbn in H; try contradiction; [|cbn; assumption].
  destruct H as (H & Le & Le1). cbn [Datatypes.fst snd] in *. subst p1. cbn [bind].
  destruct p as [[[v i] rc]|]; [|cbn; unfold same3; auto].
  destruct (reader_process (i_reader i) data size) as [[samples r]|]; cbn [bind]; [|reflexivity].
  destruct samples as [samples|].
  - destruct (lenZ samples =? 0); [cbn; unfold same3; auto|reflexivity].
  - destruct (set_error_fits e e1 (process_error data size) Le Le1) as (e' & e1' & -> & -> & ? & ?).
    cbn. unfold same3. auto.
Qed.

Lemma end_same : forall err err1 (u : option (utt F C)), fits err -> fits err1 ->
  alike eq same2 (stt_end O X tenth fuel err u) (stt_end O X tenth fuel err1 u).
Proof.
  intros err err1 u L L1. unfold stt_end. destruct u as [u|]; [|reflexivity].
  pose proof (check_same err err1 (Some u) L L1) as H.
  destruct (check_utt err _) as [[p e]|], (check_utt err1 _) as [[p1 e1]|]; cbn in H; try contradiction; [|cbn; assumption].
  destruct H as (H & Le & Le1). cbn [Datatypes.fst snd] in *. subst p1. cbn [bind].
  destruct p as [[[v i] rc]|]; [|cbn; unfold same2; auto].
  destruct (am_end _ _ _) as [[rows a]|]; cbn [bind]; [|reflexivity].
  destruct (for_each rows _ _) as [d|]; cbn [bind]; [|reflexivity].
  destruct (store_hyp _ _ _ _ _ _) as [[hyp ll]|]; cbn [bind]; [|reflexivity].
  cbn. unfold same2. auto.
Qed.

Lemma end_emptied_same : forall err err1 (u : utt F C), fits err -> fits err1 ->
  alike eq same2 (end_emptied err u) (end_emptied err1 u).
Proof.
  intros err err1 u L L1. unfold end_emptied.
  pose proof (check_same err err1 (Some u) L L1) as H.
  destruct (check_utt err _) as [[p e]|], (check_utt err1 _) as [[p1 e1]|]; cbn in H; try contradiction; [|cbn; assumption].
  destruct H as (H & Le & Le1). cbn [Datatypes.fst snd] in *. subst p1. cbn [bind].
  destruct p as [p|]; [reflexivity|]. cbn. unfold same2. auto.
Qed.

Lemma init_same : forall err err1 (rc : recognizer F C) f, fits err -> fits err1 ->
  alike eq same2 (utt_init O X tenth fuel err rc f) (utt_init O X tenth fuel err1 rc f).
Proof.
  intros err err1 rc f L L1. unfold utt_init.
  destruct (new_decoder _) as [d|]; cbn [bind]; [|reflexivity].
  destruct (initialize _ _ _ _ _) as [d'|]; cbn [bind]; [|reflexivity].
  destruct (set_format reader_init f) as [[|] r].
  - cbn. unfold same2. auto.
  - destruct (set_error_fits err err1 (set_format_error f) L L1) as (e & e1 & -> & -> & ? & ?).
    cbn. unfold same2. auto.
Qed.

(** * Two programs that do the same with one utterance *)
Definition sim (k : nat) (s s' : state F C) : Prop :=
  s_stt s = s_stt s' /\ s_utt s k = s_utt s' k /\ fits (s_err s) /\ fits (s_err s').

Lemma set_utt_same : forall (m : nat -> utt_var F C) k x, set_utt m k x k = x.
Proof. intros. unfold set_utt. rewrite Nat.eqb_refl. reflexivity. Qed.
Lemma set_utt_other : forall (m : nat -> utt_var F C) k k' x, Nat.eqb k k' = false -> set_utt m k' x k = m k.
Proof. intros. unfold set_utt. rewrite Nat.eqb_sym, H. reflexivity. Qed.

Lemma step_same : forall k c s s', sim k s s' -> concerns k c = true ->
  alike eq (fun x y => snd x = snd y /\ sim k (Datatypes.fst x) (Datatypes.fst y)) (step s c) (step s' c).
Proof.
  intros k c [err stts utts] [err' stts' utts'] (E1 & E2 & L & L') N. cbn [s_stt s_utt s_err] in *. subst stts'.
  assert (K : forall k', about c = Some k' -> (match c with Load _ | Unload _ => False | _ => True end) -> k' = k).
  { intros k' A G. destruct c; cbn in *; try contradiction; try discriminate;
      injection A as <-; apply Nat.eqb_eq in N; congruence. }
  destruct c as [config|r|k' r f|k' data size|k'|k'|k'|f why|]; cbn [Api.step] in *;
    try (specialize (K k' eq_refl I); subst k').
  - destruct (loads config) as [[rc|why]|]; cbn [bind]; [| |reflexivity].
    + cbn. unfold sim. cbn. auto 9.
    + destruct (set_error_fits err err' why L L') as (e & e1 & -> & -> & ? & ?). cbn. unfold sim. cbn. auto 9.
  - unfold stt_of. cbn [s_stt]. destruct (nth_error stts r) as [v|]; cbn [bind]; [|reflexivity].
    destruct v; cbn; unfold sim; cbn; auto 9.
  - unfold stt_of. cbn [s_stt]. destruct (nth_error stts r) as [v|]; cbn [bind]; [|reflexivity].
    destruct v as [|rc|]; try reflexivity.
    pose proof (init_same err err' rc f L L') as H.
    destruct (utt_init _ _ _ _ err _ _) as [[u e]|], (utt_init _ _ _ _ err' _ _) as [[u1 e1]|]; cbn in H; try contradiction;
      cbn [bind]; [|exact H].
    destruct H as (H & ? & ?). cbn [Datatypes.fst snd] in *. subst u1.
    cbn. unfold sim. cbn. rewrite !set_utt_same. auto 9.
  - rewrite <- E2. destruct (utts k) as [| |r u] eqn:Eu; [reflexivity| |].
    + pose proof (process_same err err' None data size L L') as H.
      destruct (stt_process _ _ _ _ err _ _ _) as [[[n u] e]|], (stt_process _ _ _ _ err' _ _ _) as [[[n1 u1] e1]|];
        cbn in H; try contradiction; cbn [bind]; [|exact H].
      destruct H as (H & ? & ?). cbn [Datatypes.fst snd] in *. injection H as <- <-. cbn. unfold sim. cbn. rewrite Eu. auto 9.
    + unfold stt_of. cbn [s_stt]. destruct (nth_error stts r) as [v|]; cbn [bind]; [|reflexivity].
      assert (H : alike eq same3
                (match v with Emptied => process_emptied err u data size | _ => stt_process O X tenth fuel err (Some u) data size end)
                (match v with Emptied => process_emptied err' u data size | _ => stt_process O X tenth fuel err' (Some u) data size end)).
      { destruct v; auto using process_same, emptied_same. }
      destruct (match v with Emptied => process_emptied err u data size | _ => _ end) as [[[n u2] e]|],
               (match v with Emptied => process_emptied err' u data size | _ => _ end) as [[[n1 u1] e1]|];
        cbn in H; try contradiction; cbn [bind]; [|exact H].
      destruct H as (H & ? & ?). cbn [Datatypes.fst snd] in *. injection H as <- <-. cbn. unfold sim. cbn.
      rewrite !set_utt_same. auto 9.
  - rewrite <- E2. destruct (utts k) as [| |r u]; [reflexivity|reflexivity|].
    unfold stt_of. cbn [s_stt]. destruct (nth_error stts r) as [v|]; cbn [bind]; [|reflexivity].
    assert (H : alike eq same2
                (match v with Emptied => end_emptied err u | _ => stt_end O X tenth fuel err (Some u) end)
                (match v with Emptied => end_emptied err' u | _ => stt_end O X tenth fuel err' (Some u) end)).
    { destruct v; auto using end_same, end_emptied_same. }
    destruct (match v with Emptied => end_emptied err u | _ => _ end) as [[u2 e]|],
             (match v with Emptied => end_emptied err' u | _ => _ end) as [[u1 e1]|];
      cbn in H; try contradiction; cbn [bind]; [|exact H].
    destruct H as (H & ? & ?). cbn [Datatypes.fst snd] in *. subst u2. cbn. unfold sim. cbn.
    rewrite !set_utt_same. auto 9.
  - rewrite <- E2. destruct (utts k) as [| |r u] eqn:Eu; [reflexivity|reflexivity|].
    destruct (check _ _); cbn; [|reflexivity]. unfold sim. cbn. rewrite Eu. auto 9.
  - rewrite <- E2. destruct (utts k) as [| |r u]; [reflexivity|reflexivity|].
    cbn. unfold sim. cbn. rewrite !set_utt_same. auto 9.
  - discriminate.
  - discriminate.
Qed.

(** The buffer always has its size. *)
Lemma step_fits : forall c s s1 a, fits (s_err s) -> step s c = Ok (s1, a) -> fits (s_err s1).
Proof.
  intros c s s1 a L E.
  assert (R : forall k, sim k s s) by (intros k; unfold sim; auto).
  assert (G : forall k, concerns k c = true -> fits (s_err s1)).
  { intros k N. pose proof (step_same k c s s (R k) N) as H. rewrite E in H. cbn in H. apply H. }
  destruct c as [config|r|k' r f|k' data size|k'|k'|k'|f why|];
    try (apply (G 0%nat); reflexivity); try (apply (G k'); apply Nat.eqb_refl).
  - destruct s as [err stts utts]. cbn [Api.step s_err] in *. apply bind_ok in E. destruct E as [[[fmt f'] e] [E1 E2]].
    injection E2 as <- _. cbn [s_err]. unfold pcm_header_of in E1. apply bind_ok in E1. destruct E1 as [[o f2] [E3 E4]].
    destruct o as [o|].
    + injection E4 as _ _ <-. assumption.
    + inv_bind E4. injection E4 as _ _ <-.
      destruct (set_error_ok err why L) as (e' & E5 & E6 & _). rewrite Hb in E5. injection E5 as <-. assumption.
  - destruct s as [err stts utts]. cbn [Api.step s_err] in *. injection E as <- _. assumption.
Qed.

Lemma step_other : forall k c s s1 a, concerns k c = false -> step s c = Ok (s1, a) ->
  s_stt s1 = s_stt s /\ s_utt s1 k = s_utt s k.
Proof.
  intros k c [err stts utts] s1 a N E. cbn [s_stt s_utt].
  destruct c as [config|r|k' r f|k' data size|k'|k'|k'|f why|]; cbn in N; try discriminate; cbn [Api.step] in E.
  - inv_bind E. destruct a0 as [|rc|]; try discriminate. apply bind_ok in E. destruct E as [[u e] [_ E]]. injection E as <- _.
    cbn [s_stt s_utt]. rewrite set_utt_other by assumption. auto.
  - destruct (utts k') as [| |r u]; [discriminate| |].
    + apply bind_ok in E. destruct E as [[[n u] e] [_ E]]. injection E as <- _. auto.
    + inv_bind E. apply bind_ok in E. destruct E as [[[n u2] e] [_ E]]. injection E as <- _.
      cbn [s_stt s_utt]. rewrite set_utt_other by assumption. auto.
  - destruct (utts k') as [| |r u]; [discriminate| |].
    + apply bind_ok in E. destruct E as [[u e] [_ E]]. injection E as <- _. auto.
    + inv_bind E. apply bind_ok in E. destruct E as [[u2 e] [_ E]]. injection E as <- _.
      cbn [s_stt s_utt]. rewrite set_utt_other by assumption. auto.
  - destruct (utts k') as [| |r u]; try discriminate. inv_bind E. injection E as <- _. auto.
  - destruct (utts k') as [| |r u]; try discriminate.
    injection E as <- _. cbn [s_stt s_utt]. rewrite set_utt_other by assumption. auto.
  - apply bind_ok in E. destruct E as [[[fmt f'] e] [_ E]]. injection E as <- _. auto.
  - injection E as <- _. auto.
Qed.

Lemma run_alone : forall k cs s s' t, sim k s s' -> run s cs = Ok t -> run s' (alone k cs) = Ok (seen k t).
Proof.
  intros k cs. induction cs as [|c cs IH]; intros s s' t S E; cbn [Api.run] in E.
  - injection E as <-. reflexivity.
  - apply bind_ok in E. destruct E as [[s1 a] [E1 E]]. inv_bind E. injection E as <-.
    unfold alone, seen in *. cbn [filter Datatypes.fst]. destruct (concerns k c) eqn:N.
    + pose proof (step_same k c s s' S N) as H. rewrite E1 in H.
      cbn [Api.run]. destruct (step s' c) as [[s1' a']|]; cbn in H; [|contradiction]. destruct H as [<- H].
      cbn [bind]. rewrite (IH s1 s1' a0 H Hb). reflexivity.
    + destruct (step_other k c s s1 a N E1) as [X1 X2].
      apply (IH s1 s' a0); [|assumption]. destruct S as (S1 & S2 & S3 & S4). unfold sim. rewrite X1, X2.
      pose proof (step_fits c s s1 a S3 E1). auto.
Qed.

Lemma fault_alone : forall cs s f, fits (s_err s) -> run s cs = Fault f ->
  (exists k, forall s', sim k s s' -> run s' (alone k cs) = Fault f) \/
  exists file why, In (Header file why) cs /\ read_pcm_header file = Fault f.
Proof.
  induction cs as [|c cs IH]; intros s f L E; cbn [Api.run] in E; [discriminate|].
  destruct (step s c) as [[s1 a]|f1] eqn:E1; cbn [bind] in E.
  - destruct (run s1 cs) as [t|f1] eqn:E2; cbn [bind] in E; [discriminate|]. injection E as ->.
    destruct (IH s1 f (step_fits c s s1 a L E1) E2) as [[k H]|(fi & why & H & H2)].
    + left. exists k. intros s' S. unfold alone. cbn [filter]. destruct (concerns k c) eqn:N.
      * pose proof (step_same k c s s' S N) as G. rewrite E1 in G. cbn [Api.run].
        destruct (step s' c) as [[s1' a']|]; cbn in G; [|contradiction]. destruct G as [_ G].
        cbn [bind]. unfold alone in H. rewrite (H s1' G). reflexivity.
      * destruct (step_other k c s s1 a N E1) as [X1 X2]. apply H.
        destruct S as (S1 & S2 & S3 & S4). unfold sim. rewrite X1, X2.
        pose proof (step_fits c s s1 a S3 E1). auto.
    + right. exists fi, why. split; [now right|assumption].
  - injection E as ->.
    assert (G : forall k, concerns k c = true -> exists k, forall s', sim k s s' -> run s' (alone k (c :: cs)) = Fault f).
    { intros k N. exists k. intros s' S. unfold alone. cbn [filter]. rewrite N. cbn [Api.run].
      pose proof (step_same k c s s' S N) as G. rewrite E1 in G. destruct (step s' c) as [[s1' a']|]; cbn in G; [contradiction|].
      subst. reflexivity. }
    destruct c as [config|r|k' r f0|k' data size|k'|k'|k'|f0 why|];
      try (left; apply (G 0%nat); reflexivity); try (left; apply (G k'); apply Nat.eqb_refl).
    + right. exists f0, why. split; [now left|]. destruct s as [err stts utts]. cbn [Api.step s_err] in *.
      unfold pcm_header_of in E1. destruct (read_pcm_header f0) as [[o f2]|]; cbn [bind] in E1; [|congruence].
      destruct o as [o|]; [discriminate|].
      destruct (set_error_ok err why L) as (e' & E5 & _). rewrite E5 in E1. discriminate.
    + destruct s; discriminate.
Qed.

Lemma init_fits : fits (s_err (init_state : state F C)).
Proof. unfold fits, lenZ. cbn [init_state s_err]. rewrite repeat_length. reflexivity. Qed.
Lemma init_sim : forall k, sim k init_state init_state.
Proof. intros k. unfold sim. pose proof init_fits. auto. Qed.

Lemma undisturbed : forall cs t k, run init_state cs = Ok t -> run init_state (alone k cs) = Ok (seen k t).
Proof. intros cs t k. apply run_alone. apply init_sim. Qed.

Lemma faults : forall cs f, run init_state cs = Fault f ->
  (exists k, run init_state (alone k cs) = Fault f) \/
  exists file why, In (Header file why) cs /\ read_pcm_header file = Fault f.
Proof.
  intros cs f E. destruct (fault_alone cs init_state f init_fits E) as [[k H]|H]; [left|now right].
  exists k. apply H. apply init_sim.
Qed.
End Api.
