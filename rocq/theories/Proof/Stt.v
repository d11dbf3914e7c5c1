(** The C interface: error buffer, handles, text. *)
From Coq Require Import ZArith String List Bool Lia.
From Verif.Base Require Import Prelude Lemmas.
From Verif.Spec Require Import AudioSpec PcmSpec TextSpec SttSpec.
From Verif.Model Require Import Util File Arith Vector Pcm Fbank Am SymbolTable Pool OLabel Fst Decoder Stt.
From Verif.Proof Require Import Loop DecoderBase.
From Verif.Proof Require Text TextCases PcmCases.
Import ListNotations.
Open Scope Z_scope.

Lemma app_prefix : forall A (p q a b : list A), p ++ q = a ++ b -> length p = length a -> p = a.
Proof.
  induction p as [|x p IH]; intros q [|y a] b E L; try discriminate; [reflexivity|].
  injection E as -> E. f_equal. apply (IH q a b E). now injection L.
Qed.

(** * The error buffer *)

Lemma cstr_split : forall s, exists r, s ++ [0] = cstr s ++ 0 :: r.
Proof.
  induction s as [|c s [r IH]]; [now exists []|]. cbn [app cstr].
  destruct (Z.eqb_spec c 0) as [->|]; [eexists; reflexivity|]. exists r. cbn [app]. now rewrite IH.
Qed.

Lemma cstr_nul : forall s, ~ In 0 (cstr s).
Proof.
  induction s as [|c s IH]; cbn [cstr]; [tauto|]. destruct (Z.eqb_spec c 0); cbn [In]; [tauto|]. intros [H|H]; tauto.
Qed.

Lemma cstr_stop : forall s r, ~ In 0 s -> cstr (s ++ 0 :: r) = s.
Proof. intros s r N. rewrite Text.cstr_app by assumption. cbn [cstr Z.eqb]. apply app_nil_r. Qed.

Lemma set_error_ok : forall err msg, lenZ err = error_size ->
  exists err', set_error err msg = Ok err' /\ lenZ err' = error_size /\
    last_error err' = firstn (Z.to_nat 2047) (cstr msg) /\ In 0 err'.
Proof.
  intros err msg L. unfold set_error. destruct (cstr_split msg) as [r E]. rewrite E.
  destruct (TextCases.bounded_copy err (cstr msg) r (Z.to_nat error_size) (cstr_nul msg)) as (err' & S1 & _ & S2).
  { unfold lenZ in L. lia. }
  rewrite S1. cbn [bind]. exists err'. split; [reflexivity|].
  destruct S2 as (p & q & E1 & E2 & E3); [unfold error_size; lia|].
  assert (P : firstn (Z.to_nat 2047) (cstr msg) = p).
  { rewrite E1. rewrite E1, app_length in E2. unfold error_size in E2.
    replace (Z.to_nat 2048 - 1)%nat with (Z.to_nat 2047) in E2 by lia.
    rewrite firstn_app. destruct (Nat.le_gt_cases (length p + length q) (Z.to_nat 2047)).
    - rewrite Nat.min_r in E2 by lia. assert (q = []) as -> by (destruct q; [reflexivity|cbn in E2; lia]).
      rewrite firstn_all2, firstn_nil by lia. apply app_nil_r.
    - rewrite Nat.min_l in E2 by lia. rewrite E2, Nat.sub_diag, firstn_O, firstn_all2, app_nil_r by lia. reflexivity. }
  assert (N : ~ In 0 p).
  { intros I. apply (cstr_nul msg). rewrite E1. apply in_or_app. now left. }
  assert (Lp : (length p + 1 <= length err)%nat).
  { unfold lenZ, error_size in *. rewrite E2. lia. }
  rewrite E3. split.
  { unfold lenZ in *. rewrite !app_length, skipn_length. cbn [length]. lia. }
  split.
  - unfold last_error. rewrite P. apply cstr_stop. assumption.
  - apply in_or_app. right. now left.
Qed.

(** * Handles *)
Section Float.
Context {F D C : Type}.
Variable O : fops F.
Variable X : xops F D.
Variable tenth : F.
Variable fuel : nat.

Lemma check_good : forall err (u : utt F C) i rc, u_internal u = Some i -> i_recognizer i = Some rc ->
  check_utt err (Some u) = Ok (Some (u, i, rc), err).
Proof. intros err u i rc E1 E2. unfold check_utt. rewrite E1, E2. reflexivity. Qed.

Lemma check_bad : forall err (u : option (utt F C)) s, lenZ err = error_size -> complaint u = Some s ->
  exists err', check_utt err u = Ok (None, err') /\ set_error err (lit s) = Ok err'.
Proof.
  intros err u s L H. unfold check_utt, complaint in *.
  assert (G : forall m, exists err', set_error err m = Ok err').
  { intros m. destruct (set_error_ok err m L) as (e & E & _). eauto. }
  destruct u as [u|]; [destruct (u_internal u) as [i|]; [destruct (i_recognizer i); [discriminate|]|]|];
    injection H as <-; match goal with |- context[set_error err ?m] => destruct (G m) as [e E] end; exists e; rewrite E; auto.
Qed.

Lemma complaint_good : forall (u : option (utt F C)), complaint u = None ->
  exists v i rc, u = Some v /\ u_internal v = Some i /\ i_recognizer i = Some rc.
Proof.
  intros u H. unfold complaint in H. destruct u as [u|]; [|discriminate].
  destruct (u_internal u) as [i|] eqn:E; [|discriminate]. destruct (i_recognizer i) as [rc|] eqn:E2; [|discriminate].
  exists u, i, rc. auto.
Qed.

Lemma process_bad : forall err (u : option (utt F C)) s data size, lenZ err = error_size -> complaint u = Some s ->
  exists err', stt_process O X tenth fuel err u data size = Ok (failed, u, err') /\ lenZ err' = error_size /\
    last_error err' = firstn (Z.to_nat 2047) (cstr (lit s)).
Proof.
  intros err u s data size L H. destruct (check_bad err u s L H) as (err' & E & S1).
  destruct (set_error_ok err (lit s) L) as (e & S2 & S3 & S4 & _). rewrite S1 in S2. injection S2 as <-.
  exists err'. unfold stt_process. rewrite E. cbn [bind]. auto.
Qed.

Lemma end_bad : forall err (v : utt F C) s, lenZ err = error_size -> complaint (Some v) = Some s ->
  exists err', stt_end O X tenth fuel err (Some v) = Ok (Some v, err') /\ lenZ err' = error_size /\
    last_error err' = firstn (Z.to_nat 2047) (cstr (lit s)).
Proof.
  intros err v s L H. destruct (check_bad err (Some v) s L H) as (err' & E & S1).
  destruct (set_error_ok err (lit s) L) as (e & S2 & S3 & S4 & _). rewrite S1 in S2. injection S2 as <-.
  exists err'. unfold stt_end. rewrite E. cbn [bind]. auto.
Qed.

(** * Histories of errors *)

Lemma format_size : forall s, format (lit "unexpected size: {}") [s] = lit "unexpected size: " ++ s.
Proof.
  intros s. unfold format. change (find (lit "unexpected size: {}") [123; 125] 0) with (Some 17).
  cbv iota. change (sub (lit "unexpected size: {}") 0 17) with (lit "unexpected size: ").
  change (skipn (Z.to_nat (17 + 2)) (lit "unexpected size: {}")) with (@nil Z). rewrite app_nil_r. reflexivity.
Qed.

Lemma reader_process_null : forall r size, reader_process r None size = Ok (None, r).
Proof. reflexivity. Qed.
Lemma reader_process_size : forall r b size, size <= 0 -> reader_process r (Some b) size = Ok (None, r).
Proof. intros r b size H. unfold reader_process. destruct (Z.leb_spec size 0); [reflexivity|lia]. Qed.
Lemma reader_process_some : forall r b size a r', 0 < size -> r_ready r = true ->
  reader_process r (Some b) size = Ok (a, r') -> exists xs, a = Some xs.
Proof.
  intros r b size a r' S R H. unfold reader_process in H. rewrite R in H. destruct (Z.leb_spec size 0); [lia|].
  cbn [negb] in H. repeat (match type of H with bind ?m _ = _ => destruct m; cbn [bind] in H; [|discriminate] end).
  injection H as <- _. eauto.
Qed.

Lemma call_step : forall err (c : stt_call (F := F) (C := C)) err', lenZ err = error_size -> handle c ->
  call_error O X tenth fuel err c = Ok err' ->
  exists msg, reported c msg /\ lenZ err' = error_size /\ (In 0 err -> In 0 err') /\
    last_error err' = shown (last_error err) [msg].
Proof.
  intros err c err' L H E.
  assert (SE : forall m e, set_error err m = Ok e -> lenZ e = error_size /\ (In 0 err -> In 0 e) /\
             last_error e = shown (last_error err) [Some m]).
  { intros m e Em. destruct (set_error_ok err m L) as (e' & E1 & E2 & E3 & E4). rewrite Em in E1. injection E1 as <-. auto. }
  destruct c as [[why|]|rc f|u data size|u|f why]; cbn [call_error reported handle] in *.
  - exists (Some why). split; [reflexivity|]. apply SE. assumption.
  - injection E as <-. exists None. auto.
  - destruct (bind_ok _ _ _ _ _ E) as [[u e] [E1 E2]]. injection E2 as <-. unfold utt_init in E1.
    inv_bind E1. inv_bind E1. destruct (PcmCases.set_format_cases reader_init f) as [[S1 S2]|[S1 S2]]; rewrite S2 in E1.
    + injection E1 as _ <-. exists None. auto.
    + inv_bind E1. injection E1 as _ <-. exists (Some (set_format_error f)). auto.
  - destruct (bind_ok _ _ _ _ _ E) as [[[n u'] e] [E1 E2]]. injection E2 as <-.
    destruct (complaint u) as [s|] eqn:Cu.
    + destruct (check_bad err u s L Cu) as (e' & C1 & C2). unfold stt_process in E1. rewrite C1 in E1. cbn [bind] in E1.
      injection E1 as _ _ <-. exists (Some (lit s)). auto.
    + destruct (complaint_good u Cu) as (v & i & rc & -> & U1 & U2).
      unfold stt_process in E1. rewrite (check_good err v i rc U1 U2) in E1. cbn [bind] in E1.
      destruct data as [data|].
      * destruct (Z.leb_spec size 0) as [Sz|Sz].
        -- rewrite reader_process_size in E1 by assumption. cbn [bind] in E1. inv_bind E1. injection E1 as _ _ <-.
           eexists. split; [reflexivity|]. unfold process_error in Hb. destruct (Z.leb_spec size 0); [|lia].
           rewrite format_size, app_assoc in Hb. apply SE. exact Hb.
        -- destruct (bind_ok _ _ _ _ _ E1) as [[a r] [E3 E4]].
           destruct (reader_process_some _ _ _ _ _ Sz (H v i eq_refl U1) E3) as [xs ->].
           exists None. split; [reflexivity|]. cbn [shown].
           destruct (lenZ xs =? 0).
           ++ injection E4 as _ _ <-. auto.
           ++ destruct (bind_ok _ _ _ _ _ E4) as [[fe wa] [E5 E6]].
              destruct (bind_ok _ _ _ _ _ E6) as [[am [d [hy ll]]] [E7 E8]]. injection E8 as _ _ <-. auto.
      * rewrite reader_process_null in E1. cbn [bind] in E1. inv_bind E1. injection E1 as _ _ <-.
        exists (Some (lit "RuntimeError: buffer is nullptr")). split; [reflexivity|]. apply SE. exact Hb.
  - destruct (bind_ok _ _ _ _ _ E) as [[u' e] [E1 E2]]. injection E2 as <-.
    destruct u as [v|]; [|discriminate].
    destruct (complaint (Some v)) as [s|] eqn:Cu.
    + destruct (check_bad err (Some v) s L Cu) as (e' & C1 & C2). unfold stt_end in E1. rewrite C1 in E1. cbn [bind] in E1.
      injection E1 as _ <-. exists (Some (lit s)). auto.
    + destruct (complaint_good _ Cu) as (v' & i & rc & Ev & U1 & U2). injection Ev as <-.
      unfold stt_end in E1. rewrite (check_good err v i rc U1 U2) in E1. cbn [bind] in E1.
      destruct (bind_ok _ _ _ _ _ E1) as [[rows am] [E3 E4]]. inv_bind E4.
      destruct (bind_ok _ _ _ _ _ E4) as [[hy ll] [E5 E6]]. injection E6 as _ <-. exists None. auto.
  - destruct (bind_ok _ _ _ _ _ E) as [[[fmt f'] e] [E1 E2]]. injection E2 as <-. unfold pcm_header_of in E1.
    destruct (bind_ok _ _ _ _ _ E1) as [[o f2] [E3 E4]]. destruct o as [o|].
    + injection E4 as _ _ <-. exists None. split; [left; eauto|auto].
    + inv_bind E4. injection E4 as _ _ <-. exists (Some why). split; [right; eauto|]. apply SE. assumption.
Qed.

Lemma shown_cons : forall last m ms, shown last (m :: ms) = shown (shown last [m]) ms.
Proof. intros last [m|] ms; reflexivity. Qed.

Lemma history : forall (cs : list (stt_call (F := F) (C := C))) err err', lenZ err = error_size -> In 0 err ->
  Forall handle cs -> for_each cs (call_error O X tenth fuel) err = Ok err' ->
  exists msgs, Forall2 reported cs msgs /\ lenZ err' = error_size /\ In 0 err' /\
    last_error err' = shown (last_error err) msgs.
Proof.
  induction cs as [|c cs IH]; intros err err' L Z0 H E; cbn [for_each] in E.
  - injection E as <-. exists []. auto.
  - inversion H as [|? ? H1 H2]; subst. inv_bind E.
    destruct (call_step err c a L H1 Hb) as (m & R & L1 & Z1 & S1).
    destruct (IH a err' L1 (Z1 Z0) H2 E) as (ms & R2 & L2 & Z2 & S2).
    exists (m :: ms). split; [constructor; assumption|]. rewrite shown_cons, <- S1. auto.
Qed.

(** * Text *)

Lemma join_spaces : forall names, names <> [] ->
  concat (map (fun n => n ++ [32]) names) = join [32] names ++ [32].
Proof.
  induction names as [|n names IH]; [congruence|]. intros _. cbn [map concat].
  destruct names as [|m names]; [cbn; now rewrite app_nil_r|].
  rewrite IH by discriminate. cbn [join]. rewrite <- !app_assoc. reflexivity.
Qed.

Lemma text_loop : forall symbols words pre text,
  for_each words (fun text word => w <- sym_get symbols word ;; Ok (text ++ w ++ [32])) pre = Ok text ->
  exists names, Forall2 (fun w name => sym_get symbols w = Ok name) words names /\
    text = pre ++ concat (map (fun n => n ++ [32]) names).
Proof.
  intros symbols. induction words as [|w words IH]; intros pre text E; cbn [for_each] in E.
  - injection E as <-. exists []. split; [constructor|]. cbn. now rewrite app_nil_r.
  - inv_bind E. inv_bind Hb. injection Hb as <-. destruct (IH _ _ E) as (names & N1 & N2).
    exists (a0 :: names). split; [constructor; assumption|]. rewrite N2. cbn [map concat]. rewrite <- !app_assoc. reflexivity.
Qed.

Lemma names_nul : forall symbols words names,
  Forall2 (fun w name => sym_get symbols w = Ok name) words names -> Forall (fun n => ~ In 0 n) names.
Proof.
  intros symbols words names H. induction H as [|w n ws ns H _ IH]; constructor; auto.
  unfold sym_get in H. destruct (size_t w <? s_size symbols); cbn [check bind] in H; [|discriminate].
  injection H as <-. apply cstr_nul.
Qed.

Lemma join_nul : forall names, Forall (fun n => ~ In 0 n) names -> ~ In 0 (join [32] names).
Proof.
  induction names as [|n names IH]; intros H; [tauto|]. inversion H as [|? ? H1 H2]; subst.
  destruct names as [|m names]; [exact H1|]. change (join [32] (n :: m :: names)) with (n ++ [32] ++ join [32] (m :: names)).
  intros I. apply in_app_or in I. destruct I as [I|I]; [tauto|]. destruct I as [I|I]; [lia|]. apply IH; assumption.
Qed.

Lemma store_spells : forall rc (d : decoder F C) old hyp ll,
  store_hyp O X tenth rc d old = Ok (hyp, ll) ->
  exists words weight, best_path O X (utt_config O tenth rc) d = Ok (words, weight) /\
    spells (rc_symbols rc) (rev words) hyp /\
    ll = (if words then snd old else f_div O weight (f_int O (d_frames d))).
Proof.
  intros rc d old hyp ll E. unfold store_hyp in E. destruct (bind_ok _ _ _ _ _ E) as [[words weight] [E1 E2]].
  exists words, weight. split; [assumption|].
  destruct words as [|w words].
  - injection E2 as <- <-. split; [|reflexivity]. exists []. split; [constructor|reflexivity].
  - inv_bind E2. destruct (bind_ok _ _ _ _ _ E2) as [[h k] [E3 E4]]. injection E4 as <- <-. split; [|reflexivity].
    destruct (text_loop _ _ _ _ Hb) as (names & N1 & N2). cbn [app] in N2.
    assert (names <> []) as NE.
    { intros ->. apply Forall2_len in N1. rewrite rev_length in N1. discriminate. }
    rewrite join_spaces in N2 by assumption. rename a into text.
    pose proof (names_nul _ _ _ N1) as NN. pose proof (join_nul _ NN) as NJ.
    assert (NT : ~ In 0 text).
    { rewrite N2. intros I. apply in_app_or in I. destruct I as [I|[I|[]]]; [tauto|lia]. }
    destruct (TextCases.bounded_copy (repeat 170 (length text)) text [] (length text) NT) as (h' & S1 & _ & S2).
    { rewrite repeat_length. lia. }
    rewrite S1 in E3. injection E3 as <- _.
    assert (LT : length text = (length (join [32%Z] names) + 1)%nat) by (rewrite N2, app_length; reflexivity).
    destruct S2 as (p & q & Q1 & Q2 & Q3); [lia|].
    assert (p = join [32] names) as ->.
    { assert (LP : length p = length (join [32] names)) by lia.
      rewrite N2 in Q1. symmetry in Q1. apply (app_prefix _ _ _ _ _ Q1 LP). }
    exists names. split; [assumption|]. rewrite Q3, skipn_all2; [now rewrite app_nil_r|]. rewrite repeat_length. lia.
Qed.

(** What [spells] says. *)
Lemma spells_cstr : forall symbols words memory, spells symbols words memory ->
  exists names, Forall2 (fun w name => sym_get symbols w = Ok name) words names /\
    cstr memory = join [32] names /\ lenZ memory = lenZ (cstr memory) + 1.
Proof.
  intros symbols words memory (names & H & ->). exists names. split; [assumption|].
  assert (E : cstr (join [32] names ++ [0]) = join [32] names) by (apply cstr_stop; apply join_nul; eapply names_nul; eassumption).
  rewrite E. split; [reflexivity|]. rewrite lenZ_app. reflexivity.
Qed.

End Float.
