From Coq Require Import ZArith String List Bool Lia.
From Verif.Base Require Import Prelude Lemmas.
From Verif.Model Require Import Util File Arith Pcm Vector Fbank Am Pool OLabel Fst Decoder Stt Api.
From Verif.Spec Require Import PcmSpec SttSpec ApiSpec.
From Verif.Proof Require Import Stt Api.
From Verif.Proof Require PcmCases.
Import ListNotations.
Open Scope Z_scope.

Section Api.
Context {F D C : Type}.
Variable O : fops F.
Variable X : xops F D.
Variable tenth : F.
Variable fuel : nat.
Variable loads : bytes -> res (recognizer F C + bytes).
Notation step := (step O X tenth fuel loads).
Notation run := (run O X tenth fuel loads).

Definition good (u : utt F C) : Prop :=
  exists i rc, u_internal u = Some i /\ i_recognizer i = Some rc /\ r_ready (i_reader i) = true.

Lemma reader_ready : forall r data size o r', reader_process r data size = Ok (o, r') ->
  r_ready r = true -> r_ready r' = true /\ (o = None -> data = None \/ size <= 0).
Proof.
  intros r data size o r' E R. unfold reader_process in E. destruct data as [data|].
  - destruct (Z.leb_spec size 0).
    + injection E as <- <-. auto.
    + rewrite R in E. cbn [negb] in E. inv_bind E. inv_bind E. inv_bind E. inv_bind E. inv_bind E. inv_bind E. inv_bind E.
      injection E as <- <-. cbn [r_ready]. split; [reflexivity|discriminate].
  - injection E as <- <-. auto.
Qed.

Definition fed (err : bytes) (data : option bytes) (size : Z) (n : Z) (u' : option (utt F C)) (err' : bytes) : Prop :=
  exists u1, u' = Some u1 /\ good u1 /\
    ((n = -1 /\ set_error err (process_error data size) = Ok err' /\ (data = None \/ size <= 0)) \/ (0 <= n /\ err' = err)).

Lemma process_fed : forall err u data size n u' err', good u ->
  stt_process O X tenth fuel err (Some u) data size = Ok (n, u', err') -> fed err data size n u' err'.
Proof.
  intros err u data size n u' err' (i & rc & G1 & G2 & G3) E. unfold stt_process in E.
  rewrite (check_good err u i rc G1 G2) in E. cbn [bind] in E. apply bind_ok in E. destruct E as [[o r] [E1 E]].
  destruct (reader_ready _ _ _ _ _ E1 G3) as [R1 R2]. destruct o as [xs|].
  - destruct (lenZ xs =? 0).
    + injection E as <- <- <-. eexists. split; [reflexivity|]. split; [|right; split; [lia|reflexivity]].
      exists (mk_internal (i_recognizer i) r (i_wave i) (i_am i) (i_decoder i)), rc. auto.
    + apply bind_ok in E. destruct E as [[fe wa] [_ E]]. apply bind_ok in E. destruct E as [[a [d [hy ll]]] [_ E]].
      injection E as <- <- <-. eexists. split; [reflexivity|]. split; [|right; split; [unfold lenZ; lia|reflexivity]].
      exists (mk_internal (i_recognizer i) r wa a d), rc. auto.
  - inv_bind E. injection E as <- <- <-. exists u. split; [reflexivity|]. split; [exists i, rc; auto|]. left. auto.
Qed.

Lemma emptied_fed : forall err u data size n u' err', good u ->
  process_emptied err u data size = Ok (n, u', err') -> fed err data size n u' err'.
Proof.
  intros err u data size n u' err' (i & rc & G1 & G2 & G3) E. unfold process_emptied in E.
  rewrite (check_good err u i rc G1 G2) in E. cbn [bind] in E. apply bind_ok in E. destruct E as [[o r] [E1 E]].
  destruct (reader_ready _ _ _ _ _ E1 G3) as [R1 R2]. destruct o as [xs|].
  - destruct (lenZ xs =? 0); [|discriminate].
    injection E as <- <- <-. eexists. split; [reflexivity|]. split; [|right; split; [lia|reflexivity]].
    exists (mk_internal (i_recognizer i) r (i_wave i) (i_am i) (i_decoder i)), rc. auto.
  - inv_bind E. injection E as <- <- <-. exists u. split; [reflexivity|]. split; [exists i, rc; auto|]. left. auto.
Qed.

Lemma end_good : forall err u u' err', good u ->
  stt_end O X tenth fuel err (Some u) = Ok (u', err') -> exists u1, u' = Some u1 /\ good u1 /\ err' = err.
Proof.
  intros err u u' err' (i & rc & G1 & G2 & G3) E. unfold stt_end in E.
  rewrite (check_good err u i rc G1 G2) in E. cbn [bind] in E. apply bind_ok in E. destruct E as [[rows a] [_ E]].
  inv_bind E. apply bind_ok in E. destruct E as [[hy ll] [_ E]]. injection E as <- <-.
  eexists. split; [reflexivity|]. split; [|reflexivity].
  exists (mk_internal (i_recognizer i) (i_reader i) (i_wave i) a (end_of_stream a0)), rc. auto.
Qed.

Lemma end_emptied_good : forall err u u' err', good u -> end_emptied err u = Ok (u', err') -> False.
Proof.
  intros err u u' err' (i & rc & G1 & G2 & G3) E. unfold end_emptied in E.
  rewrite (check_good err u i rc G1 G2) in E. discriminate.
Qed.

Lemma init_good : forall err rc f u err', utt_init O X tenth fuel err rc f = Ok (u, err') ->
  (exists u1, u = Some u1 /\ good u1 /\ err' = err) \/ (u = None /\ set_error err (set_format_error f) = Ok err').
Proof.
  intros err rc f u err' E. unfold utt_init in E. inv_bind E. inv_bind E.
  destruct (PcmCases.set_format_cases reader_init f) as [[_ S]|[_ S]]; rewrite S in E.
  - injection E as <- <-. left. eexists. split; [reflexivity|]. split; [|reflexivity].
    eexists. exists rc. cbn. auto.
  - inv_bind E. injection E as <- <-. right. auto.
Qed.

(** * Traces *)
Lemma messages_app : forall t b c a,
  messages loads b (t ++ [(c, a)]) = messages loads b t ++ [message loads (b ++ t) c a].
Proof.
  induction t as [|[c1 a1] t IH]; intros b c a; cbn [messages app].
  - rewrite app_nil_r. reflexivity.
  - rewrite IH, <- app_assoc. reflexivity.
Qed.
Lemma shown_app : forall a b l, shown l (a ++ b) = shown (shown l a) b.
Proof. induction a as [|[m|] a IH]; intros b l; cbn [app shown]; auto. Qed.
Lemma is_null_app : forall k t t' b, is_null (F := F) k (t ++ t') b = is_null k t' (is_null k t b).
Proof.
  intros k. induction t as [|[c a] t IH]; intros t' b; [reflexivity|]. cbn [app is_null].
  destruct c; try apply IH. destruct a; apply IH.
Qed.

Definition inv (t : list (call * answer F)) (s : state F C) : Prop :=
  fits (s_err s) /\ last_error (s_err s) = shown [] (messages loads [] t) /\
  forall k, match s_utt s k with
            | Dangling => True
            | NoUtt => is_null k t false = true
            | Utt _ u => is_null k t false = false /\ good u
            end.

Lemma set_error_last : forall err m e, fits err -> set_error err m = Ok e ->
  fits e /\ last_error e = firstn (Z.to_nat 2047) (cstr m).
Proof.
  intros err m e L E. destruct (set_error_ok err m L) as (e' & E1 & E2 & E3 & _). rewrite E in E1. injection E1 as <-. auto.
Qed.

Lemma process_text : forall data size, data = None \/ size <= 0 ->
  process_error data size = match data with
                            | None => lit "RuntimeError: buffer is nullptr"
                            | Some _ => lit "RuntimeError: unexpected size: " ++ to_string size
                            end.
Proof.
  intros [data|] size H; [|reflexivity]. destruct H as [H|H]; [discriminate|].
  unfold process_error. destruct (Z.leb_spec size 0); [|lia]. rewrite format_size, app_assoc. reflexivity.
Qed.

Lemma format_text : forall f, set_format_error f = format_message f.
Proof.
  intros f. unfold set_format_error, format_message.
  destruct (negb (w_channels f =? 1)); [|destruct (negb (w_rate f =? 16000))].
  - unfold format. change (find (lit "num_channels = {} not supported") [123; 125] 0) with (Some 15). cbv iota.
    change (sub (lit "num_channels = {} not supported") 0 15) with (lit "num_channels = ").
    change (skipn (Z.to_nat (15 + 2)) (lit "num_channels = {} not supported")) with (lit " not supported").
    rewrite app_assoc. reflexivity.
  - unfold format. change (find (lit "sample_rate = {} not supported") [123; 125] 0) with (Some 14). cbv iota.
    change (sub (lit "sample_rate = {} not supported") 0 14) with (lit "sample_rate = ").
    change (skipn (Z.to_nat (14 + 2)) (lit "sample_rate = {} not supported")) with (lit " not supported").
    rewrite app_assoc. reflexivity.
  - unfold format.
    change (find (lit "bits_per_sample == 8, 16 or 32 expected, but {} found") [123; 125] 0) with (Some 45). cbv iota.
    change (sub (lit "bits_per_sample == 8, 16 or 32 expected, but {} found") 0 45)
      with (lit "bits_per_sample == 8, 16 or 32 expected, but ").
    change (skipn (Z.to_nat (45 + 2)) (lit "bits_per_sample == 8, 16 or 32 expected, but {} found")) with (lit " found").
    rewrite app_assoc. reflexivity.
Qed.

Lemma inv_step : forall t s c s1 a, inv t s -> step s c = Ok (s1, a) -> inv (t ++ [(c, a)]) s1.
Proof.
  intros t [err stts utts] c s1 a (L & Er & U) E. cbn [s_err s_utt] in *.
  assert (K : forall k', (match c with Start k0 _ _ => k0 <> k' | _ => True end) ->
            is_null k' (t ++ [(c, a)]) false = is_null k' t false).
  { intros k' H. rewrite is_null_app. destruct c; try reflexivity. cbn [is_null]. destruct a; try reflexivity.
    destruct (Nat.eqb_spec k' k); [congruence|reflexivity]. }
  assert (Quiet : forall e m, message loads t c a = None -> e = err -> (forall k', m k' = utts k' \/ m k' = Dangling) ->
            (match c with Start _ _ _ => False | _ => True end) -> inv (t ++ [(c, a)]) (mk_state e stts m) /\ True).
  { intros e m M -> Hm Hc. split; [|exact I]. split; [exact L|]. cbn [s_err s_utt]. split.
    - rewrite messages_app, shown_app. cbn [app]. rewrite M. exact Er.
    - intros k'. rewrite K by (destruct c; auto; contradiction). destruct (Hm k') as [->| ->]; [apply U|exact I]. }
  destruct c as [config|r|k r f|k data size|k|k|k|f why|]; cbn [Api.step] in E.
  - inv_bind E. destruct a0 as [rc|why].
    + injection E as <- <-. split; [exact L|]. cbn [s_err s_utt]. split.
      * rewrite messages_app, shown_app. exact Er.
      * intros k'. rewrite K by exact I. apply U.
    + inv_bind E. injection E as <- <-. destruct (set_error_last _ _ _ L Hb0) as [L1 E1].
      split; [exact L1|]. cbn [s_err s_utt]. split.
      * rewrite messages_app, shown_app. cbn [app message]. rewrite Hb. cbn [shown]. exact E1.
      * intros k'. rewrite K by exact I. apply U.
  - inv_bind E. destruct a0 as [|rc|]; try discriminate; injection E as <- <-.
    + destruct (Quiet err utts) as [Q _]; auto; exact Q.
    + destruct (Quiet err utts) as [Q _]; auto; exact Q.
  - inv_bind E. destruct a0 as [|rc|]; try discriminate. apply bind_ok in E. destruct E as [[u e] [E1 E]].
    injection E as <- <-. destruct (init_good _ _ _ _ _ E1) as [(u1 & -> & G & ->)|[-> E2]].
    + split; [exact L|]. cbn [s_err s_utt]. split.
      * rewrite messages_app, shown_app. exact Er.
      * intros k'. unfold set_utt. destruct (Nat.eqb_spec k k') as [<-|N].
        -- cbn [utt_pointer]. split; [|exact G]. rewrite is_null_app. cbn [is_null]. rewrite Nat.eqb_refl. reflexivity.
        -- rewrite K by exact N. apply U.
    + destruct (set_error_last _ _ _ L E2) as [L1 E3]. split; [exact L1|]. cbn [s_err s_utt]. split.
      * rewrite messages_app, shown_app, E3, format_text. reflexivity.
      * intros k'. unfold set_utt. destruct (Nat.eqb_spec k k') as [<-|N].
        -- cbn [utt_pointer]. rewrite is_null_app. cbn [is_null]. rewrite Nat.eqb_refl. reflexivity.
        -- rewrite K by exact N. apply U.
  - pose proof (U k) as Uk. destruct (utts k) as [| |r u] eqn:Eu; [discriminate| |].
    + apply bind_ok in E. destruct E as [[[n u] e] [E1 E]]. injection E as <- <-.
      unfold stt_process, check_utt in E1. apply bind_ok in E1. destruct E1 as [[p e1] [E2 E1]].
      inv_bind E2. injection E2 as <- <-. cbv iota in E1. injection E1 as <- <- <-.
      destruct (set_error_last _ _ _ L Hb) as [L1 E3]. split; [exact L1|]. cbn [s_err s_utt]. split.
      * rewrite messages_app, shown_app. cbn [app message failed]. rewrite Uk. exact E3.
      * intros k'. rewrite K by exact I. apply U.
    + destruct Uk as [N G]. inv_bind E. apply bind_ok in E. destruct E as [[[n u2] e] [E1 E]]. injection E as <- <-.
      assert (Fd : fed err data size n u2 e).
      { destruct a0; eauto using process_fed, emptied_fed. }
      destruct Fd as (u1 & -> & G1 & [(-> & Se & Why)|(Hn & ->)]).
      * destruct (set_error_last _ _ _ L Se) as [L1 E3]. split; [exact L1|]. cbn [s_err s_utt]. split.
        -- rewrite messages_app, shown_app. cbn [app message]. rewrite N. cbn [shown].
           rewrite <- process_text by exact Why. exact E3.
        -- intros k'. rewrite K by exact I. unfold set_utt. destruct (Nat.eqb_spec k k') as [<-|Nk]; [|apply U].
           cbn [utt_pointer]. auto.
      * split; [exact L|]. cbn [s_err s_utt]. split.
        -- rewrite messages_app, shown_app. cbn [app]. replace (message loads t (Feed k data size) (Number n)) with (@None bytes).
           ++ exact Er.
           ++ cbn [message]. destruct n; try reflexivity. lia.
        -- intros k'. rewrite K by exact I. unfold set_utt. destruct (Nat.eqb_spec k k') as [<-|Nk]; [|apply U].
           cbn [utt_pointer]. auto.
  - pose proof (U k) as Uk. destruct (utts k) as [| |r u] eqn:Eu; [discriminate|discriminate|].
    destruct Uk as [N G]. inv_bind E. apply bind_ok in E. destruct E as [[u2 e] [E1 E]]. injection E as <- <-.
    assert (Fd : exists u1, u2 = Some u1 /\ good u1 /\ e = err).
    { destruct a0; eauto using end_good. exfalso. eauto using end_emptied_good. }
    destruct Fd as (u1 & -> & G1 & ->). split; [exact L|]. cbn [s_err s_utt]. split.
    + rewrite messages_app, shown_app. exact Er.
    + intros k'. rewrite K by exact I. unfold set_utt. destruct (Nat.eqb_spec k k') as [<-|Nk]; [|apply U].
      cbn [utt_pointer]. auto.
  - destruct (utts k) as [| |r u]; try discriminate. inv_bind E. injection E as <- <-.
    destruct (Quiet err utts) as [Q _]; auto.
  - destruct (utts k) as [| |r u]; try discriminate. injection E as <- <-.
    destruct (Quiet err (set_utt utts k Dangling)) as [Q _]; auto.
    intros k'. unfold set_utt. destruct (Nat.eqb k k'); auto.
  - apply bind_ok in E. destruct E as [[[fmt f'] e] [E1 E]]. injection E as <- <-.
    unfold pcm_header_of in E1. apply bind_ok in E1. destruct E1 as [[o f2] [E3 E4]]. destruct o as [o|].
    + injection E4 as <- _ <-. destruct (Quiet err utts) as [Q _]; auto.
    + inv_bind E4. injection E4 as <- _ <-. destruct (set_error_last _ _ _ L Hb) as [L1 E5].
      split; [exact L1|]. cbn [s_err s_utt]. split.
      * rewrite messages_app, shown_app. exact E5.
      * intros k'. rewrite K by exact I. apply U.
  - injection E as <- <-. destruct (Quiet err utts) as [Q _]; auto.
Qed.

Lemma run_inv : forall cs s t0 t, inv t0 s -> run s cs = Ok t ->
  forall t1 a t2, t = t1 ++ (LastError, a) :: t2 -> a = Message (shown [] (messages loads [] (t0 ++ t1))).
Proof.
  induction cs as [|c cs IH]; intros s t0 t I0 E t1 a t2 Et; cbn [Api.run] in E.
  - injection E as <-. destruct t1; discriminate.
  - apply bind_ok in E. destruct E as [[s1 a1] [E1 E]]. inv_bind E. injection E as <-.
    destruct t1 as [|x t1]; cbn [app] in Et.
    + injection Et as -> <- <-. destruct s as [err stts utts]. cbn [Api.step] in E1. injection E1 as _ <-.
      rewrite app_nil_r. f_equal. apply I0.
    + injection Et as <- ->. pose proof (inv_step _ _ _ _ _ I0 E1) as I1.
      pose proof (IH s1 _ _ I1 Hb t1 a t2 eq_refl) as H. rewrite <- app_assoc in H. exact H.
Qed.

Lemma inv_init : inv [] init_state.
Proof.
  split; [apply init_fits|]. split; [vm_compute; reflexivity|]. intros k. exact I.
Qed.

Lemma last_errors : forall cs t1 a t2, run init_state cs = Ok (t1 ++ (LastError, a) :: t2) ->
  a = Message (shown [] (messages loads [] t1)).
Proof. intros cs t1 a t2 E. exact (run_inv cs init_state [] _ inv_init E t1 a t2 eq_refl). Qed.
End Api.
