(** Proofs about the decoder: what a frame does to the beam. *)
From Coq Require Import ZArith List Bool Lia.
From Verif.Base Require Import Prelude ZMap Lemmas.
From Verif.Spec Require Import MapSpec PoolSpec GCSpec DecoderSpec.
From Verif.Model Require Import Arith Vector HashTable Pool OLabel Fst Decoder.
From Verif.Proof Require Import Loop HashTable HashTableTotal Pool GC OLabel DecoderBase.
Import ListNotations.
Open Scope Z_scope.


(** Newest first. *)
Definition cons_word (x : Z) (ws : list Z) : list Z := if x =? 0 then ws else x :: ws.

Lemma rev_cons_word : forall x ws, rev (cons_word x ws) = add_word x (rev ws).
Proof. intros. unfold cons_word, add_word. destruct (x =? 0); reflexivity. Qed.

Lemma setZ_upd : forall A (l : list A) i x y, getZ l i = Ok y -> setZ l i x = Ok (upd l (Z.to_nat i) x).
Proof.
  intros A l i x y G. apply getZ_lt in G. unfold setZ. destruct (Z.ltb_spec i 0); [lia|]. unfold lenZ in G.
  destruct (Z.leb_spec (Z.of_nat (length l)) i); [lia|]. reflexivity.
Qed.

Lemma upd_same : forall A (l : list A) n x, nth_error l n = Some x -> upd l n x = l.
Proof.
  induction l as [|y l IH]; intros [|n] x E; try discriminate; cbn in *.
  - injection E as ->. reflexivity.
  - rewrite IH; auto.
Qed.

Lemma idx_find_ok : forall t s i, idx_find t s = Ok i -> find state_eqb state_hash t s kNotExist = Ok i.
Proof. intros t s i E. unfold idx_find in E. inv_bind E. exact E. Qed.

Lemma idx_insert_ok : forall t s i t', idx_insert t s i = Ok t' -> insert state_eqb state_hash t s i = Ok t'.
Proof. intros t s i t' E. unfold idx_insert in E. inv_bind E. exact E. Qed.

Section Frame.
Context {F D C : Type} (O : fops F) (X : xops F D) (cfg : config F C).
Context (wm : option (word_model F)) (good : C -> Prop).
Hypothesis Hlm : lm_implements (c_lm cfg) wm good.

Notation tok := (token F).
Notation dec := (decoder F C).
Notation g := (c_graph cfg).

(** Every token stands for a word list, and satisfies [Q]. *)
Definition all_tok (h : gcpool olabel) (toks : list tok) (Q : state -> F -> list Z -> Prop) : Prop :=
  forall t, In t toks -> exists ws, rep h (k_olabel t) ws /\ Q (k_state t) (k_cost t) ws.

Definition grows (h h' : gcpool olabel) : Prop :=
  (forall x q k, holds h x q k -> holds h' x q k) /\
  (forall x, marked (g_heap h') x = true -> marked (g_heap h) x = true) /\
  top label_block (g_pool h) <= top label_block (g_pool h').

Lemma grows_refl : forall h, grows h h.
Proof. intros h. split; [auto|split; [auto|lia]]. Qed.

Lemma grows_trans : forall a b c, grows a b -> grows b c -> grows a c.
Proof. intros a b c (A1 & A2 & A3) (B1 & B2 & B3). split; [auto|split; [auto|lia]]. Qed.

Lemma grows_rep : forall h h' p ws, grows h h' -> rep h p ws -> rep h' p ws.
Proof. intros h h' p ws (H & _) R. eapply rep_mono; eauto. Qed.

Lemma all_tok_grows : forall h h' toks Q, grows h h' -> all_tok h toks Q -> all_tok h' toks Q.
Proof.
  intros h h' toks Q G A t J. destruct (A t J) as (ws & R & HQ). exists ws. split; auto. eapply grows_rep; eauto.
Qed.

Record dinv (Qp Q : state -> F -> list Z -> Prop) (d : dec) : Prop := {
  di_ix : indexed (d_idx d) (d_toks d);
  di_labels : linv (d_labels d);
  di_good : good (d_cache d);
  di_toks : all_tok (d_labels d) (d_toks d) Q;
  di_prev : all_tok (d_labels d) (d_prev d) Qp
}.

(** What the functions that only offer tokens leave alone. *)
Definition keeps (d d' : dec) : Prop :=
  d_prev d' = d_prev d /\ d_frames d' = d_frames d /\ d_eos d' = d_eos d /\ grows (d_labels d) (d_labels d').

Lemma keeps_refl : forall d, keeps d d.
Proof. intros d. unfold keeps. auto using grows_refl. Qed.

Lemma keeps_trans : forall a b c, keeps a b -> keeps b c -> keeps a c.
Proof.
  intros a b c (A1 & A2 & A3 & A4) (B1 & B2 & B3 & B4). unfold keeps.
  split; [congruence|]. split; [congruence|]. split; [congruence|]. eapply grows_trans; eauto.
Qed.

Lemma insert_tok_spec : forall Qp Q d s l p c ws d' b, dinv Qp Q d -> rep (d_labels d) p ws ->
  Q s c (cons_word l ws) ->
  insert_tok O d s l p c = Ok (d', b) ->
  exists t, k_state t = s /\ k_cost t = c /\ rep (d_labels d') (k_olabel t) (cons_word l ws) /\
    (d_toks d', b) = offer (f_lt O) (d_toks d) t /\ dinv Qp Q d' /\ keeps d d' /\ d_cache d' = d_cache d.
Proof.
  intros Qp Q d s l p c ws d' b [Ix Li Go At Ap] R HQ E. unfold insert_tok in E. inv_bind E.
  apply idx_find_ok in Hb.
  destruct (bind_ok _ _ _ _ _ E) as [[h q] [Eh E']]. clear E. rename E' into E. cbn beta iota in E.
  assert (HL : linv h /\ rep h q (cons_word l ws) /\ grows (d_labels d) h).
  { destruct (Z.eqb_spec l 0) as [->|NZ].
    - injection Eh as <- <-. split; auto. split; [exact R|apply grows_refl].
    - destruct (bind_ok _ _ _ _ _ Eh) as [[h' x] [Ec Eh']]. injection Eh' as <- <-.
      destruct (child_rep _ _ _ _ _ _ Li R Ec) as (L' & R' & M1 & M2 & M3).
      split; auto. unfold cons_word. destruct (Z.eqb_spec l 0); [lia|]. split; auto. split; auto. }
  destruct HL as (Lh & Rq & Gr).
  destruct (find_state _ _ _ _ Ix Hb) as [[-> NI]|[NE (old & G & K)]].
  - rewrite Z.eqb_refl in E. inv_bind E. apply idx_insert_ok in Hb0.
    injection E as <- <-. cbn [with_idx with_toks with_labels d_toks d_labels d_cache d_idx d_prev d_frames d_eos] in *.
    exists (mk_token s c q). split; [reflexivity|]. split; [reflexivity|]. split; [exact Rq|].
    split; [rewrite offer_new by (cbn; auto); reflexivity|].
    split; [constructor|split; [|reflexivity]]; cbn; auto.
    + apply indexed_insert with (t := d_idx d); cbn; auto.
    + intros t J. apply in_app_or in J. destruct J as [J|[<-|[]]].
      * destruct (At t J) as (ws' & R' & Q'). exists ws'. split; auto. eapply grows_rep; eauto.
      * exists (cons_word l ws). split; auto.
    + eapply all_tok_grows; eauto.
    + unfold keeps. cbn. auto.
  - apply Z.eqb_neq in NE. rewrite NE in E. cbn [with_labels d_toks d_labels] in E. rewrite G in E. cbn [bind] in E.
    set (t := mk_token s c q) in *. exists t. split; [reflexivity|]. split; [reflexivity|].
    pose proof (proj1 (getZ_ok _ _ _ _) G) as [G1 G2].
    rewrite (offer_old (f_lt O) (d_toks d) t (Z.to_nat a) old (ix_nodup _ _ Ix) G2 K). cbn [k_cost t].
    destruct (f_lt O c (k_cost old)).
    + rewrite (setZ_upd _ _ _ _ _ G) in E. cbn [bind] in E. injection E as <- <-. cbn [with_toks with_labels d_toks d_labels d_cache d_idx d_prev d_frames d_eos].
      split; [exact Rq|]. split; [reflexivity|]. split; [constructor|split; [|reflexivity]]; cbn; auto.
      * eapply indexed_upd; eauto.
      * intros t' J. assert (J' : In t' (d_toks d) \/ t' = t).
        { apply In_nth_error in J. destruct J as [m J]. rewrite nth_error_upd in J. destruct (Nat.eqb _ _).
          - destruct (Nat.ltb _ _); [|discriminate]. injection J as <-. auto.
          - left. eapply nth_error_In; eauto. }
        destruct J' as [J'| ->].
        -- destruct (At t' J') as (ws' & R' & Q'). exists ws'. split; auto. eapply grows_rep; eauto.
        -- exists (cons_word l ws). split; auto.
      * eapply all_tok_grows; eauto.
      * unfold keeps. cbn. auto.
    + injection E as <- <-. cbn [with_labels d_toks d_labels d_cache d_idx d_prev d_frames d_eos].
      split; [exact Rq|]. split; [reflexivity|]. split; [constructor|split; [|reflexivity]]; cbn; auto.
      * eapply all_tok_grows; eauto.
      * eapply all_tok_grows; eauto.
      * unfold keeps. cbn. auto.
Qed.

Lemma with_cache_id : forall d : dec, with_cache d (d_cache d) = d.
Proof. intros []. reflexivity. Qed.

Lemma compose_spec : forall d l x total d' l' total', good (d_cache d) ->
  compose O X cfg d l x total = Ok (d', l', total') ->
  exists c' lw, d' = with_cache d c' /\ good c' /\ lm_after O wm l x = (l', lw) /\
    total' = match lw with None => total | Some w => x_add X total (x_wide X w) end.
Proof.
  intros d l x total d' l' total' Gd E. unfold compose in E. unfold lm_after.
  unfold lm_implements in Hlm. destruct (c_lm cfg) as [m|], wm as [w|]; try destruct Hlm.
  - destruct (bind_ok _ _ _ _ _ E) as [[[l1 w1] c1] [Ep E']]. clear E. injection E' as <- <- <-.
    exists c1. unfold propogate_lm in Ep. destruct (x =? 0).
    + injection Ep as <- <- <-. eexists. split; [reflexivity|]. auto.
    + destruct (bind_ok _ _ _ _ _ Ep) as [[r c2] [Ea E']]. clear Ep.
      destruct H0 as [H0 _]. destruct (H0 _ _ _ _ _ Gd Ea) as [Gd' En]. rewrite En.
      destruct r as [a|]; injection E' as <- <- <-; eexists; (split; [reflexivity|]); auto.
  - injection E as <- <- <-. exists (d_cache d), None. rewrite with_cache_id. auto.
Qed.

Lemma dinv_cache : forall Qp Q d c, dinv Qp Q d -> good c -> dinv Qp Q (with_cache d c).
Proof. intros Qp Q d c [Ix Li Go At Ap] G. constructor; cbn; auto. Qed.

Lemma keeps_cache : forall d c, keeps d (with_cache d c).
Proof. intros d c. unfold keeps. cbn. auto using grows_refl. Qed.

Lemma graph_arcs_from : forall s arcs a, graph_arcs cfg s = Ok arcs -> In a arcs -> arc_from g s a.
Proof.
  intros s arcs a E J. unfold graph_arcs in E. inv_bind E. injection E as <-.
  apply getZ_ok in Hb. destruct Hb as [P N]. split; auto. destruct a0 as [f l]. cbn in J. eauto.
Qed.

Lemma from_graph_arcs : forall s arcs a, graph_arcs cfg s = Ok arcs -> arc_from g s a -> In a arcs.
Proof.
  intros s arcs a E (P & f & l & N & J). unfold graph_arcs in E. inv_bind E. injection E as <-.
  apply getZ_ok in Hb. destruct Hb as [_ N']. rewrite N in N'. injection N' as <-. exact J.
Qed.

(** [Q] is closed under arcs without input label. *)
Definition eps_ok (Q : state -> F -> list Z -> Prop) : Prop :=
  forall s l c ws a l' lw, Q (s, l) c ws -> arc_from g s a -> input_label a = 0 ->
    lm_after O wm l (output_label a) = (l', lw) ->
    Q (next_state a, l') (x_narrow X (cost_after O X c (weight a) (f_zero O) lw))
      (cons_word (output_label a) ws).

(** One arc in ProcessNonemitting: nothing happens, or the token is offered. *)
Lemma relax_spec : forall Qp Q cutoff i d queue a s l d' queue', dinv Qp Q d -> eps_ok Q ->
  (exists t, getZ (d_toks d) i = Ok t /\ k_state t = (s, l)) -> arc_from g s a ->
  relax O X cfg cutoff i (d, queue) a = Ok (d', queue') ->
  dinv Qp Q d' /\ keeps d d' /\
  ((d_toks d' = d_toks d /\ queue' = queue /\
    (input_label a <> 0 \/
     exists t l' lw, getZ (d_toks d) i = Ok t /\ k_state t = (s, l) /\ lm_after O wm l (output_label a) = (l', lw) /\
       x_lt X cutoff (cost_after O X (k_cost t) (weight a) (f_zero O) lw) = true)) \/
   (exists from t l' lw b, getZ (d_toks d) i = Ok from /\ input_label a = 0 /\
      lm_after O wm l (output_label a) = (l', lw) /\
      k_state t = (next_state a, l') /\
      k_cost t = x_narrow X (cost_after O X (k_cost from) (weight a) (f_zero O) lw) /\
      x_lt X cutoff (cost_after O X (k_cost from) (weight a) (f_zero O) lw) = false /\
      (d_toks d', b) = offer (f_lt O) (d_toks d) t /\
      queue' = if b then k_state t :: queue else queue)).
Proof.
  intros Qp Q cutoff i d queue a s l d' queue' I HQ (from & G & K) Af E. unfold relax in E.
  destruct (Z.eqb_spec (input_label a) 0) as [Z0|NZ]; cbn [negb] in E.
  2:{ injection E as <- <-. split; auto. split; [apply keeps_refl|]. left. auto. }
  rewrite G in E. cbn [bind] in E.
  destruct (bind_ok _ _ _ _ _ E) as [[[d1 l1] t1] [Ec E1]]. clear E.
  destruct (compose_spec _ _ _ _ _ _ _ (di_good _ _ _ I) Ec) as (c1 & lw & -> & G1 & El & Et).
  rewrite K in El. cbn [snd] in El.
  assert (Et' : t1 = cost_after O X (k_cost from) (weight a) (f_zero O) lw) by exact Et. clear Et Ec. subst t1.
  destruct (x_lt X cutoff _) eqn:Lt.
  - injection E1 as <- <-. split; [apply dinv_cache; auto|]. split; [apply keeps_cache|]. left.
    split; [reflexivity|]. split; [reflexivity|]. right. exists from, l1, lw. auto.
  - destruct (bind_ok _ _ _ _ _ E1) as [[d2 b] [Ei E2]]. clear E1. injection E2 as <- <-.
    pose proof (di_toks _ _ _ I from (getZ_in _ _ _ _ G)) as (ws & R & HF). rewrite K in HF.
    destruct (insert_tok_spec Qp Q _ _ _ _ _ ws _ _ (dinv_cache _ _ _ _ I G1) R (HQ _ _ _ _ _ _ _ HF Af Z0 El) Ei)
      as (t & Kt & Ct & Rt & Of & I2 & Kp & _).
    split; auto. split; [eapply keeps_trans; [apply keeps_cache|exact Kp]|]. right.
    exists from, t, l1, lw, b. rewrite Kt. cbn [with_cache d_toks] in Of. auto 10.
Qed.

Lemma offer_pos : forall lt (toks : list tok) t n x, nth_error toks n = Some x ->
  exists y, nth_error (Datatypes.fst (offer lt toks t)) n = Some y /\ k_state y = k_state x.
Proof.
  intros lt. induction toks as [|z r IH]; intros t n x E; [destruct n; discriminate|]. cbn [offer].
  destruct (state_eqb (k_state z) (k_state t)) eqn:S.
  - apply state_eqb_spec in S. destruct n as [|n]; cbn in E.
    + injection E as ->. destruct (lt _ _); eexists; split; try reflexivity; auto.
    + destruct (lt _ _); exists x; auto.
  - specialize (IH t). destruct (offer lt r t) as [r' b]. destruct n as [|n]; cbn in *.
    + injection E as ->. eauto.
    + apply IH; auto.
Qed.

Lemma getZ_offer : forall lt (toks : list tok) t toks' b i x, (toks', b) = offer lt toks t ->
  getZ toks i = Ok x -> exists y, getZ toks' i = Ok y /\ k_state y = k_state x.
Proof.
  intros lt toks t toks' b i x E G. apply getZ_ok in G. destruct G as [P G].
  destruct (offer_pos lt toks t _ _ G) as (y & Gy & Ky). rewrite <- E in Gy. exists y. split; auto.
  apply getZ_ok. auto.
Qed.

Lemma nonemitting_inv : forall Qp Q fuel cutoff d queue d', dinv Qp Q d -> eps_ok Q ->
  nonemitting_loop O X cfg fuel cutoff d queue = Ok d' -> dinv Qp Q d' /\ keeps d d'.
Proof.
  intros Qp Q fuel cutoff. induction fuel as [|fuel IH]; intros d queue d' I HQ E.
  - destruct queue; [|discriminate]. cbn in E. injection E as <-. split; auto using keeps_refl.
  - destruct queue as [|[s l] queue]; [cbn in E; injection E as <-; split; auto using keeps_refl|].
    cbn [nonemitting_loop Datatypes.fst] in E. inv_bind E. inv_bind E. inv_bind E.
    destruct (bind_ok _ _ _ _ _ E) as [[d1 q1] [El E1]]. clear E. apply check_ok in Hb0.
    apply idx_find_ok in Hb.
    destruct (find_state _ _ _ _ (di_ix _ _ _ I) Hb) as [[-> _]|[NE (t & G & K)]]; [discriminate|].
    set (P := fun st : dec * list state => dinv Qp Q (Datatypes.fst st) /\ keeps d (Datatypes.fst st) /\
                exists t, getZ (d_toks (Datatypes.fst st)) a = Ok t /\ k_state t = (s, l)).
    assert (PP : P (d1, q1)).
    { eapply (for_each_ok _ _ P); [| |exact El].
      - split; [exact I|]. split; [apply keeps_refl|]. exists t. auto.
      - intros [d2 q2] x [d3 q3] J (I2 & K2 & (t2 & G2 & S2)) Er. cbn [Datatypes.fst] in *.
        pose proof (graph_arcs_from _ _ _ Hb1 J) as Af.
        destruct (relax_spec _ _ _ _ _ _ _ _ _ _ _ I2 HQ (ex_intro _ t2 (conj G2 S2)) Af Er) as (I3 & K3 & [(ET & _)|(from & t3 & l' & lw & b & _ & _ & _ & _ & _ & _ & Of & _)]).
        + split; auto. split; [eapply keeps_trans; eauto|]. cbn. rewrite ET. eauto.
        + split; auto. split; [eapply keeps_trans; eauto|]. cbn.
          destruct (getZ_offer _ _ _ _ _ _ _ Of G2) as (y & Gy & Ky). exists y. split; auto. congruence. }
    destruct PP as (I1 & K1 & _). cbn [Datatypes.fst] in *.
    destruct (IH _ _ _ I1 HQ E1) as [I' K']. split; auto. eapply keeps_trans; eauto.
Qed.

Lemma process_nonemitting_inv : forall Qp Q fuel cutoff d d', dinv Qp Q d -> eps_ok Q ->
  process_nonemitting O X cfg fuel d cutoff = Ok d' -> dinv Qp Q d' /\ keeps d d'.
Proof.
  intros Qp Q fuel cutoff d d' I HQ E. unfold process_nonemitting in E. inv_bind E.
  eapply nonemitting_inv; eauto.
Qed.

(** Emission: from tokens satisfying [Qp] to tokens satisfying [Q]. *)
Definition emit_ok (logp : list F) (Qp Q : state -> F -> list Z -> Prop) : Prop :=
  forall s l c ws a l' lw ac, Qp (s, l) c ws -> arc_from g s a -> input_label a <> 0 ->
    acoustic O X (c_pdf cfg) (c_scale cfg) logp a ac ->
    lm_after O wm l (output_label a) = (l', lw) ->
    Q (next_state a, l') (x_narrow X (cost_after O X c (weight a) ac lw))
      (cons_word (output_label a) ws).

Lemma vget_some : forall A (v : list A) i x, vget v i = Ok x -> 0 <= i /\ nth_error v (Z.to_nat i) = Some x.
Proof. intros A v i x E. unfold vget in E. inv_bind E. apply getZ_ok. exact E. Qed.

Lemma log_likelihood_acoustic : forall logp a l, log_likelihood O cfg logp (input_label a) = Ok l ->
  acoustic O X (c_pdf cfg) (c_scale cfg) logp a (x_neg X l).
Proof.
  intros logp a l E. unfold log_likelihood in E. inv_bind E. inv_bind E. injection E as <-.
  apply vget_some in Hb. apply vget_some in Hb0. destruct Hb, Hb0. exists a0, a1. auto.
Qed.

Lemma acoustic_fun : forall logp a c c', acoustic O X (c_pdf cfg) (c_scale cfg) logp a c ->
  acoustic O X (c_pdf cfg) (c_scale cfg) logp a c' -> c = c'.
Proof.
  intros logp a c c' (p & x & _ & Np & _ & Nx & ->) (p' & x' & _ & Np' & _ & Nx' & ->).
  rewrite Np in Np'. injection Np' as <-. rewrite Nx in Nx'. injection Nx' as <-. reflexivity.
Qed.

Lemma emit_spec : forall Qp Q logp ab from s l ws d next a d' next', dinv Qp Q d -> emit_ok logp Qp Q ->
  rep (d_labels d) (k_olabel from) ws -> k_state from = (s, l) -> Qp (s, l) (k_cost from) ws ->
  arc_from g s a -> emit O X cfg logp ab from (d, next) a = Ok (d', next') ->
  dinv Qp Q d' /\ keeps d d' /\
  ((d_toks d' = d_toks d /\ next' = next /\ input_label a = 0) \/
   exists ac, input_label a <> 0 /\ acoustic O X (c_pdf cfg) (c_scale cfg) logp a ac /\
     let total := x_wide X (f_add O (f_add O (k_cost from) (weight a)) ac) in
     ((x_lt X next total = true /\ d_toks d' = d_toks d /\ next' = next) \/
      (x_lt X next total = false /\
       next' = (if x_lt X (x_add X total (x_wide X ab)) next then x_add X total (x_wide X ab) else next) /\
       exists t l' lw b, lm_after O wm l (output_label a) = (l', lw) /\ k_state t = (next_state a, l') /\
         k_cost t = x_narrow X (cost_after O X (k_cost from) (weight a) ac lw) /\
         (d_toks d', b) = offer (f_lt O) (d_toks d) t))).
Proof.
  intros Qp Q logp ab from s l ws d next a d' next' I HQ R K HF Af E. unfold emit in E.
  destruct (Z.eqb_spec (input_label a) 0) as [Z0|NZ].
  { injection E as <- <-. split; auto. split; [apply keeps_refl|]. auto. }
  inv_bind E. pose proof (log_likelihood_acoustic _ _ _ Hb) as Ac. set (ac := x_neg X a0) in *.
  unfold total_cost in E. cbv zeta in E. set (total := x_wide X _) in E.
  destruct (x_lt X next total) eqn:Lt.
  { injection E as <- <-. split; auto. split; [apply keeps_refl|]. right. exists ac. cbv zeta. fold total. auto 10. }
  destruct (bind_ok _ _ _ _ _ E) as [[[d1 l1] t1] [Ec E1]]. clear E.
  destruct (compose_spec _ _ _ _ _ _ _ (di_good _ _ _ I) Ec) as (c1 & lw & -> & G1 & El & Et).
  rewrite K in El. cbn [snd] in El.
  assert (Et' : t1 = cost_after O X (k_cost from) (weight a) ac lw) by exact Et. clear Et Ec. subst t1.
  inv_bind E1. clear Hb0 a1.
  destruct (bind_ok _ _ _ _ _ E1) as [[d2 b] [Ei E2]]. clear E1. injection E2 as <- <-.
  destruct (insert_tok_spec Qp Q _ _ _ _ _ ws _ _ (dinv_cache _ _ _ _ I G1) R (HQ _ _ _ _ _ _ _ _ HF Af NZ Ac El) Ei)
    as (t & Kt & Ct & Rt & Of & I2 & Kp & _).
  split; auto. split; [eapply keeps_trans; [apply keeps_cache|exact Kp]|]. right.
  exists ac. cbv zeta. fold total. split; [exact NZ|]. split; [exact Ac|]. right. split; [exact Lt|]. split; [reflexivity|].
  exists t, l1, lw, b. auto.
Qed.

(** The state of the decoder at the start of [ProcessEmitting]. *)
Definition swapped (d : dec) : dec :=
  mk_decoder (d_prev d) (d_toks d) (clear (d_idx d)) (d_labels d) (d_cache d) (d_frames d) (d_eos d).

Lemma swapped_inv : forall Qp Q Q' d, dinv Qp Q d -> d_prev d = [] -> dinv Q Q' (swapped d).
Proof.
  intros Qp Q Q' d [Ix Li Go At Ap] E. constructor; cbn; auto.
  - rewrite E. eapply indexed_clear; eauto.
  - rewrite E. intros t [].
Qed.

(** Induction over all the arcs processed in the main loop of
    [ProcessEmitting]. *)
Lemma emit_all_ind : forall Qp Q logp wc ab (P : dec * D -> Prop) d next d' next', 
  dinv Qp Q d -> emit_ok logp Qp Q -> P (d, next) ->
  (forall d1 next1 d2 next2 from a, dinv Qp Q d1 -> keeps d d1 -> In from (d_prev d) ->
     f_lt O wc (k_cost from) = false -> arc_from g (Datatypes.fst (k_state from)) a ->
     P (d1, next1) -> emit O X cfg logp ab from (d1, next1) a = Ok (d2, next2) -> P (d2, next2)) ->
  for_each (d_prev d) (emit_tok O X cfg logp wc ab) (d, next) = Ok (d', next') ->
  dinv Qp Q d' /\ keeps d d' /\ P (d', next').
Proof.
  intros Qp Q logp wc ab P d next d' next' I HQ P0 Step E.
  set (PP := fun st : dec * D => dinv Qp Q (Datatypes.fst st) /\ keeps d (Datatypes.fst st) /\ P st).
  cut (PP (d', next')); [auto|].
  eapply (for_each_ok _ _ PP); [| |exact E].
  - split; [exact I|]. split; [apply keeps_refl|exact P0].
  - intros [d1 n1] from [d2 n2] J (I1 & K1 & P1) E1. unfold emit_tok in E1.
    destruct (f_lt O wc (k_cost from)) eqn:Lt; [injection E1 as <- <-; split; auto|].
    inv_bind E1. eapply (for_each_ok _ _ PP); [| |exact E1].
    + split; auto.
    + intros [d3 n3] x [d4 n4] Jx (I3 & K3 & P3) E3. cbn [Datatypes.fst] in *.
      pose proof (graph_arcs_from _ _ _ Hb Jx) as Af.
      pose proof K3 as (EP & _). pose proof (di_prev _ _ _ I3) as AP. rewrite EP in AP.
      destruct (AP from J) as (ws & R & HF). destruct (k_state from) as [s l] eqn:Ks.
      destruct (emit_spec _ _ _ _ _ _ _ _ _ _ _ _ _ I3 HQ R Ks HF Af E3) as (I4 & K4 & _).
      split; auto. split; [eapply keeps_trans; eauto|].
      eapply (Step d3 n3 d4 n4 from x); eauto. rewrite Ks. exact Af.
Qed.

Lemma process_emitting_inv : forall Qp Q Q' logp d d' cut, dinv Qp Q d -> d_prev d = [] -> emit_ok logp Q Q' ->
  process_emitting O X cfg d logp = Ok (d', cut) ->
  dinv Q Q' d' /\ d_frames d' = d_frames d /\ d_eos d' = d_eos d /\ grows (d_labels d) (d_labels d') /\
  ((d_prev d' = d_toks d /\ d_toks d' = [] /\ cut = f_inf O) \/ d_prev d' = []).
Proof.
  intros Qp Q Q' logp d d' cut I Ep HQ E. unfold process_emitting in E. fold (swapped d) in E.
  pose proof (swapped_inv Qp Q Q' d I Ep) as Is.
  destruct (bind_ok _ _ _ _ _ E) as [[[cutoff ab] bt] [Ec E1]]. clear E. cbv zeta in E1.
  destruct (f_finite O (x_narrow X cutoff)); cbn [negb] in E1.
  2:{ injection E1 as <- <-. split; auto. split; [reflexivity|]. split; [reflexivity|]. split; [apply grows_refl|].
      left. cbn. auto. }
  inv_bind E1. inv_bind E1.
  destruct (bind_ok _ _ _ _ _ E1) as [[d1 n1] [El E2]]. clear E1. injection E2 as <- <-.
  destruct (emit_all_ind Q Q' logp (x_narrow X cutoff) ab (fun _ => True) _ _ _ _ Is HQ Logic.I (fun _ _ _ _ _ _ _ _ _ _ _ _ _ => Logic.I) El)
    as ([Ix Li Go At Ap] & (K1 & K2 & K3 & K4) & _).
  cbn [swapped d_frames d_eos d_labels d_prev] in *.
  split; [constructor; cbn; auto; intros t []|]. cbn. auto.
Qed.

(** * Paths *)
Notation path := (path O X g (c_pdf cfg) (c_scale cfg) wm).
Definition by_path (fs : list (list F)) (s : state) (c : F) (ws : list Z) : Prop := path fs s c (rev ws).

Lemma by_path_eps : forall fs, eps_ok (by_path fs).
Proof.
  intros fs s l c ws a l' lw H A Z0 El. unfold by_path in *. rewrite rev_cons_word. eapply path_eps; eauto.
Qed.

Lemma by_path_emit : forall fs logp, emit_ok logp (by_path fs) (by_path (logp :: fs)).
Proof.
  intros fs logp s l c ws a l' lw ac H A NZ Ac El. unfold by_path in *. rewrite rev_cons_word.
  eapply path_emit; eauto.
Qed.

Notation nothing := (fun (_ : state) (_ : F) (_ : list Z) => False).

(** A decoder between two frames. *)
Record ready (Q : state -> F -> list Z -> Prop) (d : dec) : Prop := {
  rd_inv : dinv nothing Q d;
  rd_prev : d_prev d = []
}.

Lemma new_decoder_inv : forall cache d Qp Q, good cache -> new_decoder cache = Ok d -> dinv Qp Q d /\
  d_prev d = [] /\ d_labels d = ginit.
Proof.
  intros cache d Qp Q Gc E. unfold new_decoder in E. inv_bind E. injection E as <-. split; [|auto].
  constructor; cbn; auto.
  - apply indexed_create. exact Hb.
  - apply oinv_init. apply block_pos.
  - intros t [].
  - intros t [].
Qed.

Lemma initialize_inv : forall fuel d d' (Q : state -> F -> list Z -> Prop), 
  good (d_cache d) -> indexed (d_idx d) (@nil tok) -> linv (d_labels d) ->
  Q (g_start g, lm_first wm) (f_zero O) [] -> eps_ok Q ->
  initialize O X cfg fuel d = Ok d' ->
  ready Q d' /\ d_frames d' = 0 /\ d_eos d' = d_eos d /\ grows (d_labels d) (d_labels d').
Proof.
  intros fuel d d' Q Gc Ix Li HQ He E. unfold initialize in E. inv_bind E. inv_bind E.
  destruct (bind_ok _ _ _ _ _ E) as [[d1 b] [Ei E1]]. clear E.
  set (d0 := mk_decoder [] [] (d_idx d) (d_labels d) (d_cache d) (d_frames d) (d_eos d)) in *.
  assert (I0 : dinv nothing Q d0) by (constructor; cbn; auto; intros t []).
  assert (Es : a0 = lm_first wm).
  { unfold lm_first. unfold lm_implements in Hlm. destruct (c_lm cfg), wm; try destruct Hlm.
    - apply H. exact Hb0.
    - congruence. }
  subst a0.
  destruct (insert_tok_spec nothing Q d0 _ 0 None _ [] _ _ I0 (rep_nil _) HQ Ei) as (t & _ & _ & _ & _ & I1 & (K1 & K2 & K3 & K4) & _).
  assert (I2 : dinv nothing Q (with_frames d1 0)) by (destruct I1; constructor; auto).
  destruct (process_nonemitting_inv nothing Q _ _ _ _ I2 He E1) as [I3 (K5 & K6 & K7 & K8)].
  cbn in *. split; [constructor; [exact I3|congruence]|]. split; [congruence|]. split; [congruence|].
  eapply grows_trans; eauto.
Qed.

(** The decoder when [Process] comes to the collection. *)
Lemma process_before_gc : forall Q Q' fuel d logp d', ready Q d -> emit_ok logp Q Q' -> eps_ok Q' ->
  process O X cfg keep_all fuel d logp = Ok (d', true) ->
  ready Q' d' /\ d_frames d' = d_frames d + 1 /\ d_eos d' = d_eos d /\ grows (d_labels d) (d_labels d') /\
  d_toks d' <> [].
Proof.
  intros Q Q' fuel d logp d' [I Ep] He Hn E. unfold process in E.
  destruct (bind_ok _ _ _ _ _ E) as [[d1 cut] [E1 E2]]. clear E.
  destruct (process_emitting_inv _ _ _ _ _ _ _ I Ep He E1) as (I1 & F1 & S1 & G1 & P1).
  destruct (x_finite X (x_wide X cut)); cbn [negb] in E2; [|discriminate].
  destruct (bind_ok _ _ _ _ _ E2) as [d2 [E3 E4]]. clear E2.
  destruct (process_nonemitting_inv _ _ _ _ _ _ I1 Hn E3) as [I2 (K1 & K2 & K3 & K4)].
  destruct (Z.eqb_spec (lenZ (d_toks d2)) 0) as [|NZ]; [discriminate|].
  assert (Ed : d' = with_frames d2 (d_frames d2 + 1)).
  { destruct (Z.rem (d_frames d2) 20 =? 0); cbn in E4; injection E4 as <-; [|reflexivity].
    destruct d2; reflexivity. }
  subst d'. cbn. 
  (* after a return in the middle the cutoff is not finite *)
  assert (NT : d_toks d2 <> []) by (intros Q0; rewrite Q0 in NZ; apply NZ; reflexivity).
  destruct P1 as [(P1 & T1 & _)|P1].
  - exfalso. apply NT. clear - T1 E3. unfold process_nonemitting in E3. rewrite T1 in E3. cbn in E3.
    destruct fuel; cbn in E3; congruence.
  - assert (P2 : d_prev d2 = []) by congruence.
    split; [constructor; [destruct I2; constructor; cbn; auto|exact P2]|].
    + rewrite P2. intros t [].
    + split; [congruence|]. split; [congruence|]. split; auto. eapply grows_trans; eauto.
Qed.

(** [Process] differs from that only in the nodes the collection frees. *)
Lemma process_split : forall fuel d logp d' coll, process O X cfg coll fuel d logp = Ok (d', true) ->
  exists d0, process O X cfg keep_all fuel d logp = Ok (d0, true) /\
    ((Z.rem (d_frames d0 - 1) 20 <> 0 /\ d' = d0) \/
     (Z.rem (d_frames d0 - 1) 20 = 0 /\
      exists h, coll (d_labels d0) (label_roots (d_toks d0)) = Ok h /\ d' = with_labels d0 h)).
Proof.
  intros fuel d logp d' coll E. unfold process in *.
  destruct (bind_ok _ _ _ _ _ E) as [[d1 cut] [E1 E2]]. clear E. rewrite E1. cbn [bind].
  destruct (negb (x_finite X (x_wide X cut))); [discriminate|].
  destruct (bind_ok _ _ _ _ _ E2) as [d2 [E3 E4]]. clear E2. rewrite E3. cbn [bind].
  destruct (lenZ (d_toks d2) =? 0); [discriminate|]. 
  destruct (Z.eqb_spec (Z.rem (d_frames d2) 20) 0) as [Zr|NZ].
  - inv_bind E4. inv_bind Hb. injection Hb as <-. injection E4 as <-. cbn [keep_all bind].
    eexists. split; [reflexivity|]. right. cbn. replace (d_frames d2 + 1 - 1) with (d_frames d2) by lia.
    split; auto. exists a0. split; auto.
  - cbn [bind] in *. injection E4 as <-. eexists. split; [reflexivity|]. left. cbn.
    replace (d_frames d2 + 1 - 1) with (d_frames d2) by lia. auto.
Qed.

Lemma collect_ready : forall Q d h, ready Q d -> gc_safe (d_labels d) (label_roots (d_toks d)) ->
  collector (d_labels d) (label_roots (d_toks d)) = Ok h -> ready Q (with_labels d h).
Proof.
  intros Q d h [[Ix Li Go At Ap] Ep] S E.
  destruct (gc_rep (d_labels d) (label_roots (d_toks d)) Li) as (h' & E' & Lh & Rh).
  - intros r J. unfold label_roots in J. apply in_flat_map in J. destruct J as (t & Jt & Jr).
    destruct (At t Jt) as (ws & R & _). destruct (k_olabel t) as [x|]; [|destruct Jr].
    destruct Jr as [->|[]]. eauto.
  - exact S.
  - unfold collector in E. rewrite E in E'. injection E' as <-.
    constructor; [constructor|]; cbn; auto.
    + intros t J. destruct (At t J) as (ws & R & HQ). exists ws. split; auto.
      destruct (k_olabel t) as [x|] eqn:Ex.
      * apply Rh; auto. unfold label_roots. apply in_flat_map. exists t. split; auto. rewrite Ex. now left.
      * inversion R; subst. constructor.
    + rewrite Ep. intros t [].
Qed.

Lemma process_ready : forall Q Q' fuel d logp d', ready Q d -> emit_ok logp Q Q' -> eps_ok Q' ->
  (Z.rem (d_frames d) 20 = 0 -> forall d0, process O X cfg keep_all fuel d logp = Ok (d0, true) ->
         gc_safe (d_labels d0) (label_roots (d_toks d0))) ->
  process O X cfg collector fuel d logp = Ok (d', true) ->
  ready Q' d' /\ d_frames d' = d_frames d + 1 /\ d_eos d' = d_eos d.
Proof.
  intros Q Q' fuel d logp d' R He Hn S E.
  destruct (process_split _ _ _ _ _ E) as (d0 & E0 & [[NZ ->]|(Zr & h & Eh & ->)]);
    destruct (process_before_gc _ _ _ _ _ _ R He Hn E0) as (R' & F' & S' & _); auto.
  rewrite F' in Zr. replace (d_frames d + 1 - 1) with (d_frames d) in Zr by lia.
  split; [|auto]. apply collect_ready; auto.
Qed.

Lemma run_paths : forall fuel frames d d' fs, ready (by_path fs) d ->
  collections_safe O X cfg fuel d frames ->
  process_all O X cfg collector fuel d frames = Ok (d', true) ->
  ready (by_path (rev frames ++ fs)) d' /\ d_frames d' = d_frames d + lenZ frames /\ d_eos d' = d_eos d.
Proof.
  intros fuel frames. induction frames as [|logp frames IH]; intros d d' fs R S E.
  - cbn in E. injection E as <-. cbn. split; auto. split; auto. lia.
  - cbn [process_all] in E. destruct (bind_ok _ _ _ _ _ E) as [[d1 ok] [E1 E2]]. clear E.
    destruct ok; [|discriminate]. destruct S as [S1 S2].
    destruct (process_ready _ _ _ _ _ _ R (by_path_emit fs logp) (by_path_eps _) S1 E1) as (R1 & F1 & O1).
    destruct (IH _ _ _ R1 (S2 _ E1) E2) as (R2 & F2 & O2).
    cbn [rev]. rewrite <- app_assoc. split; auto. split; [|congruence].
    rewrite F2, F1. unfold lenZ. cbn [length]. lia.
Qed.

End Frame.
