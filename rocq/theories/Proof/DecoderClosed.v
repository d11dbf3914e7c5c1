(** Proofs about the decoder: least costs, closedness under arcs without input
    label, termination of following them. *)
From Coq Require Import ZArith List Bool Lia Wellfounded Relations.
From Verif.Base Require Import Prelude ZMap Lemmas.
From Verif.Spec Require Import MapSpec PoolSpec GCSpec DecoderSpec.
From Verif.Model Require Import Arith Vector HashTable Pool OLabel Fst Decoder.
From Verif.Proof Require Import Loop HashTable HashTableTotal Pool GC OLabel DecoderBase Decoder.
Import ListNotations.
Open Scope Z_scope.

Section Closed.
Context {F D C : Type} (O : fops F) (X : xops F D) (cfg : config F C).
Context (wm : option (word_model F)) (good : C -> Prop).
Hypothesis Hlm : lm_implements (c_lm cfg) wm good.
Hypothesis Hlt : strict (f_lt O).

Notation tok := (token F).
Notation dec := (decoder F C).
Notation g := (c_graph cfg).
Notation dinv := (dinv good).
Notation eps_ok := (eps_ok O X cfg wm).
Notation emit_ok := (emit_ok O X cfg wm).
Notation acoustic := (acoustic O X (c_pdf cfg) (c_scale cfg)).

(** The beam holds a token of the state that is not worse than [c]. *)
Definition covers (toks : list tok) (s : state) (c : F) : Prop := covered O (view toks) s c.

Lemma in_view : forall toks s c, In (s, c) (view toks) <->
  exists t : tok, In t toks /\ k_state t = s /\ k_cost t = c.
Proof.
  intros toks s c. rewrite in_map_iff. split.
  - intros (t & E & J). injection E as E1 E2. eauto.
  - intros (t & J & E1 & E2). exists t. split; auto. congruence.
Qed.

Lemma view_fun : forall toks : list tok, NoDup (map k_state toks) -> forall s c c',
  In (s, c) (view toks) -> In (s, c') (view toks) -> c = c'.
Proof.
  induction toks as [|t r IH]; intros ND s c c' J J'; [destruct J|].
  inversion ND as [|? ? NI ND']; subst.
  assert (H : forall c, In (s, c) (view r) -> In s (map k_state r)).
  { intros x Jx. apply in_view in Jx. destruct Jx as (y & Jy & <- & _). now apply in_map. }
  destruct J as [E|J], J' as [E'|J'].
  - congruence.
  - injection E as E1 E2. exfalso. apply NI. rewrite E1. eauto.
  - injection E' as E1 E2. exfalso. apply NI. rewrite E1. eauto.
  - eapply IH; eauto.
Qed.

Lemma offer_covers : forall toks t toks' b s c, (toks', b) = offer (f_lt O) toks t ->
  covers toks s c -> covers toks' s c.
Proof.
  intros toks t toks' b s c E (c' & J & L). apply in_view in J. destruct J as (x & J & <- & <-).
  pose proof (offer_keeps (f_lt O) toks t x J) as H. rewrite <- E in H. cbn in H.
  destruct H as [H|(K & L' & Eb)].
  - exists (k_cost x). split; auto. apply in_view. eauto.
  - subst b. pose proof (offer_result (f_lt O) toks t) as R. rewrite <- E in R. cbn in R.
    exists (k_cost t). split; [apply in_view; eauto|].
    destruct (f_lt O c (k_cost t)) eqn:Lc; auto. destruct Hlt as [_ Tr]. rewrite (Tr _ _ _ Lc L') in L. discriminate.
Qed.

Lemma offer_covered : forall toks t toks' b, (toks', b) = offer (f_lt O) toks t ->
  covers toks' (k_state t) (k_cost t).
Proof.
  intros toks t toks' b E. pose proof (offer_result (f_lt O) toks t) as R. rewrite <- E in R. cbn in R.
  destruct b.
  - exists (k_cost t). split; [apply in_view; eauto|]. apply Hlt.
  - destruct R as [-> (x & J & K & L)]. exists (k_cost x). split; auto. apply in_view. eauto.
Qed.

Lemma offer_view : forall toks t toks' b s c, (toks', b) = offer (f_lt O) toks t ->
  In (s, c) (view toks') -> In (s, c) (view toks) \/ (s = k_state t /\ b = true).
Proof.
  intros toks t toks' b s c E J. apply in_view in J. destruct J as (x & J & <- & <-).
  pose proof (offer_in (f_lt O) toks t x) as H. rewrite <- E in H. cbn in H. destruct (H J) as [H'|[-> Hb]]; auto.
  left. apply in_view. eauto.
Qed.

Lemma offered_view : forall toks t toks' b, (toks', b) = offer (f_lt O) toks t ->
  view toks' = offered (f_lt O) (view toks) (k_state t) (k_cost t).
Proof.
  intros toks t. induction toks as [|x r IH]; intros toks' b E; cbn [offer] in E.
  - injection E as -> ->. reflexivity.
  - cbn [map offered]. destruct (state_eqb (k_state x) (k_state t)) eqn:Es.
    + apply state_eqb_spec in Es. destruct (f_lt O (k_cost t) (k_cost x)); injection E as -> ->; cbn [map]; congruence.
    + destruct (offer (f_lt O) r t) as [r' b'] eqn:Er. injection E as -> ->. cbn [map].
      rewrite (IH r' b'); auto.
Qed.

(** * Emission *)

(** Every arc with an input label of a token that is not above the weight
    cutoff is covered if its cost without the language model's weight is not
    above the cutoff [next]; and the cutoff is not above that cost plus the
    beam [ab], then. *)
Definition emitted (logp : list F) (ab : F) (next : D) (toks : list tok) (from : tok) (a : arc F) : Prop :=
  forall l' lw ac, input_label a <> 0 -> acoustic logp a ac ->
    lm_after O wm (snd (k_state from)) (output_label a) = (l', lw) ->
    let total := x_wide X (f_add O (f_add O (k_cost from) (weight a)) ac) in
    (x_lt X next total = false ->
     covers toks (next_state a, l') (x_narrow X (cost_after O X (k_cost from) (weight a) ac lw))) /\
    (x_lt X next total = true \/ x_lt X (x_add X total (x_wide X ab)) next = false).

(** The cutoff never rises. *)
Definition lower (n n' : D) : Prop := n' = n \/ x_lt X n' n = true.

Lemma lower_trans : strict (x_lt X) -> forall a b c, lower a b -> lower b c -> lower a c.
Proof.
  intros [_ Tr] a b c [->|H] [->|H']; unfold lower; auto. right. eapply Tr; eauto.
Qed.

Lemma emit_step : forall Qp Q logp ab from ws d next a d' next', strict (x_lt X) -> dinv Qp Q d -> emit_ok logp Qp Q ->
  rep (d_labels d) (k_olabel from) ws -> Qp (k_state from) (k_cost from) ws ->
  arc_from g (Datatypes.fst (k_state from)) a -> emit O X cfg logp ab from (d, next) a = Ok (d', next') ->
  dinv Qp Q d' /\ keeps d d' /\ lower next next' /\
  (forall s c, covers (d_toks d) s c -> covers (d_toks d') s c) /\ emitted logp ab next' (d_toks d') from a.
Proof.
  intros Qp Q logp ab from ws d next a d' next' Hx I HQ R HF Af E.
  destruct (k_state from) as [s l] eqn:K. cbn [Datatypes.fst] in *.
  destruct (emit_spec O X cfg wm good Hlm _ _ _ _ _ _ _ _ _ _ _ _ _ I HQ R K HF Af E) as (I' & Kp & H).
  split; auto. split; auto.
  destruct H as [(ET & -> & Z0)|(ac & NZ & Ac & H)].
  - rewrite ET. split; [now left|]. split; auto. intros l' lw ac NZ. contradiction.
  - cbv zeta in H. destruct H as [(Lt & ET & ->)|(Lt & En & t & l' & lw & b & El & Kt & Ct & Of)].
    + rewrite ET. split; [now left|]. split; auto. intros l' lw ac' _ Ac' _. cbv zeta.
      rewrite (acoustic_fun O X cfg _ _ _ _ Ac' Ac), Lt. split; [discriminate|auto].
    + split.
      { rewrite En. unfold lower. destruct (x_lt X (x_add X _ _) next) eqn:L; auto. }
      split; [intros; eapply offer_covers; eauto|].
      intros l'' lw' ac' _ Ac' El'. cbv zeta. rewrite K in El'. cbn [snd] in El'. rewrite El in El'. injection El' as <- <-.
      rewrite (acoustic_fun O X cfg _ _ _ _ Ac' Ac). split.
      * intros _. rewrite <- Kt, <- Ct. eapply offer_covered; eauto.
      * right. rewrite En. destruct (x_lt X (x_add X _ _) next) eqn:L; [|exact L]. apply Hx.
Qed.

Lemma emitted_mono : forall logp ab n n' toks toks' from a, strict (x_lt X) -> lower n n' ->
  (forall s c, covers toks s c -> covers toks' s c) ->
  emitted logp ab n toks from a -> emitted logp ab n' toks' from a.
Proof.
  intros logp ab n n' toks toks' from a [_ Tr] L M H l' lw ac NZ Ac El total.
  destruct (H l' lw ac NZ Ac El) as [H1 H2]. fold total in H1, H2. split.
  - intros Lt. apply M. apply H1.
    destruct L as [->|L]; auto. destruct (x_lt X n _) eqn:E; auto. rewrite (Tr _ _ _ L E) in Lt. discriminate.
  - destruct L as [->|L]; auto. destruct H2 as [H2|H2]; [left; eapply Tr; eauto|]. right.
    destruct (x_lt X (x_add X total (x_wide X ab)) n') eqn:E; auto. rewrite (Tr _ _ _ E L) in H2. discriminate.
Qed.

Lemma emit_all : forall Qp Q logp wc ab d next d' next', strict (x_lt X) ->
  dinv Qp Q d -> emit_ok logp Qp Q ->
  for_each (d_prev d) (emit_tok O X cfg logp wc ab) (d, next) = Ok (d', next') ->
  dinv Qp Q d' /\ keeps d d' /\ lower next next' /\
  (forall s c, covers (d_toks d) s c -> covers (d_toks d') s c) /\
  forall from a, In from (d_prev d) -> f_lt O wc (k_cost from) = false ->
    arc_from g (Datatypes.fst (k_state from)) a -> emitted logp ab next' (d_toks d') from a.
Proof.
  intros Qp Q logp wc ab d next d' next' Hx I HQ E.
  set (B := fun st : dec * D => dinv Qp Q (Datatypes.fst st) /\ keeps d (Datatypes.fst st) /\ lower next (snd st) /\
     (forall s c, covers (d_toks d) s c -> covers (d_toks (Datatypes.fst st)) s c)).
  set (P := fun (done : list tok) (st : dec * D) => B st /\
     forall from a, In from done -> f_lt O wc (k_cost from) = false ->
       arc_from g (Datatypes.fst (k_state from)) a -> emitted logp ab (snd st) (d_toks (Datatypes.fst st)) from a).
  cut (P (d_prev d) (d', next')); [intros [(I1 & K1 & L1 & M1) H]; auto 10|].
  eapply (for_each_ok_done _ _ P); [| |exact E].
  - split; [|intros from a []]. split; [exact I|]. split; [apply keeps_refl|]. split; [now left|auto].
  - intros done [d1 n1] from [d2 n2] J (HB & H1) E1. unfold emit_tok in E1.
    destruct (f_lt O wc (k_cost from)) eqn:Lt.
    { injection E1 as <- <-. split; auto. intros f a Jf. apply in_app_or in Jf. destruct Jf as [Jf|[<-|[]]]; auto. congruence. }
    inv_bind E1.
    set (PP := fun (da : list (arc F)) (st : dec * D) => B st /\
      (forall f a, In f done -> f_lt O wc (k_cost f) = false ->
         arc_from g (Datatypes.fst (k_state f)) a -> emitted logp ab (snd st) (d_toks (Datatypes.fst st)) f a) /\
      (forall a, In a da -> emitted logp ab (snd st) (d_toks (Datatypes.fst st)) from a)).
    assert (HP : PP a (d2, n2)).
    { eapply (for_each_ok_done _ _ PP); [| |exact E1].
      - split; [auto|]. split; [auto|intros x []].
      - intros da [d3 n3] x [d4 n4] Jx ((I3 & K3 & L3 & M3) & H3 & H4) E3. cbn [Datatypes.fst snd] in *.
        pose proof (graph_arcs_from _ _ _ _ Hb Jx) as Af.
        pose proof K3 as (EP & _). pose proof (di_prev _ _ _ _ I3) as AP. rewrite EP in AP.
        destruct (AP from J) as (ws & R & HF).
        destruct (emit_step _ _ _ _ _ _ _ _ _ _ _ Hx I3 HQ R HF Af E3) as (I4 & K4 & L4 & M4 & Em).
        split; [|split].
        + split; auto. split; [eapply keeps_trans; eauto|]. split; [eapply lower_trans; eauto|]. cbn. auto.
        + intros f y Jf Lf Ay. eapply emitted_mono; eauto.
        + intros y Jy. apply in_app_or in Jy. destruct Jy as [Jy|[<-|[]]]; auto.
          eapply emitted_mono; eauto. }
    destruct HP as (HB2 & H2 & H3). split; auto.
    intros f y Jf Lf Ay. apply in_app_or in Jf. destruct Jf as [Jf|[<-|[]]]; auto.
    apply H3. eapply from_graph_arcs; eauto.
Qed.

Lemma process_emitting_emits : forall Qp Q Q' logp d d' cut, strict (x_lt X) ->
  dinv Qp Q d -> d_prev d = [] -> emit_ok logp Q Q' ->
  process_emitting O X cfg d logp = Ok (d', cut) ->
  exists cutoff ab bt, get_cutoff O X cfg (d_toks d) = Ok (cutoff, ab, bt) /\
    (f_finite O (x_narrow X cutoff) = false /\ d' = swapped d /\ cut = f_inf O \/
     f_finite O (x_narrow X cutoff) = true /\ exists next, cut = x_narrow X next /\ d_prev d' = [] /\
       forall from a, In from (d_toks d) -> f_lt O (x_narrow X cutoff) (k_cost from) = false ->
         arc_from g (Datatypes.fst (k_state from)) a -> emitted logp ab next (d_toks d') from a).
Proof.
  intros Qp Q Q' logp d d' cut Hx I Ep HQ E. unfold process_emitting in E. fold (swapped d) in E.
  pose proof (swapped_inv good Qp Q Q' d I Ep) as Is.
  destruct (bind_ok _ _ _ _ _ E) as [[[cutoff ab] bt] [Ec E1]]. clear E. cbv zeta in E1.
  exists cutoff, ab, bt. split; [exact Ec|].
  destruct (f_finite O (x_narrow X cutoff)); cbn [negb] in E1.
  2:{ injection E1 as <- <-. left. auto. }
  right. split; auto. inv_bind E1. inv_bind E1.
  destruct (bind_ok _ _ _ _ _ E1) as [[d1 n1] [El E2]]. clear E1. injection E2 as <- <-.
  destruct (emit_all Q Q' logp _ _ _ _ _ _ Hx Is HQ El) as (_ & _ & _ & _ & Em).
  exists n1. split; [reflexivity|]. split; [reflexivity|]. exact Em.
Qed.

(** * Arcs without input label *)
Definition eps_done (cutoff : D) (toks : list tok) (s l : Z) (a : arc F) : Prop :=
  forall c l' lw, In ((s, l), c) (view toks) -> input_label a = 0 ->
    lm_after O wm l (output_label a) = (l', lw) ->
    let total := cost_after O X c (weight a) (f_zero O) lw in
    x_lt X cutoff total = true \/ covers toks (next_state a, l') (x_narrow X total).

Lemma eps_done_offer : forall cutoff toks t toks' b s l a, (toks', b) = offer (f_lt O) toks t ->
  (s, l) <> k_state t \/ b = false -> eps_done cutoff toks s l a -> eps_done cutoff toks' s l a.
Proof.
  intros cutoff toks t toks' b s l a E NE H c l' lw J Z0 El. cbv zeta.
  destruct (offer_view _ _ _ _ _ _ E J) as [J'|[E' Hb]].
  - destruct (H c l' lw J' Z0 El) as [H1|H1]; auto. right. eapply offer_covers; eauto.
  - destruct NE; congruence.
Qed.

(** Everything but the states in the queue is done. *)
Definition done_but (cutoff : D) (toks : list tok) (queue : list state) : Prop :=
  forall s l, In (s, l) (map k_state toks) -> In (s, l) queue \/
    forall a, arc_from g s a -> eps_done cutoff toks s l a.

Lemma nonemitting_closed : forall Qp Q fuel cutoff d queue d', dinv Qp Q d -> eps_ok Q ->
  done_but cutoff (d_toks d) queue ->
  nonemitting_loop O X cfg fuel cutoff d queue = Ok d' -> 
  done_but cutoff (d_toks d') [] /\ (forall s c, covers (d_toks d) s c -> covers (d_toks d') s c).
Proof.
  intros Qp Q fuel cutoff. induction fuel as [|fuel IH]; intros d queue d' I HQ Hd E.
  - destruct queue; [|discriminate]. cbn in E. injection E as <-. auto.
  - destruct queue as [|[s l] queue]; [cbn in E; injection E as <-; auto|].
    cbn [nonemitting_loop Datatypes.fst] in E. inv_bind E. inv_bind E. inv_bind E.
    destruct (bind_ok _ _ _ _ _ E) as [[d1 q1] [El E1]]. clear E. apply check_ok in Hb0.
    apply idx_find_ok in Hb.
    destruct (find_state _ _ _ _ (di_ix _ _ _ _ I) Hb) as [[-> _]|[NE (t & G & K)]]; [discriminate|].
    set (P := fun (da : list (arc F)) (st : dec * list state) => 
       let d1 := Datatypes.fst st in let q1 := snd st in
       dinv Qp Q d1 /\ (exists t, getZ (d_toks d1) a = Ok t /\ k_state t = (s, l)) /\
       (forall s c, covers (d_toks d) s c -> covers (d_toks d1) s c) /\
       (In (s, l) q1 \/ forall x, In x da -> eps_done cutoff (d_toks d1) s l x) /\
       (forall s' l', (s', l') <> (s, l) -> In (s', l') (map k_state (d_toks d1)) -> In (s', l') q1 \/
          forall x, arc_from g s' x -> eps_done cutoff (d_toks d1) s' l' x)).
    assert (PP : P a1 (d1, q1)).
    { eapply (for_each_ok_done _ _ P); [| |exact El].
      - split; [exact I|]. split; [exists t; auto|]. split; [auto|]. split; [right; intros x []|].
        intros s' l' N J. destruct (Hd s' l' J) as [[E|J']|H]; auto. congruence.
      - intros da [d2 q2] x [d3 q3] J (I2 & (t2 & G2 & S2) & M2 & C2 & O2) Er. cbn [Datatypes.fst snd] in *.
        pose proof (graph_arcs_from _ _ _ _ Hb1 J) as Af.
        destruct (relax_spec O X cfg wm good Hlm _ _ _ _ _ _ _ _ _ _ _ I2 HQ (ex_intro _ t2 (conj G2 S2)) Af Er)
          as (I3 & K3 & [(ET & -> & Hn)|(from & t3 & l' & lw & b & Gf & Z0 & Elm & Kt & Ct & Lt & Of & Eq)]).
        + unfold P. cbn [Datatypes.fst snd]. rewrite ET. split; auto. split; [eauto|]. split; auto. split; auto.
          destruct C2 as [C2|C2]; auto. right. intros y Jy. apply in_app_or in Jy. destruct Jy as [Jy|[<-|[]]]; auto.
          intros c l' lw Jc Z0 Elm. cbv zeta. destruct Hn as [Hn|(t4 & l4 & lw4 & G4 & S4 & El4 & L4)]; [contradiction|].
          left. rewrite Elm in El4. injection El4 as <- <-.
          assert (c = k_cost t4) as ->; auto.
          eapply view_fun; [apply (ix_nodup _ _ (di_ix _ _ _ _ I2))|exact Jc|].
          apply in_view. exists t4. split; [eapply getZ_in; eauto|auto].
        + unfold P. cbn [Datatypes.fst snd]. split; auto.
          split; [destruct (getZ_offer _ _ _ _ _ _ _ Of G2) as (y & Gy & Ky); exists y; split; auto; congruence|].
          split; [intros; eapply offer_covers; eauto|].
          assert (Rq : forall z, In z q2 -> In z q3) by (intros z Jz; rewrite Eq; destruct b; [now right|auto]).
          assert (Rt : b = true -> In (k_state t3) q3) by (intros ->; rewrite Eq; now left).
          assert (Dec : forall z : state, z = k_state t3 /\ b = true \/ (z <> k_state t3 \/ b = false)).
          { intros z. destruct b; [|auto]. destruct (state_eqb z (k_state t3)) eqn:Ez.
            - left. apply state_eqb_spec in Ez. auto.
            - right. left. intros Q0. apply state_eqb_spec in Q0. congruence. }
          split.
          * destruct C2 as [C2|C2]; [auto|]. destruct (Dec (s, l)) as [[Ez Eb]|Nz]; [left; rewrite Ez; auto|].
            right. intros y Jy. apply in_app_or in Jy. destruct Jy as [Jy|[<-|[]]].
            -- eapply eps_done_offer; eauto.
            -- intros c l'' lw' Jc _ Elm'. cbv zeta. right. rewrite Elm in Elm'. injection Elm' as <- <-.
               assert (Jc' : In (s, l, c) (view (d_toks d2))).
               { destruct (offer_view _ _ _ _ _ _ Of Jc) as [|[E' Hb']]; auto. destruct Nz; congruence. }
               assert (c = k_cost from) as ->.
               { eapply view_fun; [apply (ix_nodup _ _ (di_ix _ _ _ _ I2))|exact Jc'|].
                 rewrite G2 in Gf. injection Gf as <-. apply in_view. exists t2. split; [eapply getZ_in; eauto|auto]. }
               rewrite <- Ct, <- Kt. eapply offer_covered; eauto.
          * intros s' l'' N Js. destruct (Dec (s', l'')) as [[Ez Eb]|Nz]; [left; rewrite Ez; auto|].
            assert (Js' : In (s', l'') (map k_state (d_toks d2))).
            { apply in_map_iff in Js. destruct Js as (y & Ky & Jy).
              destruct (offer_view (d_toks d2) t3 (d_toks d3) b (s', l'') (k_cost y) Of) as [J'|[E' Hb']].
              - apply in_view. eauto.
              - apply in_view in J'. destruct J' as (z & Jz & <- & _). now apply in_map.
              - destruct Nz; congruence. }
            destruct (O2 s' l'' N Js') as [H|H]; auto. right. intros y Ay. eapply eps_done_offer; eauto. }
    destruct PP as (I1 & _ & M1 & C1 & O1). cbn [Datatypes.fst snd] in *.
    destruct (IH d1 q1 d' I1 HQ) as [H1 H2]; auto.
    intros s' l' J. destruct (state_eqb (s', l') (s, l)) eqn:Es.
    + apply state_eqb_spec in Es. injection Es as -> ->. destruct C1 as [C1|C1]; auto. right.
      intros x Ax. apply C1. eapply from_graph_arcs; eauto.
    + apply O1; auto. intros Q0. apply state_eqb_spec in Q0. congruence.
Qed.

Lemma process_nonemitting_closed : forall Qp Q fuel cutoff d d', dinv Qp Q d -> eps_ok Q ->
  process_nonemitting O X cfg fuel d cutoff = Ok d' -> 
  closed O X g wm cutoff (view (d_toks d')) /\ (forall s c, covers (d_toks d) s c -> covers (d_toks d') s c).
Proof.
  intros Qp Q fuel cutoff d d' I HQ E. unfold process_nonemitting in E. inv_bind E.
  assert (Hd : done_but cutoff (d_toks d) (rev (map k_state (d_toks d)))).
  { intros s l J. left. now apply -> in_rev. }
  destruct (nonemitting_closed _ _ _ _ _ _ _ I HQ Hd E) as [H M]. split; auto.
  intros s l c x l' lw J Ax Z0 El. cbv zeta.
  assert (Js : In (s, l) (map k_state (d_toks d'))).
  { apply in_view in J. destruct J as (t & J & <- & _). now apply in_map. }
  destruct (H s l Js) as [[]|Hs]. destruct (Hs x Ax c l' lw J Z0 El) as [|(c' & Jc & Lc)]; eauto.
Qed.

(** * Termination *)

(** Not an exhausted loop bound. *)
Definition runs {A} (r : res A) : Prop := r <> Fault Fuel.

Lemma runs_bind : forall A B (r : res A) (k : A -> res B), runs r -> (forall x, r = Ok x -> runs (k x)) ->
  runs (x <- r ;; k x).
Proof.
  intros A B [x|f] k H1 H2; cbn; auto. intros E. apply H1. unfold runs in *. congruence.
Qed.

Lemma runs_ok : forall A (x : A), runs (Ok x).
Proof. discriminate. Qed.

Lemma runs_check : forall b f, f <> Fuel -> runs (check b f).
Proof. intros [] f H; unfold check, runs; congruence. Qed.

Lemma runs_getZ : forall A (l : list A) i, runs (getZ l i).
Proof. intros A l i. unfold getZ, runs. destruct (i <? 0); [discriminate|]. destruct (nth_error _ _); discriminate. Qed.

Lemma runs_setZ : forall A (l : list A) i x, runs (setZ l i x).
Proof. intros A l i x. unfold setZ, runs. destruct (_ || _); discriminate. Qed.

Lemma runs_for_each : forall S I (P : S -> Prop) (is : list I) (body : S -> I -> res S) s,
  P s -> (forall s i s', In i is -> P s -> body s i = Ok s' -> P s') ->
  (forall s i, In i is -> P s -> runs (body s i)) -> runs (for_each is body s).
Proof.
  intros S I P is. induction is as [|i is IH]; intros body s Ps H1 H2; cbn [for_each]; [apply runs_ok|].
  apply runs_bind; [apply H2; auto; now left|]. intros s' E. apply IH.
  - eapply H1; eauto. now left.
  - intros s0 j s1 J. apply H1. now right.
  - intros s0 j J. apply H2. now right.
Qed.

Section Probe.
Context {K V : Type} (keq : K -> K -> bool) (hash : K -> Z).
Lemma runs_probe : forall fuel (slots : zmap (K * V)) size h k i, 65536 < i + Z.of_nat fuel ->
  i <= 65536 -> runs (probe keq fuel slots size h k i).
Proof.
  induction fuel as [|fuel IH]; intros slots size h k i H Hi; cbn [probe].
  - lia.
  - apply runs_bind; [apply runs_check; discriminate|]. intros u Ei. apply check_ok in Ei. apply Z.ltb_lt in Ei.
    cbv zeta. apply runs_bind; [apply runs_check; discriminate|]. intros _ _.
    assert (Hp : forall a b c d, runs (probe_index a b c d)).
    { intros. unfold probe_index. cbv zeta. apply runs_bind; [apply runs_check; discriminate|]. intros _ _. apply runs_ok. }
    apply runs_bind; [apply Hp|]. intros j _. destruct (stops_at _ _ _ _); [apply runs_ok|].
    apply runs_bind; [apply Hp|]. intros j' _. destruct (stops_at _ _ _ _); [apply runs_ok|].
    apply IH; lia.
Qed.

Lemma runs_lookup : forall (slots : zmap (K * V)) size k, runs (lookup keq hash slots size k).
Proof. intros. apply runs_probe; [|lia]. unfold probe_fuel. rewrite Z2Nat.id; lia. Qed.

Lemma runs_find : forall (t : table K V) k d, runs (find keq hash t k d).
Proof.
  intros t k d. unfold find. apply runs_bind; [apply runs_lookup|]. intros i _.
  destruct (zget _ _) as [[k' v]|]; [|apply runs_ok].
  apply runs_bind; [apply runs_check; discriminate|]. intros _ _. apply runs_ok.
Qed.

Lemma runs_rehash : forall idxs (old new : zmap (K * V)) n, runs (rehash keq hash idxs old new n).
Proof.
  induction idxs as [|i r IH]; intros old new n; cbn [rehash]; [apply runs_ok|].
  destruct (zget old i) as [[k v]|]; auto.
  apply runs_bind; [apply runs_lookup|]. intros j _.
  apply runs_bind; [apply runs_check; discriminate|]. intros _ _. apply IH.
Qed.

Lemma runs_insert : forall (t : table K V) k v, runs (insert keq hash t k v).
Proof.
  intros t k v. unfold insert. apply runs_bind.
  - destruct (_ <? _); [|apply runs_ok]. unfold extend. apply runs_bind; [apply runs_getZ|]. intros n _.
    apply runs_bind; [apply runs_rehash|]. intros s _. apply runs_ok.
  - intros t1 _. apply runs_bind; [apply runs_lookup|]. intros i _.
    destruct (zget _ _) as [[k' v']|]; [|apply runs_ok].
    apply runs_bind; [apply runs_check; discriminate|]. intros _ _. apply runs_ok.
Qed.
End Probe.

Lemma runs_deref : forall T (h : zmap (node T)) a, runs (deref h a).
Proof. intros T h a. unfold deref. destruct (zget h a); discriminate. Qed.

Lemma runs_child : forall B h p l, runs (child B h p l).
Proof.
  intros B h p l. unfold child. apply runs_bind.
  - destruct p; [|apply runs_ok]. apply runs_bind; [apply runs_deref|]. intros n _. apply runs_ok.
  - intros [a|] _; [apply runs_ok|]. apply runs_bind.
    + unfold galloc. apply runs_bind.
      * unfold alloc. destruct (p_free _); [|apply runs_ok].
        apply runs_bind; [apply runs_check; discriminate|]. intros _ _. cbv zeta.
        apply runs_bind; [apply runs_check; discriminate|]. intros _ _. apply runs_ok.
      * intros [q x] _. apply runs_ok.
    + intros [q x] _. destruct p; [|apply runs_ok].
      apply runs_bind; [apply runs_deref|]. intros n _. apply runs_ok.
Qed.

Lemma runs_idx_find : forall t s, runs (idx_find t s).
Proof. intros t s. unfold idx_find. apply runs_bind; [apply runs_check; discriminate|]. intros _ _. apply runs_find. Qed.

Lemma runs_insert_tok : forall (d : dec) s l p c, runs (insert_tok O d s l p c).
Proof.
  intros d s l p c. unfold insert_tok. apply runs_bind; [apply runs_idx_find|]. intros i _.
  apply runs_bind.
  - destruct (l =? 0); [apply runs_ok|]. apply runs_bind; [apply runs_child|]. intros [h x] _. apply runs_ok.
  - intros [h q] _. cbv zeta. destruct (_ =? _).
    + apply runs_bind; [|intros t _; apply runs_ok]. unfold idx_insert.
      apply runs_bind; [apply runs_check; discriminate|]. intros _ _. apply runs_insert.
    + apply runs_bind; [apply runs_getZ|]. intros o _. destruct (f_lt O c _); [|apply runs_ok].
      apply runs_bind; [apply runs_setZ|]. intros t _. apply runs_ok.
Qed.

Hypothesis Hruns : forall m c s x, c_lm cfg = Some m -> good c -> runs (lm_arc m c s x).

Lemma runs_relax : forall Qp Q cutoff i d queue a, dinv Qp Q d -> runs (relax O X cfg cutoff i (d, queue) a).
Proof.
  intros Qp Q cutoff i d queue a I. unfold relax. destruct (negb _); [apply runs_ok|].
  apply runs_bind; [apply runs_getZ|]. intros from _. cbv zeta. apply runs_bind.
  - unfold compose. destruct (c_lm cfg) as [m|] eqn:Em; [|apply runs_ok].
    apply runs_bind; [|intros [[l' w] c] _; apply runs_ok].
    unfold propogate_lm. destruct (_ =? 0); [apply runs_ok|].
    apply runs_bind; [apply Hruns; auto; exact (di_good _ _ _ _ I)|]. intros [r c] _. apply runs_ok.
  - intros [[d1 l1] t1] _. destruct (x_lt X cutoff t1); [apply runs_ok|].
    apply runs_bind; [apply runs_insert_tok|]. intros [d2 b] _. apply runs_ok.
Qed.

(** The cost of a state in the beam. *)
Fixpoint cost_at (toks : list tok) (s : state) : option F :=
  match toks with
  | [] => None
  | t :: r => if state_eqb (k_state t) s then Some (k_cost t) else cost_at r s
  end.

(** No token is worse than any. *)
Definition drop (a b : option F) : Prop :=
  match a, b with
  | Some x, Some y => f_lt O x y = true
  | Some _, None => True
  | None, _ => False
  end.

Lemma cost_at_offer : forall toks t toks' b s, (toks', b) = offer (f_lt O) toks t ->
  cost_at toks' s = if state_eqb (k_state t) s && b then Some (k_cost t) else cost_at toks s.
Proof.
  intros toks t. induction toks as [|x r IH]; intros toks' b s E; cbn [offer] in E.
  - injection E as -> ->. cbn. rewrite andb_true_r. reflexivity.
  - cbn [cost_at]. destruct (state_eqb (k_state x) (k_state t)) eqn:Es.
    + apply state_eqb_spec in Es. destruct (f_lt O (k_cost t) (k_cost x)); injection E as -> ->; cbn [cost_at].
      * rewrite Es, andb_true_r. destruct (state_eqb (k_state t) s); reflexivity.
      * rewrite andb_false_r. reflexivity.
    + destruct (offer (f_lt O) r t) as [r' b'] eqn:Er. injection E as -> ->. cbn [cost_at].
      destruct (state_eqb (k_state x) s) eqn:Ex.
      * apply state_eqb_spec in Ex. subst s. destruct (state_eqb (k_state t) (k_state x)) eqn:Et; [|reflexivity].
        apply state_eqb_spec in Et. rewrite Et, state_eqb_refl in Es. discriminate.
      * apply IH. reflexivity.
Qed.

Lemma offer_drop : forall toks t toks', (toks', true) = offer (f_lt O) toks t ->
  drop (Some (k_cost t)) (cost_at toks (k_state t)).
Proof.
  intros toks t. induction toks as [|x r IH]; intros toks' E; cbn [offer] in E; cbn [cost_at]; [exact I|].
  destruct (state_eqb (k_state x) (k_state t)) eqn:Es.
  - destruct (f_lt O (k_cost t) (k_cost x)) eqn:L; [exact L|discriminate].
  - destruct (offer (f_lt O) r t) as [r' b'] eqn:Er. injection E as -> Eb. subst b'. eapply IH; eauto.
Qed.

(** One coordinate drops. *)
Inductive drops : list (option F) -> list (option F) -> Prop :=
| drops_here : forall a b v, drop a b -> drops (a :: v) (b :: v)
| drops_later : forall a v w, drops v w -> drops (a :: v) (a :: w).

Lemma drop_wf : well_founded (fun x y => f_lt O x y = true) -> well_founded drop.
Proof.
  intros W. assert (H : forall x, Acc drop (Some x)).
  { intros x. induction (W x) as [x _ IH]. constructor. intros [y|] Hy; [|destruct Hy]. apply IH. exact Hy. }
  intros [x|]; auto. constructor. intros [y|] Hy; [auto|destruct Hy].
Qed.

Lemma drops_wf : well_founded (fun x y => f_lt O x y = true) -> well_founded drops.
Proof.
  intros W v. induction v as [|a v IHv].
  - constructor. intros w Hw. inversion Hw.
  - revert a. induction IHv as [v _ IHv]. intros a. induction (drop_wf W a) as [a _ IHa].
    constructor. intros w Hw. inversion Hw; subst; auto.
Qed.

Notation measure S toks := (map (cost_at toks) S).

Lemma measure_drops : forall S toks t toks', NoDup S -> In (k_state t) S ->
  (toks', true) = offer (f_lt O) toks t -> drops (measure S toks') (measure S toks).
Proof.
  intros S toks t toks' ND J E.
  assert (Hc : forall s, cost_at toks' s = if state_eqb (k_state t) s then Some (k_cost t) else cost_at toks s).
  { intros s. rewrite (cost_at_offer _ _ _ _ s E), andb_true_r. reflexivity. }
  induction S as [|s S IH]; [destruct J|]. inversion ND as [|? ? NI ND']; subst. cbn [map].
  destruct J as [->|J].
  - assert (Eq : map (cost_at toks') S = map (cost_at toks) S).
    { apply map_ext_in. intros y Jy. rewrite Hc. destruct (state_eqb (k_state t) y) eqn:Ey; auto.
      apply state_eqb_spec in Ey. subst y. contradiction. }
    rewrite Eq. apply drops_here. rewrite Hc, state_eqb_refl. eapply offer_drop; eauto.
  - rewrite Hc. destruct (state_eqb (k_state t) s) eqn:Ey.
    + apply state_eqb_spec in Ey. subst s. contradiction.
    + apply drops_later. auto.
Qed.

Lemma measure_same : forall S toks t toks', (toks', false) = offer (f_lt O) toks t ->
  measure S toks' = measure S toks.
Proof.
  intros S toks t toks' E. apply map_ext. intros s. rewrite (cost_at_offer _ _ _ _ s E), andb_false_r. reflexivity.
Qed.

Lemma nonemitting_terminates : forall Qp S cutoff, well_founded (fun x y => f_lt O x y = true) -> NoDup S ->
  eps_ok (fun s _ _ => In s S) -> forall v, Acc (clos_trans _ drops) v ->
  forall queue d, measure S (d_toks d) = v -> dinv Qp (fun s _ _ => In s S) d ->
  exists fuel, runs (nonemitting_loop O X cfg fuel cutoff d queue).
Proof.
  intros Qp S cutoff W ND HQ v A. induction A as [v _ IHA]. intros queue.
  induction queue as [|[s l] queue IHq]; intros d Ev I.
  { exists 0%nat. discriminate. }
  set (Q := fun (s : state) (_ : F) (_ : list Z) => In s S) in *.
  assert (Fault1 : forall r : res dec, (forall fuel, nonemitting_loop O X cfg (Datatypes.S fuel) cutoff d ((s, l) :: queue) = r) ->
     runs r -> exists fuel, runs (nonemitting_loop O X cfg fuel cutoff d ((s, l) :: queue))).
  { intros r H R. exists 1%nat. rewrite H. exact R. }
  pose proof (runs_idx_find (d_idx d) (s, l)) as R1.
  destruct (idx_find (d_idx d) (s, l)) as [i|f] eqn:Ef.
  2:{ apply (Fault1 (Fault f)); [|intros Q0; apply R1; congruence]. intros fuel. cbn [nonemitting_loop]. rewrite Ef. reflexivity. }
  destruct (negb (i =? kNotExist)) eqn:Ei.
  2:{ apply (Fault1 (Fault Assert)); [|discriminate]. intros fuel. cbn [nonemitting_loop]. rewrite Ef. cbn [bind]. rewrite Ei. reflexivity. }
  assert (R2 : runs (graph_arcs cfg s)).
  { unfold graph_arcs. apply runs_bind; [apply runs_getZ|]. intros x _. apply runs_ok. }
  destruct (graph_arcs cfg s) as [arcs|f] eqn:Ea.
  2:{ apply (Fault1 (Fault f)); [|intros Q0; apply R2; congruence]. intros fuel. cbn [nonemitting_loop Datatypes.fst]. rewrite Ef. cbn [bind]. rewrite Ei. cbn [check bind]. rewrite Ea. reflexivity. }
  assert (G : exists t, getZ (d_toks d) i = Ok t /\ k_state t = (s, l)).
  { apply idx_find_ok in Ef. destruct (find_state _ _ _ _ (di_ix _ _ _ _ I) Ef) as [[-> _]|[_ H]]; [discriminate|exact H]. }
  set (P := fun st : dec * list state => dinv Qp Q (Datatypes.fst st) /\
       (exists t, getZ (d_toks (Datatypes.fst st)) i = Ok t /\ k_state t = (s, l)) /\
       ((measure S (d_toks (Datatypes.fst st)) = v /\ snd st = queue) \/
        clos_trans _ drops (measure S (d_toks (Datatypes.fst st))) v)).
  assert (P0 : P (d, queue)) by (split; [exact I|]; split; [exact G|]; left; auto).
  assert (Ps : forall st x st', In x arcs -> P st -> relax O X cfg cutoff i st x = Ok st' -> P st').
  { intros [d2 q2] x [d3 q3] J (I2 & (t2 & G2 & S2) & H2) Er. cbn [Datatypes.fst snd] in *.
    pose proof (graph_arcs_from _ _ _ _ Ea J) as Af.
    destruct (relax_spec O X cfg wm good Hlm _ _ _ _ _ _ _ _ _ _ _ I2 HQ (ex_intro _ t2 (conj G2 S2)) Af Er)
      as (I3 & K3 & [(ET & -> & Hn)|(from & t3 & l' & lw & b & Gf & Z0 & Elm & Kt & Ct & Lt & Of & Eq)]).
    - unfold P. cbn [Datatypes.fst snd]. rewrite ET. split; auto. split; [eauto|]. auto.
    - unfold P. cbn [Datatypes.fst snd]. split; auto.
      split; [destruct (getZ_offer _ _ _ _ _ _ _ Of G2) as (y & Gy & Ky); exists y; split; auto; congruence|].
      destruct b.
      + right. assert (Js : In (k_state t3) S).
        { assert (Jt : In t3 (d_toks d3)).
          { pose proof (offer_result (f_lt O) (d_toks d2) t3) as R. rewrite <- Of in R. exact R. }
          destruct (di_toks _ _ _ _ I3 t3 Jt) as (ws & _ & H). exact H. }
        pose proof (measure_drops S _ _ _ ND Js Of) as Dr.
        destruct H2 as [[E2 _]|H2].
        * rewrite E2 in Dr. now apply t_step.
        * eapply t_trans; [apply t_step; exact Dr|exact H2].
      + subst q3. rewrite (measure_same S _ _ _ Of). exact H2. }
  assert (R3 : runs (for_each arcs (relax O X cfg cutoff i) (d, queue))).
  { apply (runs_for_each _ _ P); auto. intros [d2 q2] x J (I2 & _). eapply runs_relax; eauto. }
  destruct (for_each arcs (relax O X cfg cutoff i) (d, queue)) as [[d1 q1]|f] eqn:El.
  2:{ apply (Fault1 (Fault f)); [|intros Q0; apply R3; congruence]. intros fuel. cbn [nonemitting_loop Datatypes.fst]. rewrite Ef. cbn [bind]. rewrite Ei. cbn [check bind]. rewrite Ea. cbn [bind]. rewrite El. reflexivity. }
  destruct (for_each_ok _ _ P _ _ _ _ P0 Ps El) as (I1 & _ & H1). cbn [Datatypes.fst snd] in *.
  assert (Hf : exists fuel, runs (nonemitting_loop O X cfg fuel cutoff d1 q1)).
  { destruct H1 as [[E1 ->]|H1]; [apply IHq; auto|]. eapply IHA; eauto. }
  destruct Hf as [fuel Hf]. exists (Datatypes.S fuel). cbn [nonemitting_loop Datatypes.fst]. rewrite Ef. cbn [bind]. rewrite Ei. cbn [check bind]. rewrite Ea. cbn [bind].
  rewrite El. exact Hf.
Qed.

(** More fuel changes nothing. *)
Lemma nonemitting_fuel : forall fuel cutoff (d : dec) queue r, nonemitting_loop O X cfg fuel cutoff d queue = r -> runs r ->
  forall fuel', (fuel <= fuel')%nat -> nonemitting_loop O X cfg fuel' cutoff d queue = r.
Proof.
  induction fuel as [|fuel IH]; intros cutoff d queue r E R fuel' Hf.
  - destruct queue; cbn in E; [destruct fuel'; cbn; auto|]. subst r. exfalso. apply R. reflexivity.
  - destruct fuel' as [|fuel']; [lia|]. destruct queue as [|s queue]; [cbn in *; auto|].
    cbn [nonemitting_loop] in *.
    destruct (idx_find (d_idx d) s); cbn [bind] in *; auto.
    destruct (check _ _); cbn [bind] in *; auto.
    destruct (graph_arcs _ _); cbn [bind] in *; auto.
    destruct (for_each _ _ _) as [[d1 q1]|]; cbn [bind] in *; auto.
    eapply IH; eauto. lia.
Qed.

(** The graph states that arcs lead to. *)
Definition heads : list Z := flat_map (fun st => map next_state (snd st)) (g_states g).

Lemma head_of : forall s a, arc_from g s a -> In (next_state a) heads.
Proof.
  intros s a (_ & f & l & E & J). unfold heads. apply in_flat_map. exists (f, l). split.
  - eapply nth_error_In; eauto.
  - now apply in_map.
Qed.

Lemma state_dec : forall a b : state, {a = b} + {a <> b}.
Proof. intros a b. destruct (state_eqb a b) eqn:E; [left|right]; [now apply state_eqb_spec|intros Q0; apply state_eqb_spec in Q0; congruence]. Qed.

Lemma process_nonemitting_terminates : forall Qp Q cutoff d ls, well_founded (fun x y => f_lt O x y = true) ->
  (forall l x, In l ls -> In (Datatypes.fst (lm_after O wm l x)) ls) ->
  (forall t, In t (d_toks d) -> In (snd (k_state t)) ls) -> dinv Qp Q d ->
  exists fuel, runs (process_nonemitting O X cfg fuel d cutoff) /\
    forall fuel', (fuel <= fuel')%nat -> process_nonemitting O X cfg fuel' d cutoff = process_nonemitting O X cfg fuel d cutoff.
Proof.
  intros Qp Q cutoff d ls W Cl Ts [Ix Li Go At Ap].
  set (S := nodup state_dec (list_prod (map (fun t => Datatypes.fst (k_state t)) (d_toks d) ++ heads) ls)).
  assert (HS : forall s l, In (s, l) S <-> (In s (map (fun t : tok => Datatypes.fst (k_state t)) (d_toks d)) \/ In s heads) /\ In l ls).
  { intros s l. unfold S. rewrite nodup_In, in_prod_iff, in_app_iff. reflexivity. }
  assert (HQ : eps_ok (fun s _ _ => In s S)).
  { intros s l c ws a l' lw J Af Z0 El. apply HS in J. destruct J as [_ J]. apply HS. split.
    - right. eapply head_of; eauto.
    - specialize (Cl l (output_label a) J). rewrite El in Cl. exact Cl. }
  assert (I : dinv Qp (fun s _ _ => In s S) d).
  { constructor; auto. intros t J. destruct (At t J) as (ws & R & _). exists ws. split; auto.
    destruct (k_state t) as [s l] eqn:K. apply HS. split.
    - left. apply in_map_iff. exists t. rewrite K. auto.
    - specialize (Ts t J). rewrite K in Ts. exact Ts. }
  unfold process_nonemitting. 
  destruct (for_each (d_toks d) _ tt) as [u|f] eqn:Ef; cbn [bind].
  - destruct (nonemitting_terminates Qp S cutoff W (NoDup_nodup _ _) HQ _
                (wf_clos_trans _ _ (drops_wf W) (measure S (d_toks d))) (rev (map k_state (d_toks d))) d eq_refl I) as [fuel R].
    exists fuel. split; auto. intros fuel' Hf. eapply nonemitting_fuel; eauto.
  - exists 0%nat. split; auto. intros E. injection E as ->. revert Ef. apply (runs_for_each _ _ (fun _ => True)); auto.
    intros s i _ _. apply runs_check. discriminate.
Qed.

End Closed.
