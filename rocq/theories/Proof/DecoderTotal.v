(** Proofs about the decoder: nothing fails on graphs that fit. *)
From Coq Require Import ZArith List Bool Lia Wellfounded Relations.
From Verif.Base Require Import Prelude ZMap Lemmas.
From Verif.Spec Require Import MapSpec PoolSpec GCSpec DecoderSpec TotalSpec.
From Verif.Model Require Import Arith Vector HashTable Pool OLabel Fst Decoder.
From Verif.Proof Require Import Loop HashTable HashTableTotal Pool GC OLabel DecoderBase Decoder DecoderRun DecoderClosed DecoderCutoff.
Import ListNotations.
Open Scope Z_scope.

Lemma for_each_total : forall S I (P : S -> Prop) (is : list I) (body : S -> I -> res S) s,
  P s -> (forall s i, In i is -> P s -> exists s', body s i = Ok s' /\ P s') ->
  exists s', for_each is body s = Ok s' /\ P s'.
Proof.
  intros S I P is. induction is as [|i is IH]; intros body s Ps H; [exists s; auto|].
  cbn [for_each]. destruct (H s i (or_introl eq_refl) Ps) as (s1 & E1 & P1). rewrite E1. cbn [bind].
  apply IH; auto. intros s2 j J. apply H. now right.
Qed.

Section Total.
Context {F D C : Type} (O : fops F) (X : xops F D) (cfg : config F C).
Context (wm : option (word_model F)) (good : C -> Prop).
Hypothesis Hlm : lm_implements (c_lm cfg) wm good.

Notation tok := (token F).
Notation dec := (decoder F C).
Notation g := (c_graph cfg).
Notation dinv := (dinv good).
Notation acoustic := (acoustic O X (c_pdf cfg) (c_scale cfg)).
Notation proper := (proper cfg).
Notation answers := (answers cfg good).
Notation frame_fits := (frame_fits O X cfg wm good).
Notation eps_ok := (eps_ok O X cfg wm).
Notation emit_ok := (emit_ok O X cfg wm).

(** The state is in the list. *)
Notation inside R := (fun (s : state) (_ : F) (_ : list Z) => In s R).

Definition slim (d : dec) : Prop := t_bucket_size (d_idx d) <= 1073741827.

Lemma proper_hash : forall s, proper s -> hash_defined s = true.
Proof.
  intros [s l] (H1 & H2 & H3). cbn [Datatypes.fst snd] in *. unfold hash_defined, state_hash, in_int32, int_min, int_max. cbn [Datatypes.fst snd].
  rewrite !andb_true_iff, ?Z.leb_le, ?Z.ltb_lt. lia.
Qed.

Lemma few : forall Qp R d, dinv Qp (inside R) d -> lenZ (d_toks d) <= lenZ R.
Proof.
  intros Qp R d I. unfold lenZ. apply inj_le. rewrite <- (map_length k_state (d_toks d)). apply NoDup_incl_length.
  - exact (ix_nodup _ _ (di_ix _ _ _ _ I)).
  - intros s J. apply in_map_iff in J. destruct J as (t & <- & J). destruct (di_toks _ _ _ _ I t J) as (ws & _ & H). exact H.
Qed.

Lemma insert_tok_total : forall Qp Q d s l p c ws, dinv Qp Q d -> lenZ (d_toks d) <= 32766 -> slim d ->
  hash_defined s = true -> rep (d_labels d) p ws ->
  exists d' b, insert_tok O d s l p c = Ok (d', b) /\ slim d'.
Proof.
  intros Qp Q d s l p c ws [Ix Li Go At Ap] Hn Sl Hh R. unfold insert_tok, idx_find. rewrite Hh. cbn [check bind].
  destruct (find_state_total (d_idx d) (d_toks d) s Ix ltac:(lia) Sl) as (i & Ei). rewrite Ei. cbn [bind].
  assert (Hc : exists h q, (if l =? 0 then Ok (d_labels d, p)
     else '(h, a) <- child label_block (d_labels d) p l ;; Ok (h, Some a)) = Ok (h, q)).
  { destruct (l =? 0); [eauto|]. destruct (child_total _ _ _ l Li R) as (h & a & E). rewrite E. cbn [bind]. eauto. }
  destruct Hc as (h & q & ->). cbn [bind]. cbv zeta. cbn [with_labels d_idx d_toks].
  destruct (find_state _ _ _ _ Ix Ei) as [[-> NI]|[NE (old & G & K)]].
  - rewrite Z.eqb_refl. unfold idx_insert. rewrite Hh. cbn [check bind].
    destruct (insert_total_small (d_idx d) (d_toks d) s Ix ltac:(lia) Sl) as (t' & Et & B). rewrite Et. cbn [bind].
    eexists _, _. split; [reflexivity|]. exact B.
  - apply Z.eqb_neq in NE. rewrite NE, G. cbn [bind]. destruct (f_lt O c (k_cost old)).
    + rewrite (setZ_upd _ _ _ _ _ G). cbn [bind]. eexists _, _. split; [reflexivity|]. exact Sl.
    + eexists _, _. split; [reflexivity|]. exact Sl.
Qed.

Lemma compose_total : forall d s a total, good (d_cache d) -> answers s -> arc_from g (Datatypes.fst s) a ->
  exists c' total', compose O X cfg d (snd s) (output_label a) total =
    Ok (with_cache d c', Datatypes.fst (lm_after O wm (snd s) (output_label a)), total') /\ good c'.
Proof.
  intros d s a total Gd An Af.
  assert (H : exists r, compose O X cfg d (snd s) (output_label a) total = Ok r).
  { unfold compose. destruct (c_lm cfg) as [m|] eqn:Em; [|eauto]. unfold propogate_lm.
    destruct (Z.eqb_spec (output_label a) 0) as [_|NZ]; [cbn [bind]; eauto|].
    destruct (An a m (d_cache d) Af NZ Em Gd) as ([r c] & Er). rewrite Er. cbn [bind].
    destruct r; cbn [bind]; eauto. }
  destruct H as ([[d' l'] t'] & E). 
  destruct (compose_spec O X cfg wm good Hlm _ _ _ _ _ _ _ Gd E) as (c' & lw & -> & Gc & El & _).
  exists c', t'. rewrite El. auto.
Qed.

Lemma graph_arcs_total : forall s, 0 <= s < lenZ (g_states g) -> exists arcs, graph_arcs cfg s = Ok arcs.
Proof.
  intros s H. unfold graph_arcs. destruct (getZ (g_states g) s) as [st|f] eqn:E; [cbn [bind]; eauto|]. exfalso.
  unfold getZ in E. destruct (Z.ltb_spec s 0); [lia|]. destruct (nth_error (g_states g) (Z.to_nat s)) eqn:N; [discriminate|].
  apply nth_error_None in N. unfold lenZ in H. lia.
Qed.

Lemma log_likelihood_total : forall logp a ac, acoustic logp a ac -> exists l, log_likelihood O cfg logp (input_label a) = Ok l.
Proof.
  intros logp a ac (p & x & Hl & Np & Hp & Nx & _). unfold log_likelihood.
  assert (V : forall A (v : list A) i y, 0 <= i -> nth_error v (Z.to_nat i) = Some y -> vget v i = Ok y).
  { intros A v i y Hi N. apply vget_ok with (d := y).
    - split; auto. assert (L : (Z.to_nat i < length v)%nat) by (apply nth_error_Some; congruence). unfold lenZ. lia.
    - now apply nth_error_nth. }
  rewrite (V _ _ _ _ Hl Np). cbn [bind]. rewrite (V _ _ _ _ Hp Nx). cbn [bind]. eauto.
Qed.

Section Frame.
Variables (logp : list F) (from to : list state).
Hypothesis Ff : frame_fits logp from to.

Lemma inside_eps : eps_ok (inside to).
Proof.
  intros s l c ws a l' lw J Af Z0 El. pose proof (ff_eps _ _ _ _ _ _ _ _ Ff (s, l) a J Af Z0) as H.
  unfold arrival in H. cbn [snd] in H. rewrite El in H. exact H.
Qed.

Lemma inside_emit : emit_ok logp (inside from) (inside to).
Proof.
  intros s l c ws a l' lw ac J Af NZ Ac El. pose proof (proj1 (ff_emit _ _ _ _ _ _ _ _ Ff (s, l) a J Af NZ)) as H.
  unfold arrival in H. cbn [snd] in H. rewrite El in H. exact H.
Qed.

Lemma relax_total : forall Qp cutoff i d queue a t, dinv Qp (inside to) d -> slim d ->
  getZ (d_toks d) i = Ok t -> arc_from g (Datatypes.fst (k_state t)) a ->
  exists d' queue', relax O X cfg cutoff i (d, queue) a = Ok (d', queue') /\ slim d'.
Proof.
  intros Qp cutoff i d queue a t I Sl G Af. unfold relax.
  destruct (Z.eqb_spec (input_label a) 0) as [Z0|NZ]; cbn [negb]; [|eauto].
  rewrite G. cbn [bind]. cbv zeta. pose proof (getZ_in _ _ _ _ G) as J.
  destruct (di_toks _ _ _ _ I t J) as (ws & R & Jt).
  destruct (ff_to _ _ _ _ _ _ _ _ Ff _ Jt) as [_ An].
  destruct (compose_total d (k_state t) a (total_cost O X t a (f_zero O)) (di_good _ _ _ _ I) An Af) as (c' & t' & E & Gc).
  rewrite E. cbn [bind]. destruct (x_lt X cutoff t'); [eexists _, _; split; [reflexivity|exact Sl]|].
  pose proof (ff_eps _ _ _ _ _ _ _ _ Ff _ a Jt Af Z0) as Jn.
  pose proof (few _ _ _ I) as Fw. pose proof (ff_few _ _ _ _ _ _ _ _ Ff) as Fm.
  destruct (insert_tok_total Qp (inside to) (with_cache d c') (arrival O wm (k_state t) a) (output_label a) (k_olabel t)
              (x_narrow X t') ws) as (d2 & b & E2 & S2); auto.
  - now apply dinv_cache.
  - cbn. lia.
  - apply proper_hash. now apply (ff_to _ _ _ _ _ _ _ _ Ff).
  - unfold arrival in E2. rewrite E2. cbn [bind]. eauto.
Qed.

Notation measure S toks := (map (cost_at toks) S).

(** Following the arcs without input label ends. *)
Lemma nonemitting_total : forall Qp cutoff, well_founded (fun x y => f_lt O x y = true) ->
  forall v, Acc (clos_trans _ (drops O)) v ->
  forall queue d, measure (nodup state_dec to) (d_toks d) = v -> dinv Qp (inside to) d -> slim d ->
  (forall s, In s queue -> In s (map k_state (d_toks d))) ->
  exists fuel d', nonemitting_loop O X cfg fuel cutoff d queue = Ok d' /\ slim d'.
Proof.
  intros Qp cutoff W v A. induction A as [v _ IHA]. intros queue.
  induction queue as [|[s l] queue IHq]; intros d Ev I Sl Hq.
  { exists 0%nat, d. auto. }
  pose proof (Hq (s, l) (or_introl eq_refl)) as Js. apply in_map_iff in Js. destruct Js as (t & Kt & Jt).
  destruct (di_toks _ _ _ _ I t Jt) as (ws & _ & Jto). rewrite Kt in Jto.
  destruct (ff_to _ _ _ _ _ _ _ _ Ff _ Jto) as [Pr _].
  pose proof (few _ _ _ I) as Fw. pose proof (ff_few _ _ _ _ _ _ _ _ Ff) as Fm.
  destruct (find_state_total (d_idx d) (d_toks d) (s, l) (di_ix _ _ _ _ I) ltac:(lia) Sl) as (i & Ei).
  destruct (find_state _ _ _ _ (di_ix _ _ _ _ I) Ei) as [[_ NI]|[NE G]].
  { exfalso. eapply NI; eauto. }
  destruct (graph_arcs_total s) as (arcs & Ea). { destruct Pr as [H _]. exact H. }
  set (P := fun st : dec * list state => dinv Qp (inside to) (Datatypes.fst st) /\ slim (Datatypes.fst st) /\
       (exists t, getZ (d_toks (Datatypes.fst st)) i = Ok t /\ k_state t = (s, l)) /\
       (forall s, In s (snd st) -> In s (map k_state (d_toks (Datatypes.fst st)))) /\
       ((measure (nodup state_dec to) (d_toks (Datatypes.fst st)) = v /\ snd st = queue) \/
        clos_trans _ (drops O) (measure (nodup state_dec to) (d_toks (Datatypes.fst st))) v)).
  destruct (for_each_total _ _ P arcs (relax O X cfg cutoff i) (d, queue)) as ([d1 q1] & El & P1).
  - split; [exact I|]. split; [exact Sl|]. split; [exact G|]. split; [|left; auto]. intros y Jy. apply Hq. now right.
  - intros [d2 q2] x J (I2 & Sl2 & (t2 & G2 & S2) & Q2 & H2). cbn [Datatypes.fst snd] in *.
    pose proof (graph_arcs_from _ _ _ _ Ea J) as Af.
    destruct (relax_total Qp cutoff i d2 q2 x t2 I2 Sl2 G2) as (d3 & q3 & Er & Sl3); [rewrite S2; exact Af|].
    exists (d3, q3). split; [exact Er|].
    destruct (relax_spec O X cfg wm good Hlm _ _ _ _ _ _ _ _ _ _ _ I2 inside_eps (ex_intro _ t2 (conj G2 S2)) Af Er)
      as (I3 & K3 & [(ET & -> & Hn)|(fr & t3 & l' & lw & b & Gf & Z0 & Elm & Kt3 & Ct & Lt & Of & Eq)]).
    + unfold P. cbn [Datatypes.fst snd]. rewrite ET. split; auto. split; auto. split; [eauto|]. auto.
    + unfold P. cbn [Datatypes.fst snd]. split; auto. split; auto.
      split; [destruct (getZ_offer _ _ _ _ _ _ _ Of G2) as (y & Gy & Ky); exists y; split; auto; congruence|].
      assert (St : forall y, In y (map k_state (d_toks d2)) -> In y (map k_state (d_toks d3))).
      { intros y Jy. pose proof (proj2 (offer_states (f_lt O) (d_toks d2) t3 y)) as H. rewrite <- Of in H. apply H. auto. }
      destruct b.
      * pose proof (offer_result (f_lt O) (d_toks d2) t3) as R. rewrite <- Of in R.
        split.
        { subst q3. intros y [<-|Jy]; [now apply in_map|]. auto. }
        right. assert (Jn : In (k_state t3) (nodup state_dec to)).
        { apply nodup_In. destruct (di_toks _ _ _ _ I3 t3 R) as (ws3 & _ & H). exact H. }
        pose proof (measure_drops O (nodup state_dec to) _ _ _ (NoDup_nodup _ _) Jn Of) as Dr.
        destruct H2 as [[E2 _]|H2].
        -- rewrite E2 in Dr. now apply t_step.
        -- eapply t_trans; [apply t_step; exact Dr|exact H2].
      * subst q3. split; [auto|]. rewrite (measure_same O (nodup state_dec to) _ _ _ Of). exact H2.
  - destruct P1 as (I1 & Sl1 & _ & Q1 & H1). cbn [Datatypes.fst snd] in *.
    assert (Hf : exists fuel d', nonemitting_loop O X cfg fuel cutoff d1 q1 = Ok d' /\ slim d').
    { destruct H1 as [[E1 ->]|H1]; [apply IHq; auto|]. eapply IHA; eauto. }
    destruct Hf as (fuel & d' & Ed & Sd). exists (Datatypes.S fuel), d'. split; [|exact Sd].
    cbn [nonemitting_loop Datatypes.fst]. unfold idx_find. rewrite (proper_hash _ Pr). cbn [check bind]. rewrite Ei. cbn [bind].
    apply Z.eqb_neq in NE. rewrite NE. cbn [negb check bind]. rewrite Ea. cbn [bind]. rewrite El. exact Ed.
Qed.

Lemma process_nonemitting_total : forall Qp cutoff d, well_founded (fun x y => f_lt O x y = true) ->
  dinv Qp (inside to) d -> slim d ->
  exists fuel d', (forall fuel', (fuel <= fuel')%nat -> process_nonemitting O X cfg fuel' d cutoff = Ok d') /\ slim d'.
Proof.
  intros Qp cutoff d W I Sl. unfold process_nonemitting.
  destruct (for_each_total _ _ (fun _ : unit => True) (d_toks d)
              (fun _ t => check (0 <=? Datatypes.fst (k_state t)) Assert) tt Logic.I) as (u & Eu & _).
  { intros s t J _. exists tt. split; auto. destruct (di_toks _ _ _ _ I t J) as (ws & _ & Jto).
    destruct (ff_to _ _ _ _ _ _ _ _ Ff _ Jto) as [[H _] _]. unfold check. destruct (Z.leb_spec 0 (Datatypes.fst (k_state t))); [auto|lia]. }
  rewrite Eu. cbn [bind].
  destruct (nonemitting_total Qp cutoff W _ (wf_clos_trans _ _ (drops_wf O W) _) (rev (map k_state (d_toks d))) d eq_refl I Sl)
    as (fuel & d' & E & Sd).
  { intros s J. apply in_rev in J. exact J. }
  exists fuel, d'. split; [|exact Sd]. intros fuel' Hf. eapply nonemitting_fuel; eauto. discriminate.
Qed.

Lemma emit_total : forall ab t d next a, dinv (inside from) (inside to) d -> slim d -> 
  (exists ws, rep (d_labels d) (k_olabel t) ws) -> In (k_state t) from -> arc_from g (Datatypes.fst (k_state t)) a ->
  exists d' next', emit O X cfg logp ab t (d, next) a = Ok (d', next') /\ slim d'.
Proof.
  intros ab t d next a I Sl (ws & R) J Af. unfold emit.
  destruct (Z.eqb_spec (input_label a) 0) as [Z0|NZ]; [eauto|].
  destruct (ff_emit _ _ _ _ _ _ _ _ Ff _ a J Af NZ) as [Jn (ac & Ac)].
  destruct (log_likelihood_total _ _ _ Ac) as (l & El). rewrite El. cbn [bind]. cbv zeta.
  destruct (x_lt X next _); [eauto|].
  destruct (ff_from _ _ _ _ _ _ _ _ Ff _ J) as [_ An].
  destruct (compose_total d (k_state t) a (total_cost O X t a (x_neg X l)) (di_good _ _ _ _ I) An Af) as (c' & t' & E & Gc).
  rewrite E. cbn [bind].
  destruct (ff_to _ _ _ _ _ _ _ _ Ff _ Jn) as [Pr _]. pose proof Pr as (P1 & P2 & _). cbn [arrival Datatypes.fst snd] in P1, P2.
  pose proof (few _ _ _ I) as Fw. pose proof (ff_few _ _ _ _ _ _ _ _ Ff) as Fm.
  match goal with |- context [check ?b Assert] => replace b with true end.
  2:{ symmetry. rewrite andb_true_iff, !Z.leb_le. unfold arrival in *. cbn [Datatypes.fst snd] in *. lia. }
  cbn [check bind].
  destruct (insert_tok_total (inside from) (inside to) (with_cache d c') (arrival O wm (k_state t) a) (output_label a) (k_olabel t)
              (x_narrow X t') ws) as (d2 & b & E2 & S2); auto.
  - now apply dinv_cache.
  - cbn. lia.
  - now apply proper_hash.
  - unfold arrival in E2. rewrite E2. cbn [bind]. eauto.
Qed.

Lemma cutoff_tok : forall n (prev : list tok) x costs b t x' costs' b' t',
  fold_left (cutoff_step O X n) prev (x, costs, b, t) = (x', costs', b', t') -> t' = t \/ In t' prev.
Proof.
  intros n prev. induction prev as [|p r IH]; intros x costs b t x' costs' b' t' E.
  - cbn in E. injection E as <- <- <- <-. auto.
  - cbn [fold_left] in E. unfold cutoff_step at 2 in E. cbv zeta in E.
    destruct (x_lt X _ b); destruct (IH _ _ _ _ _ _ _ _ E) as [->|J]; auto; right; [now left|now right|now right].
Qed.

Lemma get_cutoff_in : forall (prev : list tok) cutoff ab bt, get_cutoff O X cfg prev = Ok (cutoff, ab, bt) -> In bt prev.
Proof.
  intros prev cutoff ab bt E. unfold get_cutoff in E. inv_bind E. apply getZ_in in Hb.
  destruct (fold_left _ prev _) as [[[x costs] b] t'] eqn:Ef.
  assert (J : In t' prev) by (destruct (cutoff_tok _ _ _ _ _ _ _ _ _ _ Ef) as [->|J]; auto).
  destruct (negb (x_finite X b)); [injection E as <- <- <-; auto|]. cbv zeta in E. inv_bind E.
  destruct (x_lt X _ _); injection E as <- <- <-; auto.
Qed.

Lemma dinv_weaken : forall (Qp Q Qp' Q' : state -> F -> list Z -> Prop) (d : dec), dinv Qp Q d -> (forall s c ws, Qp s c ws -> Qp' s c ws) ->
  (forall s c ws, Q s c ws -> Q' s c ws) -> dinv Qp' Q' d.
Proof.
  intros Qp Q Qp' Q' d [Ix Li Go At Ap] Hp H. constructor; auto; intros t J.
  - destruct (At t J) as (ws & R & HQ). eauto.
  - destruct (Ap t J) as (ws & R & HQ). eauto.
Qed.

Lemma process_emitting_total : divides_well O -> forall Qp d, dinv Qp (inside from) d -> slim d -> d_prev d = [] ->
  d_toks d <> [] -> lenZ (d_toks d) <= 18446744073709551615 ->
  exists d' cut, process_emitting O X cfg d logp = Ok (d', cut) /\ slim d'.
Proof.
  intros Hd Qp d I Sl Ep NE Hn. unfold process_emitting. fold (swapped d).
  pose proof (swapped_inv good Qp (inside from) (inside to) d I Ep) as Is.
  replace (d_prev (swapped d)) with (d_toks d) by reflexivity.
  destruct (get_cutoff_total O X cfg Hd _ NE Hn) as ([[cutoff ab] bt] & Eg). rewrite Eg. cbn [bind]. cbv zeta.
  destruct (f_finite O (x_narrow X cutoff)); cbn [negb]; [|eexists _, _; split; [reflexivity|exact Sl]].
  pose proof (get_cutoff_in _ _ _ _ Eg) as Jb.
  assert (Hin : forall t, In t (d_toks d) -> In (k_state t) from).
  { intros t J. destruct (di_toks _ _ _ _ I t J) as (ws & _ & H). exact H. }
  assert (Harcs : forall t, In t (d_toks d) -> exists arcs, graph_arcs cfg (Datatypes.fst (k_state t)) = Ok arcs).
  { intros t J. apply graph_arcs_total. destruct (ff_from _ _ _ _ _ _ _ _ Ff _ (Hin t J)) as [[H _] _]. exact H. }
  destruct (Harcs bt Jb) as (arcs & Ea). rewrite Ea. cbn [bind].
  destruct (for_each_total _ _ (fun _ : D => True) arcs (bound_step O X cfg logp bt ab) (x_inf X) Logic.I) as (next & En & _).
  { intros n a J _. unfold bound_step. destruct (Z.eqb_spec (input_label a) 0) as [Z0|NZ]; [eauto|].
    destruct (ff_emit _ _ _ _ _ _ _ _ Ff _ a (Hin bt Jb) (graph_arcs_from _ _ _ _ Ea J) NZ) as [_ (ac & Ac)].
    destruct (log_likelihood_total _ _ _ Ac) as (l & El). rewrite El. cbn [bind]. eauto. }
  rewrite En. cbn [bind].
  set (P := fun st : dec * D => dinv (inside from) (inside to) (Datatypes.fst st) /\ slim (Datatypes.fst st) /\
      d_prev (Datatypes.fst st) = d_toks d).
  destruct (for_each_total _ _ P (d_toks d) (emit_tok O X cfg logp (x_narrow X cutoff) ab) (swapped d, next))
    as ([d1 n1] & E1 & (_ & Sl1 & _)).
  - split; [exact Is|]. split; [exact Sl|reflexivity].
  - intros [d1 n1] t J P1. unfold emit_tok. destruct (f_lt O _ (k_cost t)); [eauto|].
    destruct (Harcs t J) as (arcs' & Ea'). rewrite Ea'. cbn [bind].
    apply for_each_total; [exact P1|]. intros [d2 n2] a Ja (I2 & Sl2 & Ep2). cbn [Datatypes.fst] in *.
    pose proof (graph_arcs_from _ _ _ _ Ea' Ja) as Af.
    pose proof (di_prev _ _ _ _ I2) as Ap. rewrite Ep2 in Ap. destruct (Ap t J) as (ws & R & _).
    destruct (emit_total ab t d2 n2 a I2 Sl2 (ex_intro _ ws R) (Hin t J) Af) as (d3 & n3 & E3 & Sl3).
    exists (d3, n3). split; [exact E3|].
    destruct (k_state t) as [s l] eqn:Ks.
    assert (HF : In (s, l) from) by (rewrite <- Ks; auto).
    destruct (emit_spec O X cfg wm good Hlm (inside from) (inside to) _ _ _ s l ws _ _ _ _ _ I2 inside_emit R Ks HF Af E3) as (I3 & (K3 & _) & _).
    split; [exact I3|]. split; [exact Sl3|]. cbn [Datatypes.fst]. congruence.
  - rewrite E1. cbn [bind]. eexists _, _. split; [reflexivity|]. exact Sl1.
Qed.

Lemma process_total : divides_well O -> well_founded (fun x y => f_lt O x y = true) ->
  forall d, ready good (inside from) d -> slim d -> d_toks d <> [] -> lenZ from <= 18446744073709551615 ->
  exists fuel0 d' b, (forall fuel, (fuel0 <= fuel)%nat -> process O X cfg keep_all fuel d logp = Ok (d', b)) /\
    slim d'.
Proof.
  intros Hd W d [I Ep] Sl NE Hn.
  assert (Hn' : lenZ (d_toks d) <= 18446744073709551615).
  { pose proof (few _ _ _ I). lia. }
  destruct (process_emitting_total Hd _ d I Sl Ep NE Hn') as (d1 & cut & E1 & Sl1). unfold process. rewrite E1. cbn [bind].
  destruct (negb (x_finite X (x_wide X cut))); [exists 0%nat, d1, false; auto|].
  destruct (process_emitting_inv O X cfg wm good Hlm _ _ (inside to) _ _ _ _ I Ep inside_emit E1) as (I1 & _).
  destruct (process_nonemitting_total _ (x_wide X cut) d1 W I1 Sl1) as (fuel0 & d2 & E2 & Sl2).
  destruct (lenZ (d_toks d2) =? 0) eqn:E0.
  - exists fuel0, d2, false. split; auto. intros fuel Hf. rewrite (E2 _ Hf). cbn [bind]. rewrite E0. reflexivity.
  - eexists fuel0, _, true. split.
    + intros fuel Hf. rewrite (E2 _ Hf). cbn [bind]. rewrite E0. 
      replace (if Z.rem (d_frames d2) 20 =? 0 then g <- keep_all (d_labels d2) (label_roots (d_toks d2)) ;; Ok (with_labels d2 g) else Ok d2)
        with (Ok d2); [reflexivity|]. destruct d2. unfold keep_all. cbn. destruct (Z.rem _ 20 =? 0); reflexivity.
    + exact Sl2.
Qed.
End Frame.

(** With the program's collector. *)
Lemma process_collects : forall fuel (d : dec) logp d0 b, process O X cfg keep_all fuel d logp = Ok (d0, b) ->
  process O X cfg collector fuel d logp =
    if b && (Z.rem (d_frames d0 - 1) 20 =? 0)
    then h <- collector (d_labels d0) (label_roots (d_toks d0)) ;; Ok (with_labels d0 h, true)
    else Ok (d0, b).
Proof.
  intros fuel d logp d0 b E. unfold process in *.
  destruct (bind_ok _ _ _ _ _ E) as [[d1 cut] [E1 E2]]. clear E. rewrite E1. cbn [bind].
  destruct (negb (x_finite X (x_wide X cut))); [injection E2 as <- <-; reflexivity|].
  destruct (bind_ok _ _ _ _ _ E2) as [d2 [E3 E4]]. clear E2. rewrite E3. cbn [bind].
  destruct (lenZ (d_toks d2) =? 0); [injection E4 as <- <-; reflexivity|].
  destruct (Z.eqb_spec (Z.rem (d_frames d2) 20) 0) as [Zr|NZ].
  - cbn [keep_all bind] in E4. injection E4 as <- <-. cbn [with_labels with_frames d_frames d_labels d_toks].
    replace (d_frames d2 + 1 - 1) with (d_frames d2) by lia. rewrite Zr. cbn [andb Z.eqb].
    destruct (collector (d_labels d2) (label_roots (d_toks d2))); reflexivity.
  - cbn [bind] in *. injection E4 as <- <-. cbn. replace (d_frames d2 + 1 - 1) with (d_frames d2) by lia.
    apply Z.eqb_neq in NZ. rewrite NZ. reflexivity.
Qed.

Lemma collector_total : forall Q (d : dec), ready good Q d -> gc_safe (d_labels d) (label_roots (d_toks d)) ->
  exists h, collector (d_labels d) (label_roots (d_toks d)) = Ok h.
Proof.
  intros Q d [[Ix Li Go At Ap] Ep] S.
  destruct (gc_rep (d_labels d) (label_roots (d_toks d)) Li) as (h' & E' & _); [|exact S|eauto].
  intros r J. unfold label_roots in J. apply in_flat_map in J. destruct J as (t & Jt & Jr).
  destruct (At t Jt) as (ws & R & _). destruct (k_olabel t) as [x|]; [|destruct Jr].
  destruct Jr as [->|[]]. eauto.
Qed.

Notation by_path := (by_path O X cfg wm).
Notation path := (path O X g (c_pdf cfg) (c_scale cfg) wm).

(** Tokens of paths and of states of [R]. *)
Definition both (R : list state) (fs : list (list F)) (s : state) (c : F) (ws : list Z) : Prop :=
  by_path fs s c ws /\ In s R.

Lemma both_eps : forall logp from R fs, frame_fits logp from R -> eps_ok (both R fs).
Proof.
  intros logp from R fs Ff s l c ws a l' lw [P J] Af Z0 El. split.
  - eapply (by_path_eps O X cfg wm fs); eauto.
  - eapply (inside_eps logp from R Ff s l c ws); eauto.
Qed.

Lemma both_emit : forall logp R fs, frame_fits logp R R -> emit_ok logp (both R fs) (both R (logp :: fs)).
Proof.
  intros logp R fs Ff s l c ws a l' lw ac [P J] Af NZ Ac El. split.
  - eapply (by_path_emit O X cfg wm fs logp); eauto.
  - eapply (inside_emit logp R R Ff s l c ws); eauto.
Qed.

(** One frame. *)
Lemma frame_total : divides_well O -> well_founded (fun x y => f_lt O x y = true) ->
  forall logp R, frame_fits logp R R ->
  forall d fs, ready good (both R fs) d -> slim d -> d_toks d <> [] ->
  (exists n, forall fuel, (n <= fuel)%nat -> Z.rem (d_frames d) 20 = 0 -> 
     forall d0, process O X cfg keep_all fuel d logp = Ok (d0, true) ->
     gc_safe (d_labels d0) (label_roots (d_toks d0))) ->
  exists fuel0 d' b, (forall fuel, (fuel0 <= fuel)%nat -> process O X cfg collector fuel d logp = Ok (d', b)) /\
    slim d' /\
    (if b then ready good (both R (logp :: fs)) d' /\ d_toks d' <> [] /\ d_frames d' = d_frames d + 1 /\ d_eos d' = d_eos d
     else dinv (both R fs) (both R (logp :: fs)) d' /\ d_eos d' = d_eos d).
Proof.
  intros Hd W logp R Ff d fs Rd Sl NE (n & Hs).
  assert (Rd' : ready good (inside R) d).
  { destruct Rd as [I Ep]. constructor; auto. eapply dinv_weaken; eauto. intros s c ws [_ J]. exact J. }
  assert (Hn : lenZ R <= 18446744073709551615) by (pose proof (ff_few _ _ _ _ _ _ _ _ Ff); lia).
  destruct (process_total logp R R Ff Hd W d Rd' Sl NE Hn) as (f0 & d0 & b & E0 & Sl0).
  set (fuel0 := Nat.max n f0).
  assert (E1 : process O X cfg keep_all fuel0 d logp = Ok (d0, b)) by (apply E0; unfold fuel0; lia).
  destruct b.
  - destruct (process_before_gc O X cfg wm good Hlm _ _ _ _ _ _ Rd (both_emit _ _ _ Ff) (both_eps _ _ _ _ Ff) E1)
      as (R0 & F0 & S0 & _ & N0).
    destruct (Z.eqb_spec (Z.rem (d_frames d0 - 1) 20) 0) as [Zr|NZ].
    + assert (G : gc_safe (d_labels d0) (label_roots (d_toks d0))).
      { apply (Hs fuel0); [unfold fuel0; lia| |exact E1]. rewrite F0 in Zr. replace (d_frames d + 1 - 1) with (d_frames d) in Zr by lia. exact Zr. }
      destruct (collector_total _ _ R0 G) as (h & Eh).
      exists fuel0, (with_labels d0 h), true. split.
      * intros fuel Hf. rewrite (process_collects _ _ _ _ _ (E0 fuel ltac:(unfold fuel0 in Hf; lia))).
        rewrite Zr. cbn [andb Z.eqb]. rewrite Eh. reflexivity.
      * split; [exact Sl0|]. split; [apply collect_ready; auto|]. auto.
    + exists fuel0, d0, true. split; [|auto 8].
      intros fuel Hf. rewrite (process_collects _ _ _ _ _ (E0 fuel ltac:(unfold fuel0 in Hf; lia))).
      apply Z.eqb_neq in NZ. rewrite NZ. reflexivity.
  - exists fuel0, d0, false. split.
    { intros fuel Hf. rewrite (process_collects _ _ _ _ _ (E0 fuel ltac:(unfold fuel0 in Hf; lia))). reflexivity. }
    split; auto. destruct Rd as [I Ep]. unfold process in E1.
    destruct (bind_ok _ _ _ _ _ E1) as [[d1 cut] [E2 E3]]. clear E1.
    destruct (process_emitting_inv O X cfg wm good Hlm _ _ _ _ _ _ _ I Ep (both_emit _ _ _ Ff) E2) as (I1 & _ & S1 & _).
    destruct (negb (x_finite X (x_wide X cut))); [injection E3 as <-; auto|].
    destruct (bind_ok _ _ _ _ _ E3) as [d2 [E4 E5]]. clear E3.
    destruct (process_nonemitting_inv O X cfg wm good Hlm _ _ _ _ _ _ I1 (both_eps _ _ _ _ Ff) E4) as (I2 & (_ & _ & S2 & _)).
    destruct (lenZ (d_toks d2) =? 0); [injection E5 as <-; split; [auto|congruence]|]. inv_bind E5. discriminate.
Qed.

Lemma collections_first : forall fuel d logp frames, collections_safe O X cfg fuel d (logp :: frames) ->
  (Z.rem (d_frames d) 20 = 0 -> forall d0, process O X cfg keep_all fuel d logp = Ok (d0, true) ->
     gc_safe (d_labels d0) (label_roots (d_toks d0))) /\
  (forall d1, process O X cfg collector fuel d logp = Ok (d1, true) -> collections_safe O X cfg fuel d1 frames).
Proof. intros fuel d logp frames H. exact H. Qed.

(** Many frames. *)
Lemma frames_total : divides_well O -> well_founded (fun x y => f_lt O x y = true) ->
  forall R frames d fs, (forall logp, In logp frames -> frame_fits logp R R) ->
  ready good (both R fs) d -> slim d -> d_toks d <> [] ->
  (exists n, forall fuel, (n <= fuel)%nat -> collections_safe O X cfg fuel d frames) ->
  exists fuel0 d' b, (forall fuel, (fuel0 <= fuel)%nat -> process_all O X cfg collector fuel d frames = Ok (d', b)) /\
    d_eos d' = d_eos d /\
    if b then ready good (both R (rev frames ++ fs)) d' /\ slim d' /\ d_toks d' <> [] /\ d_frames d' = d_frames d + lenZ frames
    else exists later fs' Qp, rev frames ++ fs = later ++ fs' /\ dinv Qp (both R fs') d'.
Proof.
  intros Hd W R frames. induction frames as [|logp frames IH]; intros d fs Hff Rd Sl NE (n & Hs).
  - exists 0%nat, d, true. split; [reflexivity|]. split; [reflexivity|]. cbn. split; auto. split; auto. split; auto. unfold lenZ. cbn. lia.
  - destruct (frame_total Hd W logp R (Hff _ (or_introl eq_refl)) d fs Rd Sl NE) as (f0 & d1 & b & E1 & Sl1 & H1).
    { exists n. intros fuel Hf. exact (proj1 (Hs fuel Hf)). }
    cbn [process_all]. destruct b.
    + destruct H1 as (R1 & N1 & F1 & S1).
      destruct (IH d1 (logp :: fs)) as (f1 & d2 & b & E2 & S2 & H2); auto.
      * intros lp J. apply Hff. now right.
      * exists (Nat.max n f0). intros fuel Hf. apply (proj2 (Hs fuel ltac:(lia))). apply E1. lia.
      * exists (Nat.max f0 f1), d2, b. split.
        { intros fuel Hf. rewrite (E1 fuel) by lia. cbn [bind]. apply E2. lia. }
        split; [congruence|]. cbn [rev]. rewrite <- app_assoc. destruct b; [|exact H2].
        destruct H2 as (H2 & H3 & H4 & H5). split; auto. split; auto. split; auto. rewrite H5, F1. unfold lenZ. cbn [length]. lia.
    + exists f0, d1, false. split; [|split].
      * intros fuel Hf. rewrite (E1 fuel Hf). reflexivity.
      * apply H1.
      * exists (rev frames), (logp :: fs), (both R fs). split; [cbn [rev]; now rewrite <- app_assoc|]. apply H1.
Qed.

(** The beginning. *)
Lemma initialize_total : well_founded (fun x y => f_lt O x y = true) -> strict (f_lt O) ->
  forall frames R cache, good cache -> run_fits O X cfg wm good frames R ->
  exists fuel0 d0 d1, new_decoder cache = Ok d0 /\
    (forall fuel, (fuel0 <= fuel)%nat -> initialize O X cfg fuel d0 = Ok d1) /\
    ready good (both R []) d1 /\ slim d1 /\ d_toks d1 <> [] /\ d_frames d1 = 0 /\ d_eos d1 = false.
Proof.
  intros W Hf frames R cache Gc [Js Hm Ff _].
  assert (En : exists d0, new_decoder (F := F) cache = Ok d0 /\ slim d0 /\ d_eos d0 = false).
  { eexists. split; [reflexivity|]. split; [unfold slim; cbn; lia|reflexivity]. }
  destruct En as (d0 & En & Sl0 & S0).
  destruct (new_decoder_inv good cache d0 (fun _ _ _ => False) (both R []) Gc En) as ([Ix Li Go At Ap] & Ep & El).
  assert (Et : d_toks d0 = []).
  { unfold new_decoder in En. inv_bind En. injection En as <-. reflexivity. }
  rewrite Et in Ix.
  assert (Hst : exists l, match c_lm cfg with None => Ok 0 | Some m => lm_start m end = Ok l).
  { destruct (c_lm cfg) as [m|] eqn:Em; [apply (Hm m eq_refl)|eauto]. }
  destruct Hst as (l & Hst).
  assert (El' : l = lm_first wm).
  { unfold lm_first. unfold lm_implements in Hlm. destruct (c_lm cfg), wm; try destruct Hlm.
    - apply H. exact Hst.
    - congruence. }
  subst l.
  destruct (ff_to _ _ _ _ _ _ _ _ Ff _ Js) as [Pr _].
  set (dd := mk_decoder [] [] (d_idx d0) (d_labels d0) (d_cache d0) (d_frames d0) (d_eos d0) : dec).
  assert (I0 : dinv (fun _ _ _ => False) (both R []) dd) by (constructor; cbn; auto; intros t []).
  destruct (insert_tok_total _ _ dd (g_start g, lm_first wm) 0 None (f_zero O) [] I0 ltac:(cbn; lia) Sl0 (proper_hash _ Pr) (rep_nil _))
    as (d1 & b & E1 & Sl1).
  assert (Bs : both R [] (g_start g, lm_first wm) (f_zero O) []).
  { split; [apply path_start|exact Js]. }
  destruct (insert_tok_spec O good _ _ dd _ 0 None _ [] _ _ I0 (rep_nil _) Bs E1)
    as (t & Kt & Ct & _ & Of & I1 & (K1 & K2 & K3 & K4) & _).
  assert (I2 : dinv (fun _ _ _ => False) (both R []) (with_frames d1 0)) by (destruct I1; constructor; auto).
  assert (I2' : dinv (fun _ _ _ => False) (inside R) (with_frames d1 0)).
  { eapply dinv_weaken; eauto. intros s c ws [_ J]. exact J. }
  destruct (process_nonemitting_total [] [] R Ff _ (x_inf X) _ W I2' Sl1) as (fuel0 & d2 & E2 & Sl2).
  exists fuel0, d0, d2. split; auto.
  destruct (process_nonemitting_inv O X cfg wm good Hlm _ _ _ _ _ _ I2 (both_eps _ _ _ _ Ff) (E2 fuel0 (le_n _)))
    as (I3 & (P1 & P2 & P3 & P4)).
  destruct (process_nonemitting_closed O X cfg wm good Hlm Hf _ _ _ _ _ _ I2 (both_eps _ _ _ _ Ff) (E2 fuel0 (le_n _))) as [_ M].
  split; [|split; [|split; [|split; [|split]]]].
  - intros fuel Hfu. unfold initialize. fold dd. destruct Pr as [[P0 _] _]. cbn [Datatypes.fst] in P0.
    destruct (Z.leb_spec 0 (g_start g)); [|lia]. cbn [check bind]. rewrite Hst. cbn [bind]. rewrite E1. cbn [bind]. auto.
  - constructor; auto. cbn in P1. rewrite P1, K1. reflexivity.
  - exact Sl2.
  - cbn in Of. injection Of as Et1 _.
    destruct (M (k_state t) (k_cost t)) as (c & J & _).
    + exists (k_cost t). cbn [with_frames d_toks]. rewrite Et1. split; [now left|]. apply Hf.
    + intros Q0. rewrite Q0 in J. destruct J.
  - exact P2.
  - cbn in P3. rewrite P3, K3. exact S0.
Qed.

(** The best path. *)
Lemma best_path_total : forall R Qp fs d eos, dinv Qp (both R fs) d -> d_eos d = eos ->
  (forall s, In s R -> 0 <= Datatypes.fst s < lenZ (g_states g)) ->
  (eos = true -> ends cfg R) ->
  (forall s c ws, path fs s c ws -> lenZ ws < 100000) ->
  exists r, best_path O X cfg d = Ok r /\ forall x, In x (Datatypes.fst r) -> exists t ws, In t (d_toks d) /\
     both R fs (k_state t) (k_cost t) ws /\ In x ws.
Proof.
  intros R Qp fs d eos I Ee Hg He Hb. unfold best_path.
  assert (Hfin : forall t, In t (d_toks d) -> exists w, graph_final cfg (Datatypes.fst (k_state t)) = Ok w).
  { intros t J. destruct (di_toks _ _ _ _ I t J) as (ws & _ & (_ & Jr)). specialize (Hg _ Jr). unfold graph_final.
    destruct (getZ_total _ (g_states g) (Datatypes.fst (k_state t)) Hg) as [x Ex]. rewrite Ex. cbn [bind]. eauto. }
  destruct (for_each_total _ _ (fun st : D * option tok => match snd st with None => True | Some t => In t (d_toks d) end)
              (d_toks d) (best_step X cfg d) (x_inf X, None) Logic.I) as ([bc best] & Eb & Hbest).
  { intros [bc best] t J Hs. unfold best_step.
    assert (Hc : exists c, path_cost X cfg d t = Ok c).
    { unfold path_cost. destruct (d_eos d) eqn:Eo.
      - destruct (Hfin t J) as (w & Ew). rewrite Ew. cbn [bind]. destruct (c_lm cfg) as [m|] eqn:Em; [|eauto].
        destruct (di_toks _ _ _ _ I t J) as (ws & _ & (_ & Jr)). rewrite <- Ee in He.
        destruct (He eq_refl _ m Jr Em) as (w' & Ew'). rewrite Ew'. cbn [bind]. eauto.
      - cbn [bind]. destruct (c_lm cfg); eauto. }
    destruct Hc as (c & Ec). rewrite Ec. cbn [bind]. eexists. split; [reflexivity|].
    destruct (negb (x_is_inf X c) && x_lt X c bc); exact J || exact Hs. }
  rewrite Eb. cbn [bind]. destruct best as [t|]; [|eexists; split; [reflexivity|intros x []]].
  cbn [snd] in Hbest. destruct (di_toks _ _ _ _ I t Hbest) as (ws & Rw & HB).
  rewrite (words_rep _ _ _ (di_labels _ _ _ _ I) Rw).
  assert (Lw : Z.of_nat (length ws) < 100000).
  { destruct HB as [P _]. specialize (Hb _ _ _ P). unfold lenZ in Hb. rewrite rev_length in Hb. exact Hb. }
  apply Z.ltb_lt in Lw. rewrite Lw. cbn [bind].
  destruct (Hfin t Hbest) as (w & Ew). rewrite Ew. cbn [bind]. eexists. split; [reflexivity|].
  intros x J. exists t, ws. auto.
Qed.

(** A run: every step has a result. *)
Lemma run_total : divides_well O -> well_founded (fun x y => f_lt O x y = true) -> strict (f_lt O) ->
  forall cache frames R, good cache -> run_fits O X cfg wm good frames R ->
  (forall fuel, run_safe O X cfg fuel cache frames) ->
  exists fuel0 d0 d1 d b, new_decoder cache = Ok d0 /\
    (forall fuel, (fuel0 <= fuel)%nat -> initialize O X cfg fuel d0 = Ok d1 /\
       process_all O X cfg collector fuel d1 frames = Ok (d, b)) /\
    (brief O X cfg wm frames ->
       (exists r, best_path O X cfg d = Ok r) /\
       (ends cfg R -> exists r, best_path O X cfg (end_of_stream d) = Ok r)).
Proof.
  intros Hd W Hf cache frames R Gc Rf Hs.
  destruct (initialize_total W Hf frames R cache Gc Rf) as (f0 & d0 & d1 & E0 & E1 & R1 & Sl1 & N1 & F1 & S1).
  destruct (frames_total Hd W R frames d1 [] (rf_frames _ _ _ _ _ _ _ Rf) R1 Sl1 N1) as (f1 & d & b & E2 & S2 & H2).
  { exists f0. intros fuel Hfu. apply (Hs fuel d0 d1 E0). auto. }
  exists (Nat.max f0 f1), d0, d1, d, b. split; auto. split.
  { intros fuel Hfu. split; [apply E1; lia|apply E2; lia]. }
  intros Hb. rewrite app_nil_r in H2.
  assert (Hg : forall s, In s R -> 0 <= Datatypes.fst s < lenZ (g_states g)).
  { intros s J. destruct (ff_to _ _ _ _ _ _ _ _ (rf_eps _ _ _ _ _ _ _ Rf) _ J) as [[H _] _]. exact H. }
  assert (HI : exists Qp fs' later, rev frames = later ++ fs' /\ dinv Qp (both R fs') d).
  { destruct b.
    - destruct H2 as ([I _] & _). exists (fun _ _ _ => False), (rev frames), []. auto.
    - destruct H2 as (later & fs' & Qp & E & I). eauto. }
  destruct HI as (Qp & fs' & later & Er & I).
  assert (Hb' : forall s c ws, path fs' s c ws -> lenZ ws < 100000) by (intros s c ws; apply (Hb _ _ _ _ _ Er)).
  split.
  - destruct (best_path_total R Qp fs' d false I ltac:(congruence) Hg) as (r & Er' & _); eauto. discriminate.
  - intros He. destruct (best_path_total R Qp fs' (end_of_stream d) true) as (r & Er' & _); eauto.
    destruct I; constructor; auto.
Qed.

(** There is a least cost. *)
Lemma least_tok : well_founded (fun x y => f_lt O x y = true) -> forall toks : list tok, toks <> [] ->
  exists t, In t toks /\ forall t', In t' toks -> f_lt O (k_cost t') (k_cost t) = false.
Proof.
  intros W toks NE. destruct toks as [|t0 r] eqn:Et; [congruence|]. rewrite <- Et in *.
  assert (J0 : In t0 toks) by (rewrite Et; now left). clear Et NE.
  assert (H : forall x, forall t, k_cost t = x -> In t toks ->
     exists t, In t toks /\ forall t', In t' toks -> f_lt O (k_cost t') (k_cost t) = false).
  { induction x as [x IH] using (well_founded_induction W). intros t <- J.
    destruct (existsb (fun t' => f_lt O (k_cost t') (k_cost t)) toks) eqn:Ex.
    - apply existsb_exists in Ex. destruct Ex as (t' & J' & L). eapply IH; eauto.
    - exists t. split; auto. intros t' J'. destruct (f_lt O (k_cost t') (k_cost t)) eqn:L; auto.
      assert (Q0 : existsb (fun t' => f_lt O (k_cost t') (k_cost t)) toks = true) by (apply existsb_exists; eauto). congruence. }
  eapply H; eauto.
Qed.

(** A run in which every frame succeeds. *)
Lemma frames_succeed : divides_well O -> well_founded (fun x y => f_lt O x y = true) -> rounding O X (c_beam cfg) ->
  forall R all, lively cfg R -> finite_costs O X cfg wm all ->
  forall frames d fs, rev all = rev frames ++ fs -> (forall logp, In logp frames -> frame_fits logp R R) ->
  ready good (both R fs) d -> slim d -> d_toks d <> [] ->
  (exists n, forall fuel, (n <= fuel)%nat -> collections_safe O X cfg fuel d frames) ->
  exists fuel0 d', (forall fuel, (fuel0 <= fuel)%nat -> process_all O X cfg collector fuel d frames = Ok (d', true)) /\
    d_eos d' = d_eos d /\ ready good (both R (rev all)) d' /\ slim d' /\ d_toks d' <> [] /\
    d_frames d' = d_frames d + lenZ frames.
Proof.
  intros Hd W Ro R all Lv Fc frames. induction frames as [|logp frames IH]; intros d fs Ea Hff Rd Sl NE (n & Hs).
  - exists 0%nat, d. split; [reflexivity|]. cbn in Ea. rewrite Ea. split; auto. split; auto. split; auto. split; auto. unfold lenZ. cbn. lia.
  - cbn [rev] in Ea. rewrite <- app_assoc in Ea. cbn [app] in Ea.
    destruct (frame_total Hd W logp R (Hff _ (or_introl eq_refl)) d fs Rd Sl NE) as (f0 & d1 & b & E1 & Sl1 & H1).
    { exists n. intros fuel Hf. exact (proj1 (Hs fuel Hf)). }
    assert (Hb : b = true).
    { destruct (least_tok W (d_toks d) NE) as (t & Jt & Lt).
      pose proof Rd as [I Ep].
      assert (Hfin : forall t', In t' (d_toks d) -> f_finite O (k_cost t') = true /\
        forall a ac, arc_from g (Datatypes.fst (k_state t')) a -> input_label a <> 0 -> acoustic logp a ac ->
           f_finite O (f_add O (f_add O (k_cost t') (weight a)) ac) = true).
      { intros t' J'. destruct (di_toks _ _ _ _ I t' J') as (ws & _ & (P & _)).
        assert (Ea' : rev all = (rev frames ++ [logp]) ++ fs) by (rewrite <- app_assoc; exact Ea).
        destruct (Fc _ _ _ _ _ Ea' P) as [F1 F2]. split; auto. intros a ac A1 A2 A3. eapply F2; eauto. }
      destruct (di_toks _ _ _ _ I t Jt) as (ws & _ & (_ & Jr)). destruct (Lv _ Jr) as (a & Af & NZ).
      destruct (ff_emit _ _ _ _ _ _ _ _ (Hff _ (or_introl eq_refl)) _ a Jr Af NZ) as [_ (ac & Ac)].
      destruct (Hfin t Jt) as [Ft Fs].
      eapply (process_succeeds O X cfg Ro wm good Hlm _ _ _ _ _ _ _ _ t a ac I Ep (both_emit _ _ fs (Hff _ (or_introl eq_refl)))
                (both_eps _ _ _ _ (Hff _ (or_introl eq_refl))) (E1 f0 (le_n _))); eauto.
      intros t' a' ac' J' A1 A2 A3. cbv zeta. intros Ff. rewrite (proj2 (Hfin t' J') _ _ A1 A2 A3) in Ff. discriminate. }
    subst b. destruct H1 as (R1 & N1 & F1 & S1).
    destruct (IH d1 (logp :: fs)) as (f1 & d2 & E2 & S2 & R2 & Sl2 & N2 & F2); auto.
    + intros lp J. apply Hff. now right.
    + exists (Nat.max n f0). intros fuel Hf. apply (proj2 (Hs fuel ltac:(lia))). apply E1. lia.
    + exists (Nat.max f0 f1), d2. split.
      { intros fuel Hf. cbn [process_all]. rewrite (E1 fuel) by lia. cbn [bind]. apply E2. lia. }
      split; [congruence|]. split; auto. split; auto. split; auto. rewrite F2, F1. unfold lenZ. cbn [length]. lia.
Qed.

Lemma run_succeeds : divides_well O -> well_founded (fun x y => f_lt O x y = true) -> rounding O X (c_beam cfg) ->
  forall cache frames R, good cache -> run_fits O X cfg wm good frames R ->
  (forall fuel, run_safe O X cfg fuel cache frames) -> lively cfg R -> finite_costs O X cfg wm frames ->
  exists fuel0 d, d_toks d <> [] /\
    (forall fuel, (fuel0 <= fuel)%nat -> decodes O X cfg collector fuel cache frames d) /\
    (brief O X cfg wm frames ->
       (exists r, best_path O X cfg d = Ok r) /\
       (ends cfg R -> exists r, best_path O X cfg (end_of_stream d) = Ok r)).
Proof.
  intros Hd W Ro cache frames R Gc Rf Hs Lv Fc.
  destruct (initialize_total W (r_flt _ _ _ Ro) frames R cache Gc Rf) as (f0 & d0 & d1 & E0 & E1 & R1 & Sl1 & N1 & F1 & S1).
  destruct (frames_succeed Hd W Ro R frames Lv Fc frames d1 [] (eq_sym (app_nil_r _)) (rf_frames _ _ _ _ _ _ _ Rf) R1 Sl1 N1)
    as (f1 & d & E2 & S2 & R2 & _ & N2 & _).
  { exists f0. intros fuel Hfu. apply (Hs fuel d0 d1 E0). auto. }
  exists (Nat.max f0 f1), d. split; auto. split.
  { intros fuel Hfu. exists d0, d1. split; auto. split; [apply E1; lia|apply E2; lia]. }
  intros Hb.
  assert (Hg : forall s, In s R -> 0 <= Datatypes.fst s < lenZ (g_states g)).
  { intros s J. destruct (ff_to _ _ _ _ _ _ _ _ (rf_eps _ _ _ _ _ _ _ Rf) _ J) as [[H _] _]. exact H. }
  assert (Hb' : forall s c ws, path (rev frames) s c ws -> lenZ ws < 100000) by (intros s c ws; apply (Hb []); reflexivity).
  destruct R2 as [I Ep]. split.
  - destruct (best_path_total R _ _ d false I ltac:(congruence) Hg) as (r & Er' & _); eauto. discriminate.
  - intros He. destruct (best_path_total R (fun _ _ _ => False) (rev frames) (end_of_stream d) true) as (r & Er' & _); eauto.
    destruct I; constructor; auto.
Qed.
End Total.
