(** Proofs about the decoder: what a frame does to the beam, least costs when
    nothing is pruned, dead ends, a second Initialize. *)
From Coq Require Import ZArith List Bool Lia.
From Verif.Base Require Import Prelude ZMap Lemmas.
From Verif.Spec Require Import MapSpec PoolSpec GCSpec DecoderSpec.
From Verif.Model Require Import Arith Vector HashTable Pool OLabel Fst Decoder.
From Verif.Proof Require Import Loop HashTable HashTableTotal Pool GC OLabel DecoderBase Decoder DecoderRun DecoderClosed.
Import ListNotations.
Open Scope Z_scope.

Section Best.
Context {F D C : Type} (O : fops F) (X : xops F D) (cfg : config F C).
Context (wm : option (word_model F)) (good : C -> Prop).
Hypothesis Hlm : lm_implements (c_lm cfg) wm good.

Notation tok := (token F).
Notation dec := (decoder F C).
Notation g := (c_graph cfg).
Notation dinv := (dinv good).
Notation eps_ok := (eps_ok O X cfg wm).
Notation emit_ok := (emit_ok O X cfg wm).
Notation acoustic := (acoustic O X (c_pdf cfg) (c_scale cfg)).
Notation path := (path O X g (c_pdf cfg) (c_scale cfg) wm).
Notation by_path := (by_path O X cfg wm).
Notation ready := (ready good).
Notation frame_offer := (frame_offer O X g (c_pdf cfg) (c_scale cfg) wm).

(** * InsertTok *)
Lemma insert_offers : forall Q d s l p c ws d' b, ready Q d -> rep (d_labels d) p ws ->
  insert_tok O d s l p c = Ok (d', b) -> view (d_toks d') = offered (f_lt O) (view (d_toks d)) s c.
Proof.
  intros Q d s l p c ws d' b [[Ix Li Go At Ap] Ep] R E.
  destruct (insert_tok_spec O good (fun _ _ _ => True) (fun _ _ _ => True) d s l p c ws d' b) as (t & <- & <- & _ & Eo & _); auto.
  - constructor; auto.
    + intros t J. destruct (At t J) as (w & H & _). eauto.
    + intros t J. destruct (Ap t J) as (w & H & _). eauto.
  - apply (offered_view O _ _ _ _ Eo).
Qed.

Lemma in_offered : forall lt (b : list (state * F)) s c s' c', In (s', c') (offered lt b s c) ->
  In (s', c') b \/ (s' = s /\ c' = c).
Proof.
  intros lt b s c s' c'. induction b as [|[x y] b IH]; cbn [offered]; intros J.
  - destruct J as [E|[]]. injection E as -> ->. auto.
  - destruct (state_eqb x s) eqn:Es.
    + apply state_eqb_spec in Es. subst x. destruct J as [E|J]; [|left; now right].
      injection E as <- <-. destruct (lt c y); auto. left. now left.
    + destruct J as [E|J]; [left; now left|]. destruct (IH J); auto. left. now right.
Qed.

(** * A frame *)
Hypothesis Hlt : strict (f_lt O).

Definition seen (b : list (state * F)) (s : state) (c : F) (ws : list Z) : Prop := In (s, c) b.
Definition offers (b : list (state * F)) (logp : list F) (s : state) (c : F) (ws : list Z) : Prop := frame_offer b logp s c.

Lemma offers_emit : forall b logp, emit_ok logp (seen b) (offers b logp).
Proof. intros b logp s l c ws a l' lw ac H A NZ Ac El. eapply offer_emit; eauto. Qed.

Lemma offers_eps : forall b logp, eps_ok (offers b logp).
Proof. intros b logp s l c ws a l' lw H A Z0 El. eapply offer_eps; eauto. Qed.

Lemma ready_seen : forall Q d, ready Q d -> ready (seen (view (d_toks d))) d.
Proof.
  intros Q d [[Ix Li Go At Ap] Ep]. constructor; [constructor|]; auto.
  intros t J. destruct (At t J) as (ws & R & _). exists ws. split; auto. unfold seen. apply in_view. eauto.
Qed.

Lemma frame_beam : forall Q coll fuel d logp d', strict (x_lt X) -> ready Q d ->
  process O X cfg coll fuel d logp = Ok (d', true) ->
  exists cutoff ab bt next d1,
    get_cutoff O X cfg (d_toks d) = Ok (cutoff, ab, bt) /\
    process_emitting O X cfg d logp = Ok (d1, x_narrow X next) /\
    NoDup (map k_state (d_toks d')) /\
    (forall t, In t (d_toks d') -> frame_offer (view (d_toks d)) logp (k_state t) (k_cost t)) /\
    (forall t a l' lw ac, In t (d_toks d) -> f_lt O (x_narrow X cutoff) (k_cost t) = false ->
       arc_from g (Datatypes.fst (k_state t)) a -> input_label a <> 0 -> acoustic logp a ac ->
       lm_after O wm (snd (k_state t)) (output_label a) = (l', lw) ->
       x_lt X next (x_wide X (f_add O (f_add O (k_cost t) (weight a)) ac)) = false ->
       covered O (view (d_toks d')) (next_state a, l') (x_narrow X (cost_after O X (k_cost t) (weight a) ac lw))) /\
    closed O X g wm (x_wide X (x_narrow X next)) (view (d_toks d')).
Proof.
  intros Q coll fuel d logp d' Hx Rd E. apply ready_seen in Rd.
  set (Q1 := offers (view (d_toks d)) logp).
  destruct (process_split _ _ _ _ _ _ _ _ E) as (d0 & E0 & Hd). 
  assert (Et : d_toks d' = d_toks d0).
  { destruct Hd as [[_ ->]|(_ & h & _ & ->)]; reflexivity. }
  rewrite Et. clear E Hd Et d'.
  destruct (process_before_gc O X cfg wm good Hlm _ Q1 _ _ _ _ Rd (offers_emit _ _) (offers_eps _ _) E0) as ([I0 _] & _ & _ & _ & NE).
  unfold process in E0. destruct (bind_ok _ _ _ _ _ E0) as [[d1 cut] [E1 E2]]. clear E0. destruct Rd as [I Ep].
  destruct (process_emitting_emits O X cfg wm good Hlm Hlt _ _ Q1 _ _ _ _ Hx I Ep (offers_emit _ _) E1) as (cutoff & ab & bt & Eg & H).
  destruct (process_emitting_inv O X cfg wm good Hlm _ _ Q1 _ _ _ _ I Ep (offers_emit _ _) E1) as (I1 & _).
  destruct (negb (x_finite X (x_wide X cut))); [discriminate|].
  destruct (bind_ok _ _ _ _ _ E2) as [d2 [E3 E4]]. clear E2.
  destruct (lenZ (d_toks d2) =? 0); [discriminate|].
  assert (Et : d_toks d0 = d_toks d2).
  { destruct (Z.rem (d_frames d2) 20 =? 0); cbn in E4; injection E4 as <-; reflexivity. }
  destruct H as [(_ & -> & ->)|(_ & next & -> & _ & Em)].
  { exfalso. apply NE. rewrite Et. unfold process_nonemitting, swapped in E3. rewrite Ep in E3. cbn in E3.
    destruct fuel; cbn in E3; injection E3 as <-; reflexivity. }
  destruct (process_nonemitting_closed O X cfg wm good Hlm Hlt _ _ _ _ _ _ I1 (offers_eps _ _) E3) as [Cl M].
  exists cutoff, ab, bt, next, d1. split; auto. split; auto. rewrite <- Et in Cl, M.
  split; [exact (ix_nodup _ _ (di_ix _ _ _ _ I0))|].
  split; [|split; auto].
  - intros t J. destruct (di_toks _ _ _ _ I0 t J) as (ws & _ & H). exact H.
  - intros t a l' lw ac J L Af NZ Ac El Lx. apply M. destruct (Em t a J L Af l' lw ac NZ Ac El) as [H _]. auto.
Qed.

(** * Initialize *)
Lemma initialize_beam : forall fuel d0 d, good (d_cache d0) -> indexed (d_idx d0) (@nil tok) -> linv (d_labels d0) ->
  initialize O X cfg fuel d0 = Ok d ->
  ready (by_path []) d /\ closed O X g wm (x_inf X) (view (d_toks d)) /\
  covered O (view (d_toks d)) (g_start g, lm_first wm) (f_zero O).
Proof.
  intros fuel d0 d Gc Ix Li E.
  destruct (initialize_inv O X cfg wm good Hlm fuel d0 d (by_path []) Gc Ix Li (path_start _ _ _ _ _ _)
              (by_path_eps _ _ _ _ _) E) as (R & _).
  split; auto. unfold initialize in E. inv_bind E. inv_bind E.
  destruct (bind_ok _ _ _ _ _ E) as [[d1 b] [Ei E1]]. clear E.
  set (dd := mk_decoder [] [] (d_idx d0) (d_labels d0) (d_cache d0) (d_frames d0) (d_eos d0)) in *.
  assert (I0 : dinv (by_path []) (by_path []) dd) by (constructor; cbn; auto; intros t []).
  assert (Es : a0 = lm_first wm).
  { unfold lm_first. unfold lm_implements in Hlm. destruct (c_lm cfg), wm; try destruct Hlm.
    - apply H. exact Hb0.
    - congruence. }
  subst a0.
  destruct (insert_tok_spec O good (by_path []) (by_path []) dd _ 0 None _ [] _ _ I0 (rep_nil _) (path_start _ _ _ _ _ _) Ei) as (t & Kt & Ct & _ & Eo & I1 & _).
  assert (I2 : dinv (by_path []) (by_path []) (with_frames d1 0)) by (destruct I1; constructor; auto).
  destruct (process_nonemitting_closed O X cfg wm good Hlm Hlt _ _ _ _ _ _ I2 (by_path_eps _ _ _ _ _) E1) as [Cl M].
  split; auto. apply M. cbn [with_frames d_toks]. rewrite <- Kt, <- Ct.
  eapply offer_covered; eauto.
Qed.

Lemma new_initialize_beam : forall fuel cache d0 d, good cache -> new_decoder cache = Ok d0 ->
  initialize O X cfg fuel d0 = Ok d ->
  ready (by_path []) d /\ closed O X g wm (x_inf X) (view (d_toks d)) /\
  covered O (view (d_toks d)) (g_start g, lm_first wm) (f_zero O).
Proof.
  intros fuel cache d0 d Gc E0 E.
  destruct (new_decoder_inv good cache d0 (by_path []) (by_path []) Gc E0) as ([Ix Li Go _ _] & Ep & El).
  pose proof E0 as E0'. unfold new_decoder in E0'. inv_bind E0'. injection E0' as <-.
  eapply initialize_beam; eauto.
Qed.

(** A second Initialize in a row. *)
Lemma initialize_twice : forall fuel fuel' cache d0 d, good cache -> new_decoder cache = Ok d0 ->
  initialize O X cfg fuel d0 = Ok d -> exists f, initialize O X cfg fuel' d = Fault f /\ f <> Fuel.
Proof.
  intros fuel fuel' cache d0 d Gc E0 E.
  destruct (new_initialize_beam _ _ _ _ Gc E0 E) as ([[Ix Li Go At Ap] Ep] & _ & (c & J & _)).
  apply in_view in J. destruct J as (t & J & Kt & _).
  unfold initialize in E. inv_bind E. inv_bind E.
  assert (Es : a0 = lm_first wm).
  { unfold lm_first. unfold lm_implements in Hlm. destruct (c_lm cfg), wm; try destruct Hlm.
    - apply H. exact Hb0.
    - congruence. }
  subst a0. destruct (bind_ok _ _ _ _ _ E) as [[d1 b] [Ei E1]]. clear E.
  unfold initialize. rewrite Hb. cbn [bind]. rewrite Hb0. cbn [bind].
  unfold insert_tok in *. cbn [d_idx] in *.
  destruct (bind_ok _ _ _ _ _ Ei) as [i0 [Ef _]]. 
  assert (Hd : hash_defined (g_start g, lm_first wm) = true).
  { unfold idx_find in Ef. inv_bind Ef. unfold check in Hb1. now destruct (hash_defined _). }
  unfold idx_find. rewrite Hd. cbn [check bind].
  pose proof (runs_find state_eqb state_hash (d_idx d) (g_start g, lm_first wm) kNotExist) as Rf.
  destruct (find state_eqb state_hash (d_idx d) (g_start g, lm_first wm) kNotExist) as [i|f] eqn:Hi.
  2:{ exists f. split; [reflexivity|]. intros ->. now apply Rf. }
  exists Undef. split; [|discriminate]. cbn [bind Z.eqb].
  destruct (find_state _ _ _ _ Ix Hi) as [[-> NI]|[NE (old & G & _)]].
  { exfalso. apply (NI t J Kt). }
  apply Z.eqb_neq in NE. rewrite NE. cbn. apply getZ_ok in G. destruct G as [G _].
  unfold getZ. destruct (Z.ltb_spec i 0); [lia|]. destruct (Z.to_nat i); reflexivity.
Qed.

(** * Dead ends *)
Lemma process_empty : forall coll fuel d logp, d_toks d = [] -> process O X cfg coll fuel d logp = Fault Undef.
Proof. intros coll fuel d logp E. unfold process, process_emitting, get_cutoff. cbn [d_prev]. rewrite E. reflexivity. Qed.

Lemma process_dead : forall coll fuel d logp d' b, process O X cfg coll fuel d logp = Ok (d', b) ->
  d_toks d' = [] -> b = false.
Proof.
  intros coll fuel d logp d' b E Et. destruct b; auto. exfalso.
  unfold process in E. destruct (bind_ok _ _ _ _ _ E) as [[d1 cut] [E1 E2]]. clear E.
  destruct (negb _); [discriminate|]. inv_bind E2. destruct (Z.eqb_spec (lenZ (d_toks a)) 0) as [|NZ]; [discriminate|].
  inv_bind E2. injection E2 as <-. cbn in Et. apply NZ.
  assert (Ea : d_toks a0 = d_toks a).
  { destruct (_ =? 0); [inv_bind Hb0|]; injection Hb0 as <-; reflexivity. }
  rewrite <- Ea, Et. reflexivity.
Qed.

Lemma best_path_dead : forall d : dec, d_toks d = [] -> best_path O X cfg d = Ok ([], f_zero O).
Proof. intros d E. unfold best_path. rewrite E. reflexivity. Qed.

(** * Nothing pruned *)
Variable ok : F -> Prop.
Hypothesis Ex : ordered_costs O X ok.

Definition complete (fs : list (list F)) (d : dec) : Prop :=
  forall s c ws, path fs s c ws -> covered O (view (d_toks d)) s c.

Lemma covered_step : forall b s c c0 (w ac : F) lw, (forall c1, In (s, c1) b -> ok c1) -> ok c -> ok c0 ->
  ok (x_narrow X (cost_after O X c0 w ac lw)) -> ok (x_narrow X (cost_after O X c w ac lw)) -> f_lt O c c0 = false ->
  covered O b s (x_narrow X (cost_after O X c0 w ac lw)) -> covered O b s (x_narrow X (cost_after O X c w ac lw)).
Proof.
  intros b s c c0 w ac lw Kb K K0 K0' K' L (c1 & J & L1). exists c1. split; [exact J|].
  apply (o_total _ _ _ Ex c1 (x_narrow X (cost_after O X c0 w ac lw))); auto. now apply (o_step _ _ _ Ex).
Qed.

(** Costs of tokens are costs of paths. *)
Lemma beam_path : forall fs d s c, ready (by_path fs) d -> In (s, c) (view (d_toks d)) -> exists ws, path fs s c ws.
Proof.
  intros fs d s c [I _] J. apply in_view in J. destruct J as (t & J & <- & <-).
  destruct (di_toks _ _ _ _ I t J) as (ws & _ & H). eauto.
Qed.

Lemma initialize_complete : forall d, (forall s c ws, path [] s c ws -> ok c) -> ready (by_path []) d ->
  closed O X g wm (x_inf X) (view (d_toks d)) ->
  covered O (view (d_toks d)) (g_start g, lm_first wm) (f_zero O) -> complete [] d.
Proof.
  intros d Fp Rd Cl Cs s c ws P. remember [] as fs eqn:Ef. induction P as [|fs s l c ws a l' lw P IH Af Z0 El|]; auto; [|discriminate].
  destruct (IH Ef Fp Rd) as (c0 & J & L). subst fs. destruct (beam_path _ _ _ _ Rd J) as (ws0 & P0).
  destruct (Cl _ _ _ _ _ _ J Af Z0 El) as [H|H].
  - rewrite (o_inf _ _ _ Ex) in H. discriminate.
  - apply covered_step with (c0 := c0); auto.
    + intros c1 J1. destruct (beam_path _ _ _ _ Rd J1) as (ws1 & P1). exact (Fp _ _ _ P1).
    + exact (Fp _ _ _ P).
    + exact (Fp _ _ _ P0).
    + exact (Fp _ _ _ (path_eps _ _ _ _ _ _ _ _ _ _ _ _ _ _ P0 Af Z0 El)).
    + exact (Fp _ _ _ (path_eps _ _ _ _ _ _ _ _ _ _ _ _ _ _ P Af Z0 El)).
Qed.

Lemma process_complete : forall fs fuel d logp d', ready (by_path fs) d -> complete fs d ->
  (forall s c ws, path fs s c ws -> ok c) -> (forall s c ws, path (logp :: fs) s c ws -> ok c) -> ready (by_path (logp :: fs)) d' ->
  frame_unpruned O X cfg wm fuel d logp ->
  process O X cfg collector fuel d logp = Ok (d', true) -> complete (logp :: fs) d'.
Proof.
  intros fs fuel d logp d' Rd Cm Fp Fp' Rd' U E.
  assert (Kb : forall s c, In (s, c) (view (d_toks d')) -> ok c).
  { intros s c J. destruct (beam_path _ _ _ _ Rd' J) as (ws & P). exact (Fp' _ _ _ P). }
  destruct (frame_beam _ _ _ _ _ _ (o_xlt _ _ _ Ex) Rd E) as (cutoff & ab & bt & next & d1 & Eg & E1 & _ & _ & Em & Cl).
  destruct (U _ _ _ _ _ _ Eg E1 E) as [U1 U2].
  intros s c ws P. remember (logp :: fs) as fs' eqn:Ef.
  induction P as [|fs' s l c ws a l' lw P IH Af Z0 El|fs' lp s l c ws a l' lw ac P _ Af NZ Ac El]; [discriminate| |].
  - destruct (IH Ef Fp' Rd') as (c0 & J & L). subst fs'. destruct (beam_path _ _ _ _ Rd' J) as (ws0 & P0).
    destruct (Cl _ _ _ _ _ _ J Af Z0 El) as [H|H].
    + apply in_view in J. destruct J as (t & Jt & Kt & <-).
      replace s with (Datatypes.fst (k_state t)) in Af by (rewrite Kt; reflexivity).
      replace l with (snd (k_state t)) in El by (rewrite Kt; reflexivity).
      rewrite (U2 t a l' lw Jt Af Z0 El) in H. discriminate.
    + apply covered_step with (c0 := c0); auto.
      * intros c1 J1. exact (Kb _ _ J1).
      * exact (Fp' _ _ _ P).
      * exact (Fp' _ _ _ P0).
      * exact (Fp' _ _ _ (path_eps _ _ _ _ _ _ _ _ _ _ _ _ _ _ P0 Af Z0 El)).
      * exact (Fp' _ _ _ (path_eps _ _ _ _ _ _ _ _ _ _ _ _ _ _ P Af Z0 El)).
  - injection Ef as -> ->. destruct (Cm _ _ _ P) as (c0 & J & L). destruct (beam_path _ _ _ _ Rd J) as (ws0 & P0).
    pose proof Af as Af0. pose proof El as El0.
    apply in_view in J. destruct J as (t & Jt & Kt & <-).
    replace s with (Datatypes.fst (k_state t)) in Af by (rewrite Kt; reflexivity).
    replace l with (snd (k_state t)) in El by (rewrite Kt; reflexivity).
    destruct (U1 t Jt) as [L1 L2]. apply covered_step with (c0 := k_cost t); auto.
    + intros c1 J1. exact (Kb _ _ J1).
    + exact (Fp _ _ _ P).
    + exact (Fp _ _ _ P0).
    + exact (Fp' _ _ _ (path_emit _ _ _ _ _ _ _ _ _ _ _ _ _ _ _ _ P0 Af0 NZ Ac El0)).
    + exact (Fp' _ _ _ (path_emit _ _ _ _ _ _ _ _ _ _ _ _ _ _ _ _ P Af0 NZ Ac El0)).
Qed.

Lemma run_complete : forall fuel frames d d' fs, ready (by_path fs) d -> complete fs d ->
  (forall later fs' s c ws, rev frames ++ fs = later ++ fs' -> path fs' s c ws -> ok c) ->
  collections_safe O X cfg fuel d frames -> nothing_pruned O X cfg wm fuel d frames ->
  process_all O X cfg collector fuel d frames = Ok (d', true) -> complete (rev frames ++ fs) d'.
Proof.
  intros fuel frames. induction frames as [|logp frames IH]; intros d d' fs R Cm Fp S U E.
  - cbn in E. injection E as <-. exact Cm.
  - cbn [process_all] in E. destruct (bind_ok _ _ _ _ _ E) as [[d1 k1] [E1 E2]]. clear E.
    destruct k1; [|discriminate]. destruct S as [S1 S2]. destruct U as [U1 U2].
    destruct (process_ready O X cfg wm good Hlm _ _ _ _ _ _ R (by_path_emit _ _ _ _ fs logp) (by_path_eps _ _ _ _ _) S1 E1) as (R1 & _).
    cbn [rev] in *. rewrite <- app_assoc in *. cbn [app] in *.
    assert (Cm1 : complete (logp :: fs) d1).
    { apply (process_complete fs fuel d logp d1 R Cm); auto.
      - intros s c ws P. apply (Fp (rev frames ++ [logp]) fs s c ws); [|exact P]. now rewrite <- app_assoc.
      - intros s c ws P. now apply (Fp (rev frames) (logp :: fs) s c ws). }
    apply (IH d1); auto.
Qed.

Lemma decodes_best : forall fuel cache frames d, good cache -> all_costs O X cfg wm frames ok -> run_safe O X cfg fuel cache frames ->
  run_unpruned O X cfg wm fuel cache frames -> decodes O X cfg collector fuel cache frames d ->
  (forall t, In t (d_toks d) ->
     (exists ws, path (rev frames) (k_state t) (k_cost t) ws) /\
     forall c ws, path (rev frames) (k_state t) c ws -> f_lt O c (k_cost t) = false) /\
  (forall s c ws, path (rev frames) s c ws -> exists t, In t (d_toks d) /\ k_state t = s).
Proof.
  intros fuel cache frames d Gc Fp S U Dc.
  destruct (decodes_paths O X cfg wm good Hlm _ _ _ _ Gc S Dc) as ([I Ep] & _).
  destruct Dc as (d0 & d1 & E0 & E1 & E2).
  destruct (new_initialize_beam _ _ _ _ Gc E0 E1) as (R1 & Cl & Cs).
  assert (Cm : complete (rev frames ++ []) d).
  { apply (run_complete fuel frames d1 d []); auto.
    - apply initialize_complete; auto. intros s c ws P. apply (Fp (rev frames) [] s c ws); [now rewrite app_nil_r|exact P].
    - intros later fs' s c ws E P. rewrite app_nil_r in E. exact (Fp later fs' s c ws E P).
    - exact (S _ _ E0 E1).
    - exact (U _ _ E0 E1). }
  rewrite app_nil_r in Cm. split.
  - intros t J. split.
    + destruct (di_toks _ _ _ _ I t J) as (ws & _ & H). eauto.
    + intros c ws P. destruct (Cm _ _ _ P) as (c' & J' & L).
      rewrite (view_fun (d_toks d) (ix_nodup _ _ (di_ix _ _ _ _ I)) (k_state t) (k_cost t) c'); auto.
      apply in_view. eauto.
  - intros s c ws P. destruct (Cm _ _ _ P) as (c' & J' & L). apply in_view in J'. destruct J' as (t & H1 & H2 & _). eauto.
Qed.

End Best.
