(** Proofs about the decoder: the properties. *)
From Coq Require Import ZArith List Bool Lia.
From Verif.Base Require Import Prelude ZMap Lemmas.
From Verif.Spec Require Import MapSpec PoolSpec GCSpec DecoderSpec.
From Verif.Model Require Import Arith Vector HashTable Pool OLabel Fst Decoder.
From Verif.Proof Require Import Loop DecoderBase Decoder DecoderRun DecoderClosed DecoderGc DecoderCutoff DecoderBest.
Import ListNotations.
Open Scope Z_scope.

Section Main.
Context {F D C : Type} (O : fops F) (X : xops F D) (cfg : config F C).
Context (wm : option (word_model F)) (good : C -> Prop).
Hypothesis Hlm : lm_implements (c_lm cfg) wm good.

Notation g := (c_graph cfg).
Notation path := (path O X g (c_pdf cfg) (c_scale cfg) wm).
Notation acoustic := (acoustic O X (c_pdf cfg) (c_scale cfg)).

Lemma hypothesis_path : strict (x_lt X) -> forall fuel cache frames d, good cache ->
  run_safe O X cfg fuel cache frames -> decodes O X cfg collector fuel cache frames d ->
  forall (eos : bool) ws weight, best_path O X cfg (if eos then end_of_stream d else d) = Ok (ws, weight) ->
  (ws = [] /\ weight = f_zero O /\
   forall t x, In t (d_toks d) -> ending X g wm eos (k_state t) (k_cost t) x ->
     x_is_inf X x = true \/ x_lt X x (x_inf X) = false) \/
  (exists s c total w, In (s, c) (view (d_toks d)) /\ path (rev frames) s c (rev ws) /\
     ending X g wm eos s c total /\ final_of g (Datatypes.fst s) w /\ weight = f_add O (x_narrow X total) w /\
     x_is_inf X total = false /\ x_lt X total (x_inf X) = true /\
     forall t x, In t (d_toks d) -> ending X g wm eos (k_state t) (k_cost t) x ->
       x_is_inf X x = true \/ x_lt X x total = false).
Proof.
  intros Hx fuel cache frames d Gc S Dc eos ws weight E.
  destruct (decodes_paths O X cfg wm good Hlm _ _ _ _ Gc S Dc) as (R & _ & Ee).
  assert (R' : ready good (by_path O X cfg wm (rev frames)) (if eos then end_of_stream d else d)).
  { destruct eos; auto. now apply ready_eos. }
  pose proof (best_path_spec O X cfg wm good Hlm _ _ _ _ Hx R' E) as H. cbv zeta in H.
  assert (Eo : d_eos (if eos then end_of_stream d else d) = eos) by (destruct eos; auto). rewrite Eo in H.
  assert (Et : d_toks (if eos then end_of_stream d else d) = d_toks d) by (destruct eos; auto). rewrite Et in H.
  destruct H as [H|(t & x & w & J & P & Hc & Hf & Hw & Hi & Hl & Hb)]; [left; auto|right].
  exists (k_state t), (k_cost t), x, w. split; [apply in_view; eauto|]. auto 10.
Qed.

(** * A frame *)
Lemma frame : strict (f_lt O) -> strict (x_lt X) -> forall fuel cache frames d, good cache ->
  run_safe O X cfg fuel cache frames -> decodes O X cfg collector fuel cache frames d ->
  forall logp d', process O X cfg collector fuel d logp = Ok (d', true) ->
  NoDup (map k_state (d_toks d')) /\
  (forall s c, In (s, c) (view (d_toks d')) ->
     frame_offer O X g (c_pdf cfg) (c_scale cfg) wm (view (d_toks d)) logp s c) /\
  exists cutoff ab bt next d1,
    get_cutoff O X cfg (d_toks d) = Ok (cutoff, ab, bt) /\
    process_emitting O X cfg d logp = Ok (d1, x_narrow X next) /\
    (forall s l c a l' lw ac, In ((s, l), c) (view (d_toks d)) -> f_lt O (x_narrow X cutoff) c = false ->
       arc_from g s a -> input_label a <> 0 -> acoustic logp a ac ->
       lm_after O wm l (output_label a) = (l', lw) ->
       x_lt X next (x_wide X (f_add O (f_add O c (weight a)) ac)) = false ->
       covered O (view (d_toks d')) (next_state a, l') (x_narrow X (cost_after O X c (weight a) ac lw))) /\
    closed O X g wm (x_wide X (x_narrow X next)) (view (d_toks d')).
Proof.
  intros Hf Hx fuel cache frames d Gc S Dc logp d' E.
  destruct (decodes_paths O X cfg wm good Hlm _ _ _ _ Gc S Dc) as (R & _ & _).
  destruct (frame_beam O X cfg wm good Hlm Hf _ _ _ _ _ _ Hx R E) as (cutoff & ab & bt & next & d1 & E1 & E2 & ND & Of & Em & Cl).
  split; auto. split.
  - intros s c J. apply in_view in J. destruct J as (t & J & <- & <-). auto.
  - exists cutoff, ab, bt, next, d1. split; auto. split; auto. split; auto.
    intros s l c a l' lw ac J. apply in_view in J. destruct J as (t & J & K & <-).
    replace s with (Datatypes.fst (k_state t)) by (rewrite K; reflexivity).
    replace l with (snd (k_state t)) by (rewrite K; reflexivity). eauto.
Qed.

Lemma insertion : forall fuel cache frames d, good cache ->
  run_safe O X cfg fuel cache frames -> decodes O X cfg collector fuel cache frames d ->
  forall t s l c d' b, In t (d_toks d) -> insert_tok O d s l (k_olabel t) c = Ok (d', b) ->
  view (d_toks d') = offered (f_lt O) (view (d_toks d)) s c.
Proof.
  intros fuel cache frames d Gc S Dc t s l c d' b J E.
  destruct (decodes_paths O X cfg wm good Hlm _ _ _ _ Gc S Dc) as (R & _ & _).
  destruct (di_toks _ _ _ _ (rd_inv _ _ _ R) t J) as (ws & Rw & _).
  eapply insert_offers; eauto.
Qed.

Lemma beginning : strict (f_lt O) -> forall fuel cache d, good cache -> decodes O X cfg collector fuel cache [] d ->
  closed O X g wm (x_inf X) (view (d_toks d)) /\
  covered O (view (d_toks d)) (g_start g, lm_first wm) (f_zero O) /\
  NoDup (map k_state (d_toks d)) /\
  forall t, In t (d_toks d) -> exists ws, path [] (k_state t) (k_cost t) ws.
Proof.
  intros Hf fuel cache d Gc (d0 & d1 & E0 & E1 & E2). cbn in E2. injection E2 as ->.
  destruct (new_initialize_beam O X cfg wm good Hlm Hf _ _ _ _ Gc E0 E1) as ([I _] & Cl & Cs).
  split; auto. split; auto. split; [exact (ix_nodup _ _ (di_ix _ _ _ _ I))|].
  intros t J. destruct (di_toks _ _ _ _ I t J) as (ws & _ & H). eauto.
Qed.

(** * Termination *)
Section Ends.
Hypothesis Hruns : forall m c s x, c_lm cfg = Some m -> good c -> lm_arc m c s x <> Fault Fuel.
Variable ls : list Z.
Hypothesis Hfirst : In (lm_first wm) ls.
Hypothesis Hls : forall l x, In l ls -> In (Datatypes.fst (lm_after O wm l x)) ls.
Hypothesis Wf : well_founded (fun x y => f_lt O x y = true).

Notation within := (fun (s : state) (_ : F) (_ : list Z) => In (snd s) ls).

Lemma within_eps : eps_ok O X cfg wm within.
Proof. intros s l c ws a l' lw J _ _ El. cbn in *. specialize (Hls l (output_label a) J). rewrite El in Hls. exact Hls. Qed.
Lemma within_emit : forall logp, emit_ok O X cfg wm logp within within.
Proof. intros logp s l c ws a l' lw ac J _ _ _ El. cbn in *. specialize (Hls l (output_label a) J). rewrite El in Hls. exact Hls. Qed.

Lemma path_within : forall fs s c ws, path fs s c ws -> In (snd s) ls.
Proof.
  intros fs s c ws P. induction P as [|fs s l c ws a l' lw P IH _ _ El|fs lp s l c ws a l' lw ac P IH _ _ _ El]; cbn in *; auto.
  - specialize (Hls l (output_label a) IH). rewrite El in Hls. exact Hls.
  - specialize (Hls l (output_label a) IH). rewrite El in Hls. exact Hls.
Qed.

Lemma frame_ends : forall fuel0 cache frames d, good cache ->
  run_safe O X cfg fuel0 cache frames -> decodes O X cfg collector fuel0 cache frames d ->
  forall logp d1 cut, process_emitting O X cfg d logp = Ok (d1, cut) ->
  exists fuel, process_nonemitting O X cfg fuel d1 (x_wide X cut) <> Fault Fuel /\
    forall fuel', (fuel <= fuel')%nat ->
      process_nonemitting O X cfg fuel' d1 (x_wide X cut) = process_nonemitting O X cfg fuel d1 (x_wide X cut).
Proof.
  intros fuel0 cache frames d Gc S Dc logp d1 cut E.
  destruct (decodes_paths O X cfg wm good Hlm _ _ _ _ Gc S Dc) as ([[Ix Li Go At Ap] Ep] & _ & _).
  assert (I : dinv good (fun _ _ _ => False) within d).
  { constructor; auto. intros t J. destruct (At t J) as (ws & R & P). exists ws. split; auto. eapply path_within; exact P. }
  destruct (process_emitting_inv O X cfg wm good Hlm _ _ within _ _ _ _ I Ep (within_emit _) E) as (I1 & _).
  apply (process_nonemitting_terminates O X cfg wm good Hlm Hruns _ _ _ _ ls Wf Hls) with (2 := I1).
  intros t J. destruct (di_toks _ _ _ _ I1 t J) as (ws & _ & H). exact H.
Qed.

Hypothesis Hstart : forall m, c_lm cfg = Some m -> lm_start m <> Fault Fuel.

Lemma beginning_ends : forall cache d0, good cache -> new_decoder cache = Ok d0 ->
  exists fuel, initialize O X cfg fuel d0 <> Fault Fuel /\
    forall fuel', (fuel <= fuel')%nat -> initialize O X cfg fuel' d0 = initialize O X cfg fuel d0.
Proof.
  intros cache d0 Gc E0.
  destruct (new_decoder_inv good cache d0 within within Gc E0) as ([Ix Li Go _ _] & Ep & El).
  pose proof E0 as E0'. unfold new_decoder in E0'. inv_bind E0'. injection E0' as <-.
  set (dd := mk_decoder [] [] a ginit cache 0 false) in *.
  unfold initialize. cbn [d_idx d_labels d_cache d_frames d_eos dd]. fold dd.
  destruct (check (0 <=? g_start g) Assert) as [u|f] eqn:Ec; cbn [bind].
  2:{ exists 0%nat. split; auto. unfold check in Ec. destruct (_ <=? _); congruence. }
  destruct (match c_lm cfg with None => Ok 0 | Some m => lm_start m end) as [l|f] eqn:Es; cbn [bind].
  2:{ exists 0%nat. split; auto. intros Q0. injection Q0 as ->. destruct (c_lm cfg); [eapply Hstart; eauto|discriminate]. }
  assert (El' : l = lm_first wm).
  { unfold lm_first. unfold lm_implements in Hlm. destruct (c_lm cfg), wm; try destruct Hlm.
    - apply H. exact Es.
    - congruence. }
  subst l.
  destruct (insert_tok O dd (g_start g, lm_first wm) 0 None (f_zero O)) as [[d1 b]|f] eqn:Ei; cbn [bind].
  2:{ exists 0%nat. split; auto. intros Q0. injection Q0 as ->. revert Ei. apply runs_insert_tok. }
  assert (I0 : dinv good within within dd) by (constructor; cbn; auto; intros t []).
  destruct (insert_tok_spec O good within within dd (g_start g, lm_first wm) 0 None (f_zero O) [] _ _ I0 (rep_nil _) Hfirst Ei) as (t & _ & _ & _ & _ & I1 & _).
  assert (I2 : dinv good within within (with_frames d1 0)) by (destruct I1; constructor; auto).
  apply (process_nonemitting_terminates O X cfg wm good Hlm Hruns _ _ _ _ ls Wf Hls) with (2 := I2).
  intros t' J. destruct (di_toks _ _ _ _ I2 t' J) as (ws & _ & H). exact H.
Qed.
End Ends.

(** * The best token *)
Lemma success : rounding O X (c_beam cfg) -> forall fuel cache frames d, good cache ->
  run_safe O X cfg fuel cache frames -> decodes O X cfg collector fuel cache frames d ->
  forall logp d' b, process O X cfg collector fuel d logp = Ok (d', b) ->
  forall s c a ac, In (s, c) (view (d_toks d)) -> f_finite O c = true ->
  (forall s' c', In (s', c') (view (d_toks d)) -> f_lt O c' c = false) ->
  arc_from g (Datatypes.fst s) a -> input_label a <> 0 -> acoustic logp a ac ->
  f_finite O (f_add O (f_add O c (weight a)) ac) = true ->
  (forall s' c' a' ac', In (s', c') (view (d_toks d)) -> arc_from g (Datatypes.fst s') a' -> input_label a' <> 0 ->
     acoustic logp a' ac' -> let total := f_add O (f_add O c' (weight a')) ac' in
     f_finite O total = false -> f_lt O total (f_zero O) = false) ->
  b = true /\ d_toks d' <> [].
Proof.
  intros R fuel cache frames d Gc S Dc logp d' b E s c a ac J Fc Lc Af NZ Ac Ft Nl.
  destruct (decodes_paths O X cfg wm good Hlm _ _ _ _ Gc S Dc) as ([I Ep] & _ & _).
  apply in_view in J. destruct J as (t & J & <- & <-).
  eapply (process_succeeds O X cfg R wm good Hlm _ _ _ _ _ _ _ _ t a ac I Ep (by_path_emit _ _ _ _ _ _) (by_path_eps _ _ _ _ _) E); eauto.
  - intros t' J'. apply (Lc (k_state t')). apply in_view. eauto.
  - intros t' a' ac' J'. apply Nl with (s' := k_state t'). apply in_view. eauto.
Qed.

End Main.

(** * Collections *)
Lemma collections_unseen : forall F D C (O : fops F) (X : xops F D) (cfg : config F C) fuel cache frames d0 d1,
  new_decoder cache = Ok d0 -> initialize O X cfg fuel d0 = Ok d1 -> run_safe O X cfg fuel cache frames ->
  match process_all O X cfg collector fuel d1 frames, process_all O X cfg keep_all fuel d1 frames with
  | Ok (x, b), Ok (y, b') =>
      b = b' /\ view (d_toks x) = view (d_toks y) /\ best_path O X cfg x = best_path O X cfg y /\
      best_path O X cfg (end_of_stream x) = best_path O X cfg (end_of_stream y)
  | Fault f, Fault f' => f = f'
  | _, _ => False
  end.
Proof.
  intros F D C O X cfg fuel cache frames d0 d1 E0 E1 S.
  pose proof (run_same O X cfg fuel cache frames d0 d1 E0 E1 (S _ _ E0 E1)) as H.
  destruct (process_all O X cfg collector fuel d1 frames) as [[x b]|], (process_all O X cfg keep_all fuel d1 frames) as [[y b']|]; cbn in H; auto.
Qed.

(** * The reported cost *)
Lemma neutral_cost : forall F D C (O : fops F) (X : xops F D) (cfg : config F C) wm (good : C -> Prop),
  lm_implements (c_lm cfg) wm good -> strict (x_lt X) ->
  (forall s w x, final_of (c_graph cfg) s w -> f_add O x w = x) ->
  forall fuel cache frames d, good cache ->
  run_safe O X cfg fuel cache frames -> decodes O X cfg collector fuel cache frames d ->
  forall ws weight, best_path O X cfg (end_of_stream d) = Ok (ws, weight) ->
  (ws = [] /\ weight = f_zero O) \/
  exists s c total, path O X (c_graph cfg) (c_pdf cfg) (c_scale cfg) wm (rev frames) s c (rev ws) /\
    ending X (c_graph cfg) wm true s c total /\ weight = x_narrow X total.
Proof.
  intros F D C O X cfg wm good Hlm Hx Hn fuel cache frames d Gc S Dc ws weight E.
  destruct (hypothesis_path O X cfg wm good Hlm Hx _ _ _ _ Gc S Dc true ws weight E)
    as [(H1 & H2 & _)|(s & c & total & w & _ & P & He & Hf & Hw & _)]; [left; auto|right].
  exists s, c, total. rewrite (Hn _ _ _ Hf) in Hw. auto.
Qed.

(** * Dead ends *)
Lemma dead_end : forall F D C (O : fops F) (X : xops F D) (cfg : config F C) fuel (d : decoder F C) logp d' b,
  process O X cfg collector fuel d logp = Ok (d', b) -> d_toks d' = [] ->
  b = false /\ best_path O X cfg d' = Ok ([], f_zero O) /\
  best_path O X cfg (end_of_stream d') = Ok ([], f_zero O) /\
  forall logp', process O X cfg collector fuel d' logp' = Fault Undef.
Proof.
  intros F D C O X cfg fuel d logp d' b E Et. split; [eapply process_dead; eauto|].
  split; [now apply best_path_dead|]. split; [now apply best_path_dead|]. intros logp'. now apply process_empty.
Qed.
