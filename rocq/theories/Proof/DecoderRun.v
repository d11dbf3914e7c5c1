(** Proofs about whole runs of the decoder. *)
From Coq Require Import ZArith List Bool Lia.
From Verif.Base Require Import Prelude ZMap Lemmas.
From Verif.Spec Require Import MapSpec PoolSpec GCSpec DecoderSpec.
From Verif.Model Require Import Arith Vector HashTable Pool OLabel Fst Decoder.
From Verif.Proof Require Import Loop HashTable HashTableTotal Pool GC OLabel DecoderBase Decoder.
Import ListNotations.
Open Scope Z_scope.

Section Run.
Context {F D C : Type} (O : fops F) (X : xops F D) (cfg : config F C).
Context (wm : option (word_model F)) (good : C -> Prop).
Hypothesis Hlm : lm_implements (c_lm cfg) wm good.

Notation tok := (token F).
Notation dec := (decoder F C).
Notation g := (c_graph cfg).
Notation by_path := (by_path O X cfg wm).
Notation ready := (ready good).
Notation path := (path O X g (c_pdf cfg) (c_scale cfg) wm).

(** * BestPath *)
Lemma graph_final_of : forall s w, graph_final cfg s = Ok w <-> final_of g s w.
Proof.
  intros s w. unfold graph_final, final_of. split.
  - intros E. inv_bind E. apply getZ_ok in Hb. destruct Hb as [H1 H2]. destruct a as [f l]. cbn in E.
    injection E as ->. split; [lia|eauto].
  - intros (H1 & arcs & H2). rewrite (proj2 (getZ_ok _ _ _ _) (conj H1 H2)). reflexivity.
Qed.

Lemma path_cost_ending : forall (d : dec) t x, path_cost X cfg d t = Ok x ->
  ending X g wm (d_eos d) (k_state t) (k_cost t) x.
Proof.
  intros d t x E. unfold path_cost in E. unfold ending. unfold lm_implements in Hlm.
  destruct (d_eos d).
  - inv_bind E. inv_bind Hb. injection Hb as <-. apply graph_final_of in Hb0.
    exists a0. split; [exact Hb0|]. destruct (c_lm cfg), wm; try destruct Hlm as (_ & _ & He); try contradiction.
    + inv_bind E. injection E as <-. rewrite (He _ _ Hb). reflexivity.
    + congruence.
  - cbn [bind] in E. destruct (c_lm cfg); congruence.
Qed.

Lemma ending_fun : forall eos s c x y, ending X g wm eos s c x -> ending X g wm eos s c y -> x = y.
Proof.
  intros eos s c x y. unfold ending. destruct eos; [|congruence].
  intros (w & (_ & l & E) & ->) (w' & (_ & l' & E') & ->). rewrite E in E'. injection E' as -> ->. reflexivity.
Qed.

(** What is known of the hypothesis a decoder reports, if its tokens satisfy
    [Q]. *)
Lemma best_path_spec : forall Q d ws weight, strict (x_lt X) -> ready Q d ->
  best_path O X cfg d = Ok (ws, weight) ->
  let cost_of t := ending X g wm (d_eos d) (k_state t) (k_cost t) in
  (ws = [] /\ weight = f_zero O /\
   forall t x, In t (d_toks d) -> cost_of t x -> x_is_inf X x = true \/ x_lt X x (x_inf X) = false) \/
  (exists t x w, In t (d_toks d) /\ Q (k_state t) (k_cost t) ws /\ cost_of t x /\
     final_of g (Datatypes.fst (k_state t)) w /\ weight = f_add O (x_narrow X x) w /\
     x_is_inf X x = false /\ x_lt X x (x_inf X) = true /\
     forall t' x', In t' (d_toks d) -> cost_of t' x' -> x_is_inf X x' = true \/ x_lt X x' x = false).
Proof.
  intros Q d ws weight [Irr Tr] [[Ix Li Go At Ap] Ep] E cost_of. unfold best_path in E.
  destruct (bind_ok _ _ _ _ _ E) as [[bc best] [El E1]]. clear E.
  set (P := fun (done : list tok) (st : D * option tok) => let '(bc, best) := st in
    match best with
    | None => bc = x_inf X
    | Some t => In t (d_toks d) /\ cost_of t bc /\ x_is_inf X bc = false /\ x_lt X bc (x_inf X) = true
    end /\
    forall t x, In t done -> cost_of t x -> x_is_inf X x = true \/ x_lt X x bc = false).
  assert (HP : P (d_toks d) (bc, best)).
  { eapply (for_each_ok_done _ _ P); [| |exact El].
    - cbn. split; [reflexivity|]. intros t x [].
    - intros done [b o] t [b' o'] J [H1 H2] E. unfold best_step in E. inv_bind E.
      pose proof (path_cost_ending _ _ _ Hb) as Ec. injection E as E.
      destruct (x_is_inf X a) eqn:Ei; cbn [negb andb] in E.
      + injection E as <- <-. split; auto. intros t' x J' Hx. apply in_app_or in J'. destruct J' as [J'|[<-|[]]]; eauto.
        left. rewrite (ending_fun _ _ _ _ _ Hx Ec). exact Ei.
      + destruct (x_lt X a b) eqn:Lt; injection E as <- <-.
        * split.
          -- split; auto. split; [exact Ec|]. split; auto.
             destruct o; [destruct H1 as (_ & _ & _ & H1); eapply Tr; eauto|now rewrite <- H1].
          -- intros t' x J' Hx. apply in_app_or in J'. destruct J' as [J'|[<-|[]]].
             ++ destruct (H2 _ _ J' Hx) as [|N]; auto. right.
                destruct (x_lt X x a) eqn:L; auto. rewrite (Tr _ _ _ L Lt) in N. discriminate.
             ++ right. rewrite (ending_fun _ _ _ _ _ Hx Ec). apply Irr.
        * split; auto. intros t' x J' Hx. apply in_app_or in J'. destruct J' as [J'|[<-|[]]]; eauto.
          right. rewrite (ending_fun _ _ _ _ _ Hx Ec). exact Lt. }
  destruct HP as [H1 H2]. destruct best as [t|].
  - right. destruct H1 as (J & Ht & Hi & Hl). inv_bind E1. inv_bind E1. injection E1 as <- <-.
    destruct (At t J) as (ws & R & HQ). apply graph_final_of in Hb0.
    rewrite (words_rep _ _ _ Li R) in Hb. destruct (_ <? _); [|discriminate]. injection Hb as ->.
    exists t, bc, a0. auto 10.
  - left. injection E1 as <- <-. subst bc. auto.
Qed.

(** * Runs *)
Lemma decodes_ready : forall coll fuel cache frames d, good cache ->
  decodes O X cfg coll fuel cache frames d ->
  exists d1, ready (by_path []) d1 /\ d_frames d1 = 0 /\ d_eos d1 = false /\
    (forall x, marked (g_heap (d_labels d1)) x = false) /\
    process_all O X cfg coll fuel d1 frames = Ok (d, true) /\
    (forall s, run_safe O X cfg fuel cache s -> collections_safe O X cfg fuel d1 s).
Proof.
  intros coll fuel cache frames d Gc (d0 & d1 & E0 & E1 & E2).
  destruct (new_decoder_inv good cache d0 (by_path []) (by_path []) Gc E0) as ([Ix Li Go _ _] & Ep & El).
  pose proof E0 as E0'. unfold new_decoder in E0'. inv_bind E0'. injection E0' as <-.
  destruct (initialize_inv O X cfg wm good Hlm fuel _ d1 (by_path []) Go Ix Li (path_start _ _ _ _ _ _)
              (by_path_eps _ _ _ _ _) E1) as (R & F0 & S0 & (_ & M & _)).
  exists d1. split; auto. split; auto. split; [exact S0|]. split; [|split; auto].
  - intros x. destruct (marked (g_heap (d_labels d1)) x) eqn:Mx; auto. apply M in Mx. cbn in Mx.
    unfold marked in Mx. rewrite zget_empty in Mx. discriminate.
  - intros s Hs. eapply Hs; eauto.
Qed.

Lemma safe_later : forall fuel frames d fs, ready (by_path fs) d -> 1 <= d_frames d ->
  d_frames d + lenZ frames <= 20 -> collections_safe O X cfg fuel d frames.
Proof.
  intros fuel frames. induction frames as [|logp frames IH]; intros d fs R H1 H2; cbn [collections_safe]; auto.
  unfold lenZ in H2. cbn [length] in H2.
  assert (NZ : Z.rem (d_frames d) 20 <> 0) by (rewrite Z.rem_small; lia).
  split; [intros; contradiction|].
  intros d1 E. 
  destruct (process_ready O X cfg wm good Hlm _ _ _ _ _ _ R (by_path_emit _ _ _ _ fs logp) (by_path_eps _ _ _ _ _)
              (fun Z0 => False_ind _ (NZ Z0)) E) as (R1 & F1 & _).
  eapply IH; eauto; unfold lenZ; lia.
Qed.

Lemma safe_20 : forall fuel cache frames, good cache -> lenZ frames <= 20 -> run_safe O X cfg fuel cache frames.
Proof.
  intros fuel cache frames Gc Hl d0 d1 E0 E1.
  destruct (decodes_ready keep_all fuel cache [] d1 Gc) as (d1' & R & F0 & _ & M & Er & _).
  { exists d0, d1. auto. }
  cbn in Er. injection Er as ->.
  destruct frames as [|logp frames]; cbn [collections_safe]; auto.
  assert (S : forall d2, process O X cfg keep_all fuel d1 logp = Ok (d2, true) ->
     gc_safe (d_labels d2) (label_roots (d_toks d2))).
  { intros d2 E. 
    destruct (process_before_gc O X cfg wm good Hlm _ _ _ _ _ _ R (by_path_emit _ _ _ _ [] logp) (by_path_eps _ _ _ _ _) E)
      as (_ & _ & _ & (_ & G & _) & _).
    intros n b En Sn. exfalso.
    assert (Mx : marked (g_heap (d_labels d2)) (p_block (g_pool (d_labels d2)) * label_block + p_pos (g_pool (d_labels d2)) - 1) = true).
    { unfold marked. rewrite En, Sn. reflexivity. }
    apply G in Mx. rewrite M in Mx. discriminate. }
  split; [auto|]. intros d2 E.
  destruct (process_ready O X cfg wm good Hlm _ _ _ _ _ _ R (by_path_emit _ _ _ _ [] logp) (by_path_eps _ _ _ _ _)
              (fun _ => S) E) as (R1 & F1 & _).
  unfold lenZ in Hl. cbn [length] in Hl. eapply safe_later; eauto; unfold lenZ; lia.
Qed.

Lemma decodes_paths : forall fuel cache frames d, good cache -> run_safe O X cfg fuel cache frames ->
  decodes O X cfg collector fuel cache frames d ->
  ready (by_path (rev frames)) d /\ d_frames d = lenZ frames /\ d_eos d = false.
Proof.
  intros fuel cache frames d Gc S Dc.
  destruct (decodes_ready _ _ _ _ _ Gc Dc) as (d1 & R & F0 & S0 & _ & E & Hs).
  destruct (run_paths O X cfg wm good Hlm _ _ _ _ _ R (Hs _ S) E) as (R1 & F1 & S1).
  rewrite app_nil_r in R1. split; auto. split; [lia|congruence].
Qed.

Lemma ready_eos : forall Q (d : dec), ready Q d -> ready Q (end_of_stream d).
Proof. intros Q d [[Ix Li Go At Ap] Ep]. constructor; [constructor|]; auto. Qed.

End Run.
