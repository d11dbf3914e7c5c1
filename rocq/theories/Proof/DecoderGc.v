(** Proofs about the decoder: two decoders that differ only in where the output
    labels are stored behave alike; so a safe collection changes no result. *)
From Coq Require Import ZArith List Bool Lia.
From Verif.Base Require Import Prelude ZMap Lemmas.
From Verif.Spec Require Import MapSpec PoolSpec GCSpec DecoderSpec.
From Verif.Model Require Import Arith Vector HashTable Pool OLabel Fst Decoder.
From Verif.Proof Require Import Loop HashTable HashTableTotal Pool GC OLabel DecoderBase Decoder.
Import ListNotations.
Open Scope Z_scope.

(** The same outcome up to [R]. *)
Definition alike {A B} (R : A -> B -> Prop) (r : res A) (s : res B) : Prop :=
  match r, s with
  | Ok a, Ok b => R a b
  | Fault f, Fault f' => f = f'
  | _, _ => False
  end.

Lemma alike_bind : forall A B A' B' (R : A -> B -> Prop) (R' : A' -> B' -> Prop) r s k h,
  alike R r s -> (forall a b, R a b -> alike R' (k a) (h b)) ->
  alike R' (x <- r ;; k x) (x <- s ;; h x).
Proof. intros A B A' B' R R' [a|f] [b|f'] k h H1 H2; cbn in *; auto; contradiction. Qed.

Lemma alike_bind_same : forall A A' B' (R' : A' -> B' -> Prop) (r : res A) k h,
  (forall a, alike R' (k a) (h a)) -> alike R' (x <- r ;; k x) (x <- r ;; h x).
Proof. intros A A' B' R' [a|f] k h H; cbn; auto. Qed.

Lemma alike_for_each : forall S T I J (R : S -> T -> Prop) (RI : I -> J -> Prop) is js,
  Forall2 RI is js -> forall body body' s t, R s t ->
  (forall s t i j, R s t -> RI i j -> In i is -> alike R (body s i) (body' t j)) ->
  alike R (for_each is body s) (for_each js body' t).
Proof.
  intros S T I J R RI is js H. induction H as [|i j is js Hij H IH]; intros body body' s t Hs Hb; cbn [for_each].
  - exact Hs.
  - eapply alike_bind; [apply Hb; auto; now left|]. intros a b Hab. apply IH; auto.
    intros s' t' i' j' Hs' Hi' Ji. apply Hb; auto. now right.
Qed.

Lemma alike_for_each_same : forall S T I (R : S -> T -> Prop) (is : list I) body body' s t, R s t ->
  (forall s t i, R s t -> alike R (body s i) (body' t i)) ->
  alike R (for_each is body s) (for_each is body' t).
Proof.
  intros S T I R is. induction is as [|i is IH]; intros body body' s t Hs Hb; cbn [for_each].
  - exact Hs.
  - eapply alike_bind; [apply Hb; auto|]. intros a b Hab. apply IH; auto.
Qed.

Section Gc.
Context {F D C : Type} (O : fops F) (X : xops F D) (cfg : config F C).
Notation tok := (token F).
Notation dec := (decoder F C).

(** Two references to the same word list. *)
Definition same_words (h h' : gcpool olabel) (p p' : option Z) : Prop :=
  exists ws, rep h p ws /\ rep h' p' ws.

Definition same_tok (h h' : gcpool olabel) (t t' : tok) : Prop :=
  k_state t = k_state t' /\ k_cost t = k_cost t' /\ same_words h h' (k_olabel t) (k_olabel t').

Record twins (d e : dec) : Prop := {
  tw_toks : Forall2 (same_tok (d_labels d) (d_labels e)) (d_toks d) (d_toks e);
  tw_prev : Forall2 (same_tok (d_labels d) (d_labels e)) (d_prev d) (d_prev e);
  tw_idx : d_idx d = d_idx e;
  tw_cache : d_cache d = d_cache e;
  tw_frames : d_frames d = d_frames e;
  tw_eos : d_eos d = d_eos e;
  tw_inv : linv (d_labels d);
  tw_inv' : linv (d_labels e)
}.

(** The labels only grow. *)
Definition more (h h' : gcpool olabel) : Prop := forall x q k, holds h x q k -> holds h' x q k.

Lemma same_words_more : forall h h' k k' p p', more h k -> more h' k' -> same_words h h' p p' -> same_words k k' p p'.
Proof. intros h h' k k' p p' M M' (ws & R & R'). exists ws. split; eapply rep_mono; eauto. Qed.

Lemma same_tok_more : forall h h' k k' t t', more h k -> more h' k' -> same_tok h h' t t' -> same_tok k k' t t'.
Proof. intros h h' k k' t t' M M' (E & E' & H). split; auto. split; auto. eapply same_words_more; eauto. Qed.

Lemma same_toks_more : forall h h' k k' l l', more h k -> more h' k' ->
  Forall2 (same_tok h h') l l' -> Forall2 (same_tok k k') l l'.
Proof. intros h h' k k' l l' M M' H. induction H; constructor; auto. eapply same_tok_more; eauto. Qed.

Definition step (d e d' e' : dec) : Prop :=
  twins d' e' /\ more (d_labels d) (d_labels d') /\ more (d_labels e) (d_labels e').

Lemma child_same : forall h h' p p' l, linv h -> linv h' -> same_words h h' p p' ->
  exists k a k' a', child label_block h p l = Ok (k, a) /\ child label_block h' p' l = Ok (k', a') /\
    linv k /\ linv k' /\ more h k /\ more h' k' /\ same_words k k' (Some a) (Some a').
Proof.
  intros h h' p p' l L L' (ws & R & R').
  destruct (child_total h p ws l L R) as (k & a & E). destruct (child_total h' p' ws l L' R') as (k' & a' & E').
  destruct (child_rep _ _ _ _ _ _ L R E) as (Lk & Rk & Mk & _).
  destruct (child_rep _ _ _ _ _ _ L' R' E') as (Lk' & Rk' & Mk' & _).
  exists k, a, k', a'. repeat (split; auto). exists (l :: ws). auto.
Qed.

Lemma forall2_getZ : forall A B (R : A -> B -> Prop) l l' i, Forall2 R l l' -> alike R (getZ l i) (getZ l' i).
Proof.
  intros A B R l l' i H. unfold getZ. destruct (i <? 0); [reflexivity|].
  generalize (Z.to_nat i) as n. induction H as [|x y l l' Hxy H IH]; intros [|n]; cbn; auto.
Qed.

Lemma forall2_upd : forall A B (R : A -> B -> Prop) l l' n x y, Forall2 R l l' -> R x y ->
  Forall2 R (upd l n x) (upd l' n y).
Proof.
  intros A B R l l' n x y H Hxy. revert n. induction H; intros [|n]; cbn; constructor; auto.
Qed.

Lemma forall2_setZ : forall A B (R : A -> B -> Prop) l l' i x y, Forall2 R l l' -> R x y ->
  alike (Forall2 R) (setZ l i x) (setZ l' i y).
Proof.
  intros A B R l l' i x y H Hxy. unfold setZ.
  rewrite (Forall2_len _ _ _ _ _ H). destruct (_ || _); [reflexivity|]. cbn. apply forall2_upd; auto.
Qed.

Lemma insert_tok_twins : forall d e s l p p' c, twins d e -> same_words (d_labels d) (d_labels e) p p' ->
  alike (fun x y => step d e (Datatypes.fst x) (Datatypes.fst y) /\ snd x = snd y)
    (insert_tok O d s l p c) (insert_tok O e s l p' c).
Proof.
  intros d e s l p p' c [Tt Tp Ti Tc Tf Te Tl Tl'] Sw. unfold insert_tok. rewrite Ti.
  apply alike_bind_same. intros i.
  apply (alike_bind _ _ _ _ (fun x y : gcpool olabel * option Z => linv (Datatypes.fst x) /\ linv (Datatypes.fst y) /\
     more (d_labels d) (Datatypes.fst x) /\ more (d_labels e) (Datatypes.fst y) /\
     same_words (Datatypes.fst x) (Datatypes.fst y) (snd x) (snd y))).
  - destruct (l =? 0).
    + cbn. split; auto. split; auto. split; [intros x q k H; exact H|]. split; [intros x q k H; exact H|auto].
    + destruct (child_same _ _ _ _ l Tl Tl' Sw) as (k & a & k' & a' & -> & -> & H1 & H2 & H3 & H4 & H5).
      cbn. auto 10.
  - intros [h q] [h' q'] (L & L' & M & M' & S). cbn [Datatypes.fst snd] in *. cbv zeta.
    pose proof (same_toks_more _ _ _ _ _ _ M M' Tt) as Tt'. pose proof (same_toks_more _ _ _ _ _ _ M M' Tp) as Tp'.
    cbn [with_labels d_idx d_toks]. rewrite Ti.
    assert (St : same_tok h h' (mk_token s c q) (mk_token s c q')) by (split; [reflexivity|]; split; [reflexivity|auto]).
    destruct (i =? kNotExist).
    + unfold lenZ. rewrite (Forall2_len _ _ _ _ _ Tt). apply alike_bind_same. intros idx. cbn.
      split; [|reflexivity]. split; [|auto]. constructor; cbn; auto. apply Forall2_app; auto.
    + eapply alike_bind; [apply forall2_getZ; exact Tt'|]. intros o o' (Es & Ec & _). rewrite Ec.
      destruct (f_lt O c (k_cost o')).
      * eapply alike_bind; [apply forall2_setZ; [exact Tt'|exact St]|]. intros ts ts' Ht. cbn.
        split; [|reflexivity]. split; [|auto]. constructor; cbn; auto.
      * cbn. split; [|reflexivity]. split; [|auto]. constructor; cbn; auto.
Qed.

Lemma step_refl : forall d e, twins d e -> step d e d e.
Proof. intros d e T. split; auto. split; intros x q k H; exact H. Qed.

Lemma step_trans : forall d e d1 e1 d2 e2, step d e d1 e1 -> step d1 e1 d2 e2 -> step d e d2 e2.
Proof.
  intros d e d1 e1 d2 e2 (T1 & M1 & M1') (T2 & M2 & M2'). split; auto.
  split; intros x q k H; auto.
Qed.

Lemma compose_twins : forall d e l o total, twins d e ->
  alike (fun x y => step d e (Datatypes.fst (Datatypes.fst x)) (Datatypes.fst (Datatypes.fst y)) /\
                    snd (Datatypes.fst x) = snd (Datatypes.fst y) /\ snd x = snd y /\
                    d_labels (Datatypes.fst (Datatypes.fst x)) = d_labels d /\ d_labels (Datatypes.fst (Datatypes.fst y)) = d_labels e)
    (compose O X cfg d l o total) (compose O X cfg e l o total).
Proof.
  intros d e l o total T. unfold compose. destruct (c_lm cfg) as [m|].
  - rewrite (tw_cache _ _ T). apply alike_bind_same. intros [[l' w] c]. cbn.
    split; [|auto]. destruct T. split; [constructor; cbn; auto|]. split; intros x q k H; exact H.
  - cbn. split; [|auto]. now apply step_refl.
Qed.

Lemma relax_twins : forall cutoff i a d e queue, twins d e ->
  alike (fun x y => step d e (Datatypes.fst x) (Datatypes.fst y) /\ snd x = snd y)
    (relax O X cfg cutoff i (d, queue) a) (relax O X cfg cutoff i (e, queue) a).
Proof.
  intros cutoff i a d e queue T. unfold relax. destruct (negb _); [cbn; auto using step_refl|].
  eapply alike_bind; [apply forall2_getZ; exact (tw_toks _ _ T)|]. intros t t' (Es & Ec & Ew). cbv zeta.
  unfold total_cost. rewrite Es, Ec.
  eapply alike_bind; [apply compose_twins; exact T|].
  intros [[d1 l1] x1] [[e1 l1'] x1'] (S & E1 & E2 & E3 & E4). cbn [Datatypes.fst snd] in *. subst l1' x1'.
  destruct (x_lt X cutoff x1); [cbn; auto|].
  eapply alike_bind; [apply insert_tok_twins; [exact (proj1 S)|rewrite E3, E4; exact Ew]|].
  intros [d2 b] [e2 b'] [S2 Eb]. cbn [Datatypes.fst snd] in *. subst b'. cbn.
  split; [eapply step_trans; eauto|reflexivity].
Qed.

Lemma nonemitting_twins : forall fuel cutoff d e queue, twins d e ->
  alike twins (nonemitting_loop O X cfg fuel cutoff d queue) (nonemitting_loop O X cfg fuel cutoff e queue).
Proof.
  induction fuel as [|fuel IH]; intros cutoff d e queue T; destruct queue as [|s queue]; cbn [nonemitting_loop]; auto.
  - reflexivity.
  - rewrite (tw_idx _ _ T). apply alike_bind_same. intros i. apply alike_bind_same. intros _.
    apply alike_bind_same. intros arcs.
    apply (alike_bind _ _ _ _ (fun x y : dec * list state => twins (Datatypes.fst x) (Datatypes.fst y) /\ snd x = snd y)).
    + apply alike_for_each_same; [auto|]. intros [d1 q1] [e1 q1'] a [T1 E]. cbn [Datatypes.fst snd] in *. subst q1'.
      pose proof (relax_twins cutoff i a d1 e1 q1 T1) as H.
      destruct (relax _ _ _ _ _ (d1, q1) a) as [x|], (relax _ _ _ _ _ (e1, q1) a) as [y|]; cbn in *; auto.
      destruct H as [[H _] H']. auto.
    + intros [d1 q1] [e1 q1'] [T1 E]. cbn [Datatypes.fst snd] in *. subst q1'. apply IH. exact T1.
Qed.

Lemma same_states : forall h h' l l', Forall2 (same_tok h h') l l' -> map k_state l = map k_state l'.
Proof. intros h h' l l' H. induction H as [|x y l l' (E & _)]; cbn; congruence. Qed.

Lemma process_nonemitting_twins : forall fuel cutoff d e, twins d e ->
  alike twins (process_nonemitting O X cfg fuel d cutoff) (process_nonemitting O X cfg fuel e cutoff).
Proof.
  intros fuel cutoff d e T. unfold process_nonemitting.
  apply (alike_bind _ _ _ _ (fun _ _ : unit => True)).
  - eapply alike_for_each; [exact (tw_toks _ _ T)|auto|]. intros s t i j _ (E & _) _. rewrite E.
    unfold check. destruct (_ <=? _); cbn; auto.
  - intros _ _ _. rewrite (same_states _ _ _ _ (tw_toks _ _ T)). now apply nonemitting_twins.
Qed.

Lemma cutoff_fold : forall n h h' l l', Forall2 (same_tok h h') l l' ->
  forall x costs b t t', same_tok h h' t t' ->
  exists x' costs' b' u u', same_tok h h' u u' /\
    fold_left (cutoff_step O X n) l (x, costs, b, t) = (x', costs', b', u) /\
    fold_left (cutoff_step O X n) l' (x, costs, b, t') = (x', costs', b', u').
Proof.
  intros n h h' l l' H. induction H as [|k k' l l' Hk H IH]; intros x costs b t t' Ht.
  - exists x, costs, b, t, t'. auto.
  - cbn [fold_left cutoff_step]. cbv zeta. pose proof Hk as (_ & Ec & _). rewrite Ec.
    destruct (x_lt X _ b); apply IH; auto.
Qed.

Lemma get_cutoff_twins : forall h h' l l', Forall2 (same_tok h h') l l' ->
  alike (fun x y => Datatypes.fst x = Datatypes.fst y /\ same_tok h h' (snd x) (snd y))
    (get_cutoff O X cfg l) (get_cutoff O X cfg l').
Proof.
  intros h h' l l' H. unfold get_cutoff.
  eapply alike_bind; [apply forall2_getZ; exact H|]. intros t t' Ht.
  assert (El : lenZ l = lenZ l') by (unfold lenZ; rewrite (Forall2_len _ _ _ _ _ H); reflexivity). rewrite El.
  destruct (cutoff_fold (lenZ l') h h' l l' H kCutoffRandSeed [] (x_inf X) t t' Ht) as (x & cs & b & u & u' & Hu & -> & ->).
  destruct (negb (x_finite X b)); [cbn; auto|]. cbv zeta. apply alike_bind_same. intros m.
  destruct (x_lt X m _); cbn; auto.
Qed.

Lemma emit_twins : forall logp ab t t' d e n a, twins d e -> same_tok (d_labels d) (d_labels e) t t' ->
  alike (fun x y => step d e (Datatypes.fst x) (Datatypes.fst y) /\ snd x = snd y)
    (emit O X cfg logp ab t (d, n) a) (emit O X cfg logp ab t' (e, n) a).
Proof.
  intros logp ab t t' d e n a T (Es & Ec & Ew). unfold emit.
  destruct (_ =? 0); [cbn; auto using step_refl|]. apply alike_bind_same. intros lk. cbv zeta.
  unfold total_cost. rewrite Es, Ec. destruct (x_lt X n _); [cbn; auto using step_refl|].
  eapply alike_bind; [apply compose_twins; exact T|].
  intros [[d1 l1] x1] [[e1 l1'] x1'] (S & E1 & E2 & E3 & E4). cbn [Datatypes.fst snd] in *. subst l1' x1'.
  apply alike_bind_same. intros _.
  eapply alike_bind; [apply insert_tok_twins; [exact (proj1 S)|rewrite E3, E4; exact Ew]|].
  intros [d2 b] [e2 b'] [S2 Eb]. cbn [Datatypes.fst snd] in *. cbn.
  split; [eapply step_trans; eauto|reflexivity].
Qed.

Lemma emit_tok_twins : forall logp wc ab t t' d e n, twins d e -> same_tok (d_labels d) (d_labels e) t t' ->
  alike (fun x y => step d e (Datatypes.fst x) (Datatypes.fst y) /\ snd x = snd y)
    (emit_tok O X cfg logp wc ab (d, n) t) (emit_tok O X cfg logp wc ab (e, n) t').
Proof.
  intros logp wc ab t t' d e n T St. unfold emit_tok. pose proof St as (Es & Ec & _). rewrite Ec.
  destruct (f_lt O wc _); [cbn; auto using step_refl|]. rewrite Es. apply alike_bind_same. intros arcs.
  apply alike_for_each_same; [cbn; auto using step_refl|].
  intros [d1 n1] [e1 n1'] a [S1 E]. cbn [Datatypes.fst snd] in *. subst n1'.
  pose proof S1 as (T1 & M1 & M1').
  pose proof (emit_twins logp ab t t' d1 e1 n1 a T1 (same_tok_more _ _ _ _ _ _ M1 M1' St)) as H.
  destruct (emit _ _ _ _ _ _ (d1, n1) a) as [x|], (emit _ _ _ _ _ _ (e1, n1) a) as [y|]; cbn in *; auto.
  destruct H as [H H']. split; auto. eapply step_trans; eauto.
Qed.

Lemma process_emitting_twins : forall d e logp, twins d e ->
  alike (fun x y => twins (Datatypes.fst x) (Datatypes.fst y) /\ snd x = snd y)
    (process_emitting O X cfg d logp) (process_emitting O X cfg e logp).
Proof.
  intros d e logp T. unfold process_emitting. cbv zeta.
  assert (T0 : twins (swapped d) (swapped e)).
  { destruct T as [Tt Tp Ti Tc Tf Te Tl Tl']. unfold swapped. constructor; cbn; auto. now rewrite Ti. }
  fold (swapped d). fold (swapped e).
  eapply alike_bind; [apply get_cutoff_twins; exact (tw_prev _ _ T0)|].
  intros [[cutoff ab] bt] [[cutoff' ab'] bt'] [E Sb]. cbn [Datatypes.fst snd] in *. injection E as <- <-.
  destruct (negb _); [cbn; auto|].
  pose proof Sb as (Es & Ec & _). rewrite Es. apply alike_bind_same. intros arcs.
  assert (Eb : for_each arcs (bound_step O X cfg logp bt ab) (x_inf X) = for_each arcs (bound_step O X cfg logp bt' ab) (x_inf X)).
  { generalize (x_inf X) as n. clear - Ec. induction arcs as [|a arcs IH]; intros n; cbn [for_each]; auto.
    unfold bound_step at 1 3, total_cost. rewrite Ec. destruct (_ =? 0); cbn [bind]; auto.
    destruct (log_likelihood _ _ _ _); cbn [bind]; auto. }
  rewrite Eb. apply alike_bind_same. intros n.
  apply (alike_bind _ _ _ _ (fun x y : dec * D => step (swapped d) (swapped e) (Datatypes.fst x) (Datatypes.fst y) /\ snd x = snd y)).
  - eapply alike_for_each; [exact (tw_prev _ _ T0)|cbn; auto using step_refl|].
    intros [d1 n1] [e1 n1'] t t' [S1 E] St _. cbn [Datatypes.fst snd] in *. subst n1'.
    pose proof S1 as (T1 & M1 & M1').
    pose proof (emit_tok_twins logp (x_narrow X cutoff) ab t t' d1 e1 n1 T1 (same_tok_more _ _ _ _ _ _ M1 M1' St)) as H.
    destruct (emit_tok _ _ _ _ _ _ (d1, n1) t) as [x|], (emit_tok _ _ _ _ _ _ (e1, n1) t') as [y|]; cbn in *; auto.
    destruct H as [H H']. split; auto. eapply step_trans; eauto.
  - intros [d1 n1] [e1 n1'] [(T1 & _) E]. cbn [Datatypes.fst snd] in *. subst n1'. cbn.
    split; [|reflexivity]. destruct T1. constructor; cbn; auto.
Qed.

Lemma initialize_twins : forall fuel d e, twins d e ->
  alike twins (initialize O X cfg fuel d) (initialize O X cfg fuel e).
Proof.
  intros fuel d e T. unfold initialize. cbv zeta. apply alike_bind_same. intros _. apply alike_bind_same. intros l.
  assert (T0 : twins (mk_decoder [] [] (d_idx d) (d_labels d) (d_cache d) (d_frames d) (d_eos d))
                     (mk_decoder [] [] (d_idx e) (d_labels e) (d_cache e) (d_frames e) (d_eos e))).
  { destruct T. constructor; cbn; auto. }
  eapply alike_bind; [apply insert_tok_twins; [exact T0|exists []; split; constructor]|].
  intros [d1 b] [e1 b'] [(T1 & _) _]. cbn [Datatypes.fst snd] in *. apply process_nonemitting_twins.
  destruct T1. constructor; cbn; auto.
Qed.

(** [Process] up to the collection. *)
Lemma process_twins : forall fuel d e logp, twins d e ->
  alike (fun x y => twins (Datatypes.fst x) (Datatypes.fst y) /\ snd x = snd y)
    (process O X cfg keep_all fuel d logp) (process O X cfg keep_all fuel e logp).
Proof.
  intros fuel d e logp T. unfold process.
  eapply alike_bind; [apply process_emitting_twins; exact T|].
  intros [d1 c1] [e1 c1'] [T1 E]. cbn [Datatypes.fst snd] in *. subst c1'.
  destruct (negb _); [cbn; auto|].
  eapply alike_bind; [apply process_nonemitting_twins; exact T1|]. intros d2 e2 T2.
  unfold lenZ. rewrite (Forall2_len _ _ _ _ _ (tw_toks _ _ T2)). destruct (_ =? 0); [cbn; auto|].
  rewrite (tw_frames _ _ T2). unfold keep_all. cbn [bind].
  destruct (Z.rem _ _ =? 0); cbn [bind]; cbn; (split; [|reflexivity]); destruct T2; constructor; cbn; auto;
    rewrite tw_frames0; reflexivity.
Qed.

(** The outcome of [Process] up to the collection decides the outcome. *)
Lemma process_collect : forall fuel (d : dec) logp coll,
  match process O X cfg keep_all fuel d logp with
  | Ok (d0, true) =>
      process O X cfg coll fuel d logp =
      if Z.rem (d_frames d0 - 1) 20 =? 0
      then h <- coll (d_labels d0) (label_roots (d_toks d0)) ;; Ok (with_labels d0 h, true)
      else Ok (d0, true)
  | r => process O X cfg coll fuel d logp = r
  end.
Proof.
  intros fuel d logp coll. unfold process.
  destruct (process_emitting O X cfg d logp) as [[d1 cut]|f]; cbn [bind]; auto.
  destruct (negb (x_finite X (x_wide X cut))); auto.
  destruct (process_nonemitting O X cfg fuel d1 (x_wide X cut)) as [d2|f]; cbn [bind]; auto.
  destruct (lenZ (d_toks d2) =? 0); auto. unfold keep_all at 1. cbn [bind].
  destruct (Z.rem (d_frames d2) 20 =? 0) eqn:Z0; cbn [bind]; cbn [with_frames with_labels d_frames d_labels d_toks];
    replace (d_frames d2 + 1 - 1) with (d_frames d2) by lia; rewrite Z0; auto.
  destruct (coll _ _); reflexivity.
Qed.

Lemma collect_twins : forall d e, twins d e -> d_prev d = [] -> gc_safe (d_labels d) (label_roots (d_toks d)) ->
  exists h, collector (d_labels d) (label_roots (d_toks d)) = Ok h /\ twins (with_labels d h) e.
Proof.
  intros d e [Tt Tp Ti Tc Tf Te Tl Tl'] Ep S.
  assert (Hr : forall t, In t (d_toks d) -> exists ws, rep (d_labels d) (k_olabel t) ws).
  { intros t J. clear - Tt J. induction Tt as [|x y l l' (_ & _ & (ws & R & _)) H IH]; [destruct J|].
    destruct J as [<-|J]; eauto. }
  destruct (gc_rep (d_labels d) (label_roots (d_toks d)) Tl) as (h & E & Lh & Rh).
  { intros r J. unfold label_roots in J. apply in_flat_map in J. destruct J as (t & Jt & Jr).
    destruct (Hr t Jt) as (ws & R). destruct (k_olabel t) as [x|]; [|destruct Jr]. destruct Jr as [->|[]]. eauto. }
  { exact S. }
  exists h. split; [exact E|]. constructor; cbn; auto.
  - assert (K : forall t ws, In t (d_toks d) -> rep (d_labels d) (k_olabel t) ws -> rep h (k_olabel t) ws).
    { intros t ws J R. destruct (k_olabel t) as [x|] eqn:Ex.
      - apply Rh; auto. unfold label_roots. apply in_flat_map. exists t. split; auto. rewrite Ex. now left.
      - inversion R; subst. constructor. }
    clear - Tt K. induction Tt as [|x y l l' (E1 & E2 & (ws & R & R')) H IH]; constructor.
    + split; auto. split; auto. exists ws. split; auto. apply K; auto. now left.
    + apply IH. intros t ws' J. apply K. now right.
  - rewrite Ep in *. inversion Tp. constructor.
Qed.

Definition kept (d d' : dec) : Prop := d_prev d' = d_prev d /\ d_frames d' = d_frames d.
Lemma kept_refl : forall d, kept d d.
Proof. split; reflexivity. Qed.
Lemma kept_trans : forall a b c, kept a b -> kept b c -> kept a c.
Proof. intros a b c [A1 A2] [B1 B2]. split; congruence. Qed.

Lemma insert_tok_kept : forall (d : dec) s l p c d' b, insert_tok O d s l p c = Ok (d', b) -> kept d d'.
Proof.
  intros d s l p c d' b E. unfold insert_tok in E. inv_bind E. destruct (bind_ok _ _ _ _ _ E) as [[h q] [_ E1]].
  clear E. cbv zeta in E1. destruct (_ =? _).
  - inv_bind E1. injection E1 as <- <-. split; reflexivity.
  - inv_bind E1. destruct (f_lt _ _ _); [inv_bind E1|]; injection E1 as <- <-; split; reflexivity.
Qed.

Lemma compose_kept : forall (d : dec) l o t d' l' t', compose O X cfg d l o t = Ok (d', l', t') -> kept d d'.
Proof.
  intros d l o t d' l' t' E. unfold compose in E. destruct (c_lm cfg).
  - destruct (bind_ok _ _ _ _ _ E) as [[[x y] z] [_ E1]]. injection E1 as <- _ _. split; reflexivity.
  - injection E as <- _ _. split; reflexivity.
Qed.

Lemma relax_kept : forall cutoff i a (d : dec) q d' q', relax O X cfg cutoff i (d, q) a = Ok (d', q') -> kept d d'.
Proof.
  intros cutoff i a d q d' q' E. unfold relax in E. destruct (negb _); [injection E as <- _; apply kept_refl|].
  inv_bind E. destruct (bind_ok _ _ _ _ _ E) as [[[x y] z] [Ec E1]]. apply compose_kept in Ec.
  destruct (x_lt X cutoff z); [injection E1 as <- _; auto|].
  destruct (bind_ok _ _ _ _ _ E1) as [[u v] [Ei E2]]. apply insert_tok_kept in Ei. injection E2 as <- _.
  eapply kept_trans; eauto.
Qed.

Lemma nonemitting_kept : forall fuel cutoff (d : dec) q d', nonemitting_loop O X cfg fuel cutoff d q = Ok d' -> kept d d'.
Proof.
  induction fuel as [|fuel IH]; intros cutoff d q d' E; destruct q as [|s q]; cbn [nonemitting_loop] in E;
    try discriminate; try (injection E as <-; apply kept_refl).
  inv_bind E. inv_bind E. inv_bind E. destruct (bind_ok _ _ _ _ _ E) as [[d1 q1] [El E1]].
  apply IH in E1. eapply kept_trans; [|exact E1].
  apply (for_each_ok _ _ (fun st => kept d (Datatypes.fst st)) _ _ (d, q) _ (kept_refl d)) in El; [exact El|].
  intros [d2 q2] x [d3 q3] _ P E3. apply relax_kept in E3. cbn in *. eapply kept_trans; eauto.
Qed.

Lemma emit_kept : forall logp ab t d n a d' n', emit O X cfg logp ab t (d, n) a = Ok (d', n') -> kept d d'.
Proof.
  intros logp ab t d n a d' n' E. unfold emit in E. destruct (_ =? 0); [injection E as <- _; apply kept_refl|].
  inv_bind E. cbv zeta in E. destruct (x_lt X n _); [injection E as <- _; apply kept_refl|].
  destruct (bind_ok _ _ _ _ _ E) as [[[x y] z] [Ec E1]]. apply compose_kept in Ec.
  inv_bind E1. destruct (bind_ok _ _ _ _ _ E1) as [[u v] [Ei E2]]. apply insert_tok_kept in Ei. injection E2 as <- _.
  eapply kept_trans; eauto.
Qed.

Lemma process_kept : forall fuel (d d' : dec) logp, d_prev d = [] ->
  process O X cfg keep_all fuel d logp = Ok (d', true) -> d_prev d' = [] /\ d_frames d' = d_frames d + 1.
Proof.
  intros fuel d d' logp Ep E. unfold process in E.
  destruct (bind_ok _ _ _ _ _ E) as [[d1 cut] [E1 E2]]. clear E.
  destruct (negb (x_finite X (x_wide X cut))); [discriminate|].
  destruct (bind_ok _ _ _ _ _ E2) as [d2 [E3 E4]]. clear E2.
  assert (P2 : d_prev d' = d_prev d2 /\ d_frames d' = d_frames d2 + 1 /\ d_toks d2 <> []).
  { destruct (Z.eqb_spec (lenZ (d_toks d2)) 0) as [|NZ]; [discriminate|]. inv_bind E4. injection E4 as <-.
    assert (Ea : d_prev a = d_prev d2 /\ d_frames a = d_frames d2).
    { destruct (_ =? 0); cbn in Hb; injection Hb as <-; split; reflexivity. }
    cbn. destruct Ea as [-> ->]. split; auto. split; auto.
    intros Q0. rewrite Q0 in NZ. apply NZ. reflexivity. }
  destruct P2 as (-> & -> & NT). unfold process_nonemitting in E3. inv_bind E3.
  destruct (nonemitting_kept _ _ _ _ _ E3) as [-> ->].
  unfold process_emitting in E1. destruct (bind_ok _ _ _ _ _ E1) as [[[cutoff ab] bt] [_ E5]]. clear E1. cbv zeta in E5.
  destruct (negb _).
  - injection E5 as <- <-. exfalso. apply NT. cbn [d_toks d_prev] in E3. rewrite Ep in E3. cbn in E3.
    destruct fuel; cbn in E3; injection E3 as <-; cbn; auto.
  - inv_bind E5. inv_bind E5. destruct (bind_ok _ _ _ _ _ E5) as [[d3 n3] [El E6]]. injection E6 as <- <-. cbn.
    split; auto. f_equal.
    apply (for_each_ok _ _ (fun st => d_frames (Datatypes.fst st) = d_frames d) _ _ _ _) in El; [exact El|reflexivity|].
    intros [d4 n4] t [d5 n5] _ P E6. unfold emit_tok in E6. destruct (f_lt O _ _); [injection E6 as <- _; exact P|].
    inv_bind E6. 
    apply (for_each_ok _ _ (fun st => d_frames (Datatypes.fst st) = d_frames d) _ _ _ _) in E6; [exact E6|exact P|].
    intros [d6 n6] x [d7 n7] _ P' E7. apply emit_kept in E7. cbn in *. destruct E7. congruence.
Qed.

Lemma run_twins : forall fuel frames d e, twins d e -> d_prev d = [] -> d_prev e = [] ->
  collections_safe O X cfg fuel d frames ->
  alike (fun x y => twins (Datatypes.fst x) (Datatypes.fst y) /\ snd x = snd y)
    (process_all O X cfg collector fuel d frames) (process_all O X cfg keep_all fuel e frames).
Proof.
  intros fuel frames. induction frames as [|logp frames IH]; intros d e T Pd Pe S; cbn [process_all]; [cbn; auto|].
  destruct S as [S1 S2].
  pose proof (process_twins fuel d e logp T) as H.
  pose proof (process_collect fuel d logp collector) as Hc.
  destruct (process O X cfg keep_all fuel d logp) as [[d0 []]|f] eqn:Ed.
  - destruct (process O X cfg keep_all fuel e logp) as [[e0 b]|] eqn:Ee; [|contradiction].
    destruct H as [T0 Eb]. cbn [Datatypes.fst snd] in *. subst b. cbn [bind].
    destruct (process_kept _ _ _ _ Pd Ed) as [Pd0 Fd0]. destruct (process_kept _ _ _ _ Pe Ee) as [Pe0 _].
    replace (d_frames d0 - 1) with (d_frames d) in Hc by lia.
    destruct (Z.eqb_spec (Z.rem (d_frames d) 20) 0) as [Z0|NZ].
    + destruct (collect_twins d0 e0 T0 Pd0 (S1 Z0 _ eq_refl)) as (h & Eh & Th). rewrite Eh in Hc. cbn [bind] in Hc.
      rewrite Hc. cbn [bind]. apply IH; auto.
    + rewrite Hc. cbn [bind]. apply IH; auto.
  - destruct (process O X cfg keep_all fuel e logp) as [[e0 b]|] eqn:Ee; [|contradiction].
    destruct H as [T0 Eb]. cbn [Datatypes.fst snd] in *. subst b. rewrite Hc. cbn. auto.
  - destruct (process O X cfg keep_all fuel e logp) as [[e0 b]|] eqn:Ee; [contradiction|]. rewrite Hc. cbn in *. auto.
Qed.

(** * BestPath *)
Lemma best_path_twins : forall d e, twins d e -> best_path O X cfg d = best_path O X cfg e.
Proof.
  intros d e [Tt Tp Ti Tc Tf Te Tl Tl'].
  assert (H : alike (fun x y => Datatypes.fst x = Datatypes.fst y /\
       match snd x, snd y with
       | None, None => True
       | Some t, Some t' => same_tok (d_labels d) (d_labels e) t t'
       | _, _ => False
       end) (for_each (d_toks d) (best_step X cfg d) (x_inf X, None)) (for_each (d_toks e) (best_step X cfg e) (x_inf X, None))).
  { eapply alike_for_each; [exact Tt|cbn; auto|].
    intros [c o] [c' o'] t t' [Ec Ho] St _. cbn [Datatypes.fst snd] in *. subst c'. unfold best_step.
    pose proof St as (Es & Eco & _).
    replace (path_cost X cfg d t) with (path_cost X cfg e t') by (unfold path_cost; rewrite Te, Es, Eco; reflexivity).
    apply alike_bind_same. intros x. destruct (_ && _); cbn; auto. }
  unfold best_path.
  destruct (for_each (d_toks d) _ _) as [[c o]|], (for_each (d_toks e) _ _) as [[c' o']|]; cbn in H; try contradiction;
    cbn [bind]; [|congruence].
  destruct H as [<- Ho]. destruct o as [t|], o' as [t'|]; try contradiction; [|reflexivity]. cbv zeta.
  destruct Ho as (Es & Ec & ws & R & R').
  rewrite (words_rep _ _ _ Tl R), (words_rep _ _ _ Tl' R'), Es. reflexivity.
Qed.

Lemma best_path_eos_twins : forall d e, twins d e ->
  best_path O X cfg (end_of_stream d) = best_path O X cfg (end_of_stream e).
Proof. intros d e T. apply best_path_twins. destruct T. constructor; auto. Qed.

Lemma new_twins : forall cache (d : dec), new_decoder cache = Ok d -> twins d d.
Proof.
  intros cache d E. unfold new_decoder in E. inv_bind E. injection E as <-. constructor; cbn; auto.
  - apply oinv_init. apply block_pos.
  - apply oinv_init. apply block_pos.
Qed.

(** What a run reports, with and without collections. *)
Lemma run_same : forall fuel cache frames d0 d1, new_decoder cache = Ok d0 -> initialize O X cfg fuel d0 = Ok d1 ->
  collections_safe O X cfg fuel d1 frames ->
  alike (fun x y => snd x = snd y /\
     map (fun t => (k_state t, k_cost t)) (d_toks (Datatypes.fst x)) = map (fun t => (k_state t, k_cost t)) (d_toks (Datatypes.fst y)) /\
     best_path O X cfg (Datatypes.fst x) = best_path O X cfg (Datatypes.fst y) /\
     best_path O X cfg (end_of_stream (Datatypes.fst x)) = best_path O X cfg (end_of_stream (Datatypes.fst y)))
    (process_all O X cfg collector fuel d1 frames) (process_all O X cfg keep_all fuel d1 frames).
Proof.
  intros fuel cache frames d0 d1 E0 E1 S.
  pose proof (initialize_twins fuel d0 d0 (new_twins _ _ E0)) as H. rewrite E1 in H. cbn in H.
  assert (P : d_prev d1 = []).
  { unfold initialize in E1. inv_bind E1. inv_bind E1. destruct (bind_ok _ _ _ _ _ E1) as [[x b] [Ei E2]].
    apply insert_tok_kept in Ei. unfold process_nonemitting in E2. inv_bind E2.
    destruct (nonemitting_kept _ _ _ _ _ E2) as [E3 _]. destruct Ei as [E4 _]. cbn in *. congruence. }
  pose proof (run_twins fuel frames d1 d1 H P P S) as R.
  destruct (process_all O X cfg collector fuel d1 frames) as [[x b]|],
           (process_all O X cfg keep_all fuel d1 frames) as [[y b']|]; cbn in *; auto.
  destruct R as [T Eb]. split; auto. split; [|split].
  - clear - T. destruct T as [Tt _ _ _ _ _ _ _]. induction Tt as [|t t' l l' (A & B & _) _ IH]; cbn; congruence.
  - now apply best_path_twins.
  - now apply best_path_eos_twins.
Qed.

End Gc.
