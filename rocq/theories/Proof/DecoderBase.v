(** Proofs about the decoder: tokens and their index, words and their nodes. *)
From Coq Require Import ZArith List Bool Lia.
From Verif.Base Require Import Prelude ZMap Lemmas.
From Verif.Spec Require Import MapSpec PoolSpec GCSpec DecoderSpec.
From Verif.Model Require Import Arith Vector HashTable Pool OLabel Fst Decoder.
From Verif.Proof Require Import Loop HashTable HashTableTotal Pool GC OLabel.
Import ListNotations.
Open Scope Z_scope.

Lemma state_eqb_spec : forall a b, state_eqb a b = true <-> a = b.
Proof.
  intros [a b] [c d]. unfold state_eqb. cbn. rewrite andb_true_iff, !Z.eqb_eq. split; intros H.
  - destruct H; congruence.
  - injection H as -> ->. auto.
Qed.

Lemma state_eqb_refl : forall a, state_eqb a a = true.
Proof. intros. now apply state_eqb_spec. Qed.

Lemma for_each_ok : forall S I (P : S -> Prop) (is : list I) (body : S -> I -> res S) s s',
  P s -> (forall s i s', In i is -> P s -> body s i = Ok s' -> P s') ->
  for_each is body s = Ok s' -> P s'.
Proof.
  intros S I P is. induction is as [|i is IH]; intros body s s' Ps H E; cbn [for_each] in E.
  - injection E as <-. auto.
  - inv_bind E. apply (IH body a s'); auto.
    + apply (H s i a); auto. now left.
    + intros s0 i0 s0' J. apply H. now right.
Qed.

(** With the list of items done so far. *)
Lemma for_each_ok_done : forall S I (P : list I -> S -> Prop) (is : list I) (body : S -> I -> res S) s s',
  P [] s -> (forall done s i s', In i is -> P done s -> body s i = Ok s' -> P (done ++ [i]) s') ->
  for_each is body s = Ok s' -> P is s'.
Proof.
  intros S I P is body s s' Ps H E.
  cut (forall done rest s, is = done ++ rest -> P done s -> for_each rest body s = Ok s' -> P is s').
  { intros G. apply (G [] is s); auto. }
  clear Ps E s. intros done rest. revert done. induction rest as [|i rest IH]; intros done s Ei Ps E; cbn [for_each] in E.
  - injection E as <-. rewrite app_nil_r in Ei. congruence.
  - inv_bind E. apply (IH (done ++ [i]) a); auto.
    + rewrite <- app_assoc. exact Ei.
    + apply (H done s i a); auto. rewrite Ei. apply in_or_app. right. now left.
Qed.

Section Index.
Context {F : Type} (lt : F -> F -> bool).

(** Offering a token to a beam. *)
Fixpoint offer (toks : list (token F)) (t : token F) : list (token F) * bool :=
  match toks with
  | [] => ([t], true)
  | x :: r =>
      if state_eqb (k_state x) (k_state t) then
        if lt (k_cost t) (k_cost x) then (t :: r, true) else (x :: r, false)
      else let '(r', b) := offer r t in (x :: r', b)
  end.

Lemma offer_new : forall toks t, (forall x, In x toks -> k_state x <> k_state t) ->
  offer toks t = (toks ++ [t], true).
Proof.
  induction toks as [|x r IH]; intros t H; cbn [offer app]; auto.
  destruct (state_eqb (k_state x) (k_state t)) eqn:E.
  - apply state_eqb_spec in E. exfalso. apply (H x); auto. now left.
  - rewrite IH; auto. intros y J. apply H. now right.
Qed.

Lemma offer_old : forall toks t n old, NoDup (map k_state toks) ->
  nth_error toks n = Some old -> k_state old = k_state t ->
  offer toks t = if lt (k_cost t) (k_cost old) then (upd toks n t, true) else (toks, false).
Proof.
  induction toks as [|x r IH]; intros t n old ND E K; [destruct n; discriminate|].
  inversion ND as [|? ? NI ND']; subst. destruct n as [|n]; cbn [nth_error] in E; cbn [offer upd].
  - injection E as ->. rewrite K, state_eqb_refl. reflexivity.
  - destruct (state_eqb (k_state x) (k_state t)) eqn:E'.
    + apply state_eqb_spec in E'. exfalso. apply NI. rewrite E', <- K. apply in_map.
      eapply nth_error_In; eauto.
    + rewrite (IH t n old) by auto. destruct (lt _ _); reflexivity.
Qed.

Lemma offer_states : forall toks t s, In s (map k_state (Datatypes.fst (offer toks t))) <->
  In s (map k_state toks) \/ s = k_state t.
Proof.
  induction toks as [|x r IH]; intros t s; cbn [offer map].
  - cbn. intuition congruence.
  - destruct (state_eqb (k_state x) (k_state t)) eqn:E.
    + apply state_eqb_spec in E. destruct (lt _ _); cbn; rewrite <- ?E; intuition congruence.
    + specialize (IH t s). destruct (offer r t) as [r' b]. cbn in *. rewrite IH. tauto.
Qed.

Lemma offer_nodup : forall toks t, NoDup (map k_state toks) ->
  NoDup (map k_state (Datatypes.fst (offer toks t))).
Proof.
  induction toks as [|x r IH]; intros t ND; cbn [offer map].
  - cbn. constructor; [intros []|constructor].
  - inversion ND as [|? ? NI ND']; subst. destruct (state_eqb (k_state x) (k_state t)) eqn:E.
    + apply state_eqb_spec in E. destruct (lt _ _); cbn; rewrite <- ?E; auto.
    + pose proof (IH t ND') as G. pose proof (offer_states r t (k_state x)) as S.
      destruct (offer r t) as [r' b]. cbn in *. constructor; auto. rewrite S. intros [J|J]; [auto|].
      rewrite J, state_eqb_refl in E. discriminate.
Qed.

(** Where the tokens after an offer come from. *)
Lemma offer_in : forall toks t x, In x (Datatypes.fst (offer toks t)) ->
  In x toks \/ (x = t /\ snd (offer toks t) = true).
Proof.
  induction toks as [|y r IH]; intros t x H; cbn [offer] in *.
  - cbn in *. destruct H as [<-|[]]. auto.
  - destruct (state_eqb (k_state y) (k_state t)).
    + destruct (lt _ _); cbn in *; destruct H as [<-|H]; auto.
    + specialize (IH t x). destruct (offer r t) as [r' b]. cbn in *. destruct H as [<-|H]; auto.
      destruct (IH H); auto.
Qed.

(** What a refused or an accepted offer means. *)
Lemma offer_result : forall toks t, 
  if snd (offer toks t)
  then In t (Datatypes.fst (offer toks t))
  else Datatypes.fst (offer toks t) = toks /\
       exists x, In x toks /\ k_state x = k_state t /\ lt (k_cost t) (k_cost x) = false.
Proof.
  induction toks as [|y r IH]; intros t; cbn [offer].
  - cbn. auto.
  - destruct (state_eqb (k_state y) (k_state t)) eqn:E.
    + destruct (lt (k_cost t) (k_cost y)) eqn:L; cbn; auto. split; auto. exists y.
      apply state_eqb_spec in E. auto.
    + specialize (IH t). destruct (offer r t) as [r' b]. cbn in *. destruct b; cbn; auto.
      destruct IH as [-> (x & J & K & L)]. split; auto. exists x. auto.
Qed.

(** A token in the beam before is still there or has been replaced by a cheaper
    one. *)
Lemma offer_keeps : forall toks t x, In x toks ->
  In x (Datatypes.fst (offer toks t)) \/
  (k_state x = k_state t /\ lt (k_cost t) (k_cost x) = true /\ snd (offer toks t) = true).
Proof.
  induction toks as [|y r IH]; intros t x H; [destruct H|]. cbn [offer].
  destruct (state_eqb (k_state y) (k_state t)) eqn:E.
  - apply state_eqb_spec in E. destruct (lt (k_cost t) (k_cost y)) eqn:L; cbn; destruct H as [<-|H]; auto.
  - specialize (IH t x). destruct (offer r t) as [r' b]. cbn in *. destruct H as [<-|H]; auto.
    destruct (IH H) as [J|J]; auto.
Qed.

Lemma offer_length : forall toks t, (length (Datatypes.fst (offer toks t)) <= S (length toks))%nat /\
  (length toks <= length (Datatypes.fst (offer toks t)))%nat.
Proof.
  induction toks as [|y r IH]; intros t; cbn [offer]; [cbn; lia|].
  destruct (state_eqb _ _); [destruct (lt _ _); cbn; lia|].
  specialize (IH t). destruct (offer r t) as [r' b]. cbn in *. lia.
Qed.

Definition tinv := HashTable.inv state Z state_eqb state_hash.

(** The table maps each state to the position of its token. *)
Record indexed (t : table state Z) (toks : list (token F)) : Prop := {
  ix_nodup : NoDup (map k_state toks);
  ix_table : exists past, tinv t past /\ HashTableTotal.loaded state Z t /\
    120000 <= t_bucket_size t /\
    Z.of_nat (entries state_eqb past) = lenZ toks /\
    forall s, match value_of state_eqb past s with
              | Some i => exists tok, getZ toks i = Ok tok /\ k_state tok = s
              | None => forall tok, In tok toks -> k_state tok <> s
              end
}.


Lemma find_state : forall t toks s i, indexed t toks ->
  find state_eqb state_hash t s kNotExist = Ok i ->
  (i = kNotExist /\ forall tok, In tok toks -> k_state tok <> s) \/
  (i <> kNotExist /\ exists tok, getZ toks i = Ok tok /\ k_state tok = s).
Proof.
  intros t toks s i [ND (past & I & _ & _ & _ & H)] E.
  rewrite (HashTable.find_ok _ _ _ state_eqb_spec _ _ _ _ _ _ I E). specialize (H s).
  destruct (value_of state_eqb past s) as [j|]; [right|left]; auto.
  destruct H as (tok & G & K). split; eauto. apply getZ_lt in G. unfold kNotExist. lia.
Qed.

Lemma find_state_total : forall t toks s, indexed t toks -> lenZ toks < 32767 -> t_bucket_size t <= 1073741827 ->
  exists i, find state_eqb state_hash t s kNotExist = Ok i.
Proof.
  intros t toks s [ND (past & I & L & B & N & H)] Hn Hb.
  eexists. apply (HashTableTotal.find_total _ _ _ state_eqb_spec _ t past); auto.
  right. pose proof (HashTable.inv_size _ _ _ _ _ _ I) as Sz.
  eapply guaranteed_ge; [apply (HashTable.inv_prime _ _ _ _ _ _ I)|lia|lia|lia|lia].
Qed.

Lemma indexed_nil : forall t past, tinv t past -> HashTableTotal.loaded state Z t -> 120000 <= t_bucket_size t ->
  entries state_eqb past = 0%nat -> (forall s, value_of state_eqb past s = None) -> indexed t [].
Proof.
  intros t past I L B E V. split; [constructor|]. exists past. repeat (split; auto).
  - rewrite E. reflexivity.
  - intros s. rewrite V. intros tok [].
Qed.

Lemma indexed_clear : forall t toks, indexed t toks -> indexed (clear t) [].
Proof.
  intros t toks [ND (past & I & L & B & N & H)].
  apply indexed_nil with (past := OClear :: past); auto.
  - apply HashTable.inv_clear. exact I.
  - unfold HashTableTotal.loaded, clear in *. cbn. lia.
Qed.

Lemma indexed_insert : forall t toks tok t', indexed t toks ->
  (forall x, In x toks -> k_state x <> k_state tok) ->
  insert state_eqb state_hash t (k_state tok) (lenZ toks) = Ok t' ->
  indexed t' (toks ++ [tok]).
Proof.
  intros t toks tok t' [ND (past & I & L & B & N & H)] NI E. split.
  - rewrite map_app. apply NoDup_Add with (l := map k_state toks) (a := k_state tok).
    + pose proof (Add_app (k_state tok) (map k_state toks) []) as A. rewrite app_nil_r in A. exact A.
    + split; auto. intros J. apply in_map_iff in J. destruct J as (x & K & J). apply (NI x); auto.
  - exists (OInsert (k_state tok) (lenZ toks) :: past).
    destruct (HashTableTotal.insert_loaded _ _ _ state_eqb_spec _ _ _ _ _ _ I L E) as [L' B'].
    split; [eapply HashTable.insert_inv; eauto; apply state_eqb_spec|].
    split; [exact L'|]. split; [lia|].
    assert (V : value_of state_eqb past (k_state tok) = None).
    { specialize (H (k_state tok)). destruct (value_of state_eqb past (k_state tok)) as [i|]; auto.
      destruct H as (x & G & K). exfalso. apply (NI x); auto. eapply getZ_in; eauto. }
    split.
    + cbn [entries]. rewrite V. rewrite lenZ_app. change (lenZ [tok]) with 1. lia.
    + intros s. cbn [value_of]. destruct (state_eqb (k_state tok) s) eqn:Es.
      * apply state_eqb_spec in Es. exists tok. split; auto. apply getZ_ok. unfold lenZ. split; [lia|].
        rewrite Nat2Z.id, nth_error_app2, Nat.sub_diag by lia. reflexivity.
      * specialize (H s). destruct (value_of state_eqb past s) as [i|].
        -- destruct H as (x & G & K). exists x. split; auto. apply getZ_ok in G. destruct G as [G1 G2].
           apply getZ_ok. split; auto. rewrite nth_error_app1; auto. apply nth_error_Some. congruence.
        -- intros x J. apply in_app_or in J. destruct J as [J|[<-|[]]]; auto.
           intros K. rewrite K, state_eqb_refl in Es. discriminate.
Qed.

Lemma indexed_upd : forall t toks tok i old, indexed t toks ->
  getZ toks i = Ok old -> k_state old = k_state tok -> indexed t (upd toks (Z.to_nat i) tok).
Proof.
  intros t toks tok i old [ND (past & I & L & B & N & H)] G K. apply getZ_ok in G. destruct G as [G1 G2].
  assert (M : map k_state (upd toks (Z.to_nat i) tok) = map k_state toks).
  { clear - G2 K. revert G2. generalize (Z.to_nat i) as n. induction toks as [|x r IH]; intros [|n] G; try discriminate; cbn in *.
    - injection G as ->. rewrite K. reflexivity.
    - f_equal. apply IH. exact G. }
  split; [rewrite M; auto|]. exists past. repeat (split; auto).
  - rewrite lenZ_upd. auto.
  - intros s. specialize (H s). destruct (value_of state_eqb past s) as [j|].
    + destruct H as (x & G & K'). apply getZ_ok in G. destruct G as [J1 J2].
      destruct (Nat.eq_dec (Z.to_nat i) (Z.to_nat j)) as [E|NE].
      * exists tok. rewrite <- E, G2 in J2. injection J2 as <-. split; [|congruence].
        apply getZ_ok. split; auto. rewrite nth_error_upd, E, Nat.eqb_refl.
        assert (Q : (Z.to_nat j < length toks)%nat) by (apply nth_error_Some; rewrite <- E; congruence).
        apply Nat.ltb_lt in Q. rewrite Q. reflexivity.
      * exists x. split; auto. apply getZ_ok. split; auto. rewrite nth_error_upd.
        apply Nat.eqb_neq in NE. rewrite NE. auto.
    + intros x J Ex. assert (J' : In s (map k_state toks)).
      { rewrite <- M. rewrite <- Ex. now apply in_map. }
      apply in_map_iff in J'. destruct J' as (y & Ey & Iy). eapply H; eauto.
Qed.

Lemma insert_total_small : forall t toks s, indexed t toks -> lenZ toks < 32767 -> t_bucket_size t <= 1073741827 ->
  exists t', insert state_eqb state_hash t s (lenZ toks) = Ok t' /\ t_bucket_size t' <= 1073741827.
Proof.
  intros t toks s [ND (past & I & L & B & N & H)] Hn Hb.
  pose proof (HashTable.inv_size _ _ _ _ _ _ I) as Sz.
  destruct (HashTableTotal.insert_total _ _ _ state_eqb_spec _ t past s (lenZ toks) I L) as (t' & E & _ & B'); try lia.
  eauto.
Qed.

Lemma indexed_create : forall t, create (kBeamSize * 4) = Ok t -> indexed t [].
Proof.
  intros t E. destruct (HashTableTotal.create_loaded _ _ state_eqb state_hash _ _ E) as (I & L & B).
  apply indexed_nil with (past := []); auto.
Qed.
End Index.

(** * Words and their nodes *)
Notation linv := (oinv label_block).

(** The word list a label pointer stands for, newest first. *)
Inductive rep (g : gcpool olabel) : option Z -> list Z -> Prop :=
| rep_nil : rep g None []
| rep_cons : forall a prev l ws, holds g a prev l -> rep g prev ws -> rep g (Some a) (l :: ws).

Lemma block_pos : 0 < label_block.
Proof. unfold label_block. lia. Qed.

Lemma rep_mono : forall g g' p ws, (forall x q k, holds g x q k -> holds g' x q k) ->
  rep g p ws -> rep g' p ws.
Proof. intros g g' p ws H R. induction R; econstructor; eauto. Qed.

Lemma holds_fun : forall g a q k q' k', holds g a q k -> holds g a q' k' -> q = q' /\ k = k'.
Proof.
  intros g a q k q' k' (n & E & _ & P & L) (n' & E' & _ & P' & L'). split; congruence.
Qed.

Lemma rep_fun : forall g p ws ws', rep g p ws -> rep g p ws' -> ws = ws'.
Proof.
  intros g p ws ws' R. revert ws'. induction R as [|a prev l ws H R IH]; intros ws' R'; inversion R' as [|? ? ? ? H' R'']; subst; auto.
  destruct (holds_fun _ _ _ _ _ _ H H') as [-> ->]. f_equal. auto.
Qed.

Lemma child_rep : forall g p ws l g' a, linv g -> rep g p ws -> child label_block g p l = Ok (g', a) ->
  linv g' /\ rep g' (Some a) (l :: ws) /\ (forall x q k, holds g x q k -> holds g' x q k) /\
  (forall x, marked (g_heap g') x = true -> marked (g_heap g) x = true) /\
  top label_block (g_pool g) <= top label_block (g_pool g').
Proof.
  intros g p ws l g' a I R E.
  destruct (child_ok label_block block_pos g p l I) as (g1 & a1 & E1 & I1 & H1 & P1 & T1 & M1 & K1 & _).
  { intros q ->. inversion R; subst. eauto. }
  rewrite E in E1. injection E1 as <- <-. repeat (split; auto).
  - econstructor; eauto. eapply rep_mono; eauto.
  - lia.
Qed.

Lemma child_total : forall g p ws l, linv g -> rep g p ws -> exists g' a, child label_block g p l = Ok (g', a).
Proof.
  intros g p ws l I R.
  destruct (child_ok label_block block_pos g p l I) as (g1 & a1 & E1 & _).
  { intros q ->. inversion R; subst. eauto. }
  eauto.
Qed.

Lemma rep_reach : forall g roots a, (forall r, In r roots -> exists ws, rep g (Some r) ws) ->
  reach (link (g_heap g)) roots a -> exists ws, rep g (Some a) ws.
Proof.
  intros g roots a H R. induction R as [a J|a b R IH (n & E & P)]; auto.
  destruct IH as [ws IH]. inversion IH as [|? ? ? ? (n' & E' & _ & P' & _) R']; subst.
  rewrite E in E'. injection E' as <-. rewrite P in R'. eauto.
Qed.

Lemma gc_rep : forall g roots, linv g -> (forall r, In r roots -> exists ws, rep g (Some r) ws) ->
  gc_safe g roots ->
  exists g', ogc label_block g roots = Ok g' /\ linv g' /\
    (forall r ws, In r roots -> rep g (Some r) ws -> rep g' (Some r) ws).
Proof.
  intros g roots I H S.
  destruct (gc_spec o_label on_collect ninv ninv_sim on_collect_ok label_block block_pos g roots I)
    as (g' & E & I' & T & Fr & K & M).
  - intros a R. destruct (rep_reach g roots a H R) as [ws J]. inversion J as [|? ? ? ? (n & En & Fn & _) _]; subst.
    unfold dom, freed. rewrite En. split; [congruence|exact Fn].
  - intros b Mk R (n & En & P). unfold top in *. unfold gc_safe in S. cbn zeta in S.
    apply (S n b); auto. unfold marked in Mk. rewrite En in Mk. destruct (n_state n); auto; discriminate.
  - exists g'. split; [exact E|]. split; [exact I'|].
    intros r ws J R. assert (RR : reach (link (g_heap g)) roots r) by (now apply reach_root). clear J.
    assert (G : forall p ws, rep g p ws -> (forall a, p = Some a -> reach (link (g_heap g)) roots a) -> rep g' p ws).
    { intros p ws' R'. induction R' as [|a prev l ws' Hh R' IH]; intros Q; [constructor|].
      destruct Hh as (n & En & Fn & Pn & Ln). 
      assert (Ff : freed (g_heap g') a = false).
      { destruct (freed (g_heap g') a) eqn:Ff; auto. exfalso. apply Fr in Ff. destruct Ff as [Ff|(_ & _ & Ff)].
        - unfold freed in Ff. rewrite En in Ff. congruence.
        - apply Ff. apply Q. reflexivity. }
      destruct (K a n En Ff) as (n' & En' & Pn' & Ln'). econstructor.
      - exists n'. split; [exact En'|]. unfold freed in Ff. rewrite En' in Ff. split; [exact Ff|].
        split; [rewrite Pn'; exact Pn|rewrite Ln'; exact Ln].
      - apply IH. intros b Eb. apply reach_step with a; auto. exists n. split; auto. congruence. }
    apply G; auto. intros a Ea. injection Ea as <-. exact RR.
Qed.

(** The nodes of a word list are different slots. *)
Fixpoint slots_of (h : zmap onode) (p : option Z) (n : nat) : list Z :=
  match n, p with
  | S n, Some a => a :: slots_of h (match zget h a with Some m => n_prev m | None => None end) n
  | _, _ => []
  end.

Lemma rep_slots : forall g p ws, rep g p ws ->
  forall x, In x (slots_of (g_heap g) p (length ws)) ->
    exists ws', rep g (Some x) ws' /\ (length ws' <= length ws)%nat.
Proof.
  intros g p ws R. induction R as [|a prev l ws H R IH]; intros x J; [destruct J|].
  cbn [length slots_of] in J. destruct J as [<-|J].
  - exists (l :: ws). split; [econstructor; eauto|lia].
  - pose proof H as (n & En & _ & Pn & _). rewrite En, Pn in J. destruct (IH x J) as (ws' & R' & L').
    exists ws'. split; auto. cbn [length]. lia.
Qed.

Lemma slots_nodup : forall g p ws, rep g p ws -> NoDup (slots_of (g_heap g) p (length ws)) /\
  length (slots_of (g_heap g) p (length ws)) = length ws.
Proof.
  intros g p ws R. induction R as [|a prev l ws H R [IH1 IH2]]; [split; [constructor|reflexivity]|].
  pose proof H as (n & En & _ & Pn & _). cbn [length slots_of]. rewrite En, Pn. split.
  - constructor; auto. intros J. destruct (rep_slots g prev ws R a J) as (ws' & R' & L').
    assert (ws' = l :: ws) by (eapply rep_fun; [exact R'|econstructor; eauto]). subst ws'. cbn [length] in L'. lia.
  - cbn [length]. congruence.
Qed.

Lemma rep_length : forall g p ws, linv g -> rep g p ws ->
  Z.of_nat (length ws) <= top label_block (g_pool g).
Proof.
  intros g p ws I R. destruct (slots_nodup g p ws R) as [ND L].
  pose proof (Pool.top_nonneg label_block block_pos (g_pool g) (gi_shape _ _ _ I)) as TN.
  set (all := seqZ 0 (Z.to_nat (top label_block (g_pool g)))).
  assert (Inc : incl (slots_of (g_heap g) p (length ws)) all).
  { intros x J. destruct (rep_slots g p ws R x J) as (ws' & R' & _). inversion R' as [|? ? ? ? (n & En & _) _]; subst.
    unfold all. apply in_seqZ. pose proof (proj1 (gi_dom _ _ _ I x)) as Q. unfold dom in Q. rewrite En in Q.
    specialize (Q ltac:(congruence)). lia. }
  pose proof (NoDup_incl_length ND Inc) as Q. rewrite L in Q. unfold all in Q. rewrite seqZ_length in Q. lia.
Qed.

Lemma path_words_rep : forall g p ws, rep g p ws -> forall fuel n, (length ws <= fuel)%nat ->
  0 <= n <= 99999 ->
  path_words fuel (g_heap g) n p =
    if n + Z.of_nat (length ws) <? 100000 then Ok ws else Fault Assert.
Proof.
  intros g p ws R. induction R as [|a prev l ws H R IH]; intros fuel n Hf Hn.
  - cbn [length Z.of_nat]. destruct (Z.ltb_spec (n + 0) 100000); [|lia]. destruct fuel; reflexivity.
  - cbn [length] in *. destruct fuel as [|fuel]; [lia|]. cbn [path_words].
    destruct H as (m & Em & _ & Pm & Lm). unfold deref. rewrite Em. cbn [bind].
    destruct (Z.ltb_spec (n + 1) 100000) as [L|L]; cbn [check bind].
    + rewrite Pm, IH by lia. rewrite Nat2Z.inj_succ.
      replace (n + Z.succ (Z.of_nat (length ws))) with (n + 1 + Z.of_nat (length ws)) by lia.
      destruct (_ <? 100000); cbn [bind]; [rewrite Lm|]; reflexivity.
    + rewrite Nat2Z.inj_succ. destruct (Z.ltb_spec (n + Z.succ (Z.of_nat (length ws))) 100000); [lia|reflexivity].
Qed.

Lemma words_rep : forall g p ws, linv g -> rep g p ws ->
  path_words (Z.to_nat (p_block (g_pool g) * label_block + p_pos (g_pool g))) (g_heap g) 0 p =
    if Z.of_nat (length ws) <? 100000 then Ok ws else Fault Assert.
Proof.
  intros g p ws I R. rewrite (path_words_rep g p ws R); [reflexivity| |lia].
  pose proof (rep_length g p ws I R) as Q. unfold top in Q. lia.
Qed.
