(** Decoders with sound graphs and language models. *)
From Coq Require Import ZArith List Lia Bool.
From Verif.Base Require Import Prelude Lemmas.
From Verif.Model Require Import Arith Vector Fst Decoder Ieee.
From Verif.Spec Require Import FstSpec DecoderSpec TotalSpec LibmSpec PlainSpec LmPlainSpec.
From Verif.Proof Require Import Loop Fst Lm DecoderLm.
Import ListNotations.
Open Scope Z_scope.

Section Look.
Context {W : Type} (O : fops W) (t : transducer W).
Hypothesis wf : back_off_model t.
Hypothesis Hc : no_back_off_cycle t.
Lemma distinct_states : forall l : list Z, NoDup l -> (forall s, In s l -> is_state t s) -> (length l <= length (t_states t))%nat.
Proof.
  intros l D H. rewrite <- (seq_length (length (t_states t)) 0), <- (map_length Z.of_nat).
  apply NoDup_incl_length; [exact D|]. intros s J. specialize (H s J). unfold is_state in H.
  apply in_map_iff. exists (Z.to_nat s). split; [lia|]. apply in_seq. lia.
Qed.

Lemma final_look : forall rank : Z -> nat,
  (forall s b, is_state t s -> hd_error (labelled 0 (arcs_at t s)) = Some b -> (rank (next_state b) < rank s)%nat) ->
  forall k s seen, is_state t s -> NoDup seen ->
  (forall v, In v seen -> is_state t v /\ (rank s < rank v)%nat) -> (length (t_states t) <= k + length seen)%nat ->
  exists w, lookup_final O t s w /\ lm_final O k (laid_out t) s = Ok w.
Proof.
  intros rank D. induction k as [|k IH]; intros s seen Hs Nd Hv L.
  all: assert (Ns : ~ In s seen) by (intros J; destruct (Hv s J) as (_ & E); lia).
  all: assert (Nd' : NoDup (s :: seen)) by (constructor; assumption).
  all: assert (Hv' : forall v, In v (s :: seen) -> is_state t v) by (intros v [<- |J]; [exact Hs|exact (proj1 (Hv v J))]).
  all: pose proof (distinct_states _ Nd' Hv') as B; cbn [length] in B.
  { lia. }
  destruct (nth_error (t_states t) (Z.to_nat s)) as [[f l]|] eqn:E.
  2: { apply nth_error_None in E. destruct Hs. lia. }
  rewrite (lm_final_step O t wf _ _ _ _ Hs E). destruct (f_finite O f) eqn:Ef; [exists f; split; [now apply (own_final O t s f l)|reflexivity]|].
  destruct (labelled 0 l) as [|b l'] eqn:Eb; [exists (f_inf O); split; [now apply (no_final O t s f l)|reflexivity]|].
  assert (Hb : is_state t (next_state b)) by (eapply final_next; eassumption).
  assert (Rb : (rank (next_state b) < rank s)%nat) by (apply D; [exact Hs|rewrite (arcs_at_eq t s f l E), Eb; reflexivity]).
  destruct (IH (next_state b) (s :: seen) Hb Nd') as (w & Lw & Gw).
  { intros v J. split; [now apply Hv'|]. destruct J as [<- |J]; [exact Rb|]. destruct (Hv v J). lia. }
  { cbn [length]. lia. }
  rewrite Gw. cbn [bind]. destruct (f_finite O w) eqn:Fw; eexists; (split; [|reflexivity]).
  - now apply (final_backed_off O t s f l b l' w).
  - now apply (final_backed_off_none O t s f l b l' w).
Qed.

Lemma final_looked_up : forall fuel s, (length (t_states t) <= fuel)%nat -> is_state t s ->
  exists w, lookup_final O t s w /\ lm_final O fuel (laid_out t) s = Ok w.
Proof.
  intros fuel s L Hs. destruct Hc as (rank & D). apply (final_look rank D fuel s [] Hs (NoDup_nil _)); [intros v []|cbn; lia].
Qed.
(** [Q m w]: the weight [w] is a sum of [m] weights of arcs. *)
Variable Q : Z -> W -> Prop.
Variable N : Z.
Hypothesis Hn : lenZ (t_states t) <= N.
Hypothesis Q1 : forall s a, In a (arcs_at t s) -> Q 1 (weight a).
Hypothesis Q2 : forall m x y, 1 <= m -> m + 1 <= N -> Q m x -> Q 1 y -> Q (m + 1) (f_add O x y).

Lemma look : forall rank : Z -> nat,
  (forall s b, is_state t s -> hd_error (labelled 0 (arcs_at t s)) = Some b -> (rank (next_state b) < rank s)%nat) ->
  forall x, x <> 0 -> forall k s seen, is_state t s -> NoDup seen ->
  (forall v, In v seen -> is_state t v /\ (rank s < rank v)%nat) -> (length (t_states t) <= k + length seen)%nat ->
  exists r, lookup_word O t x s r /\ lm_get_arc O k (laid_out t) [] s x = Ok r /\
    forall a, r = Some a -> exists m, 1 <= m /\ m + lenZ seen <= lenZ (t_states t) /\ Q m (weight a).
Proof.
  intros rank D x NZ. induction k as [|k IH]; intros s seen Hs Nd Hv L.
  all: assert (Ns : ~ In s seen) by (intros J; destruct (Hv s J) as (_ & E); lia).
  all: assert (Nd' : NoDup (s :: seen)) by (constructor; assumption).
  all: assert (Hv' : forall v, In v (s :: seen) -> is_state t v) by (intros v [<- |J]; [exact Hs|exact (proj1 (Hv v J))]).
  all: pose proof (distinct_states _ Nd' Hv') as B; cbn [length] in B.
  { lia. }
  destruct (labelled x (arcs_at t s)) as [|a l] eqn:E.
  2:{ exists (Some a). split; [eapply own_arc; exact E|]. split; [rewrite (lm_step O t wf) by assumption; now rewrite E|].
      intros a' Ea. injection Ea as <-. exists 1. split; [lia|]. split; [unfold lenZ; lia|].
      apply (Q1 s). apply labelled_in in E. exact (proj1 E). }
  destruct (labelled 0 (arcs_at t s)) as [|b l] eqn:Eb.
  { exists None. split; [now apply no_arc|]. split; [rewrite (lm_step O t wf) by assumption; now rewrite E, Eb|]. intros a Ea. discriminate Ea. }
  assert (Hb : is_state t (next_state b)) by (eapply labelled_next; [exact wf|exact Eb]).
  assert (Rb : (rank (next_state b) < rank s)%nat) by (apply D; [exact Hs|now rewrite Eb]).
  destruct (IH (next_state b) (s :: seen) Hb Nd') as (r & Lr & Gr & Br).
  { intros v J. split; [now apply Hv'|]. destruct J as [<- |J]; [exact Rb|]. destruct (Hv v J). lia. }
  { cbn [length]. lia. }
  destruct r as [a|].
  - eexists. split; [eapply backed_off; eassumption|]. split; [rewrite (lm_step O t wf) by assumption; rewrite E, Eb, Gr; reflexivity|].
    intros a' Ea. injection Ea as <-. cbn [weight]. destruct (Br a eq_refl) as (m & M1 & M2 & Qm).
    unfold lenZ in M2. cbn [length] in M2. exists (m + 1). split; [lia|]. split; [unfold lenZ; lia|].
    apply Q2; [exact M1|unfold lenZ in Hn; lia|exact Qm|]. apply (Q1 s). apply labelled_in in Eb. exact (proj1 Eb).
  - exists None. split; [eapply backed_off_none; eassumption|]. split; [rewrite (lm_step O t wf) by assumption; now rewrite E, Eb, Gr|].
    intros a Ea. discriminate Ea.
Qed.

Lemma look_up : forall fuel s x, (length (t_states t) <= fuel)%nat -> is_state t s -> x <> 0 ->
  exists r, lookup_word O t x s r /\ lm_get_arc O fuel (laid_out t) [] s x = Ok r /\
    forall a, r = Some a -> exists m, 1 <= m <= N /\ Q m (weight a).
Proof.
  intros fuel s x L Hs NZ. destruct Hc as (rank & D).
  destruct (look rank D x NZ fuel s [] Hs (NoDup_nil _)) as (r & A & B & C); [intros v []|cbn; lia|].
  exists r. split; [exact A|]. split; [exact B|]. intros a E. destruct (C a E) as (m & M1 & M2 & Qm). exists m. split; [|exact Qm].
  change (lenZ []) with 0 in M2. lia.
Qed.

End Look.

Section Words.
Context {F : Type}.
Variables (O : fops F) (g : graph F).
Variables (small : list F) (t : transducer F) (bos eos : Z) (table : list (option (arc F))) (fuel : nat).
Definition lm_of : delta_lm F := mk_delta small (laid_out t) table bos eos.
Hypothesis Ht : init_bucket (laid_out t) = Ok table.
Hypothesis Hs : sound_lm g small t bos eos.
Hypothesis Hf : (length (t_states t) <= fuel)%nat.

Lemma known : forall s x, is_state t s -> 0 < x <= 2147483647 ->
  exists r, lookup_word O t x s r /\ lm_get_arc O fuel (big_lm lm_of) (big_bucket lm_of) s x = Ok r.
Proof.
  intros s x Js B.
  destruct (look_up O t (sl_model _ _ _ _ _ Hs) (sl_cycle _ _ _ _ _ Hs) (fun _ _ => True) _ (Z.le_refl _) (fun _ _ _ => I) (fun _ _ _ _ _ _ _ => I)
    fuel s x Hf Js ltac:(lia)) as (r & A & E & _). exists r. split; [exact A|]. cbn [lm_of big_lm big_bucket].
  rewrite (table_transparent O t (sl_model _ _ _ _ _ Hs)); [exact E| |lia]. right. split; [exact (sl_table _ _ _ _ _ Hs)|exact Ht].
Qed.

Lemma word_next : forall s x, is_state t s -> 0 < x < lenZ small ->
  exists r, lookup_word O t x s r /\
    delta_get_arc O fuel lm_of s x =
      Ok (option_map (fun a => mk_arc (next_state a) (input_label a) (output_label a) (f_sub O (weight a) (nth (Z.to_nat x) small (f_zero O)))) r).
Proof.
  intros s x Js B. pose proof (sl_costs _ _ _ _ _ Hs). destruct (known s x Js ltac:(lia)) as (r & A & E). exists r. split; [exact A|].
  unfold delta_get_arc. rewrite E. cbn [bind]. destruct r as [a|]; [|reflexivity].
  rewrite (vget_nth _ _ _ (f_zero O)) by (cbn [lm_of small_lm]; lia). reflexivity.
Qed.

(** The language model of a decoder is that of back-off. *)
Lemma words_back_off : back_off_words O small t bos eos (delta_words O fuel lm_of).
Proof.
  assert (S0 : is_state t (t_start t)) by apply (sl_model _ _ _ _ _ Hs).
  pose proof (sl_costs _ _ _ _ _ Hs) as Cs. constructor.
  - destruct (known (t_start t) bos S0 (sl_bos _ _ _ _ _ Hs)) as (r & A & E). cbn [wm_start delta_words]. unfold delta_start.
    cbn [lm_of big_lm big_bucket bos_symbol] in *. change (start_state (laid_out t)) with (t_start t). rewrite E. cbn [bind].
    destruct r as [a|]; [left; exists a; split; [exact A|reflexivity]|right; split; [exact A|reflexivity]].
  - intros s x Js B. destruct (word_next s x Js B) as (r & A & E). cbn [wm_next delta_words]. rewrite E.
    destruct r as [a|]; cbn [option_map]; [left|right; split; [exact A|reflexivity]].
    exists a, (nth (Z.to_nat x) small (f_zero O)). split; [exact A|]. split; [|reflexivity]. apply nth_error_nth'. unfold lenZ in B. lia.
  - intros s Js. pose proof (sl_eos _ _ _ _ _ Hs) as Be. destruct (known s eos Js ltac:(lia)) as (r & A & E).
    cbn [wm_end delta_words]. unfold delta_final. change (eos_symbol lm_of) with eos. rewrite E. cbn [bind].
    destruct r as [a|]; [left|right; split; [exact A|reflexivity]].
    destruct (final_looked_up O t (sl_model _ _ _ _ _ Hs) (sl_cycle _ _ _ _ _ Hs) fuel (next_state a) Hf
      (lookup_next O t (sl_model _ _ _ _ _ Hs) _ _ _ a A eq_refl)) as (w & Lw & Ew).
    change (big_lm lm_of) with (laid_out t). rewrite Ew. cbn [bind].
    change (small_lm lm_of) with small. rewrite (vget_nth _ _ _ (f_zero O)) by lia. cbn [bind].
    exists a, w, (nth (Z.to_nat eos) small (f_zero O)). split; [exact A|]. split; [exact Lw|]. split; [|reflexivity].
    apply nth_error_nth'. unfold lenZ in Be. lia.
Qed.

End Words.

Section Fits.
Context {F D : Type}.
Variables (O : fops F) (X : xops F D) (cfg : config F (list (Z * option (arc F)))).
Variables (small : list F) (t : transducer F) (bos eos : Z) (table : list (option (arc F))) (fuel : nat).
Notation g := (c_graph cfg).
Notation lmf := (lm_of small t bos eos table).
Variable width : Z.
Hypothesis Hlm : c_lm cfg = Some (cached_lm O fuel lmf).
Hypothesis Ht : init_bucket (laid_out t) = Ok table.
Hypothesis Hg : sound_graph g (c_pdf cfg) width.
Hypothesis Hs : sound_lm g small t bos eos.
Hypothesis Hf : (length (t_states t) <= fuel)%nat.
Notation wm := (Some (delta_words O fuel lmf)).

Lemma in_pairs : forall s, In s (all_pairs g t) <-> 0 <= Datatypes.fst s < lenZ (g_states g) /\ is_state t (snd s).
Proof.
  intros [s l]. unfold all_pairs. rewrite in_prod_iff, !in_map_iff. cbn [Datatypes.fst snd]. unfold is_state, lenZ. split.
  - intros ((n & <- & Jn) & (k & <- & Jk)). apply in_seq in Jn. apply in_seq in Jk. lia.
  - intros (A & B). split; [exists (Z.to_nat s)|exists (Z.to_nat l)]; (split; [lia|]; apply in_seq; lia).
Qed.

Lemma pairs_few : lenZ (all_pairs g t) <= 32766.
Proof.
  pose proof (sl_few _ _ _ _ _ Hs) as H. unfold all_pairs, lenZ in *. rewrite prod_length, !map_length, !seq_length. lia.
Qed.

Lemma pairs_proper : forall s, In s (all_pairs g t) -> proper cfg s /\ answers cfg (true_cache O fuel lmf) s.
Proof.
  intros s J. apply in_pairs in J. destruct J as (A & B). pose proof B as B'. unfold is_state in B'.
  pose proof (sl_few _ _ _ _ _ Hs) as H. unfold lenZ in *.
  assert (Small : Datatypes.fst s <= 32766 /\ snd s <= 32766) by nia. split.
  - unfold proper, lenZ. lia.
  - intros a m c Af NZ Em (Lc & Gc). rewrite Hlm in Em. injection Em as <-. cbn [lm_arc cached_lm].
    pose proof (sl_words _ _ _ _ _ Hs _ _ Af) as Wd. pose proof (sl_costs _ _ _ _ _ Hs) as Cd.
    destruct (word_next O g small t bos eos table fuel Ht Hs Hf (snd s) (output_label a) B ltac:(lia)) as (r & _ & E).
    pose proof (cached_step (delta_get_arc O fuel lmf) (delta_label O fuel lmf) c (snd s) (output_label a) Gc Lc ltac:(lia) ltac:(lia) ltac:(lia)) as St.
    rewrite E in St. destruct St as (c' & Ec & _). eauto.
Qed.

Lemma after_state : forall l x, is_state t l -> 0 <= x < lenZ small -> is_state t (Datatypes.fst (lm_after O wm l x)).
Proof.
  intros l x Jl B. unfold lm_after. destruct (Z.eqb_spec x 0); [exact Jl|].
  destruct (word_next O g small t bos eos table fuel Ht Hs Hf l x Jl ltac:(lia)) as (r & A & E). cbn [wm_next delta_words]. rewrite E.
  destruct r as [a|]; [|exact Jl]. cbn [option_map Datatypes.fst next_state].
  exact (lookup_next O t (sl_model _ _ _ _ _ Hs) x l _ a A eq_refl).
Qed.

Lemma pairs_next : forall s a, In s (all_pairs g t) -> arc_from g (Datatypes.fst s) a -> In (arrival O wm s a) (all_pairs g t).
Proof.
  intros s a J Af. apply in_pairs in J. apply in_pairs. unfold arrival. cbn [Datatypes.fst snd]. split; [exact (sg_next _ _ _ Hg _ _ Af)|].
  apply after_state; [exact (proj2 J)|exact (sl_words _ _ _ _ _ Hs _ _ Af)].
Qed.

Lemma lm_begins : exists l, delta_start O fuel lmf = Ok l /\ is_state t l.
Proof.
  assert (S0 : is_state t (t_start t)) by apply (sl_model _ _ _ _ _ Hs).
  destruct (known O g small t bos eos table fuel Ht Hs Hf (t_start t) bos S0 (sl_bos _ _ _ _ _ Hs)) as (r & A & E). unfold delta_start.
  cbn [lm_of big_lm big_bucket bos_symbol] in *. change (start_state (laid_out t)) with (t_start t). rewrite E. cbn [bind].
  destruct r as [a|]; eexists; (split; [reflexivity|]); [|exact S0]. exact (lookup_next O t (sl_model _ _ _ _ _ Hs) _ _ _ a A eq_refl).
Qed.

Lemma lm_fits : forall rows, Forall (fun r => lenZ r = width) rows ->
  run_fits O X cfg wm (true_cache O fuel lmf) rows (all_pairs g t) /\ lively cfg (all_pairs g t) /\ ends cfg (all_pairs g t).
Proof.
  intros rows Hr. destruct lm_begins as (l0 & E0 & J0). split; [constructor|split].
  - apply in_pairs. split; [exact (sg_start _ _ _ Hg)|]. cbn [lm_first snd wm_start delta_words]. rewrite E0. exact J0.
  - intros m E. rewrite Hlm in E. injection E as <-. exists l0. exact E0.
  - constructor; [exact pairs_few|intros s []|exact pairs_proper|intros s a []|]. intros s a J Af _. now apply pairs_next.
  - intros logp J. constructor; [exact pairs_few|exact pairs_proper|exact pairs_proper| |].
    + intros s a Js Af NZ. split; [now apply pairs_next|]. destruct (sg_labels _ _ _ Hg _ _ Af NZ) as (N & p & Ep & B).
      rewrite Forall_forall in Hr. specialize (Hr _ J).
      destruct (nth_error logp (Z.to_nat p)) as [x|] eqn:Ex.
      * eexists. exists p, x. repeat split; try assumption; lia.
      * apply nth_error_None in Ex. unfold lenZ in Hr. lia.
    + intros s a Js Af _. now apply pairs_next.
  - intros s J. apply in_pairs in J. exact (sg_alive _ _ _ Hg _ (proj1 J)).
  - intros s m J E. rewrite Hlm in E. injection E as <-. apply in_pairs in J. destruct J as (_ & J). cbn [lm_end cached_lm].
    pose proof (sl_eos _ _ _ _ _ Hs) as Be. pose proof (sl_costs _ _ _ _ _ Hs).
    destruct (known O g small t bos eos table fuel Ht Hs Hf (snd s) eos J ltac:(lia)) as (r & A & E). unfold delta_final.
    change (eos_symbol lmf) with eos. rewrite E. cbn [bind]. destruct r as [a|]; [|eauto].
    destruct (final_looked_up O t (sl_model _ _ _ _ _ Hs) (sl_cycle _ _ _ _ _ Hs) fuel (next_state a) Hf
      (lookup_next O t (sl_model _ _ _ _ _ Hs) _ _ _ a A eq_refl)) as (w & _ & Ew).
    change (big_lm lmf) with (laid_out t). rewrite Ew. cbn [bind].
    change (small_lm lmf) with small. rewrite (vget_nth _ _ _ (f_zero O)) by lia. cbn [bind]. eauto.
Qed.
End Fits.
