(** Concrete runs of the decoder. *)
From Coq Require Import ZArith QArith List Bool Lia.
From Verif.Base Require Import Prelude ZMap Lemmas.
From Verif.Spec Require Import FstSpec DecoderSpec.
From Verif.Model Require Import Arith Vector HashTable Pool OLabel Fst Decoder.
From Verif.Proof Require Import Loop DecoderBase Decoder DecoderMain QOps.
From Verif.Proof Require DecoderRun DecoderLm.
Import ListNotations.
Open Scope Z_scope.

Definition after {F D C} (O : fops F) (X : xops F D) (cfg : config F C) coll fuel cache frames : res (decoder F C) :=
  d0 <- new_decoder cache ;; d1 <- initialize O X cfg fuel d0 ;;
  '(d, b) <- process_all O X cfg coll fuel d1 frames ;; if b : bool then Ok d else Fault Assert.

Lemma after_decodes : forall F D C (O : fops F) (X : xops F D) (cfg : config F C) coll fuel cache frames d,
  after O X cfg coll fuel cache frames = Ok d -> decodes O X cfg coll fuel cache frames d.
Proof.
  intros F D C O X cfg coll fuel cache frames d E. unfold after in E. inv_bind E. inv_bind E.
  destruct (bind_ok _ _ _ _ _ E) as [[d' b] [E1 E2]]. destruct b; [|discriminate]. injection E2 as ->.
  exists a, a0. auto.
Qed.

(** What a decoder reports. *)
Definition report {F D C} (O : fops F) (X : xops F D) (cfg : config F C) (r : res (decoder F C))
  : res (list (state * F) * (list Z * F) * (list Z * F)) :=
  d <- r ;; x <- best_path O X cfg d ;; y <- best_path O X cfg (end_of_stream d) ;; Ok (view (d_toks d), x, y).

Lemma report_ok : forall F D C (O : fops F) (X : xops F D) (cfg : config F C) coll fuel cache frames v x y,
  report O X cfg (after O X cfg coll fuel cache frames) = Ok (v, x, y) ->
  exists d, decodes O X cfg coll fuel cache frames d /\ view (d_toks d) = v /\
    best_path O X cfg d = Ok x /\ best_path O X cfg (end_of_stream d) = Ok y.
Proof.
  intros F D C O X cfg coll fuel cache frames v x y E. unfold report in E. inv_bind E. apply after_decodes in Hb.
  inv_bind E. inv_bind E. injection E as <- <- <-. exists a. auto.
Qed.

(** Two states with words, one without a final weight. *)
Definition graph1 : graph trop := mk_graph 0
  [ (Num 1, [mk_arc 1 1 5 (Num 2); mk_arc 2 0 7 (Num 1)]);
    (Num 3, [mk_arc 1 1 0 (Num 1); mk_arc 2 0 9 (Num (-1))]);
    (Inf, [mk_arc 1 2 0 (Num 0)]) ].
Definition config1 : config trop unit := new_config tops graph1 [0; 0; 1] (Num 1) None.
Definition frames1 : list (list trop) := [[Num (-1); Num (-3)]; [Num (-2); Num (-1)]].

Lemma run1 : exists d, decodes tops twide config1 collector 50 tt frames1 d /\
  view (d_toks d) = [((1, 0), Num 3); ((2, 0), Num 2)] /\
  best_path tops twide config1 d = Ok ([9; 9; 5], Inf) /\
  best_path tops twide config1 (end_of_stream d) = Ok ([9; 5], Num 9).
Proof. apply report_ok. vm_compute. reflexivity. Qed.

(** With a language model. *)
Definition model2 : delta_lm trop :=
  mk_delta [Num 0; Num 1; Num 2; Num 1; Num 1; Num 1] (laid_out (mk_transducer 0
    [(Num 4, [mk_arc 1 1 1 (Num 5); mk_arc 2 5 5 (Num 3); mk_arc 1 2 2 (Num 9)]);
     (Inf, [mk_arc 0 0 0 (Num 2); mk_arc 2 5 5 (Num 1)]);
     (Num 1, [mk_arc 0 0 0 (Num 1)])])) [] 1 2.
Definition graph2 : graph trop := mk_graph 0
  [ (Num 0, [mk_arc 1 1 5 (Num 2)]); (Num 1, [mk_arc 1 1 0 (Num 0); mk_arc 0 1 0 (Num 0)]) ].
Definition config2 : config trop (list (Z * option (arc trop))) :=
  new_config tops graph2 [0; 0] (Num 1) (Some (cached_lm tops 5 model2)).

Lemma run2 : exists c d, new_cache 7 = Ok c /\
  decodes tops twide config2 collector 50 c [[Num (-1)]; [Num (-2)]; [Num (-1)]] d /\
  view (d_toks d) = [((1, 2), Num 6); ((0, 2), Num 6)] /\
  best_path tops twide config2 d = Ok ([5], Num 7).
Proof.
  eexists. destruct (report_ok _ _ _ tops twide config2 collector 50 (repeat (-1, None) 7) [[Num (-1)]; [Num (-2)]; [Num (-1)]]
    [((1, 2), Num 6); ((0, 2), Num 6)] ([5], Num 7) ([5], Num 20)) as (d & H).
  - vm_compute. reflexivity.
  - exists d. split; [reflexivity|]. destruct H as (H1 & H2 & H3 & _). auto.
Qed.

(** * Arcs without input label around a cycle of negative weight *)
Definition graph3 : graph Z := mk_graph 0
  [ (0, [mk_arc 1 0 0 (-1); mk_arc 0 1 4 2]); (0, [mk_arc 0 0 3 (-1)]) ].
Definition config3 : config Z unit := new_config sops graph3 [0; 0] 1 None.

Lemma run3 : exists d, decodes sops swide config3 collector 50 tt [[-5]; [1]] d /\
  view (d_toks d) = [((0, 0), -3); ((1, 0), -3)].
Proof.
  destruct (report_ok _ _ _ sops swide config3 collector 50 tt [[-5]; [1]] [((0, 0), -3); ((1, 0), -3)]
     ([3; 4; 3; 3; 3; 3; 4; 3; 3], -3) ([3; 4; 3; 3; 3; 3; 4; 3; 3], -3)) as (d & H1 & H2 & _).
  - vm_compute. reflexivity.
  - eauto.
Qed.

(** * A dead end *)
Definition graph4 : graph trop := mk_graph 0 [ (Num 0, [mk_arc 1 1 5 (Num 2)]); (Num 0, []) ].
Definition config4 : config trop unit := new_config tops graph4 [0; 0] (Num 1) None.

Lemma run4 : exists d d', decodes tops twide config4 collector 50 tt [[Num 0]] d /\
  process tops twide config4 collector 50 d [Num 0] = Ok (d', false) /\ d_toks d' = [] /\
  process tops twide config4 collector 50 d' [Num 0] = Fault Undef.
Proof.
  destruct (report_ok _ _ _ tops twide config4 collector 50 tt [[Num 0]] [((1, 0), Num 2)] ([5], Num 2) ([5], Num 2)) as (d & Hd & Hv & _).
  { vm_compute. reflexivity. }
  assert (H : exists d', (d <- after tops twide config4 collector 50 tt [[Num 0]] ;; process tops twide config4 collector 50 d [Num 0]) = Ok (d', false) /\ d_toks d' = []).
  { eexists. split; [vm_compute; reflexivity|reflexivity]. }
  destruct H as (d' & E & Et). inv_bind E. apply after_decodes in Hb. exists a, d'. split; auto. split; auto. split; auto.
  apply (dead_end _ _ _ _ _ _ _ _ _ _ _ E Et).
Qed.

(** * An arc of cost minus infinity *)
Definition graph5 : graph ext := mk_graph 0 [ (Fin 0, [mk_arc 0 1 5 (Fin 2); mk_arc 0 1 6 NegInf]) ].
Definition config5 : config ext unit := new_config qops graph5 [0; 0] (Fin 1) None.

Lemma run5 : exists d d', decodes qops qwide config5 collector 50 tt [] d /\
  view (d_toks d) = [((0, 0), Fin 0)] /\ process qops qwide config5 collector 50 d [Fin (-1)] = Ok (d', false).
Proof.
  destruct (report_ok _ _ _ qops qwide config5 collector 50 tt [] [((0, 0), Fin 0)] ([], Fin 0) ([], Fin 0)) as (d & Hd & Hv & _).
  { vm_compute. reflexivity. }
  assert (H : exists d', (d <- after qops qwide config5 collector 50 tt [] ;; process qops qwide config5 collector 50 d [Fin (-1)]) = Ok (d', false)).
  { eexists. vm_compute; reflexivity. }
  destruct H as (d' & E). inv_bind E. apply after_decodes in Hb. exists a, d'. split; auto. split; auto.
  destruct Hd as (x & y & E1 & E2 & E3), Hb as (x' & y' & E1' & E2' & E3').
  congruence.
Qed.

(** * A frame that succeeds although other costs are infinite *)
Definition graph6 : graph ext := mk_graph 0
  [ (Fin 0, [mk_arc 0 1 5 (Fin 2); mk_arc 0 1 6 PosInf; mk_arc 1 0 7 (Fin 3)]); (PosInf, [mk_arc 0 2 0 NaN]) ].
Definition config6 : config ext unit := new_config qops graph6 [0; 0; 0] (Fin 1) None.

Lemma run6 : exists d d', decodes qops qwide config6 collector 50 tt [] d /\
  view (d_toks d) = [((0, 0), Fin 0); ((1, 0), Fin 3)] /\ process qops qwide config6 collector 50 d [Fin (-1)] = Ok (d', true) /\
  view (d_toks d') = [((0, 0), Fin 3); ((1, 0), Fin 6)].
Proof.
  assert (H : exists d d', after qops qwide config6 collector 50 tt [] = Ok d /\ view (d_toks d) = [((0, 0), Fin 0); ((1, 0), Fin 3)] /\
     process qops qwide config6 collector 50 d [Fin (-1)] = Ok (d', true) /\ view (d_toks d') = [((0, 0), Fin 3); ((1, 0), Fin 6)]).
  { eexists. eexists. split; [vm_compute; reflexivity|]. split; [reflexivity|]. split; [vm_compute; reflexivity|]. reflexivity. }
  destruct H as (d & d' & E & H). apply after_decodes in E. exists d, d'. auto.
Qed.

(** * A collection that changes the transcript *)
Definition graph7 : graph trop := mk_graph 0
  [ (Num 0, [mk_arc 1 0 5 (Num 0)]); (Num 0, [mk_arc 2 0 7 (Num 0)]); (Num 0, [mk_arc 2 1 0 (Num 0)]) ].
Definition config7 : config trop unit := new_config tops graph7 [0; 0] (Num 1) None.

Lemma run7 : exists d d', 
  decodes tops twide config7 collector 50 tt (repeat [Num 0] 21) d /\
  decodes tops twide config7 keep_all 50 tt (repeat [Num 0] 21) d' /\
  best_path tops twide config7 (end_of_stream d) = Ok ([7; -1], Num 0) /\
  best_path tops twide config7 (end_of_stream d') = Ok ([7; 5], Num 0).
Proof.
  destruct (report_ok _ _ _ tops twide config7 collector 50 tt (repeat [Num 0] 21) [((2, 0), Num 0)] ([7; -1], Num 0) ([7; -1], Num 0)) as (d & H1 & _ & _ & H2).
  { vm_compute. reflexivity. }
  destruct (report_ok _ _ _ tops twide config7 keep_all 50 tt (repeat [Num 0] 21) [((2, 0), Num 0)] ([7; 5], Num 0) ([7; 5], Num 0)) as (d' & H3 & _ & _ & H4).
  { vm_compute. reflexivity. }
  exists d, d'. auto.
Qed.

(** * The final weight is counted twice *)
Lemma twice1 : exists d total, decodes tops twide config1 collector 50 tt frames1 d /\
  In ((1, 0), Num 3) (view (d_toks d)) /\
  ending twide graph1 None true (1, 0) (Num 3) total /\ x_narrow twide total = Num 6 /\
  (forall s c total', In (s, c) (view (d_toks d)) -> ending twide graph1 None true s c total' -> x_lt twide total' total = false) /\
  best_path tops twide config1 (end_of_stream d) = Ok ([9; 5], Num 9).
Proof.
  destruct run1 as (d & H1 & H2 & _ & H4). exists d, (Num 6). split; auto. rewrite H2. split; [now left|].
  split; [|split; [reflexivity|split; auto]].
  - exists (Num 3). split; [|reflexivity]. split; [discriminate|]. eexists. reflexivity.
  - intros s c total' [E|[E|[]]] (w & (_ & arcs & Ew) & ->); injection E as <- <-; cbn in Ew; injection Ew as <- _; reflexivity.
Qed.

Lemma late1 : exists d, decodes tops twide config2 collector 50 (repeat (-1, None) 7) [[Num (-1)]] d /\
  view (d_toks d) = [((1, 2), Num 3)] /\ best_path tops twide config2 d = Ok ([5], Num 4).
Proof.
  destruct (report_ok _ _ _ tops twide config2 collector 50 (repeat (-1, None) 7) [[Num (-1)]]
    [((1, 2), Num 3)] ([5], Num 4) ([5], Num 19)) as (d & H1 & H2 & H3 & _).
  - vm_compute. reflexivity.
  - eauto.
Qed.

(** * A second Initialize *)
Lemma again1 : exists d0 d1, new_decoder tt = Ok d0 /\ initialize tops twide config1 50 d0 = Ok d1 /\
  initialize tops twide config1 50 d1 = Fault Undef.
Proof.
  assert (H : match new_decoder (F := trop) tt with
              | Ok d0 => match initialize tops twide config1 50 d0 with
                         | Ok d1 => match initialize tops twide config1 50 d1 with Fault Undef => true | _ => false end
                         | _ => false end
              | _ => false end = true) by (vm_compute; reflexivity).
  destruct (new_decoder tt) as [d0|] eqn:E0; [|discriminate]. destruct (initialize tops twide config1 50 d0) as [d1|] eqn:E1; [|discriminate].
  exists d0, d1. split; auto. split; auto. destruct (initialize tops twide config1 50 d1) as [|[]]; try discriminate. reflexivity.
Qed.

(** * Nothing pruned *)
Section Unpruned.
Context {F D C : Type} (O : fops F) (X : xops F D) (cfg : config F C).
Notation g := (c_graph cfg).

Definition arcs_of (s : Z) : list (arc F) :=
  if s <? 0 then [] else match nth_error (g_states g) (Z.to_nat s) with Some (_, l) => l | None => [] end.

Definition frame_check (fuel : nat) (d : decoder F C) (logp : list F) : bool :=
  match get_cutoff O X cfg (d_toks d), process_emitting O X cfg d logp, process O X cfg collector fuel d logp with
  | Ok (cutoff, _, _), Ok (_, cut), Ok (d', true) =>
      forallb (fun t => negb (f_lt O (x_narrow X cutoff) (k_cost t)) &&
        forallb (fun a => (input_label a =? 0) ||
          match log_likelihood O cfg logp (input_label a) with
          | Ok l => x_lt X (total_cost O X t a (x_neg X l)) (x_wide X cut)
          | Fault _ => true
          end) (arcs_of (Datatypes.fst (k_state t)))) (d_toks d) &&
      forallb (fun t => forallb (fun a => negb (input_label a =? 0) ||
          negb (x_lt X (x_wide X cut) (total_cost O X t a (f_zero O)))) (arcs_of (Datatypes.fst (k_state t)))) (d_toks d')
  | _, _, _ => true
  end.

Fixpoint run_check (fuel : nat) (d : decoder F C) (frames : list (list F)) : bool :=
  match frames with
  | [] => true
  | logp :: rest => frame_check fuel d logp &&
      match process O X cfg collector fuel d logp with Ok (d1, true) => run_check fuel d1 rest | _ => true end
  end.

Lemma arcs_of_in : forall s a, arc_from g s a -> In a (arcs_of s).
Proof.
  intros s a (P & f & l & E & J). unfold arcs_of. destruct (Z.ltb_spec s 0); [lia|]. rewrite E. exact J.
Qed.

Lemma acoustic_log : forall logp a ac, acoustic O X (c_pdf cfg) (c_scale cfg) logp a ac ->
  exists l, log_likelihood O cfg logp (input_label a) = Ok l /\ ac = x_neg X l.
Proof.
  intros logp a ac (p & x & P1 & E1 & P2 & E2 & ->). unfold log_likelihood.
  assert (V : forall A (v : list A) i y, 0 <= i -> nth_error v (Z.to_nat i) = Some y -> vget v i = Ok y).
  { intros A v i y Pi Ei. assert (i < lenZ v).
    { assert (Hi : (Z.to_nat i < length v)%nat) by (apply nth_error_Some; congruence). unfold lenZ. lia. }
    apply vget_ok with (d := y); [lia|]. now apply nth_error_nth. }
  rewrite (V _ _ _ _ P1 E1). cbn [bind]. rewrite (V _ _ _ _ P2 E2). cbn [bind]. eauto.
Qed.

Hypothesis Hbelow : forall next c, x_lt X (x_wide X c) (x_wide X (x_narrow X next)) = true -> x_lt X next (x_wide X c) = false.

Lemma frame_check_ok : forall fuel d logp, frame_check fuel d logp = true ->
  frame_unpruned O X cfg None fuel d logp.
Proof.
  intros fuel d logp H cutoff ab bt d1 cut d' E1 E2 E3. unfold frame_check in H. rewrite E1, E2, E3 in H.
  apply andb_true_iff in H. destruct H as [H1 H2]. rewrite forallb_forall in H1, H2. split.
  - intros t J. specialize (H1 t J). apply andb_true_iff in H1. destruct H1 as [H1 H3].
    split; [now apply negb_true_iff|]. intros a ac Af NZ Ac. rewrite forallb_forall in H3.
    specialize (H3 a (arcs_of_in _ _ Af)). apply orb_true_iff in H3. destruct H3 as [H3|H3]; [apply Z.eqb_eq in H3; contradiction|].
    destruct (acoustic_log _ _ _ Ac) as (l & El & ->). rewrite El in H3. intros next <-. now apply Hbelow.
  - intros t a l' lw J Af Z0 El. cbn in El. injection El as <- <-. specialize (H2 t J). rewrite forallb_forall in H2.
    specialize (H2 a (arcs_of_in _ _ Af)). rewrite Z0 in H2. cbn in H2. now apply negb_true_iff.
Qed.

Lemma run_check_ok : forall fuel frames d, run_check fuel d frames = true -> nothing_pruned O X cfg None fuel d frames.
Proof.
  intros fuel frames. induction frames as [|logp frames IH]; intros d H; cbn [nothing_pruned run_check] in *; auto.
  apply andb_true_iff in H. destruct H as [H1 H2]. split; [now apply frame_check_ok|].
  intros d1 E. rewrite E in H2. auto.
Qed.
End Unpruned.

Lemma unpruned1 : run_unpruned tops twide config1 None 50 tt frames1.
Proof.
  intros d0 d1 E0 E1. apply run_check_ok.
  { intros [x|] [y|]; cbn; try discriminate; auto. rewrite Z.ltb_lt, Z.ltb_ge. lia. }
  assert (H : (d0 <- new_decoder tt ;; d1 <- initialize tops twide config1 50 d0 ;; Ok (run_check tops twide config1 50 d1 frames1)) = Ok true) by (vm_compute; reflexivity).
  rewrite E0 in H. cbn [bind] in H. rewrite E1 in H. cbn [bind] in H. congruence.
Qed.

(** * What the properties quote *)
Lemma safe1 : run_safe tops twide config1 50 tt frames1.
Proof. apply (DecoderRun.safe_20 tops twide config1 None (fun _ => True) I 50 tt frames1 I). unfold lenZ. cbn. discriminate. Qed.

Lemma path_case :
  lm_implements (c_lm config1) None (fun _ => True) /\ strict (x_lt twide) /\
  run_safe tops twide config1 50 tt frames1 /\
  exists d, decodes tops twide config1 collector 50 tt frames1 d /\
    view (d_toks d) = [((1, 0), Num 3); ((2, 0), Num 2)] /\
    best_path tops twide config1 d = Ok ([9; 9; 5], Inf) /\
    best_path tops twide config1 (end_of_stream d) = Ok ([9; 5], Num 9).
Proof. exact (conj I (conj trop_strict (conj safe1 run1))). Qed.

Lemma lm_case : exists c d, new_cache 7 = Ok c /\
  lm_implements (c_lm config2) (Some (delta_words tops 5 model2)) (true_cache tops 5 model2) /\
  decodes tops twide config2 collector 50 c [[Num (-1)]; [Num (-2)]; [Num (-1)]] d /\
  view (d_toks d) = [((1, 2), Num 6); ((0, 2), Num 6)] /\
  best_path tops twide config2 d = Ok ([5], Num 7).
Proof.
  destruct run2 as (c & d & H1 & H2). exists c, d. split; auto. split; auto.
  exact (DecoderLm.cached_lm_implements _ tops 5 model2).
Qed.

Lemma lost5 : rounding qops qwide (c_beam config5) /\
  exists d d', decodes qops qwide config5 collector 50 tt [] d /\
  view (d_toks d) = [((0, 0), Fin 0)] /\ arc_from graph5 0 (mk_arc 0 1 5 (Fin 2)) /\
  acoustic qops qwide [0; 0] (Fin 1) [Fin (-1)] (mk_arc 0 1 5 (Fin 2)) (Fin 1) /\
  process qops qwide config5 collector 50 d [Fin (-1)] = Ok (d', false).
Proof.
  split; [exact (ext_rounding 16 ltac:(discriminate))|].
  destruct run5 as (d & d' & H1 & H2 & H3). exists d, d'. split; auto. split; auto. split; [|split; auto].
  - split; [discriminate|]. eexists. eexists. split; [reflexivity|]. now left.
  - exists 0, (Fin (-1)). split; [discriminate|]. split; [reflexivity|]. split; [discriminate|]. split; reflexivity.
Qed.

Lemma long_beam : forall t : token ext, lenZ (repeat t (Z.to_nat 40000)) = 40000.
Proof. intros t. unfold lenZ. rewrite repeat_length. apply Z2Nat.id. discriminate. Qed.

Lemma neutral4 : (forall s w x, final_of (c_graph config4) s w -> f_add tops x w = x) /\
  exists d, decodes tops twide config4 collector 50 tt [[Num 0]] d /\
    best_path tops twide config4 (end_of_stream d) = Ok ([5], Num 2).
Proof.
  split.
  - intros s w x (P & arcs & E).
    assert (Ew : w = Num 0).
    { change (g_states (c_graph config4)) with (g_states graph4) in E.
      destruct (Z.to_nat s) as [|[|n]]; cbn in E; [congruence|congruence|]. destruct n; discriminate. }
    subst w. destruct x; cbn; [f_equal; ring|reflexivity].
  - destruct (report_ok _ _ _ tops twide config4 collector 50 tt [[Num 0]] [((1, 0), Num 2)] ([5], Num 2) ([5], Num 2)) as (d & Hd & _ & _ & Hv).
    { vm_compute. reflexivity. }
    eauto.
Qed.

Lemma best_case : ordered_costs tops twide (fun _ => True) /\ run_safe tops twide config1 50 tt frames1 /\
  run_unpruned tops twide config1 None 50 tt frames1 /\
  exists d, decodes tops twide config1 collector 50 tt frames1 d /\
    view (d_toks d) = [((1, 0), Num 3); ((2, 0), Num 2)].
Proof.
  split; [exact trop_exact|]. split; [exact safe1|]. split; [exact unpruned1|].
  destruct run1 as (d & H1 & H2 & _). eauto.
Qed.
