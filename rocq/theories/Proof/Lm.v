(** Language models: back-off, the table for state 0, the cache, delta scores. *)
From Coq Require Import ZArith List Bool Lia Permutation.
From Verif.Base Require Import Prelude Lemmas.
From Verif.Model Require Import Arith Vector Fst.
From Verif.Spec Require Import FstSpec.
From Verif.Proof Require Import Loop Am Fst.
Import ListNotations.
Open Scope Z_scope.

Ltac Zify.zify_post_hook ::= Z.div_mod_to_equations.

Section Lm.
Context {W : Type} (O : fops W) (t : transducer W).
Hypothesis wf : back_off_model t.

Lemma arcs_wf : forall s a, In a (arcs_at t s) -> is_state t (next_state a) /\ 0 <= input_label a < 2147483647.
Proof.
  intros s a I. destruct wf as [_ [_ [_ F]]]. unfold arcs_at in I.
  destruct (nth_error (t_states t) (Z.to_nat s)) as [[w l]|] eqn:E; [|destruct I].
  rewrite Forall_forall in F. specialize (F (w, l) (nth_error_In _ _ E)). rewrite Forall_forall in F. apply (F a I).
Qed.

Lemma labels_wf : forall s, Forall (fun a => 0 <= input_label a) (arcs_at t s).
Proof. intros s. apply Forall_forall. intros a I. pose proof (arcs_wf s a I). lia. Qed.

Lemma labelled_in : forall x (l r : list (arc W)) a, labelled x l = a :: r -> In a l /\ input_label a = x.
Proof.
  intros x l r a H. assert (I : In a (labelled x l)) by (rewrite H; left; reflexivity).
  apply filter_In in I. destruct I as [I E]. apply Z.eqb_eq in E. auto.
Qed.

Lemma labelled_next : forall x s a r, labelled x (arcs_at t s) = a :: r -> is_state t (next_state a).
Proof. intros x s a r H. apply labelled_in in H. destruct H as [H _]. apply (arcs_wf s a H). Qed.

Lemma in_bucket_nil : forall s x, in_bucket (@nil (option (arc W))) s x = Ok None.
Proof.
  intros s x. unfold in_bucket, lenZ. cbn [length]. change (Z.of_nat 0) with 0.
  destruct (Z.ltb_spec (size_t x) 0); [unfold size_t in *; lia|]. rewrite andb_false_r. reflexivity.
Qed.

Lemma lm_step : forall fuel s x, is_state t s -> x <> 0 ->
  lm_get_arc O (S fuel) (laid_out t) [] s x =
  match labelled x (arcs_at t s) with
  | a :: _ => Ok (Some a)
  | [] =>
      match labelled 0 (arcs_at t s) with
      | [] => Ok None
      | b :: _ =>
          r <- lm_get_arc O fuel (laid_out t) [] (next_state b) x ;;
          Ok (match r with
              | None => None
              | Some a => Some (mk_arc (next_state a) (input_label a) (output_label a) (f_add O (weight a) (weight b)))
              end)
      end
  end.
Proof.
  intros fuel s x H N. cbn [lm_get_arc]. destruct (Z.eqb_spec x 0); [lia|]. cbn [negb check bind].
  rewrite in_bucket_nil. cbn [bind]. rewrite laid_get by assumption. cbn [bind].
  destruct (labelled x (arcs_at t s)); [|reflexivity]. cbn [hd_error].
  rewrite laid_backoff by (auto using labels_wf). cbn [bind]. destruct (labelled 0 (arcs_at t s)); reflexivity.
Qed.

Lemma lm_lookup : forall x s r, lookup_word O t x s r -> x <> 0 -> is_state t s ->
  exists N, forall fuel, (N <= fuel)%nat -> lm_get_arc O fuel (laid_out t) [] s x = Ok r.
Proof.
  intros x s r H N. induction H as [s a l E|s b l a E B H IH|s b l E B H IH|s E B]; intros Hs.
  - exists 1%nat. intros [|fuel] L; [lia|]. rewrite lm_step, E by assumption. reflexivity.
  - destruct (IH (labelled_next _ _ _ _ B)) as [M IH']. exists (S M). intros [|fuel] L; [lia|].
    rewrite lm_step, E, B by assumption. rewrite IH' by lia. reflexivity.
  - destruct (IH (labelled_next _ _ _ _ B)) as [M IH']. exists (S M). intros [|fuel] L; [lia|].
    rewrite lm_step, E, B by assumption. rewrite IH' by lia. reflexivity.
  - exists 1%nat. intros [|fuel] L; [lia|]. rewrite lm_step, E, B by assumption. reflexivity.
Qed.

Lemma lookup_exists : no_back_off_cycle t -> forall x s, is_state t s -> exists r, lookup_word O t x s r.
Proof.
  intros [rank D] x.
  assert (A : forall n s, is_state t s -> (rank s < n)%nat -> exists r, lookup_word O t x s r).
  { induction n as [|n IH]; intros s Hs L; [lia|].
    destruct (labelled x (arcs_at t s)) as [|a l] eqn:E; [|exists (Some a); eapply own_arc; exact E].
    destruct (labelled 0 (arcs_at t s)) as [|b l] eqn:B; [exists None; apply no_arc; assumption|].
    specialize (D s b Hs). rewrite B in D. specialize (D eq_refl).
    destruct (IH (next_state b) (labelled_next _ _ _ _ B) ltac:(lia)) as [[a|] R].
    - eexists. eapply backed_off; eassumption.
    - exists None. eapply backed_off_none; eassumption. }
  intros s Hs. apply (A (S (rank s)) s Hs). lia.
Qed.

Lemma back_off_lookup : no_back_off_cycle t -> forall s x, is_state t s -> x <> 0 ->
  exists r N, lookup_word O t x s r /\ forall fuel, (N <= fuel)%nat -> lm_get_arc O fuel (laid_out t) [] s x = Ok r.
Proof.
  intros A s x Hs N. destruct (lookup_exists A x s Hs) as [r R]. destruct (lm_lookup x s r R N Hs) as [M L]. eauto.
Qed.

(** * Final weights *)
Lemma states_small : Z.of_nat (length (t_states t)) < 18446744073709551616.
Proof.
  destruct wf as [S _]. unfold sized in S. pose proof (Zle_0_nat (length (flat_map snd (t_states t)))).
  unfold number_of_arcs in S. lia.
Qed.

Lemma arcs_at_eq : forall s f l, nth_error (t_states t) (Z.to_nat s) = Some (f, l) -> arcs_at t s = l.
Proof. intros s f l E. unfold arcs_at. rewrite E. reflexivity. Qed.

Lemma lm_final_step : forall fuel s f l, is_state t s -> nth_error (t_states t) (Z.to_nat s) = Some (f, l) ->
  lm_final O (S fuel) (laid_out t) s =
  if f_finite O f then Ok f
  else match labelled 0 l with
       | [] => Ok (f_inf O)
       | b :: _ => w <- lm_final O fuel (laid_out t) (next_state b) ;;
                   Ok (if f_finite O w then f_add O w (weight b) else f_inf O)
       end.
Proof.
  intros fuel s f l Hs E. cbn [lm_final]. rewrite (laid_final t s f l (proj1 Hs) E states_small). cbn [bind].
  destruct (f_finite O f); [reflexivity|]. rewrite laid_backoff by (auto using labels_wf).
  rewrite (arcs_at_eq s f l E). cbn [bind]. destruct (labelled 0 l); reflexivity.
Qed.

Lemma final_next : forall s f l b l', nth_error (t_states t) (Z.to_nat s) = Some (f, l) -> labelled 0 l = b :: l' ->
  is_state t (next_state b).
Proof. intros s f l b l' E B. rewrite <- (arcs_at_eq s f l E) in B. eapply labelled_next. exact B. Qed.

Lemma lm_final_lookup : forall s w, lookup_final O t s w -> is_state t s ->
  exists N, forall fuel, (N <= fuel)%nat -> lm_final O fuel (laid_out t) s = Ok w.
Proof.
  intros s w H. induction H as [s f l E Q|s f l b l' w E Q B H IH Fw|s f l b l' w E Q B H IH Fw|s f l E Q B]; intros Hs.
  - exists 1%nat. intros [|fuel] L; [lia|]. rewrite (lm_final_step _ _ _ _ Hs E), Q. reflexivity.
  - destruct (IH (final_next _ _ _ _ _ E B)) as [M IH']. exists (S M). intros [|fuel] L; [lia|].
    rewrite (lm_final_step _ _ _ _ Hs E), Q, B, IH' by lia. cbn [bind]. rewrite Fw. reflexivity.
  - destruct (IH (final_next _ _ _ _ _ E B)) as [M IH']. exists (S M). intros [|fuel] L; [lia|].
    rewrite (lm_final_step _ _ _ _ Hs E), Q, B, IH' by lia. cbn [bind]. rewrite Fw. reflexivity.
  - exists 1%nat. intros [|fuel] L; [lia|]. rewrite (lm_final_step _ _ _ _ Hs E), Q, B. reflexivity.
Qed.

Lemma final_exists : no_back_off_cycle t -> forall s, is_state t s -> exists w, lookup_final O t s w.
Proof.
  intros [rank D].
  assert (A : forall n s, is_state t s -> (rank s < n)%nat -> exists w, lookup_final O t s w).
  { induction n as [|n IH]; intros s Hs L; [lia|].
    destruct (nth_error (t_states t) (Z.to_nat s)) as [[f l]|] eqn:E.
    2: { apply nth_error_None in E. destruct Hs. lia. }
    destruct (f_finite O f) eqn:Q; [exists f; eapply own_final; eassumption|].
    destruct (labelled 0 l) as [|b l'] eqn:B; [exists (f_inf O); eapply no_final; eassumption|].
    specialize (D s b Hs). rewrite (arcs_at_eq s f l E), B in D. specialize (D eq_refl).
    destruct (IH (next_state b) (final_next _ _ _ _ _ E B) ltac:(lia)) as [w R].
    destruct (f_finite O w) eqn:Fw; eexists; [eapply final_backed_off|eapply final_backed_off_none]; eassumption. }
  intros s Hs. apply (A (S (rank s)) s Hs). lia.
Qed.

Lemma back_off_final : no_back_off_cycle t -> forall s, is_state t s ->
  exists w N, lookup_final O t s w /\ forall fuel, (N <= fuel)%nat -> lm_final O fuel (laid_out t) s = Ok w.
Proof.
  intros A s Hs. destruct (final_exists A s Hs) as [w R]. destruct (lm_final_lookup s w R Hs) as [M L]. eauto.
Qed.

(** * The table for state 0 *)
Lemma fill_spec : forall (l : list (arc W)) b, Forall (fun a => 0 <= input_label a < lenZ b) l ->
  exists b', for_each l (fun b a => setZ b (input_label a) (Some a)) b = Ok b' /\ length b' = length b /\
    forall x, 0 <= x -> nth_error b' (Z.to_nat x) =
      match rev (labelled x l) with [] => nth_error b (Z.to_nat x) | a :: _ => Some (Some a) end.
Proof.
  induction l as [|a l IH]; intros b F.
  - exists b. split; [reflexivity|]. split; [reflexivity|]. intros x P. reflexivity.
  - inversion F as [|? ? Fa Fl]; subst. cbn [for_each]. unfold setZ at 1. fold (lenZ b).
    destruct (Z.ltb_spec (input_label a) 0); [lia|]. destruct (Z.leb_spec (lenZ b) (input_label a)); [lia|]. cbn [orb bind].
    destruct (IH (upd b (Z.to_nat (input_label a)) (Some a))) as [b' [E [L N]]]; [rewrite lenZ_upd; assumption|].
    exists b'. split; [exact E|]. split; [rewrite L; apply upd_length|]. intros x P. rewrite N by assumption.
    unfold labelled. cbn [filter]. fold (labelled x l). destruct (Z.eqb_spec (input_label a) x) as [EQ|NE].
    + cbn [rev]. destruct (rev (labelled x l)) eqn:R; [|reflexivity]. cbn [app]. rewrite nth_error_upd, EQ, Nat.eqb_refl.
      destruct (Nat.ltb_spec (Z.to_nat x) (length b)); [reflexivity|]. unfold lenZ in Fa. lia.
    + destruct (rev (labelled x l)); [|reflexivity]. rewrite nth_error_upd.
      destruct (Nat.eqb_spec (Z.to_nat (input_label a)) (Z.to_nat x)); [lia|reflexivity].
Qed.

Lemma max_spec : forall (l : list (arc W)) m, Forall (fun a => input_label a < 2147483647) l -> 0 <= m < 2147483647 ->
  let r := fold_left (fun m a => if m <? input_label a then input_label a else m) l m in
  m <= r < 2147483647 /\ Forall (fun a => input_label a <= r) l.
Proof.
  induction l as [|a l IH]; intros m F M; cbv zeta; cbn [fold_left]; [split; [lia|constructor]|].
  cbv zeta in IH. inversion F; subst. destruct (Z.ltb_spec m (input_label a)).
  - destruct (IH (input_label a)) as [R1 R2]; [assumption|lia|]. split; [lia|]. constructor; [lia|assumption].
  - destruct (IH m) as [R1 R2]; [assumption|lia|]. split; [lia|]. constructor; [lia|assumption].
Qed.

Lemma init_spec : exists bucket, init_bucket (laid_out t) = Ok bucket /\ lenZ bucket <= 2147483647 /\
  forall x, 0 <= x < lenZ bucket -> getZ bucket x = Ok (match rev (labelled x (arcs_at t 0)) with [] => None | a :: _ => Some a end).
Proof.
  assert (S0 : is_state t 0) by apply wf.
  unfold init_bucket. rewrite laid_iterate by assumption. cbn [bind].
  set (l := lsort (arcs_at t 0)).
  assert (F : Forall (fun a => 0 <= input_label a < 2147483647) l).
  { apply Forall_forall. intros a I. apply (arcs_wf 0). eapply Permutation_in; [symmetry; apply lsort_perm|exact I]. }
  destruct (max_spec l 0) as [R1 R2]; [eapply Forall_impl; [|exact F]; cbn; lia|lia|].
  set (mx := fold_left _ l 0) in *. cbv zeta.
  replace (in_int32 (mx + 1)) with true by (symmetry; apply in_int32_iff; lia). cbn [check bind].
  destruct (fill_spec l (repeat None (Z.to_nat (mx + 1)))) as [b [E [L N]]].
  { rewrite Forall_forall in *. intros a I. specialize (F a I). specialize (R2 a I). unfold lenZ. rewrite repeat_length. lia. }
  exists b. split; [exact E|]. rewrite repeat_length in L. unfold lenZ. rewrite L. split; [lia|]. intros x X.
  apply getZ_ok. split; [lia|]. rewrite N by lia. unfold l. rewrite labelled_lsort.
  destruct (rev (labelled x (arcs_at t 0))); [|reflexivity].
  rewrite (nth_error_nth' _ None) by (rewrite repeat_length; lia). rewrite nth_repeat. reflexivity.
Qed.

Lemma bucket_hit : one_arc_per_word t -> forall bucket, init_bucket (laid_out t) = Ok bucket ->
  forall x, x <> 0 -> -2147483648 <= x <= 2147483647 ->
  in_bucket bucket 0 x = Ok None \/ in_bucket bucket 0 x = Ok (hd_error (labelled x (arcs_at t 0))).
Proof.
  intros U bucket E x NZ R. destruct init_spec as [b [E' [B N]]]. rewrite E in E'. injection E' as <-.
  unfold in_bucket. rewrite Z.eqb_refl. cbn [andb].
  destruct (Z.ltb_spec (size_t x) (lenZ bucket)) as [L|L]; [|left; reflexivity].
  assert (P : 0 <= x < lenZ bucket) by (unfold size_t in L; lia).
  rewrite N by assumption. cbn [bind]. right. f_equal. specialize (U x NZ).
  destruct (labelled x (arcs_at t 0)) as [|a [|c l]] eqn:Q; [reflexivity| |cbn [length] in U; lia].
  cbn [rev app hd_error]. apply labelled_in in Q. destruct Q as [_ ->]. rewrite Z.eqb_refl. reflexivity.
Qed.

Lemma bucket_transparent : one_arc_per_word t -> exists bucket, init_bucket (laid_out t) = Ok bucket /\
  forall fuel s x, -2147483648 <= x <= 2147483647 ->
  lm_get_arc O fuel (laid_out t) bucket s x = lm_get_arc O fuel (laid_out t) [] s x.
Proof.
  intros U. destruct init_spec as [bucket [E [B N]]]. exists bucket. split; [exact E|].
  induction fuel as [|fuel IH]; intros s x R; [reflexivity|]. cbn [lm_get_arc].
  destruct (Z.eqb_spec x 0) as [Z0|NZ]; [reflexivity|]. cbn [negb check bind]. rewrite in_bucket_nil. cbn [bind].
  destruct (Z.eqb_spec s 0) as [->|NS].
  - assert (S0 : is_state t 0) by apply wf. rewrite laid_get by assumption.
    destruct (bucket_hit U bucket E x NZ R) as [-> | ->]; cbn [bind].
    + destruct (hd_error (labelled x (arcs_at t 0))); [reflexivity|].
      rewrite laid_backoff by (auto using labels_wf). cbn [bind]. destruct (hd_error (labelled 0 (arcs_at t 0))); [|reflexivity].
      rewrite IH by assumption. reflexivity.
    + destruct (hd_error (labelled x (arcs_at t 0))); [reflexivity|].
      rewrite laid_backoff by (auto using labels_wf). cbn [bind]. destruct (hd_error (labelled 0 (arcs_at t 0))); [|reflexivity].
      rewrite IH by assumption. reflexivity.
  - assert (IB : in_bucket bucket s x = Ok None).
    { unfold in_bucket. destruct (Z.eqb_spec s 0); [lia|]. reflexivity. }
    rewrite IB. cbn [bind]. destruct (get_arc (laid_out t) s x) as [[a|]|]; cbn [bind]; try reflexivity.
    destruct (backoff_arc (laid_out t) s) as [[b|]|]; cbn [bind]; try reflexivity.
    rewrite IH by assumption. reflexivity.
Qed.

Lemma table_transparent : forall bucket, table_for t bucket -> forall fuel s x, -2147483648 <= x <= 2147483647 ->
  lm_get_arc O fuel (laid_out t) bucket s x = lm_get_arc O fuel (laid_out t) [] s x.
Proof.
  intros bucket [->|[U E]] fuel s x R; [reflexivity|].
  destruct (bucket_transparent U) as [b [E' T]]. rewrite E in E'. injection E' as <-. apply T. exact R.
Qed.

(** * Answers carry the label asked for *)
Lemma get_label : forall (g : fst W) s x a, get_arc g s x = Ok (Some a) -> input_label a = x.
Proof.
  intros g s x a H. unfold get_arc in H. apply bind_ok in H. destruct H as [n [_ H]].
  destruct (n =? 0); [discriminate|]. apply bind_ok in H. destruct H as [i [_ H]].
  apply bind_ok in H. destruct H as [p [_ H]]. destruct (p =? i + n); [discriminate|].
  apply bind_ok in H. destruct H as [c [_ H]]. destruct (Z.eqb_spec (input_label c) x) as [Q|]; [|discriminate].
  injection H as <-. exact Q.
Qed.

Lemma bucket_label : forall bucket s x (a : arc W), in_bucket bucket s x = Ok (Some a) -> input_label a = x.
Proof.
  intros bucket s x a H. unfold in_bucket in H. destruct (_ && _) in H; [|discriminate].
  apply bind_ok in H. destruct H as [[c|] [_ H]]; [|discriminate].
  destruct (Z.eqb_spec (input_label c) x) as [Q|]; [|discriminate]. injection H as <-. exact Q.
Qed.

Lemma lm_label : forall fuel (g : fst W) bucket s x a, lm_get_arc O fuel g bucket s x = Ok (Some a) -> input_label a = x.
Proof.
  induction fuel as [|fuel IH]; intros g bucket s x a H; [discriminate|]. cbn [lm_get_arc] in H.
  apply bind_ok in H. destruct H as [u [_ H]]. apply bind_ok in H. destruct H as [[c|] [E H]].
  - injection H as <-. eapply bucket_label. exact E.
  - apply bind_ok in H. destruct H as [[c|] [G H]]; [injection H as <-; eapply get_label; exact G|].
    apply bind_ok in H. destruct H as [[b|] [_ H]]; [|discriminate].
    apply bind_ok in H. destruct H as [[c|] [G' H]]; [|discriminate]. injection H as <-. cbn [input_label].
    eapply IH. exact G'.
Qed.

Lemma delta_label : forall fuel (d : delta_lm W) s x a, delta_get_arc O fuel d s x = Ok (Some a) -> input_label a = x.
Proof.
  intros fuel d s x a H. unfold delta_get_arc in H. apply bind_ok in H. destruct H as [[c|] [E H]]; [|discriminate].
  apply bind_ok in H. destruct H as [w [_ H]]. injection H as <-. cbn [input_label]. eapply lm_label. exact E.
Qed.

(** * Delta scores *)
Hypothesis ex : exact O.

Lemma add_assoc : forall x y z, f_add O x (f_add O y z) = f_add O (f_add O x y) z. Proof. apply ex. Qed.
Lemma add_comm : forall x y, f_add O x y = f_add O y x. Proof. apply ex. Qed.
Lemma add_zero : forall x, f_add O (f_zero O) x = x. Proof. apply ex. Qed.
Lemma sub_add : forall x y, f_add O (f_sub O x y) y = x. Proof. apply ex. Qed.

Variable d : delta_lm W.
Hypothesis Hlm : big_lm d = laid_out t.
Hypothesis Hb : table_for t (big_bucket d).

Definition word_of (x : Z) : Prop := 0 < x < lenZ (small_lm d) /\ x <= 2147483647.

Lemma delta_lookup : forall x s a, lookup_word O t x s (Some a) -> word_of x -> is_state t s ->
  exists N, forall fuel, (N <= fuel)%nat -> delta_get_arc O fuel d s x =
    Ok (Some (mk_arc (next_state a) (input_label a) (output_label a) (f_sub O (weight a) (nth (Z.to_nat x) (small_lm d) (f_zero O))))).
Proof.
  intros x s a H [R1 R2] Hs. destruct (lm_lookup x s _ H ltac:(lia) Hs) as [N L]. exists N. intros fuel F.
  unfold delta_get_arc. rewrite Hlm, table_transparent by (auto; lia). rewrite L by assumption. cbn [bind].
  rewrite (vget_nth _ _ _ (f_zero O)) by lia. reflexivity.
Qed.

Lemma lookup_next : forall x s r a, lookup_word O t x s r -> r = Some a -> is_state t (next_state a).
Proof.
  intros x s r a H. revert a. induction H as [s a l E|s b l a E B H IH|s b l E B H IH|s E B]; intros c Q; try discriminate; injection Q as <-.
  - eapply labelled_next. exact E.
  - cbn [next_state]. apply (IH a eq_refl).
Qed.

Lemma delta_walk : forall s xs s' c, words_cost O t s xs s' c -> is_state t s -> Forall word_of xs ->
  is_state t s' /\ exists N e, f_add O e (small_cost O (small_lm d) xs) = c /\
  forall fuel, (N <= fuel)%nat -> walk O (delta_get_arc O fuel d) s xs = Ok (Some (s', e)).
Proof.
  intros s xs s' c H. induction H as [s|s x xs a s' c L H IH]; intros Hs F.
  - split; [assumption|]. exists 0%nat, (f_zero O). split; [apply add_zero|]. intros. reflexivity.
  - inversion F as [|? ? Fx Fxs]; subst. destruct (delta_lookup x s a L Fx Hs) as [N1 G].
    destruct (IH (lookup_next _ _ _ _ L eq_refl) Fxs) as [Hs' [N2 [e [E Wk]]]]. split; [assumption|].
    exists (Nat.max N1 N2). eexists. split; [|intros fuel FL; cbn [walk]; rewrite G by lia; cbn [next_state];
      rewrite Wk by lia; cbn [weight]; reflexivity].
    cbn [small_cost]. set (m := nth (Z.to_nat x) (small_lm d) (f_zero O)).
    rewrite <- E. rewrite <- (sub_add (weight a) m) at 2.
    set (u := f_sub O (weight a) m). set (v := small_cost O (small_lm d) xs).
    rewrite <- !add_assoc. f_equal. rewrite !add_assoc. f_equal. apply add_comm.
Qed.

Lemma delta_scores : forall s xs c, sentence_cost O t (eos_symbol d) s xs c -> is_state t s ->
  Forall word_of (xs ++ [eos_symbol d]) ->
  exists N s' e f, f_add O (f_add O e f) (small_cost O (small_lm d) (xs ++ [eos_symbol d])) = c /\
  forall fuel, (N <= fuel)%nat ->
    walk O (delta_get_arc O fuel d) s xs = Ok (Some (s', e)) /\ delta_final O fuel d s' = Ok f.
Proof.
  intros s xs c [s' [c1 [a [f [Wc [L [Fi ->]]]]]]] Hs F. apply Forall_app in F. destruct F as [F Fe].
  inversion Fe as [|? ? FE _]; subst. destruct (delta_walk s xs s' c1 Wc Hs F) as [Hs' [N1 [e [E Wk]]]].
  destruct FE as [R1 R2]. destruct (lm_lookup _ _ _ L ltac:(lia) Hs') as [N2 G].
  destruct (lm_final_lookup _ _ Fi (lookup_next _ _ _ _ L eq_refl)) as [N3 K].
  exists (Nat.max N1 (Nat.max N2 N3)), s', e. eexists. split.
  2:{ intros fuel FL. split; [apply Wk; lia|]. unfold delta_final. rewrite Hlm, table_transparent by (auto; lia).
      rewrite G by lia. cbn [bind]. rewrite K by lia. cbn [bind]. rewrite (vget_nth _ _ _ (f_zero O)) by lia. reflexivity. }
  set (m := nth (Z.to_nat (eos_symbol d)) (small_lm d) (f_zero O)). rewrite <- E.
  assert (SC : forall l, small_cost O (small_lm d) (l ++ [eos_symbol d]) = f_add O (small_cost O (small_lm d) l) m).
  { induction l as [|x l IH]; cbn [app small_cost]; [fold m; rewrite add_zero, add_comm; apply add_zero|].
    rewrite IH. apply add_assoc. }
  rewrite SC. rewrite <- (sub_add (f_add O (weight a) f) m). rewrite (add_comm f (weight a)).
  set (u := f_sub O (f_add O (weight a) f) m). set (v := small_cost O (small_lm d) xs).
  rewrite <- !add_assoc. f_equal. rewrite (add_assoc v u m), (add_comm v u), <- add_assoc. reflexivity.
Qed.

Lemma delta_begin : forall a, lookup_word O t (bos_symbol d) (t_start t) (Some a) -> -2147483648 <= bos_symbol d <= 2147483647 ->
  bos_symbol d <> 0 -> exists N, forall fuel, (N <= fuel)%nat -> delta_start O fuel d = Ok (next_state a).
Proof.
  intros a L R NZ. destruct (lm_lookup _ _ _ L NZ) as [N G]; [apply wf|]. exists N. intros fuel F.
  unfold delta_start. rewrite Hlm, table_transparent by auto. cbn [laid_out start_state] in *. cbn [start_state] in G.
  change (start_state (laid_out t)) with (t_start t). rewrite G by assumption. reflexivity.
Qed.

End Lm.

(** * The cache *)
Section Cache.
Context {W : Type} (query : Z -> Z -> res (option (arc W))).
Hypothesis Hq : forall s x a, query s x = Ok (Some a) -> input_label a = x.

Definition entry_ok (e : Z * option (arc W)) : Prop :=
  e = (-1, None) \/ exists s a, e = (s, Some a) /\ query s (input_label a) = Ok (Some a).

Lemma hash_ok : forall s x, 0 <= s -> 0 <= x -> (589 + s) * 31 + x <= 2147483647 -> exists h, cache_hash s x = Ok h /\ 0 <= h <= 2147483647.
Proof.
  intros s x P1 P2 P3. unfold cache_hash. change (19 * 31) with 589.
  replace (in_int32 (589 + s)) with true by (symmetry; apply in_int32_iff; lia).
  replace (in_int32 ((589 + s) * 31)) with true by (symmetry; apply in_int32_iff; lia).
  replace (in_int32 ((589 + s) * 31 + x)) with true by (symmetry; apply in_int32_iff; lia).
  cbn [check bind]. eexists. split; [reflexivity|lia].
Qed.

Lemma cached_step : forall c s x, Forall entry_ok c -> 0 < lenZ c <= 2147483647 ->
  0 <= s -> 0 <= x -> (589 + s) * 31 + x <= 2147483647 ->
  match query s x with
  | Fault e => cached_get_arc query c s x = Fault e
  | Ok r => exists c', cached_get_arc query c s x = Ok (r, c') /\ Forall entry_ok c' /\ lenZ c' = lenZ c
  end.
Proof.
  intros c s x F L P1 P2 P3. unfold cached_get_arc. destruct (Z.eqb_spec s 0) as [Z0|NZ].
  - destruct (query s x) as [r|e]; [|reflexivity]. exists c. split; [reflexivity|auto].
  - destruct (hash_ok s x P1 P2 P3) as [h [-> H]]. cbn [bind]. destruct (Z.eqb_spec (lenZ c) 0); [lia|]. cbn [negb check bind].
    cbv zeta. set (i := wrap32 (size_t h mod lenZ c)).
    assert (I : 0 <= i < lenZ c).
    { unfold i. assert (0 <= size_t h mod lenZ c < lenZ c) by (apply Z.mod_pos_bound; lia). rewrite wrap32_id; lia. }
    destruct (getZ_total _ c i I) as [[k a] G]. rewrite G. cbn [bind].
    assert (EO : entry_ok (k, a)) by (rewrite Forall_forall in F; apply F; eapply getZ_in; exact G).
    assert (Miss : match query s x with
      | Fault e => (r <- query s x ;; match r with None => Ok (None, c) | Some a => c' <- setZ c i (s, Some a) ;; Ok (Some a, c') end) = Fault e
      | Ok r => exists c', (r <- query s x ;; match r with None => Ok (None, c) | Some a => c' <- setZ c i (s, Some a) ;; Ok (Some a, c') end) = Ok (r, c') /\ Forall entry_ok c' /\ lenZ c' = lenZ c
      end).
    { destruct (query s x) as [[b|]|e] eqn:Q; cbn [bind]; [|exists c; auto|reflexivity].
      unfold setZ. fold (lenZ c). destruct (Z.ltb_spec i 0); [lia|]. destruct (Z.leb_spec (lenZ c) i); [lia|]. cbn [orb bind].
      eexists. split; [reflexivity|]. split; [|apply lenZ_upd].
      apply Forall_forall. intros e J. apply In_nth_error in J. destruct J as [m J]. rewrite nth_error_upd in J.
      destruct (Nat.eqb_spec (Z.to_nat i) m) as [EM|NE].
      - destruct (Nat.ltb _ _); [|discriminate]. injection J as <-. right. exists s, b. split; [reflexivity|].
        rewrite (Hq s x b Q). exact Q.
      - rewrite Forall_forall in F. apply F. eapply nth_error_In. exact J. }
    destruct (Z.eqb_spec k s) as [->|NK].
    + destruct EO as [EO|[s' [b [EO Q]]]]; [injection EO as -> ->; lia|]. injection EO as <- ->. cbn [bind].
      destruct (Z.eqb_spec (input_label b) x) as [<-|NL].
      * rewrite Q. exists c. auto.
      * exact Miss.
    + cbn [bind]. exact Miss.
Qed.

Lemma cache_answers : forall qs c, Forall entry_ok c -> 0 < lenZ c <= 2147483647 ->
  Forall (fun q => 0 <= Datatypes.fst q /\ 0 <= snd q /\ (589 + Datatypes.fst q) * 31 + snd q <= 2147483647) qs ->
  answers (cached_get_arc query) c qs = plain_answers query qs.
Proof.
  induction qs as [|[s x] qs IH]; intros c F L Q; [reflexivity|]. inversion Q as [|? ? [Q1 [Q2 Q3]] Qs]; subst. cbn [Datatypes.fst snd] in *.
  cbn [answers plain_answers]. pose proof (cached_step c s x F L Q1 Q2 Q3) as St.
  destruct (query s x) as [r|e]; [|rewrite St; reflexivity]. destruct St as [c' [-> [F' L']]]. cbn [bind].
  rewrite IH; [reflexivity|assumption|lia|assumption].
Qed.

Lemma cache_transparent : forall n qs, 1 <= n <= 2147483647 ->
  Forall (fun q => 0 <= Datatypes.fst q /\ 0 <= snd q /\ (589 + Datatypes.fst q) * 31 + snd q <= 2147483647) qs ->
  exists c, new_cache n = Ok c /\ answers (cached_get_arc query) c qs = plain_answers query qs.
Proof.
  intros n qs N Q. unfold new_cache. destruct (Z.leb_spec 0 n); [|lia]. cbn [check bind]. eexists. split; [reflexivity|].
  apply cache_answers; [|unfold lenZ; rewrite repeat_length; lia|assumption].
  apply Forall_forall. intros e I. apply repeat_spec in I. left. exact I.
Qed.

Lemma cache_overflow : forall n x, 1 <= n -> exists c, new_cache n = Ok c /\ cached_get_arc query c 69274000 x = Fault Undef.
Proof.
  clear Hq.
  intros n x N. unfold new_cache. destruct (Z.leb_spec 0 n); [|lia]. cbn [check bind]. eexists. split; [reflexivity|reflexivity].
Qed.

End Cache.

Section Combined.
Context {W : Type} (O : fops W) (t : transducer W).

Lemma lookup_with_table : back_off_model t -> no_back_off_cycle t -> forall bucket, table_for t bucket ->
  forall s x, is_state t s -> x <> 0 -> -2147483648 <= x <= 2147483647 ->
  exists r N, lookup_word O t x s r /\ forall fuel, (N <= fuel)%nat -> lm_get_arc O fuel (laid_out t) bucket s x = Ok r.
Proof.
  intros wf A bucket B s x Hs NZ R. destruct (back_off_lookup O t wf A s x Hs NZ) as [r [N [L G]]].
  exists r, N. split; [exact L|]. intros fuel F. rewrite (table_transparent O t wf bucket B) by assumption. auto.
Qed.

Lemma lookup_unique : forall x s r1 r2, lookup_word O t x s r1 -> lookup_word O t x s r2 -> r1 = r2.
Proof.
  intros x s r1 r2 H. revert r2. induction H as [s a l E|s b l a E B H IH|s b l E B H IH|s E B]; intros r2 H2;
    inversion H2 as [s' a' l' E'|s' b' l' a' E' B' H'|s' b' l' E' B' H'|s' E' B']; subst; try congruence.
  - rewrite B in B'. injection B' as <- _. specialize (IH _ H'). injection IH as <-. reflexivity.
  - rewrite B in B'. injection B' as <- _. specialize (IH _ H'). discriminate.
  - rewrite B in B'. injection B' as <- _. specialize (IH _ H'). discriminate.
Qed.

Lemma sentence : back_off_model t -> exact O -> forall d, big_lm d = laid_out t -> table_for t (big_bucket d) ->
  forall a xs c, lookup_word O t (bos_symbol d) (t_start t) (Some a) ->
  bos_symbol d <> 0 -> -2147483648 <= bos_symbol d <= 2147483647 ->
  sentence_cost O t (eos_symbol d) (next_state a) xs c ->
  Forall (fun x => 0 < x < lenZ (small_lm d) /\ x <= 2147483647) (xs ++ [eos_symbol d]) ->
  exists N s' e f, f_add O (f_add O e f) (small_cost O (small_lm d) (xs ++ [eos_symbol d])) = c /\
  forall fuel, (N <= fuel)%nat ->
    delta_start O fuel d = Ok (next_state a) /\
    walk O (delta_get_arc O fuel d) (next_state a) xs = Ok (Some (s', e)) /\ delta_final O fuel d s' = Ok f.
Proof.
  intros wf ex d H B a xs c L NZ R S F.
  destruct (delta_begin O t wf d H B a L R NZ) as [N1 G].
  destruct (delta_scores O t wf ex d H B (next_state a) xs c S) as [N2 [s' [e [f [E K]]]]].
  - eapply (lookup_next O t wf); [exact L|reflexivity].
  - exact F.
  - exists (Nat.max N1 N2), s', e, f. split; [exact E|]. intros fuel Fu. destruct (K fuel ltac:(lia)) as [K1 K2].
    split; [apply G; lia|auto].
Qed.

Lemma missing_word : back_off_model t -> forall d, big_lm d = laid_out t -> table_for t (big_bucket d) ->
  forall s x, is_state t s -> x <> 0 -> -2147483648 <= x <= 2147483647 -> lookup_word O t x s None ->
  exists N, forall fuel, (N <= fuel)%nat ->
    delta_get_arc O fuel d s x = Ok None /\ (x = eos_symbol d -> delta_final O fuel d s = Ok (f_inf O)).
Proof.
  intros wf d H B s x Hs NZ R L. destruct (lm_lookup O t wf x s None L NZ Hs) as [N G]. exists N. intros fuel F. split.
  - unfold delta_get_arc. rewrite H, (table_transparent O t wf _ B) by assumption. rewrite G by assumption. reflexivity.
  - intros Q. unfold delta_final. rewrite <- Q, H, (table_transparent O t wf _ B) by assumption. rewrite G by assumption. reflexivity.
Qed.

End Combined.

(** A small model: words 1 and 2, sentence end 3, sentence start 4. *)
Definition example_lm : transducer Z := mk_transducer 0
  [(1000000, [mk_arc 2 2 2 5; mk_arc 1 1 1 3; mk_arc 3 3 3 4; mk_arc 1 4 4 0]);
   (1000000, [mk_arc 2 2 2 2; mk_arc 0 0 0 1]);
   (1000000, [mk_arc 0 0 0 7]);
   (0, [])].

Lemma example_wf : back_off_model example_lm.
Proof.
  assert (forall s, 0 <= s < 4 -> is_state example_lm s) by (intros s P; exact P).
  split; [cbv; discriminate|]. split; [apply H; lia|]. split; [apply H; cbn; lia|].
  repeat constructor; cbn; try lia.
Qed.

Lemma example_acyclic : no_back_off_cycle example_lm.
Proof.
  exists (fun s => if s =? 0 then 0%nat else 1%nat). intros s b [P1 P2] E. cbn in P2.
  assert (s = 0 \/ s = 1 \/ s = 2 \/ s = 3) as [-> | [-> | [-> | ->]]] by lia; cbn in E; try discriminate; injection E as <-; cbn; lia.
Qed.

Lemma example_one : one_arc_per_word example_lm.
Proof.
  intros x NZ. unfold labelled. cbn [arcs_at example_lm t_states Z.to_nat nth_error filter input_label].
  destruct (Z.eqb_spec 2 x), (Z.eqb_spec 1 x), (Z.eqb_spec 3 x), (Z.eqb_spec 4 x); cbn [length]; lia.
Qed.
