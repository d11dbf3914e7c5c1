(** Lemmas on the string helpers. *)
From Coq Require Import ZArith List Bool Lia.
From Verif.Base Require Import Prelude Lemmas.
From Verif.Model Require Import Util File.
From Verif.Spec Require Import TextSpec.
Import ListNotations.
Open Scope Z_scope.

Lemma isspace_iff c : isspace c = true <-> white c.
Proof.
  unfold isspace, white. rewrite orb_true_iff, andb_true_iff, !Z.leb_le, Z.eqb_eq. lia.
Qed.

Lemma isspace_not c : isspace c = false <-> ~ white c.
Proof. rewrite <- isspace_iff. destruct (isspace c); intuition congruence. Qed.

(** * Trim *)

Lemma trim_begin_range s : 0 <= trim_begin s <= lenZ s.
Proof.
  unfold lenZ. induction s as [|c r IH]; cbn [trim_begin length]; [lia|].
  destruct (isspace c); lia.
Qed.

Lemma trim_begin_spec s :
  exists u t, s = u ++ t /\ lenZ u = trim_begin s /\ all_white u /\
    forall c r, t = c :: r -> ~ white c.
Proof.
  unfold lenZ. induction s as [|c r IH]; cbn [trim_begin].
  - exists [], []. repeat split; [constructor|discriminate].
  - destruct (isspace c) eqn:E.
    + destruct IH as (u & t & -> & L & W & N).
      exists (c :: u), t. repeat split; auto.
      * cbn [length]. lia.
      * constructor; [now apply isspace_iff|exact W].
    + exists [], (c :: r). repeat split; [constructor|].
      intros c' r' [= <- <-]. now apply isspace_not.
Qed.

Lemma trim_end_spec s b : forall fuel e,
  e - b <= Z.of_nat fuel -> b <= e ->
  let e' := trim_end fuel s b e in
  b <= e' <= e /\
  (forall i, e' < i <= e -> isspace (nth (Z.to_nat i) s 0) = true) /\
  (b < e' -> isspace (nth (Z.to_nat e') s 0) = false).
Proof.
  induction fuel as [|fuel IH]; intros e F L; cbn [trim_end].
  - repeat split; try lia.
  - destruct (b <? e) eqn:E1; cbn [andb].
    + apply Z.ltb_lt in E1.
      destruct (isspace (nth (Z.to_nat e) s 0)) eqn:E2.
      * destruct (IH (e - 1)) as (A & B & C); [lia|lia|].
        cbn zeta. repeat split; try lia; [|exact C].
        intros i Hi. destruct (Z.eq_dec i e) as [->|]; [exact E2|]. apply B. lia.
      * repeat split; try lia; auto.
    + apply Z.ltb_ge in E1. repeat split; try lia.
Qed.

Lemma trim_trimmed s : trimmed s (trim s).
Proof.
  unfold trim.
  destruct (trim_begin_spec s) as (u & t & -> & L & W & N).
  rewrite <- L. unfold sub, lenZ in *.
  destruct t as [|c t].
  - rewrite app_nil_r in *.
    assert (E : forall fuel, trim_end fuel u (Z.of_nat (length u)) (Z.of_nat (length u) - 1)
                = Z.of_nat (length u) - 1).
    { intros [|fuel]; cbn [trim_end]; [reflexivity|].
      destruct (Z.ltb_spec (Z.of_nat (length u)) (Z.of_nat (length u) - 1)); [lia|reflexivity]. }
    rewrite E. replace (Z.to_nat _) with 0%nat by lia. cbn [firstn].
    split; [|split; intros c r E'; [discriminate|destruct r; discriminate]].
    exists u, []. repeat split; auto; [now rewrite app_nil_r|constructor].
  - rewrite app_length. cbn [length].
    set (n := length u) in *.
    destruct (trim_end_spec (u ++ c :: t) (Z.of_nat n) (n + S (length t))%nat
                (Z.of_nat (n + S (length t)) - 1)) as (A & B & C); [lia|lia|].
    set (e' := trim_end _ _ _ _) in *.
    rewrite skipn_app, skipn_all2, app_nil_l by (subst n; lia).
    replace (Z.to_nat (Z.of_nat n) - length u)%nat with 0%nat by (subst n; lia).
    cbn [skipn].
    set (k := Z.to_nat (e' - Z.of_nat n)).
    replace (Z.to_nat (e' + 1 - Z.of_nat n)) with (S k) by (subst k; lia).
    assert (Hk : (k <= length t)%nat) by (subst k; lia).
    split; [|split].
    + exists u, (skipn (S k) (c :: t)). rewrite firstn_skipn. repeat split; auto.
      apply Forall_forall. intros x Hx. cbn [skipn] in Hx.
      apply (In_nth _ _ 0) in Hx. destruct Hx as (j & Hj & <-).
      rewrite skipn_length in Hj.
      apply isspace_iff.
      replace (nth j (skipn k t) 0) with (nth (Z.to_nat (e' + 1 + Z.of_nat j)) (u ++ c :: t) 0).
      { apply B. lia. }
      replace (Z.to_nat (e' + 1 + Z.of_nat j)) with (n + S (k + j))%nat by (subst k; lia).
      subst n. rewrite app_nth2_plus. cbn [nth].
      rewrite <- (firstn_skipn k t) at 1. rewrite app_nth2 by (rewrite firstn_length; lia).
      f_equal. rewrite firstn_length. lia.
    + cbn [firstn]. intros c' r [= <- <-]. eapply N. reflexivity.
    + intros c' r E'.
      destruct k as [|k'] eqn:Ek.
      * cbn [firstn] in E'. destruct r as [|? [|]]; try discriminate.
        injection E' as <-. eapply N. reflexivity.
      * assert (X : nth (S k') (c :: t) 0 = c').
        { rewrite <- (firstn_skipn (S (S k')) (c :: t)), E', <- app_assoc.
          assert (length r = S k').
          { apply (f_equal (@length Z)) in E'. rewrite firstn_length, app_length in E'.
            cbn [length] in E'. lia. }
          rewrite app_nth2 by lia. replace (S k' - length r)%nat with 0%nat by lia. reflexivity. }
        rewrite <- X. apply isspace_not.
        replace (nth (S k') (c :: t) 0) with (nth (Z.to_nat e') (u ++ c :: t) 0).
        { apply C. lia. }
        replace (Z.to_nat e') with (n + S k')%nat by lia.
        subst n. now rewrite app_nth2_plus.
Qed.

Lemma split_prefix (P : Z -> Prop) : forall u u' a b x y,
  Forall P u -> Forall P u' -> ~ P a -> ~ P b ->
  u ++ a :: x = u' ++ b :: y -> u = u' /\ a = b /\ x = y.
Proof.
  induction u as [|c u IH]; intros [|c' u'] a b x y Fu Fu' Na Nb E; cbn [app] in E.
  - injection E as -> ->. auto.
  - injection E as -> _. inversion Fu'; subst. contradiction.
  - injection E as -> _. inversion Fu; subst. contradiction.
  - injection E as -> E. inversion Fu; inversion Fu'; subst.
    destruct (IH u' a b x y) as (-> & -> & ->); auto.
Qed.

Lemma last_cases (t : str) : t = [] \/ exists r c, t = r ++ [c].
Proof.
  induction t as [|x t IH] using rev_ind; [now left|right; eauto].
Qed.

Lemma trimmed_white s t : trimmed s t -> (t = [] <-> all_white s).
Proof.
  intros ((u & v & -> & Wu & Wv) & F & _). split.
  - intros ->. apply Forall_app. split; [exact Wu|exact Wv].
  - intros W. destruct t as [|c r]; [reflexivity|].
    exfalso. apply (F c r eq_refl). unfold all_white in W.
    rewrite Forall_forall in W. apply W. apply in_or_app. right. now left.
Qed.

Lemma trimmed_unique s t t' : trimmed s t -> trimmed s t' -> t = t'.
Proof.
  intros H H'.
  pose proof (trimmed_white _ _ H) as I. pose proof (trimmed_white _ _ H') as I'.
  destruct t as [|c r].
  { symmetry. apply I', I. reflexivity. }
  destruct t' as [|c' r'].
  { apply I, I'. reflexivity. }
  destruct H as ((u & v & E & Wu & Wv) & F & G).
  destruct H' as ((u' & v' & E' & Wu' & Wv') & F' & G').
  rewrite E in E'. cbn [app] in E'.
  apply (split_prefix white) in E'; auto; [|now apply (F c r)|now apply (F' c' r')].
  destruct E' as (<- & <- & E').
  destruct (last_cases (c :: r)) as [|(p & x & Ep)]; [discriminate|].
  destruct (last_cases (c :: r')) as [|(p' & x' & Ep')]; [discriminate|].
  assert (Q : (c :: r) ++ v = (c :: r') ++ v') by (cbn [app]; now rewrite E').
  pose proof (G _ _ Ep) as Nx. pose proof (G' _ _ Ep') as Nx'.
  rewrite Ep, Ep' in *. rewrite <- !app_assoc in Q. cbn [app] in Q.
  apply (f_equal (@rev Z)) in Q. rewrite !rev_app_distr in Q. cbn [rev] in Q.
  rewrite <- !app_assoc in Q. cbn [app] in Q.
  apply (split_prefix white) in Q; auto; try (now apply Forall_rev).
  destruct Q as (_ & -> & Q). apply (f_equal (@rev Z)) in Q. rewrite !rev_involutive in Q.
  now subst.
Qed.

(** * find *)

Lemma prefix_iff p s : prefix p s = true <-> exists r, s = p ++ r.
Proof.
  revert s. induction p as [|a p IH]; intros s; cbn [prefix].
  - split; [intros _; now exists s|reflexivity].
  - destruct s as [|c s]; [split; [discriminate|intros (r & E); discriminate]|].
    rewrite andb_true_iff, Z.eqb_eq, IH. split.
    + intros (-> & r & ->). now exists r.
    + intros (r & [= -> ->]). split; [reflexivity|now exists r].
Qed.

(** Leftmost occurrence. *)
Definition leftmost (s d : str) (k : Z) : Prop :=
  0 <= k /\
  (exists u v, s = u ++ d ++ v /\ lenZ u = k) /\
  (forall u v, s = u ++ d ++ v -> k <= lenZ u).

Lemma find_from_some p : forall s pos k, find_from p s pos = Some k -> leftmost s p (k - pos).
Proof.
  unfold leftmost, lenZ.
  induction s as [|c s IH]; intros pos k; cbn [find_from].
  - destruct (prefix p []) eqn:E; [|discriminate]. intros [= <-].
    apply prefix_iff in E. destruct E as (r & E).
    repeat split; [lia| |lia]. exists [], r. split; [exact E|cbn [length]; lia].
  - destruct (prefix p (c :: s)) eqn:E.
    + intros [= <-]. apply prefix_iff in E. destruct E as (r & E).
      repeat split; [lia| |lia]. exists [], r. split; [exact E|cbn [length]; lia].
    + intros H. apply IH in H. destruct H as (A & (u & v & -> & L) & M).
      repeat split; [lia| |].
      * exists (c :: u), v. split; [reflexivity|]. cbn [length]. lia.
      * intros [|x u'] v' E'.
        -- exfalso. cbn [app] in E'.
           assert (prefix p (c :: u ++ p ++ v) = true) by (apply prefix_iff; now exists v').
           congruence.
        -- injection E' as -> E'. specialize (M _ _ E'). cbn [length]. lia.
Qed.

Lemma find_from_none p : forall s pos, find_from p s pos = None -> ~ contains s p.
Proof.
  induction s as [|c s IH]; intros pos; cbn [find_from]; destruct (prefix p _) eqn:E;
    try discriminate; intros H (u & v & Q).
  - destruct u; [|discriminate].
    assert (prefix p [] = true) by (apply prefix_iff; now exists v). congruence.
  - destruct u as [|x u].
    + assert (prefix p (c :: s) = true) by (apply prefix_iff; now exists v). congruence.
    + injection Q as -> Q. eapply IH; [eassumption|]. now exists u, v.
Qed.

Lemma sub_app (a b c : str) n m :
  n = lenZ a -> m = n + lenZ b -> sub (a ++ b ++ c) n m = b.
Proof.
  unfold sub, lenZ. intros -> ->.
  rewrite skipn_app, skipn_all2 by lia.
  replace (Z.to_nat (Z.of_nat (length a)) - length a)%nat with 0%nat by lia.
  cbn [skipn app].
  replace (Z.to_nat (_ - _)) with (length b) by lia.
  rewrite firstn_app, firstn_all, Nat.sub_diag. cbn [firstn]. now rewrite app_nil_r.
Qed.

Lemma find_app (a s p : str) n : n = lenZ a -> find (a ++ s) p n = find_from p s n.
Proof.
  unfold find, lenZ. intros ->. rewrite app_length.
  destruct (Z.ltb_spec (Z.of_nat (length a + length s)) (Z.of_nat (length a))); [lia|].
  rewrite skipn_app, skipn_all2 by lia.
  replace (Z.to_nat (Z.of_nat (length a)) - length a)%nat with 0%nat by lia.
  reflexivity.
Qed.

(** * Split *)

(** The fields of a text, as [Split] finds them. *)
Inductive fields_of (d : str) : str -> list str -> Prop :=
| FEnd : fields_of d [] []
| FLast s : s <> [] -> ~ contains s d -> fields_of d s [s]
| FCons f s fs : leftmost (f ++ d ++ s) d (lenZ f) -> fields_of d s fs ->
    fields_of d (f ++ d ++ s) (f :: fs).

Lemma not_contains_nil d : d <> [] -> ~ contains [] d.
Proof.
  intros N (u & v & E). symmetry in E. apply app_eq_nil in E. destruct E as (_ & E).
  apply app_eq_nil in E. now destruct E.
Qed.

Lemma split_loop_fields d : d <> [] -> forall fuel a s acc,
  (length s < fuel)%nat ->
  exists fs, split_loop fuel (a ++ s) d (lenZ a) acc = Ok (acc ++ fs) /\ fields_of d s fs.
Proof.
  intros Nd. induction fuel as [|fuel IH]; intros a s acc L; [lia|].
  cbn [split_loop]. rewrite find_app by reflexivity.
  destruct (find_from d s (lenZ a)) as [pos|] eqn:E.
  - pose proof (find_from_some _ _ _ _ E) as M.
    destruct M as (P0 & (f & s' & -> & Lf) & Min).
    assert (0 < length d)%nat by (destruct d; [congruence|cbn [length]; lia]).
    rewrite !app_length in L.
    destruct (IH (a ++ f ++ d) s' (acc ++ [sub (a ++ f ++ d ++ s') (lenZ a) pos]))
      as (fs & R & F); [lia|].
    exists (f :: fs). split.
    + rewrite sub_app in R |- * by (unfold lenZ in *; lia).
      rewrite <- !app_assoc in R. cbn [app] in R.
      etransitivity; [|exact R]. f_equal. unfold lenZ in *. rewrite !app_length. lia.
    + apply FCons; [|exact F]. rewrite Lf. split; [lia|]. split; [eauto|exact Min].
  - apply find_from_none in E.
    assert (LA : lenZ (a ++ s) = lenZ a + lenZ s) by (unfold lenZ; rewrite app_length; lia).
    rewrite LA. destruct (Z.ltb_spec (lenZ a) (lenZ a + lenZ s)) as [H|H]; unfold lenZ in H.
    + exists [s]. split.
      * do 3 f_equal. rewrite <- (app_nil_r s) at 1. now apply sub_app.
      * apply FLast; [|exact E]. intros ->. cbn [length] in *. lia.
    + destruct s; [|cbn [length] in *; lia].
      exists []. split; [now rewrite app_nil_r|constructor].
Qed.

Lemma split_fields s d : d <> [] -> exists fs, split s d = Ok fs /\ fields_of d s fs.
Proof.
  intros N. unfold split.
  destruct (split_loop_fields d N (S (length s)) [] s []) as (fs & A & B); [lia|].
  exists fs. split; [exact A|exact B].
Qed.

Lemma fields_join d s fs : fields_of d s fs -> s = join d fs \/ s = join d (fs ++ [[]]).
Proof.
  induction 1 as [|s N C|f s fs M F IH]; [now left|now left|].
  destruct fs as [|g fs].
  - inversion F; subst. right. cbn [app join]. now rewrite app_nil_r.
  - destruct IH as [->| ->]; [left|right]; reflexivity.
Qed.

Lemma fields_clean d s fs : d <> [] -> fields_of d s fs -> Forall (fun f => ~ contains f d) fs.
Proof.
  intros N. induction 1 as [|s Ns C|f s fs M F IH]; constructor; auto.
  destruct M as (_ & _ & M). intros (u & v & ->).
  specialize (M u (v ++ d ++ s)). rewrite <- !app_assoc in M. specialize (M eq_refl).
  unfold lenZ in M. rewrite !app_length in M. destruct d; [congruence|cbn [length] in M; lia].
Qed.

Lemma contains_one s c : contains s [c] <-> In c s.
Proof.
  split.
  - intros (u & v & ->). apply in_or_app. right. now left.
  - intros H. apply in_split in H. destruct H as (u & v & ->). now exists u, v.
Qed.

Lemma leftmost_one f s c : ~ In c f -> leftmost (f ++ [c] ++ s) [c] (lenZ f).
Proof.
  intros N. split; [unfold lenZ; lia|]. split; [now exists f, s|].
  intros u v E. revert u E. induction f as [|x f IH]; intros u E; unfold lenZ in *.
  - cbn [length]. lia.
  - destruct u as [|y u]; cbn [app] in E.
    + injection E as -> _. exfalso. apply N. now left.
    + injection E as -> E. cbn [length]. apply IH in E; [lia|]. intros H. apply N. now right.
Qed.

Lemma leftmost_fun s d k k' : leftmost s d k -> leftmost s d k' -> k = k'.
Proof.
  intros (_ & (u & v & E & L) & M) (_ & (u' & v' & E' & L') & M').
  pose proof (M _ _ E'). pose proof (M' _ _ E). lia.
Qed.

Lemma app_len_inj (a a' b b' : str) :
  a ++ b = a' ++ b' -> lenZ a = lenZ a' -> a = a' /\ b = b'.
Proof.
  unfold lenZ. revert a'. induction a as [|x a IH]; intros [|x' a'] E L; cbn [length app] in *;
    try lia; [auto|].
  injection E as -> E. destruct (IH a' E) as (-> & ->); [lia|auto].
Qed.

Lemma fields_of_fun d : d <> [] -> forall s fs fs', fields_of d s fs -> fields_of d s fs' -> fs = fs'.
Proof.
  intros Nd s fs fs' H. revert fs'.
  induction H as [|s N C|f s fs M F IH]; intros fs' H'.
  - inversion H' as [|? ? ?|f s ? ? ? Q]; subst; [reflexivity|congruence|].
    apply app_eq_nil in Q. destruct Q as (_ & Q). apply app_eq_nil in Q. now destruct Q.
  - inversion H' as [|? ? ?|f s' ? ? ? Q]; subst; [congruence|reflexivity|].
    exfalso. apply C. now exists f, s'.
  - inversion H' as [Q|? N C Q|f' s' fs0 M' F' Q]; subst.
    + symmetry in Q. apply app_eq_nil in Q. destruct Q as (_ & Q). apply app_eq_nil in Q.
      now destruct Q.
    + exfalso. apply C. now exists f, s.
    + rewrite Q in M'. pose proof (leftmost_fun _ _ _ _ M M') as L.
      destruct (app_len_inj _ _ _ _ Q) as (-> & Q2); [congruence|].
      apply app_inv_head in Q2. subst. f_equal. now apply IH.
Qed.

Lemma split_eq s d fs : d <> [] -> fields_of d s fs -> split s d = Ok fs.
Proof.
  intros N F. destruct (split_fields s d N) as (fs' & E & F').
  rewrite E. f_equal. eapply fields_of_fun; eauto.
Qed.

Lemma split_join c : forall fs,
  Forall (fun f => ~ In c f) fs -> (forall r f, fs = r ++ [f] -> f <> []) ->
  split (join [c] fs) [c] = Ok fs.
Proof.
  intros fs F L. apply split_eq; [discriminate|].
  induction F as [|f fs N F IH].
  - constructor.
  - destruct fs as [|g fs].
    + cbn [join]. apply FLast; [exact (L [] f eq_refl)|]. now rewrite contains_one.
    + change (join [c] (f :: g :: fs)) with (f ++ [c] ++ join [c] (g :: fs)).
      apply FCons; [now apply leftmost_one|]. apply IH.
      intros r h E. apply (L (f :: r) h). now rewrite E.
Qed.

(** * Format *)

Lemma substitute_nil_fmt args : substitute [] args = [].
Proof. now destruct args. Qed.

Lemma substitute_nil q : substitute q [] = q.
Proof. now destruct q. Qed.

Lemma substitute_cons c f args :
  (forall f', c :: f <> 123 :: 125 :: f') -> args <> [] ->
  substitute (c :: f) args = c :: substitute f args.
Proof.
  intros N A. destruct args as [|a r]; [congruence|]. cbn [substitute].
  destruct (Z.eq_dec c 123) as [->|Nc].
  - destruct f as [|x f]; [reflexivity|].
    destruct (Z.eq_dec x 125) as [->|Nx]; [exfalso; now apply (N f)|].
    destruct x as [|p|p]; try reflexivity.
    do 7 (destruct p as [p|p|]; try reflexivity). exfalso. now apply Nx.
  - destruct c as [|p|p]; try reflexivity.
    do 7 (destruct p as [p|p|]; try reflexivity). exfalso. now apply Nc.
Qed.

Lemma substitute_none fmt args : ~ contains fmt [123; 125] -> substitute fmt args = fmt.
Proof.
  destruct args as [|a r]; [now destruct fmt|].
  induction fmt as [|c f IH]; intros N; [reflexivity|].
  rewrite substitute_cons; [|intros f' E; apply N; exists [], f'; exact E|discriminate].
  f_equal. apply IH. intros (u & v & ->). apply N. now exists (c :: u), v.
Qed.

(** No "{}" starts inside [p] in [p ++ q]. *)
Definition no_start (p q : str) : Prop :=
  forall u x v, p = u ++ x :: v -> x :: v ++ q <> [123; 125] ++ tl (tl (x :: v ++ q)).

Lemma substitute_prefix p q args : args <> [] -> no_start p q ->
  substitute (p ++ q) args = p ++ substitute q args.
Proof.
  intros A. induction p as [|c p IH]; intros N; [reflexivity|].
  cbn [app]. rewrite substitute_cons; auto.
  - f_equal. apply IH. intros u x v ->. apply (N (c :: u)). reflexivity.
  - intros f' E. apply (N [] c p eq_refl). rewrite E. reflexivity.
Qed.

Lemma no_start_app p q r : no_start (p ++ q) r <-> no_start p (q ++ r) /\ no_start q r.
Proof.
  unfold no_start. split.
  - intros H. split; intros u x v ->.
    + specialize (H u x (v ++ q)). rewrite <- !app_assoc in H. now apply H.
    + specialize (H (p ++ u) x v). rewrite <- !app_assoc in H. now apply H.
  - intros (H1 & H2) u x v E.
    revert p H1 E. induction u as [|y u IH]; intros [|z p] H1 E; cbn [app] in E.
    + apply (H2 [] x v). exact E.
    + injection E as <- <-. specialize (H1 [] z p eq_refl). now rewrite <- app_assoc.
    + apply (H2 (y :: u) x v). exact E.
    + injection E as <- E. eapply IH; [|exact E].
      intros u' x' v' ->. apply (H1 (z :: u')). reflexivity.
Qed.

Definition no_brace (a : str) : Prop := ~ In 123 a /\ ~ In 125 a.

Lemma no_start_no_open p q : ~ In 123 p -> no_start p q.
Proof.
  intros N u x v -> E. cbn [app] in E. injection E as -> _.
  apply N. apply in_or_app. right. now left.
Qed.

Lemma leftmost_no_start p q : leftmost (p ++ [123; 125] ++ q) [123; 125] (lenZ p) ->
  no_start p ([123; 125] ++ q).
Proof.
  intros (_ & _ & M) u x v -> E.
  specialize (M u (tl (tl (x :: v ++ [123; 125] ++ q)))).
  assert (lenZ (u ++ x :: v) <= lenZ u).
  { apply M. rewrite <- app_assoc. f_equal. exact E. }
  unfold lenZ in *. rewrite app_length in *. cbn [length] in *. lia.
Qed.

(** A prefix without a start of "{}" stays so when what follows is replaced by
    something that does not begin with a closing brace. *)
Lemma no_start_change p q c r : no_start p q -> c <> 125 -> no_start p (c :: r).
Proof.
  intros N Nc u x v -> E.
  destruct v as [|y v].
  - cbn [app tl] in E. injection E as -> ->. congruence.
  - apply (N u x (y :: v) eq_refl). cbn [app tl] in *. injection E as -> ->. reflexivity.
Qed.

Lemma find_zero (s p : str) : find s p 0 = find_from p s 0.
Proof. exact (find_app [] s p 0 eq_refl). Qed.

(** [format] after a prefix that is already finished. *)
Lemma format_prefix : forall args p q,
  Forall (fun a => a <> [] /\ no_brace a) (removelast args) ->
  no_start p q -> format (p ++ q) args = p ++ substitute q args.
Proof.
  induction args as [|a r IH]; intros p q F N; [now rewrite substitute_nil|].
  cbn [format]. rewrite find_zero.
  destruct (find_from [123; 125] (p ++ q) 0) as [k|] eqn:E.
  - apply find_from_some in E. rewrite Z.sub_0_r in E.
    pose proof E as E'. destruct E' as (_ & (u & v & Q & L) & _).
    assert (NS : no_start u ([123; 125] ++ v)).
    { apply leftmost_no_start. rewrite <- Q, L. exact E. }
    (* the occurrence lies behind [p] *)
    assert (B : exists m, u = p ++ m /\ q = m ++ [123; 125] ++ v).
    { clear - N Q. revert p N Q. induction u as [|y u IHu]; intros [|z p] N Q; cbn [app] in Q.
      - exists []. auto.
      - exfalso. apply (N [] z p eq_refl). rewrite Q. reflexivity.
      - exists (y :: u). auto.
      - injection Q as -> Q. destruct (IHu p) as (m & -> & ->); auto.
        + intros u' x v' ->. apply (N (y :: u')). reflexivity.
        + exists m. auto. }
    destruct B as (m & -> & ->).
    apply no_start_app in NS. destruct NS as (NSp & NSm).
    replace (sub (p ++ m ++ [123; 125] ++ v) 0 k) with (p ++ m).
    2:{ symmetry. rewrite app_assoc. apply (sub_app [] (p ++ m)); [reflexivity|].
        cbn [Z.add]. lia. }
    replace (skipn (Z.to_nat (k + 2)) (p ++ m ++ [123; 125] ++ v)) with v.
    2:{ symmetry. rewrite !app_assoc. unfold lenZ in *.
        rewrite skipn_app, skipn_all2 by (rewrite !app_length in *; cbn [length] in *; lia).
        rewrite !app_length in *. cbn [length] in *.
        replace (Z.to_nat (k + 2) - _)%nat with 0%nat by lia. reflexivity. }
    rewrite substitute_prefix; [|discriminate|exact NSm]. cbn [app substitute].
    destruct r as [|b r].
    + cbn [format]. rewrite substitute_nil. now rewrite <- !app_assoc.
    + cbn [removelast] in F. inversion F as [|? ? (Na & Bo & Bc) F']; subst.
      rewrite (app_assoc (p ++ m)). rewrite IH; [now rewrite <- !app_assoc| |].
      * exact F'.
      * destruct a as [|c a]; [congruence|].
        apply no_start_app. split.
        -- cbn [app]. eapply no_start_change; [apply no_start_app; split; eassumption|].
           intros ->. apply Bc. now left.
        -- now apply no_start_no_open.
  - apply find_from_none in E.
    rewrite IH; [| |exact N].
    + rewrite !substitute_none; auto; intros (x & y & ->); apply E; exists (p ++ x), y;
        now rewrite <- app_assoc.
    + destruct r; [constructor|]. cbn [removelast] in F. now inversion F.
Qed.

Lemma format_substitute fmt args :
  Forall (fun a => a <> [] /\ no_brace a) (removelast args) ->
  format fmt args = substitute fmt args.
Proof.
  intros F. apply (format_prefix args [] fmt F). intros u x v E. now destruct u.
Qed.

(** * C strings *)

Lemma cstr_id s : ~ In 0 s -> cstr s = s.
Proof.
  induction s as [|c s IH]; intros N; [reflexivity|]. cbn [cstr].
  destruct (Z.eqb_spec c 0) as [->|]; [exfalso; apply N; now left|].
  f_equal. apply IH. intros H. apply N. now right.
Qed.

Lemma cstr_prefix s : exists r, s = cstr s ++ r.
Proof.
  induction s as [|c s (r & IH)]; [now exists []|]. cbn [cstr].
  destruct (c =? 0); [now exists (c :: s)|]. exists r. cbn [app]. now rewrite <- IH.
Qed.

Lemma cstr_app s r : ~ In 0 s -> cstr (s ++ r) = s ++ cstr r.
Proof.
  induction s as [|c s IH]; intros N; [reflexivity|]. cbn [cstr app].
  destruct (Z.eqb_spec c 0) as [->|]; [exfalso; apply N; now left|].
  f_equal. apply IH. intros H. apply N. now right.
Qed.

(** * strlcpy *)

Lemma run_to_nul_ok s r : ~ In 0 s -> forall k, run_to_nul (s ++ 0 :: r) k = Ok (k + lenZ s + 1).
Proof.
  unfold lenZ. induction s as [|c s IH]; intros N k; cbn [run_to_nul app length].
  - cbn [Z.eqb]. f_equal. lia.
  - destruct (Z.eqb_spec c 0) as [->|]; [exfalso; apply N; now left|].
    rewrite IH; [f_equal; lia|]. intros H. apply N. now right.
Qed.

Lemma setZ_app (a b : str) x y n :
  n = lenZ a -> setZ (a ++ x :: b) n y = Ok (a ++ y :: b).
Proof.
  intros ->. unfold setZ, lenZ.
  rewrite app_length. cbn [length].
  destruct (Z.ltb_spec (Z.of_nat (length a)) 0); [lia|].
  destruct (Z.leb_spec (Z.of_nat (length a + S (length b))) (Z.of_nat (length a))); [lia|].
  cbn [orb]. f_equal. rewrite Nat2Z.id. clear. induction a as [|z a IH]; cbn [length upd app]; [reflexivity|].
  now rewrite IH.
Qed.
