(** The loops of the model keep a relation between two kinds of numbers: if the
    operations on the numbers keep it, so do windowing, the Fourier transform and
    the power spectrum. *)
From Coq Require Import ZArith List Bool Lia.
From Verif.Base Require Import Prelude Lemmas.
From Verif.Model Require Import Arith Vector Matrix Fbank Srfft.
Import ListNotations.
Open Scope Z_scope.

(** Both calls fail alike, or both succeed with related results. *)
Definition same {A B} (Q : A -> B -> Prop) (x : res A) (y : res B) : Prop :=
  match x, y with
  | Ok a, Ok b => Q a b
  | Fault f, Fault g => f = g
  | _, _ => False
  end.

Definition both {A B C D} (P : A -> B -> Prop) (Q : C -> D -> Prop) (x : A * C) (y : B * D) : Prop :=
  P (fst x) (fst y) /\ Q (snd x) (snd y).

Section Generic.
Context {A B : Type}.

Lemma same_bind : forall C D (P : A -> B -> Prop) (Q : C -> D -> Prop) x y f g,
  same P x y -> (forall a b, P a b -> same Q (f a) (g b)) -> same Q (bind x f) (bind y g).
Proof. intros C D P Q [a|e] [b|e'] f g H K; cbn [same bind] in *; try contradiction; auto. Qed.

Lemma same_each : forall I (P : A -> B -> Prop) (f : A -> I -> res A) (g : B -> I -> res B) is a b,
  P a b -> (forall i, In i is -> forall a b, P a b -> same P (f a i) (g b i)) -> same P (for_each is f a) (for_each is g b).
Proof.
  intros I P f g is. induction is as [|i is IH]; intros a b H K; cbn [for_each]; [exact H|].
  apply (same_bind _ _ P); [apply K; [now left|exact H]|]. intros. apply IH; [assumption|]. intros. apply K; [now right|assumption].
Qed.

Lemma same_up_in : forall (P : A -> B -> Prop) (f : A -> Z -> res A) (g : B -> Z -> res B) l u a b,
  P a b -> (forall i, l <= i < u -> forall a b, P a b -> same P (f a i) (g b i)) -> same P (for_up l u f a) (for_up l u g b).
Proof. intros P f g l u a b H K. unfold for_up. apply same_each; [exact H|]. intros i Hi. apply K. apply in_seqZ in Hi. lia. Qed.

Lemma same_down_in : forall (P : A -> B -> Prop) (f : A -> Z -> res A) (g : B -> Z -> res B) u l a b,
  P a b -> (forall i, l < i <= u -> forall a b, P a b -> same P (f a i) (g b i)) -> same P (for_down u l f a) (for_down u l g b).
Proof.
  intros P f g u l a b H K. unfold for_down. apply same_each; [exact H|]. intros i Hi. apply K. apply in_rev, in_seqZ in Hi. lia.
Qed.

Lemma same_up : forall (P : A -> B -> Prop) (f : A -> Z -> res A) (g : B -> Z -> res B) l u a b,
  P a b -> (forall i a b, P a b -> same P (f a i) (g b i)) -> same P (for_up l u f a) (for_up l u g b).
Proof. intros. apply same_up_in; auto. Qed.

Lemma same_down : forall (P : A -> B -> Prop) (f : A -> Z -> res A) (g : B -> Z -> res B) u l a b,
  P a b -> (forall i a b, P a b -> same P (f a i) (g b i)) -> same P (for_down u l f a) (for_down u l g b).
Proof. intros. apply same_down_in; auto. Qed.
End Generic.

Section Lists.
Context {A B : Type}.
Variable R : A -> B -> Prop.

Lemma same_length : forall l l', Forall2 R l l' -> lenZ l = lenZ l'.
Proof. intros l l' H. unfold lenZ. f_equal. induction H; cbn [length]; congruence. Qed.

Lemma same_nth : forall l l' n, Forall2 R l l' ->
  match nth_error l n, nth_error l' n with Some a, Some b => R a b | None, None => True | _, _ => False end.
Proof. intros l l' n H. revert n. induction H; intros [|n]; cbn [nth_error]; auto. apply IHForall2. Qed.

Lemma same_get : forall l l' i, Forall2 R l l' -> same R (getZ l i) (getZ l' i).
Proof.
  intros l l' i H. unfold getZ. destruct (i <? 0); [reflexivity|]. pose proof (same_nth l l' (Z.to_nat i) H) as N.
  destruct (nth_error l _), (nth_error l' _); try contradiction; [exact N|reflexivity].
Qed.

Lemma same_put : forall l l' n a b, Forall2 R l l' -> R a b -> Forall2 R (upd l n a) (upd l' n b).
Proof. intros l l' n a b H K. revert n. induction H; intros [|n]; cbn [upd]; constructor; auto. Qed.

Lemma same_set : forall l l' i a b, Forall2 R l l' -> R a b -> same (Forall2 R) (setZ l i a) (setZ l' i b).
Proof.
  intros l l' i a b H K. unfold setZ. pose proof (same_length l l' H) as E. unfold lenZ in E. rewrite E.
  destruct (_ || _); [reflexivity|]. now apply same_put.
Qed.

Lemma same_firstn : forall l l' n, Forall2 R l l' -> Forall2 R (firstn n l) (firstn n l').
Proof. intros l l' n H. revert n. induction H; intros [|n]; cbn [firstn]; constructor; auto. Qed.
Lemma same_skipn : forall l l' n, Forall2 R l l' -> Forall2 R (skipn n l) (skipn n l').
Proof. intros l l' n H. revert n. induction H; intros [|n]; cbn [skipn]; auto. Qed.

Lemma same_range : forall l l' o n, Forall2 R l l' -> same (Forall2 R) (vrange l o n) (vrange l' o n).
Proof.
  intros l l' o n H. unfold vrange. rewrite (same_length l l' H).
  destruct (o + n <=? lenZ l'); [|reflexivity]. destruct (_ && _); [|reflexivity].
  cbn [check bind same]. now apply same_firstn, same_skipn.
Qed.

Lemma same_vget : forall l l' i, Forall2 R l l' -> same R (vget l i) (vget l' i).
Proof.
  intros l l' i H. unfold vget. rewrite (same_length l l' H). destruct (i <? lenZ l'); [|reflexivity].
  cbn [check bind]. now apply same_get.
Qed.
Lemma same_vset : forall l l' i a b, Forall2 R l l' -> R a b -> same (Forall2 R) (vset l i a) (vset l' i b).
Proof.
  intros l l' i a b H K. unfold vset. rewrite (same_length l l' H). destruct (i <? lenZ l'); [|reflexivity].
  cbn [check bind]. now apply same_set.
Qed.

Lemma same_copy : forall l l' d k k' o n, Forall2 R l l' -> Forall2 R k k' ->
  same (Forall2 R) (copy_cells l d k o n) (copy_cells l' d k' o n).
Proof.
  intros l l' d k k' o n H K. unfold copy_cells. apply same_up; [exact H|]. intros i a b Hab.
  apply (same_bind _ _ R); [now apply same_get|]. intros. now apply same_set.
Qed.

Lemma same_repeat : forall a b n, R a b -> Forall2 R (repeat a n) (repeat b n).
Proof. intros a b n H. induction n; cbn [repeat]; constructor; auto. Qed.

Lemma same_malloc : forall j j' n, (forall i, R (j i) (j' i)) -> Forall2 R (malloc j n) (malloc j' n).
Proof.
  intros j j' n H. unfold malloc. generalize (seq 0 (Z.to_nat n)). intros l. induction l; cbn [map]; constructor; auto.
Qed.
End Lists.

Section Relation.
Context {A B : Type}.
Variable R : A -> B -> Prop.
Variables (O : fops A) (P : fops B) (T : trig_ops A) (U : trig_ops B).

Record ops_alike : Prop := {
  oa_zero : R (f_zero O) (f_zero P);
  oa_int : forall z, R (f_int O z) (f_int P z);
  oa_add : forall x y x' y', R x x' -> R y y' -> R (f_add O x y) (f_add P x' y');
  oa_sub : forall x y x' y', R x x' -> R y y' -> R (f_sub O x y) (f_sub P x' y');
  oa_mul : forall x y x' y', R x x' -> R y y' -> R (f_mul O x y) (f_mul P x' y');
  oa_preemph : forall x y x' y', R x x' -> R y y' -> R (f_preemph O x y) (f_preemph P x' y')
}.

(** Angles occur with [m] up to [N]. *)
Variable N : Z.
Record trig_alike : Prop := {
  ta_cos : forall n m, 0 <= n <= 3 * m -> 0 < m <= N -> R (t_cos T (t_angle T n m)) (t_cos U (t_angle U n m));
  ta_sin : forall n m, 0 <= n <= 3 * m -> 0 < m <= N -> R (t_sin T (t_angle T n m)) (t_sin U (t_angle U n m));
  ta_neg : forall x x', R x x' -> R (t_neg T x) (t_neg U x');
  ta_sqhalf : R (t_sqhalf T) (t_sqhalf U);
  ta_half : forall x x', R x x' -> R (t_half T x) (t_half U x');
  ta_neg_half : forall x x', R x x' -> R (t_neg_half T x) (t_neg_half U x')
}.

Hypothesis HO : ops_alike.
Hypothesis HT : trig_alike.

Notation RL := (Forall2 R).

Ltac rel :=
  repeat first
    [ assumption
    | reflexivity
    | match goal with
      | |- forall _, _ => intros
      | H : both _ _ ?x ?y |- _ => is_var x; is_var y; destruct x, y; destruct H; cbn [fst snd] in *
      | |- same _ (bind (getZ _ _) _) (bind _ _) => apply (same_bind _ _ R); [apply same_get|intros]
      | |- same _ (bind (vget _ _) _) (bind _ _) => apply (same_bind _ _ R); [apply same_vget|intros]
      | |- same _ (bind (setZ _ _ _) _) (bind _ _) => apply (same_bind _ _ RL); [apply same_set|intros]
      | |- same _ (bind (vset _ _ _) _) (bind _ _) => apply (same_bind _ _ RL); [apply same_vset|intros]
      | |- same _ (bind (copy_cells _ _ _ _ _) _) (bind _ _) => apply (same_bind _ _ RL); [apply same_copy|intros]
      | |- same _ (setZ _ _ _) _ => apply same_set
      | |- same _ (getZ _ _) _ => apply same_get
      | |- same _ (vset _ _ _) _ => apply same_vset
      | |- same _ (vget _ _) _ => apply same_vget
      | |- same _ (copy_cells _ _ _ _ _) _ => apply same_copy
      | |- same _ (Ok _) (Ok _) => cbn [same]
      | |- both _ _ (_, _) (_, _) => split; cbn [fst snd]
      | |- _ /\ _ => split
      | |- R (f_zero _) _ => apply (oa_zero HO)
      | |- R (f_int _ _) _ => apply (oa_int HO)
      | |- R (f_add _ _ _) _ => apply (oa_add HO)
      | |- R (f_sub _ _ _) _ => apply (oa_sub HO)
      | |- R (f_mul _ _ _) _ => apply (oa_mul HO)
      | |- R (f_preemph _ _ _) _ => apply (oa_preemph HO)
      | |- R (t_cos _ (t_angle _ _ _)) _ => apply (ta_cos HT); lia
      | |- R (t_sin _ (t_angle _ _ _)) _ => apply (ta_sin HT); lia
      | |- R (t_neg _ _) _ => apply (ta_neg HT)
      | |- R (t_sqhalf _) _ => apply (ta_sqhalf HT)
      | |- R (t_half _ _) _ => apply (ta_half HT)
      | |- R (t_neg_half _ _) _ => apply (ta_neg_half HT)
      | |- Forall2 _ (firstn _ _) _ => apply same_firstn
      | |- Forall2 _ (skipn _ _) _ => apply same_skipn
      | |- Forall2 _ (repeat _ _) _ => apply same_repeat
      | |- Forall2 _ (_ ++ _) _ => apply Forall2_app
      end ].

(** * Windows *)

Lemma process_window_alike : forall h h' w w', RL h h' -> RL w w' ->
  (forall s s', R s s' -> R (f_div O s (f_int O (lenZ w))) (f_div P s' (f_int P (lenZ w')))) ->
  same RL (process_window O h w) (process_window P h' w').
Proof.
  intros h h' w w' Hh Hw Hd. unfold process_window. pose proof (same_length R _ _ Hw) as E. rewrite <- E in *.
  apply (same_bind _ _ R); [apply same_up; rel|]. intros s s' Hs. specialize (Hd s s' Hs).
  apply (same_bind _ _ RL); [apply same_up; rel|]. intros v v' Hv.
  apply (same_bind _ _ RL); [apply same_down; rel|]. rel.
  rewrite (same_length R _ _ Hh).
  match goal with H : RL ?x ?y |- same _ (bind (check (_ =? lenZ ?x) _) _) _ => rewrite (same_length R x y H) end.
  apply (same_bind _ _ eq); [destruct (_ =? _); reflexivity|]. intros _ _ _. apply same_up; rel.
Qed.

Lemma power_spectrum_alike : forall w w', RL w w' -> same RL (power_spectrum O w) (power_spectrum P w').
Proof.
  intros w w' Hw. unfold power_spectrum. rewrite (same_length R _ _ Hw).
  apply (same_bind _ _ eq); [destruct (_ <? _); reflexivity|]. intros _ _ _. rel.
  apply (same_bind _ _ RL); [apply same_up; rel|]. rel.
Qed.

(** * The Fourier transform *)

Variables (junk : nat -> A) (junk' : nat -> B) (junk_int : nat -> Z).
Hypothesis HJ : forall n, R (junk n) (junk' n).

Lemma fill_table_alike : forall m m4 m8 nel t t', RL t t' -> 0 < m <= N -> m4 <= m ->
  same RL (fill_table O T m m4 m8 nel t) (fill_table P U m m4 m8 nel t').
Proof.
  intros m m4 m8 nel t t' H Hm H4. unfold fill_table.
  apply (same_bind _ _ (both RL eq)).
  - apply same_up_in; [rel|]. intros i Hi [x k] [y k'] [Hx E]. cbn [fst snd] in *. subst k'.
    destruct (i =? m8); rel.
  - rel.
Qed.

Lemma trig_tables_alike : forall logn, 2 ^ logn <= N -> same (Forall2 RL) (trig_tables O T junk logn) (trig_tables P U junk' logn).
Proof.
  intros logn HN. unfold trig_tables. destruct (logn <? 4); [constructor|].
  apply same_down_in; [apply same_repeat; constructor|]. intros i Hi a b Hab.
  assert (0 < 2 ^ i) by (apply Z.pow_pos_nonneg; lia). assert (2 ^ i <= 2 ^ logn) by (apply Z.pow_le_mono_r; lia).
  apply (same_bind _ _ RL); [apply fill_table_alike; [apply same_malloc; exact HJ|lia|]|intros; now apply same_set].
  pose proof (Z.div_le_upper_bound (2 ^ i) 2 (2 ^ i) ltac:(lia) ltac:(lia)).
  pose proof (Z.div_le_upper_bound (2 ^ i / 2) 2 (2 ^ i) ltac:(lia)). lia.
Qed.

Definition fft_alike (f : srfft A) (g : srfft B) : Prop :=
  s_n f = s_n g /\ s_logn f = s_logn g /\ s_brseed f = s_brseed g /\ Forall2 RL (s_tab f) (s_tab g).

Lemma srfft_new_alike : forall n, (forall k, count_bits 32 (Z.quot n 2) 0 = Ok k -> 2 ^ k <= N) ->
  same fft_alike (srfft_new O T junk junk_int n) (srfft_new P U junk' junk_int n).
Proof.
  intros n HN. unfold srfft_new. apply (same_bind _ _ eq); [destruct (negb _); reflexivity|]. intros _ _ _.
  destruct (count_bits _ _ _) as [k|]; cbn [bind]; [|reflexivity].
  apply (same_bind _ _ eq); [destruct (seed_table _ _); reflexivity|]. intros s _ <-.
  apply (same_bind _ _ (Forall2 RL)); [now apply trig_tables_alike, HN|]. intros. repeat split; assumption.
Qed.

Notation RC := (both R R).
Notation RS := (both RL RL).

Lemma pair_step_alike : forall s s' p q g g', RS s s' ->
  (forall a a' b b', RC a a' -> RC b b' -> both RC RC (g a b) (g' a' b')) ->
  same RS (pair_step s p q g) (pair_step s' p q g').
Proof.
  intros [re im] [re' im'] p q g g' [H1 H2] Hg. cbn [fst snd] in *. unfold pair_step. rel.
  match goal with |- context [g (?a, ?b) (?c, ?d)] => match goal with |- context [g' (?a', ?b') (?c', ?d')] =>
    specialize (Hg (a, b) (a', b') (c, d) (c', d')); destruct (g (a, b) (c, d)) as [[ar ai] [br bi]];
    destruct (g' (a', b') (c', d')) as [[ar' ai'] [br' bi']] end end.
  destruct Hg as [[G1 G2] [G3 G4]]; cbn [fst snd] in *; rel.
Qed.

Lemma sum_diff_alike : forall a a' b b', RC a a' -> RC b b' -> both RC RC (sum_diff O a b) (sum_diff P a' b').
Proof. unfold sum_diff. rel. Qed.
Lemma quarter_turn_alike : forall a a' b b', RC a a' -> RC b b' -> both RC RC (quarter_turn O a b) (quarter_turn P a' b').
Proof. unfold quarter_turn. rel. Qed.
Lemma eighth_turn_alike : forall a a' b b', RC a a' -> RC b b' -> both RC RC (eighth_turn O T a b) (eighth_turn P U a' b').
Proof. unfold eighth_turn. rel. Qed.
Lemma turn_alike : forall c s t c' s' t' a a', R c c' -> R s s' -> R t t' -> RC a a' ->
  RC (turn O c s t a) (turn P c' s' t' a').
Proof. unfold turn. rel. Qed.

Lemma step1_alike : forall o m s s', RS s s' -> same RS (step1 O o m s) (step1 P o m s').
Proof. intros. apply same_up; [assumption|]. intros. apply pair_step_alike; auto using sum_diff_alike. Qed.
Lemma step2_alike : forall o m k s s', RS s s' -> same RS (step2 O o m k s) (step2 P o m k s').
Proof. intros. apply same_up; [assumption|]. intros. apply pair_step_alike; auto using quarter_turn_alike. Qed.
Lemma step34_alike : forall t t' o m2 m4 m8 s s', RL t t' -> RS s s' ->
  same RS (step34 O T t o m2 m4 m8 s) (step34 P U t' o m2 m4 m8 s').
Proof.
  intros t t' o m2 m4 m8 s s' Ht Hs. unfold step34. apply (same_bind _ _ (both RS eq)).
  - apply same_up; [split; [exact Hs|reflexivity]|]. intros i [x k] [y k'] [Hx E]. cbn [fst snd] in *. subst k'.
    destruct (i =? m8).
    + apply (same_bind _ _ RS); [apply pair_step_alike; auto using eighth_turn_alike|]. rel.
    + do 6 (apply (same_bind _ _ R); [now apply same_get|intros]).
      apply (same_bind _ _ RS); [apply pair_step_alike; [exact Hx|]|].
      * intros. split; cbn [fst snd]; apply turn_alike; assumption.
      * intros. split; [assumption|reflexivity].
  - intros [x k] [y k'] [Hx _]. exact Hx.
Qed.

Lemma recursive_alike : forall fuel tab tab' o logn s s', Forall2 RL tab tab' -> RS s s' ->
  same RS (recursive O T fuel tab o logn s) (recursive P U fuel tab' o logn s').
Proof.
  induction fuel as [|fuel IH]; intros tab tab' o logn s s' Ht Hs; cbn [recursive]; [reflexivity|].
  apply (same_bind _ _ eq); [destruct (_ <=? _); reflexivity|]. intros _ _ _.
  destruct (logn =? 2); [|destruct (logn =? 1); [|destruct (logn =? 0); [exact Hs|]]].
  - do 3 (apply (same_bind _ _ RS); [apply pair_step_alike; auto using sum_diff_alike|intros]).
    apply pair_step_alike; auto using quarter_turn_alike.
  - apply pair_step_alike; auto using sum_diff_alike.
  - apply (same_bind _ _ RS); [now apply step1_alike|intros].
    apply (same_bind _ _ RS); [now apply step2_alike|intros].
    apply (same_bind _ _ RL); [destruct (4 <=? logn); [now apply same_get|constructor]|intros].
    apply (same_bind _ _ RS); [now apply step34_alike|intros].
    apply (same_bind _ _ RS); [now apply IH|intros].
    apply (same_bind _ _ RS); [now apply IH|intros]. now apply IH.
Qed.

Lemma swap_alike : forall x x' i j, RL x x' -> same RL (swap x i j) (swap x' i j).
Proof. unfold swap. rel. Qed.

Lemma bit_reverse_alike : forall seeds logn x x', RL x x' -> same RL (bit_reverse seeds logn x) (bit_reverse seeds logn x').
Proof.
  intros seeds logn x x' H. unfold bit_reverse. apply same_up; [exact H|]. intros i a b Hab.
  apply (same_bind _ _ eq); [destruct (getZ _ _); reflexivity|]. intros k _ <-.
  apply (same_bind _ _ RL); [now apply swap_alike|]. intros c d Hcd. apply same_up; [exact Hcd|]. intros j e g Heg.
  apply (same_bind _ _ eq); [destruct (getZ _ _); reflexivity|]. intros r _ <-. now apply swap_alike.
Qed.

Lemma complex_fft_alike : forall f g re re' im im', fft_alike f g -> RL re re' -> RL im im' ->
  same RS (complex_fft O T f true re im) (complex_fft P U g true re' im').
Proof.
  intros f g re re' im im' (_ & E2 & E3 & Ht) Hr Hi. unfold complex_fft. rewrite E2, E3.
  apply (same_bind _ _ RS); [apply recursive_alike; [exact Ht|split; assumption]|].
  intros [xr xi] [yr yi] [H1 H2]. cbn [fst snd] in *.
  apply (same_bind _ _ RL); [destruct (1 <? _); [now apply bit_reverse_alike|exact H1]|intros].
  apply (same_bind _ _ RL); [destruct (1 <? _); [now apply bit_reverse_alike|exact H2]|intros]. split; assumption.
Qed.

Lemma separate_alike : forall n x x' b b', RL x x' -> RL b b' -> same RS (separate n x b) (separate n x' b').
Proof.
  intros n x x' b b' Hx Hb. unfold separate. apply (same_bind _ _ RS).
  - apply same_up; [split; assumption|]. intros i [y c] [y' c'] [H1 H2]. cbn [fst snd] in *. rel.
  - intros [y c] [y' c'] [H1 H2]. cbn [fst snd] in *. rel.
Qed.

Lemma interleave_alike : forall n x x' b b', RL x x' -> RL b b' -> same RS (interleave n x b) (interleave n x' b').
Proof.
  intros n x x' b b' Hx Hb. unfold interleave. rel. apply (same_bind _ _ RL); [apply same_down; rel|]. rel.
Qed.

Lemma complex_compute_alike : forall f g x x' xs b b' bs, fft_alike f g -> RL x x' -> RL b b' ->
  same RS (complex_compute O T f x xs true b bs) (complex_compute P U g x' xs true b' bs).
Proof.
  intros f g x x' xs b b' bs Hf Hx Hb. unfold complex_compute. pose proof Hf as (E & _). rewrite E.
  apply (same_bind _ _ eq); [destruct (_ =? _); reflexivity|]. intros _ _ _.
  apply (same_bind _ _ eq); [destruct (_ <=? _); reflexivity|]. intros _ _ _.
  apply (same_bind _ _ RS); [now apply separate_alike|]. intros [y c] [y' c'] [H1 H2]. cbn [fst snd] in *.
  apply (same_bind _ _ RS); [apply complex_fft_alike; rel|]. intros [re im] [re' im'] [H3 H4]. cbn [fst snd] in *.
  apply interleave_alike; rel.
Qed.

Lemma add_product_alike : forall x x' p a a' b b', RL x x' -> RC a a' -> RC b b' ->
  same RL (add_product O x p a b) (add_product P x' p a' b').
Proof. unfold add_product. rel. Qed.

Lemma real_loop_alike : forall n root root' kn kn' x x', RC root root' -> RC kn kn' -> RL x x' ->
  same RL (real_loop O T n root kn x) (real_loop P U n root' kn' x').
Proof.
  intros n [r i] [r' i'] kn kn' x x' [H1 H2] Hk Hx. cbn [fst snd] in *. unfold real_loop.
  apply (same_bind _ _ (both RL RC)).
  - apply same_up; [split; assumption|]. intros k [y [c d]] [y' [c' d']] [H3 [H4 H5]]. cbn [fst snd] in *.
    unfold complex_mul. cbn [fst snd]. rel.
    apply (same_bind _ _ RL); [apply add_product_alike; rel|]. intros.
    apply (same_bind _ _ RL); [|rel].
    destruct (_ =? _); rel. apply add_product_alike; rel.
  - intros [y c] [y' c'] [H3 _]. exact H3.
Qed.

Lemma compute_alike : forall f g x x' xs b b' bs, fft_alike f g -> RL x x' -> RL b b' ->
  R (t_cos T (t_root T (s_n f * 2) (-1))) (t_cos U (t_root U (s_n f * 2) (-1))) ->
  R (t_sin T (t_root T (s_n f * 2) (-1))) (t_sin U (t_root U (s_n f * 2) (-1))) ->
  same RS (compute O T f x xs true b bs) (compute P U g x' xs true b' bs).
Proof.
  intros f g x x' xs b b' bs Hf Hx Hb Hc Hs. unfold compute. pose proof Hf as (E & _). rewrite <- E.
  apply (same_bind _ _ RS); [now apply complex_compute_alike|]. intros [y c] [y' c'] [H1 H2]. cbn [fst snd] in *.
  apply (same_bind _ _ RL); [apply real_loop_alike; rel|]. rel.
Qed.
End Relation.
