(** What the converter of transducers writes. *)
From Coq Require Import ZArith String List Bool Lia Permutation.
From Verif.Base Require Import Prelude Lemmas.
From Verif.Model Require Import Util File Vector Stt Fst Python Tools ConvertFst.
From Verif.Spec Require Import AudioSpec FormatSpec FstSpec ConvertFstSpec.
From Verif.Proof Require Fst Python.
Import ListNotations.
Open Scope Z_scope.

Lemma lenZ_cons : forall A (x : A) l, lenZ (x :: l) = 1 + lenZ l.
Proof. intros. unfold lenZ. cbn [length]. lia. Qed.

Lemma lenZ_nonneg : forall A (l : list A), 0 <= lenZ l.
Proof. intros. unfold lenZ. lia. Qed.

Section Convert.
Context {N : Type}.
Variable P : py_float N.

Definition row (x : Z * arc N) : arc_row N :=
  (Datatypes.fst x, next_state (snd x), input_label (snd x), output_label (snd x), weight (snd x)).

(** * The lists *)

Lemma collect_arcs : forall s arcs rows,
  for_each arcs (fun rows a => Ok (rows ++ [(s, next_state a, input_label a, output_label a, weight a)])) rows =
  Ok (rows ++ map row (map (pair s) arcs)) :> res (list (arc_row N)).
Proof.
  intros s. induction arcs as [|a arcs IH]; intros rows; cbn [for_each map bind]; [now rewrite app_nil_r|].
  rewrite IH. rewrite <- app_assoc. reflexivity.
Qed.

Lemma collect_states : forall states n finals rows,
  for_each states (fun '(number, finals, rows) '(final, arcs) =>
    rows <- for_each arcs (fun rows a =>
      Ok (rows ++ [(number, next_state a, input_label a, output_label a, weight a)])) rows ;;
    Ok (number + 1, finals ++ [final], rows)) (n, finals, rows) =
  Ok (n + lenZ states, finals ++ map Datatypes.fst states, rows ++ map row (tagged n states)) :> res (Z * list N * list (arc_row N)).
Proof.
  induction states as [|(f, a) states IH]; intros n finals rows.
  - cbn [for_each map tagged]. rewrite !app_nil_r. unfold lenZ. cbn [length]. now rewrite Z.add_0_r.
  - cbn [for_each map tagged Datatypes.fst]. rewrite collect_arcs. cbn [bind]. rewrite IH. rewrite <- !app_assoc, map_app.
    cbn [app]. rewrite lenZ_cons, Z.add_assoc. reflexivity.
Qed.

Lemma collect_ok : forall states,
  collect states = Ok (lenZ states, map Datatypes.fst states, map row (tagged 0 states)).
Proof. intros states. unfold collect. now rewrite collect_states. Qed.

(** * The order *)

Lemma row_before_key : forall x y, row_before (row x) (row y) = negb (key_le y x).
Proof.
  intros (s, a) (s', a'). unfold row_before, key_le. cbn [row row_state row_label Datatypes.fst snd].
  destruct (Z.ltb_spec s s'), (Z.ltb_spec s' s), (Z.eqb_spec s s'), (Z.eqb_spec s' s), (Z.ltb_spec (input_label a) (input_label a')),
    (Z.leb_spec (input_label a') (input_label a)); cbn; try reflexivity; lia.
Qed.

Fixpoint insert_last (x : Z * arc N) (l : list (Z * arc N)) : list (Z * arc N) :=
  match l with
  | [] => [x]
  | y :: l' => if key_le y x then y :: insert_last x l' else x :: l
  end.

Lemma insert_row_map : forall x l, insert_row (row x) (map row l) = map row (insert_last x l).
Proof.
  induction l as [|y l IH]; [reflexivity|]. cbn [map insert_row insert_last]. rewrite row_before_key.
  destruct (key_le y x); cbn [negb map]; [now rewrite IH|reflexivity].
Qed.

Lemma key_total : forall x y : Z * arc N, key_le x y = false -> key_le y x = true.
Proof.
  intros (s, a) (s', a'). unfold key_le. cbn [Datatypes.fst snd].
  destruct (Z.ltb_spec s s'), (Z.ltb_spec s' s), (Z.eqb_spec s s'), (Z.eqb_spec s' s), (Z.leb_spec (input_label a) (input_label a')),
    (Z.leb_spec (input_label a') (input_label a)); cbn; try reflexivity; try discriminate; lia.
Qed.

Lemma key_trans : forall x y z : Z * arc N, key_le x y = true -> key_le y z = true -> key_le x z = true.
Proof.
  intros (s, a) (s', a') (s'', a''). unfold key_le. cbn [Datatypes.fst snd].
  rewrite !orb_true_iff, !andb_true_iff, !Z.ltb_lt, !Z.eqb_eq, !Z.leb_le. lia.
Qed.

Lemma insert_swap : forall x y l, insert_last y (insert x l) = insert x (insert_last y l).
Proof.
  intros x y. induction l as [|z l IH]; cbn [insert insert_last].
  - destruct (key_le x y); reflexivity.
  - destruct (key_le x z) eqn:Exz, (key_le z y) eqn:Ezy; cbn [insert insert_last].
    + rewrite (key_trans _ _ _ Exz Ezy), Ezy, Exz. reflexivity.
    + rewrite Exz. destruct (key_le x y) eqn:Exy; rewrite ?Ezy; reflexivity.
    + rewrite Ezy, Exz, IH. reflexivity.
    + rewrite Ezy, Exz. destruct (key_le x y) eqn:Exy; [|reflexivity].
      apply key_total in Ezy. rewrite (key_trans _ _ _ Exy Ezy) in Exz. discriminate.
Qed.

Lemma fold_insert_last : forall l acc, fold_left (fun acc x => insert_last x acc) l (fold_right insert [] acc) = fold_right insert [] (acc ++ l).
Proof.
  induction l as [|x l IH]; intros acc; [now rewrite app_nil_r|]. cbn [fold_left].
  replace (insert_last x (fold_right insert [] acc)) with (fold_right insert [] (acc ++ [x])).
  - rewrite IH, <- app_assoc. reflexivity.
  - clear. induction acc as [|y acc IH]; [reflexivity|]. cbn [app fold_right]. now rewrite IH, insert_swap.
Qed.

Lemma sort_rows_map : forall l, sort_rows (map row l) = map row (fold_right insert [] l).
Proof.
  intros l. pose proof (fold_insert_last l []) as E. cbn [app fold_right] in E. rewrite <- E. clear E. unfold sort_rows.
  change (@nil (arc_row N)) with (map row []). generalize (@nil (Z * arc N)) as acc.
  induction l as [|x l IH]; intros acc; [reflexivity|]. cbn [map fold_left]. rewrite insert_row_map. apply IH.
Qed.

(** * The index *)

Lemma states_from_nth : forall n s k, (k < n)%nat -> nth_error (states_from s n) k = Some (s + Z.of_nat k).
Proof.
  induction n as [|n IH]; intros s k H; [lia|]. destruct k as [|k]; cbn [states_from nth_error]; [f_equal; lia|].
  rewrite IH by lia. f_equal. lia.
Qed.

Lemma states_from_length : forall n s, length (states_from s n) = n.
Proof. induction n as [|n IH]; intros s; cbn [states_from length]; [reflexivity|]. now rewrite IH. Qed.

Lemma py_get_state : forall (g : Z -> Z) n s, 0 <= s < Z.of_nat n -> py_get (map g (states_from 0 n)) s = Ok (g s).
Proof.
  intros g n s H. unfold py_get. destruct (Z.ltb_spec s 0); [lia|]. destruct (Z.leb_spec 0 s); [|lia].
  rewrite nth_error_map, states_from_nth by lia. cbn [option_map]. f_equal. f_equal. lia.
Qed.

Lemma map_upd : forall (g : Z -> Z) n b s v, (s < n)%nat ->
  upd (map g (states_from b n)) s v = map (fun x => if x =? b + Z.of_nat s then v else g x) (states_from b n).
Proof.
  induction n as [|n IH]; intros b s v H; [lia|]. destruct s as [|s]; cbn [states_from map upd].
  - rewrite Z.add_0_r, Z.eqb_refl. f_equal. apply map_ext_in. intros x I.
    destruct (Z.eqb_spec x b); [|reflexivity]. exfalso.
    assert (G : forall n b x, In x (states_from b n) -> b <= x).
    { clear. induction n as [|n IH]; intros b x; cbn; [tauto|]. intros [->|I]; [lia|]. apply IH in I. lia. }
    apply G in I. lia.
  - rewrite IH by lia. f_equal.
    + destruct (Z.eqb_spec b (b + Z.of_nat (S s))); [lia|reflexivity].
    + apply map_ext. intros x. replace (b + 1 + Z.of_nat s) with (b + Z.of_nat (S s)) by lia. reflexivity.
Qed.

Lemma py_set_state : forall (g : Z -> Z) n s v, 0 <= s < Z.of_nat n ->
  py_set (map g (states_from 0 n)) s v = Ok (map (fun x => if x =? s then v else g x) (states_from 0 n)).
Proof.
  intros g n s v H. unfold py_set, lenZ. rewrite map_length, states_from_length. destruct (Z.ltb_spec s 0); [lia|].
  destruct (Z.leb_spec 0 s); [|lia]. destruct (Z.ltb_spec s (Z.of_nat n)); [|lia]. cbn [andb].
  rewrite map_upd by lia. f_equal. apply map_ext. intros x. replace (0 + Z.of_nat (Z.to_nat s)) with s by lia. reflexivity.
Qed.

Lemma index_loop : forall n l i g, 0 <= i -> Forall (fun x => 0 <= Datatypes.fst x < Z.of_nat n) l ->
  for_each (map row l) (fun '(i, idx) r =>
    old <- py_get idx (row_state r) ;;
    idx <- (if old =? -1 then py_set idx (row_state r) i else Ok idx) ;;
    Ok (i + 1, idx)) (i, map g (states_from 0 n)) =
  Ok (i + lenZ l, map (fun s => if g s =? -1 then first_index i s l else g s) (states_from 0 n)).
Proof.
  intros n. induction l as [|(s, a) l IH]; intros i g Hi Hl.
  - cbn [map for_each first_index]. unfold lenZ. cbn [length]. rewrite Z.add_0_r. do 2 f_equal. apply map_ext. intros s.
    destruct (Z.eqb_spec (g s) (-1)); congruence.
  - inversion Hl as [|? ? Hs Hl']; subst. cbn [Datatypes.fst] in Hs. cbn [map for_each]. change (row_state (row (s, a))) with s.
    rewrite py_get_state by assumption. cbn [bind]. rewrite lenZ_cons. replace (i + (1 + lenZ l)) with (i + 1 + lenZ l) by lia.
    destruct (Z.eqb_spec (g s) (-1)) as [E|E].
    + rewrite py_set_state by assumption. cbn [bind]. rewrite IH by (assumption || lia). do 2 f_equal. apply map_ext. intros x.
      cbn [first_index]. destruct (Z.eqb_spec x s) as [->|Nx].
      * rewrite E, Z.eqb_refl. change (-1 =? -1) with true. cbv iota. rewrite Z.eqb_refl. destruct (Z.eqb_spec i (-1)); [lia|reflexivity].
      * destruct (Z.eqb_spec s x); [congruence|reflexivity].
    + cbn [bind]. rewrite IH by (assumption || lia). do 2 f_equal. apply map_ext. intros x. cbn [first_index].
      destruct (Z.eqb_spec s x) as [<-|Nx]; [|reflexivity]. destruct (Z.eqb_spec (g s) (-1)); [contradiction|reflexivity].
Qed.

Lemma repeat_states : forall n b, repeat (-1) n = map (fun _ => -1) (states_from b n).
Proof. induction n as [|n IH]; intros b; cbn [repeat states_from map]; [reflexivity|]. now rewrite (IH (b + 1)). Qed.

Lemma arc_indices_ok : forall n l, Forall (fun x => 0 <= Datatypes.fst x < Z.of_nat n) l ->
  arc_indices (Z.of_nat n) (map row l) = Ok (map (fun s => first_index 0 s l) (states_from 0 n)).
Proof.
  intros n l H. unfold arc_indices. rewrite Nat2Z.id, (repeat_states n 0), index_loop by (assumption || lia). reflexivity.
Qed.

Lemma tagged_range : forall states s x, In x (tagged s states) -> s <= Datatypes.fst x < s + Z.of_nat (@length (N * list (arc N)) states).
Proof.
  induction states as [|(f, a) states IH]; intros s x; cbn [tagged]; [contradiction|]. rewrite in_app_iff. cbn [length].
  intros [I|I]; [apply in_map_iff in I as (y & <- & _); cbn; lia|]. apply IH in I. lia.
Qed.

Lemma insert_in : forall x y l, In y (insert x l) <-> y = x \/ In y (l : list (Z * arc N)).
Proof.
  induction l as [|z l IH]; cbn [insert In]; [intuition|]. destruct (key_le x z); cbn [In]; [intuition|]. rewrite IH. intuition.
Qed.
Lemma sorted_in : forall y l, In y (fold_right insert [] l) <-> In y (l : list (Z * arc N)).
Proof. induction l as [|x l IH]; [reflexivity|]. cbn [fold_right In]. rewrite insert_in, IH. intuition. Qed.

(** * The tables *)

Definition arc_bytes (a : arc N) : res bytes :=
  b1 <- pack_int (next_state a) ;; b2 <- pack_int (input_label a) ;; b3 <- pack_int (output_label a) ;; b4 <- pack_float P (weight a) ;;
  Ok (b1 ++ b2 ++ b3 ++ b4).

Lemma write_rows : forall l, write_all (write_row P) (map row l) = write_all arc_bytes (map snd l).
Proof. induction l as [|x l IH]; [reflexivity|]. cbn [map write_all]. rewrite IH. reflexivity. Qed.

Lemma convert_tables : forall t : transducer N,
  convert_fst P (t_start t) (t_states t) =
  (let g := laid_out t in
   size <- pack_int (12 + 8 * lenZ (final_ g) + 16 * lenZ (arcs_ g)) ;;
   states <- pack_int (lenZ (final_ g)) ;;
   arcs <- pack_int (lenZ (arcs_ g)) ;;
   start <- pack_int (start_state g) ;;
   finals <- write_all (pack_float P) (final_ g) ;;
   idx <- write_all pack_int (state_idx g) ;;
   rows <- write_all arc_bytes (arcs_ g) ;;
   Ok (lit "pk::fst_0" ++ repeat 0 23 ++ size ++ states ++ arcs ++ start ++ finals ++ idx ++ rows)).
Proof.
  intros t. unfold convert_fst. rewrite collect_ok. cbn [bind]. rewrite sort_rows_map. fold (sorted_arcs t).
  assert (H : Forall (fun x => 0 <= Datatypes.fst x < Z.of_nat (length (t_states t))) (sorted_arcs t)).
  { apply Forall_forall. intros x I. apply sorted_in, tagged_range in I. lia. }
  change (lenZ (t_states t)) with (Z.of_nat (length (t_states t))).
  rewrite (arc_indices_ok _ _ H). cbn [bind]. unfold lenZ. rewrite !map_length, states_from_length, Z.eqb_refl. cbn [andb check bind].
  cbv zeta. unfold laid_out. cbn [final_ arcs_ state_idx start_state]. rewrite !map_length, write_rows. reflexivity.
Qed.

(** * Words for weights *)

Notation pk := (packed_arc (n_pack P)).

Lemma pack_float_word : forall x w, n_pack P x = Some w -> fits 4 w -> pack_float P x = Ok (word w).
Proof. intros x w E F. unfold pack_float. rewrite E. now apply Python.pack_int_word. Qed.

Lemma pack_int_inv : forall v b, pack_int v = Ok b -> fits 4 v.
Proof.
  intros v b. unfold pack_int, in_int32, int_min, int_max. destruct (Z.leb_spec (-2147483648) v), (Z.leb_spec v 2147483647); cbn; try discriminate.
  intros _. unfold fits. change (2 ^ (8 * Z.of_nat 4 - 1)) with 2147483648. lia.
Qed.

Lemma pack_int_cases : forall v, (fits 4 v /\ pack_int v = Ok (word v)) \/ (~ fits 4 v /\ pack_int v = Fault Throw).
Proof.
  intros v. destruct (pack_int v) as [b|e] eqn:E.
  - left. pose proof (pack_int_inv _ _ E) as F. split; [exact F|]. now rewrite <- E, Python.pack_int_word.
  - right. split; [intros F; rewrite Python.pack_int_word in E by exact F; discriminate|].
    unfold pack_int in E. destruct (in_int32 v); [discriminate|]. now injection E as <-.
Qed.

Definition good_arc (a : arc Z) : Prop :=
  fits 4 (next_state a) /\ fits 4 (input_label a) /\ fits 4 (output_label a) /\ fits 4 (weight a).

Lemma insert_packed : forall x x' l l', Datatypes.fst x = Datatypes.fst x' -> pk (snd x) (snd x') ->
  Forall2 (fun y y' => Datatypes.fst y = Datatypes.fst y' /\ pk (snd y) (snd y')) l l' ->
  Forall2 (fun y y' => Datatypes.fst y = Datatypes.fst y' /\ pk (snd y) (snd y')) (insert x l) (insert x' l').
Proof.
  intros x x' l l' E Q H. induction H as [|y y' l l' (E1 & Q1) H IH]; cbn [insert]; [constructor; [split; assumption|constructor]|].
  assert (K : key_le x y = key_le x' y').
  { unfold key_le. destruct Q as (_ & Q2 & _), Q1 as (_ & Q1 & _). rewrite E, E1, Q2, Q1. reflexivity. }
  rewrite K. destruct (key_le x' y'); constructor; auto.
Qed.

Lemma tagged_packed : forall l l' s, Forall2 (fun st st' => n_pack P (Datatypes.fst st) = Some (Datatypes.fst st') /\ Forall2 pk (snd st) (snd st')) l l' ->
  Forall2 (fun y y' => Datatypes.fst y = Datatypes.fst y' /\ pk (snd y) (snd y')) (tagged s l) (tagged s l').
Proof.
  intros l l' s H. revert s. induction H as [|(f, a) (f', a') l l' (_ & Q) H IH]; intros s; cbn [tagged]; [constructor|].
  apply Forall2_app; [|apply IH]. clear - Q. cbn [snd] in Q. induction Q; cbn [map]; constructor; auto.
Qed.

Lemma sorted_packed : forall t t', packed (n_pack P) t t' ->
  Forall2 (fun y y' => Datatypes.fst y = Datatypes.fst y' /\ pk (snd y) (snd y')) (sorted_arcs t) (sorted_arcs t').
Proof.
  intros t t' (_ & H). unfold sorted_arcs. apply tagged_packed with (s := 0) in H.
  induction H as [|x x' l l' (E & Q) H IH]; cbn [fold_right]; [constructor|]. now apply insert_packed.
Qed.

Lemma index_packed : forall l l' s i, Forall2 (fun y y' => Datatypes.fst y = Datatypes.fst y' /\ pk (snd y) (snd y')) l l' ->
  first_index i s l = first_index i s l'.
Proof.
  intros l l' s i H. revert i. induction H as [|(a, b) (a', b') l l' (E & _) H IH]; intros i; [reflexivity|].
  cbn [first_index Datatypes.fst] in *. rewrite E, IH. reflexivity.
Qed.

Lemma Forall2_len : forall A B (R : A -> B -> Prop) l l', Forall2 R l l' -> length l = length l'.
Proof. intros A B R l l' H. induction H; cbn; congruence. Qed.

Lemma laid_packed : forall t t', packed (n_pack P) t t' ->
  start_state (laid_out t) = start_state (laid_out t') /\
  Forall2 (fun x w => n_pack P x = Some w) (final_ (laid_out t)) (final_ (laid_out t')) /\
  state_idx (laid_out t) = state_idx (laid_out t') /\
  Forall2 pk (arcs_ (laid_out t)) (arcs_ (laid_out t')).
Proof.
  intros t t' H. pose proof (sorted_packed t t' H) as S. destruct H as (E & H). unfold laid_out. cbn [start_state final_ state_idx arcs_].
  split; [congruence|]. split.
  { clear S. induction H as [|st st' l l' (Q & _) H IH]; cbn [map]; constructor; auto. }
  split.
  - rewrite (Forall2_len _ _ _ _ _ H). apply map_ext. intros s. now apply index_packed.
  - clear - S. induction S as [|x x' l l' (_ & Q) S IH]; cbn [map]; constructor; auto.
Qed.

Lemma write_floats : forall l l', Forall2 (fun x w => n_pack P x = Some w) l l' -> Forall (fits 4) l' ->
  write_all (pack_float P) l = Ok (flat_map word l').
Proof.
  intros l l' H F. apply Python.write_all_flat. induction H as [|x w l l' Q H IH]; constructor; inversion F; subst; auto.
  now apply pack_float_word.
Qed.

Lemma write_ints : forall l, Forall (fits 4) l -> write_all pack_int l = Ok (flat_map word l).
Proof. intros l F. apply Python.write_all_flat. induction F; constructor; auto. now apply Python.pack_int_word. Qed.

Definition arc_words (a : arc Z) : list Z := word (next_state a) ++ word (input_label a) ++ word (output_label a) ++ word (weight a).

Lemma arc_bytes_word : forall a a', pk a a' -> good_arc a' -> arc_bytes a = Ok (arc_words a').
Proof.
  intros a a' (E1 & E2 & E3 & E4) (F1 & F2 & F3 & F4). unfold arc_bytes, arc_words. rewrite <- E1, <- E2, <- E3.
  rewrite !Python.pack_int_word by assumption. cbn [bind]. rewrite (pack_float_word _ _ E4 F4). reflexivity.
Qed.

Lemma write_arcs : forall l l', Forall2 pk l l' -> Forall good_arc l' -> write_all arc_bytes l = Ok (flat_map arc_words l').
Proof.
  intros l l' H F. apply Python.write_all_flat. induction H as [|x w l l' Q H IH]; constructor; inversion F; subst; auto.
  now apply arc_bytes_word.
Qed.

Lemma states_arcs : forall W (Q : arc W -> Prop) (t : transducer W),
  Forall Q (arcs_ (laid_out t)) <-> Forall (fun st => Forall Q (snd st)) (t_states t).
Proof.
  intros W Q t. unfold laid_out. cbn [arcs_]. rewrite Forall_map. unfold sorted_arcs.
  assert (G : forall l : list (Z * arc W), Forall (fun x => Q (snd x)) (fold_right insert [] l) <-> Forall (fun x => Q (snd x)) l).
  { assert (GI : forall x l, Forall (fun x => Q (snd x)) (insert x l) <-> Q (snd x) /\ Forall (fun x : Z * arc W => Q (snd x)) l).
    { induction l as [|y l IH]; cbn [insert]; [rewrite Forall_cons_iff; cbn beta; tauto|]. destruct (key_le x y); rewrite ?Forall_cons_iff, ?IH; cbn beta; tauto. }
    induction l as [|x l IH]; cbn [fold_right]; [tauto|]. rewrite GI, Forall_cons_iff, IH. cbn beta. tauto. }
  rewrite G. clear G. generalize 0. induction (t_states t) as [|(f, a) l IH]; intros s; cbn [tagged]; [split; constructor|].
  rewrite Forall_app, Forall_cons_iff, Forall_map, <- (IH (s + 1)). cbn [snd]. tauto.
Qed.

Lemma index_range : forall W (l : list (Z * arc W)) s i, 0 <= i -> -1 <= first_index i s l <= i + lenZ l.
Proof.
  induction l as [|(a, b) l IH]; intros s i H; cbn [first_index]; [unfold lenZ; cbn; lia|]. rewrite lenZ_cons.
  pose proof (lenZ_nonneg _ l). destruct (a =? s); [lia|]. specialize (IH s (i + 1) ltac:(lia)). lia.
Qed.

Lemma fits_4 : forall v, -2147483648 <= v <= 2147483647 -> fits 4 v.
Proof. intros v H. unfold fits. change (2 ^ (8 * Z.of_nat 4 - 1)) with 2147483648. lia. Qed.

Lemma finals_count : forall W (t : transducer W), lenZ (final_ (laid_out t)) = Z.of_nat (length (t_states t)).
Proof. intros W t. unfold laid_out, lenZ. cbn [final_]. now rewrite map_length. Qed.

Lemma sized_index : forall W (t : transducer W), sized t -> Forall (fits 4) (state_idx (laid_out t)).
Proof.
  intros W t S. unfold sized in S. rewrite <- Fst.total_arcs in S. unfold laid_out in *. cbn [state_idx arcs_] in *.
  apply Forall_map, Forall_forall. intros s _. apply fits_4. pose proof (index_range _ (sorted_arcs t) s 0 ltac:(lia)).
  unfold lenZ in *. rewrite map_length in S. lia.
Qed.

Lemma converted : forall t t', packed (n_pack P) t t' -> fst_fits t' ->
  convert_fst P (t_start t) (t_states t) = Ok (fst_file t').
Proof.
  intros t t' H (S & F1 & F2). rewrite convert_tables. destruct (laid_packed t t' H) as (E1 & E2 & E3 & E4). cbv zeta.
  pose proof (sized_index _ _ S) as FI. unfold sized in S. rewrite <- Fst.total_arcs, <- finals_count in S.
  assert (LF : lenZ (final_ (laid_out t)) = lenZ (final_ (laid_out t'))) by (unfold lenZ; now rewrite (Forall2_len _ _ _ _ _ E2)).
  assert (LA : lenZ (arcs_ (laid_out t)) = lenZ (arcs_ (laid_out t'))) by (unfold lenZ; now rewrite (Forall2_len _ _ _ _ _ E4)).
  rewrite LF, LA, E1, E3. pose proof (lenZ_nonneg _ (final_ (laid_out t'))). pose proof (lenZ_nonneg _ (arcs_ (laid_out t'))).
  rewrite !Python.pack_int_word by (apply fits_4; lia). cbn [bind]. change (start_state (laid_out t')) with (t_start t') in *.
  rewrite Python.pack_int_word by exact F1. cbn [bind].
  rewrite (write_floats _ _ E2).
  2: { unfold laid_out. cbn [final_]. apply Forall_map. eapply Forall_impl; [|exact F2]. intros st (Q & _). exact Q. }
  cbn [bind]. rewrite (write_ints _ FI). cbn [bind]. rewrite (write_arcs _ _ E4).
  2: { apply states_arcs. eapply Forall_impl; [|exact F2]. intros st (_ & Q). exact Q. }
  reflexivity.
Qed.

(** * Nothing else is written *)

Lemma bind_ok_inv : forall A B (m : res A) (k : A -> res B) b, (bind m k) = Ok b -> exists a, m = Ok a /\ k a = Ok b.
Proof. intros A B m k b H. destruct m as [a|e]; [eauto|discriminate]. Qed.

Lemma pack_float_inv : forall x b, pack_float P x = Ok b -> exists w, n_pack P x = Some w /\ fits 4 w.
Proof. intros x b H. unfold pack_float in H. destruct (n_pack P x) as [w|]; [|discriminate]. exists w. split; [reflexivity|]. eapply pack_int_inv. exact H. Qed.

Lemma write_all_inv : forall A (f : A -> res bytes) l b, write_all f l = Ok b -> Forall (fun x => exists b, f x = Ok b) l.
Proof.
  induction l as [|x l IH]; intros b H; [constructor|]. cbn [write_all] in H. apply bind_ok_inv in H as (b1 & E1 & H).
  apply bind_ok_inv in H as (b2 & E2 & _). constructor; eauto.
Qed.

Lemma arc_bytes_inv : forall a b, arc_bytes a = Ok b -> exists a', pk a a' /\ good_arc a'.
Proof.
  intros a b H. unfold arc_bytes in H. apply bind_ok_inv in H as (b1 & E1 & H). apply bind_ok_inv in H as (b2 & E2 & H).
  apply bind_ok_inv in H as (b3 & E3 & H). apply bind_ok_inv in H as (b4 & E4 & _).
  apply pack_int_inv in E1, E2, E3. apply pack_float_inv in E4 as (w & E4 & F).
  exists (mk_arc (next_state a) (input_label a) (output_label a) w). unfold packed_arc, good_arc. cbn. auto 10.
Qed.

Lemma exists_list : forall A B (R : A -> B -> Prop) (Q : B -> Prop) l, Forall (fun a => exists b, R a b /\ Q b) l ->
  exists l', Forall2 R l l' /\ Forall Q l'.
Proof.
  intros A B R Q l H. induction H as [|a l (b & R1 & Q1) H (l' & H1 & H2)]; [exists []; split; constructor|].
  exists (b :: l'). split; constructor; auto.
Qed.

Lemma converted_inv : forall t file, convert_fst P (t_start t) (t_states t) = Ok file ->
  exists t', packed (n_pack P) t t' /\ fst_fits t' /\ file = fst_file t'.
Proof.
  intros t file H. pose proof H as H0. rewrite convert_tables in H. cbv zeta in H.
  apply bind_ok_inv in H as (b1 & E1 & H). apply bind_ok_inv in H as (b2 & E2 & H). apply bind_ok_inv in H as (b3 & E3 & H).
  apply bind_ok_inv in H as (b4 & E4 & H). apply bind_ok_inv in H as (b5 & E5 & H). apply bind_ok_inv in H as (b6 & E6 & H).
  apply bind_ok_inv in H as (b7 & E7 & _). apply pack_int_inv in E1, E4. apply write_all_inv in E5, E7.
  assert (G : exists l', Forall2 (fun st st' => n_pack P (Datatypes.fst st) = Some (Datatypes.fst st') /\ Forall2 pk (snd st) (snd st')) (t_states t) l' /\
    Forall (fun st => fits 4 (Datatypes.fst st) /\ Forall good_arc (snd st)) l').
  { apply exists_list. rewrite (states_arcs _ (fun a => exists b, arc_bytes a = Ok b)) in E7. unfold laid_out in E5. cbn [final_] in E5.
    rewrite Forall_map in E5. apply Forall_forall. intros st I. rewrite Forall_forall in E5, E7.
    destruct (E5 st I) as (b & Eb). apply pack_float_inv in Eb as (w & Ew & Fw).
    assert (X : exists l', Forall2 pk (snd st) l' /\ Forall good_arc l').
    { apply exists_list. eapply Forall_impl; [|exact (E7 st I)]. intros a (c & Ec). eapply arc_bytes_inv, Ec. }
    destruct X as (l' & X1 & X2). exists (w, l'). cbn [Datatypes.fst snd]. auto. }
  destruct G as (l' & G1 & G2).
  assert (Q : packed (n_pack P) t (mk_transducer (t_start t) l')) by (split; [reflexivity|exact G1]).
  assert (F : fst_fits (mk_transducer (t_start t) l')).
  { split; [|split; [exact E4|exact G2]]. unfold sized. rewrite <- Fst.total_arcs, <- finals_count.
    destruct (laid_packed _ _ Q) as (_ & Q2 & _ & Q4). apply Forall2_len in Q2, Q4. unfold fits in E1.
    change (2 ^ (8 * Z.of_nat 4 - 1)) with 2147483648 in E1. unfold lenZ in *. rewrite <- Q2, <- Q4. lia. }
  exists (mk_transducer (t_start t) l'). split; [exact Q|]. split; [exact F|]. rewrite (converted _ _ Q F) in H0. now injection H0.
Qed.

Lemma pack_int_throw : forall v, (exists b, pack_int v = Ok b) \/ pack_int v = Fault Throw.
Proof. intros v. destruct (pack_int_cases v) as [(_ & E)|(_ & E)]; eauto. Qed.
Lemma pack_float_throw : forall x, (exists b, pack_float P x = Ok b) \/ pack_float P x = Fault Throw.
Proof. intros x. unfold pack_float. destruct (n_pack P x); [apply pack_int_throw|now right]. Qed.
Lemma bind_throw : forall A B (m : res A) (k : A -> res B), (exists a, m = Ok a) \/ m = Fault Throw ->
  (forall a, (exists b, k a = Ok b) \/ k a = Fault Throw) -> (exists b, bind m k = Ok b) \/ bind m k = Fault Throw.
Proof. intros A B m k [(a & ->) | ->] H; [apply H|now right]. Qed.
Lemma write_all_throw : forall A (f : A -> res bytes), (forall x, (exists b, f x = Ok b) \/ f x = Fault Throw) ->
  forall l, (exists b, write_all f l = Ok b) \/ write_all f l = Fault Throw.
Proof.
  intros A f H. induction l as [|x l IH]; cbn [write_all]; [eauto|]. apply bind_throw; [apply H|]. intros b.
  apply bind_throw; [exact IH|]. eauto.
Qed.

Lemma converted_or_throw : forall t, (exists file, convert_fst P (t_start t) (t_states t) = Ok file) \/
  convert_fst P (t_start t) (t_states t) = Fault Throw.
Proof.
  intros t. rewrite convert_tables. cbv zeta.
  apply bind_throw; [apply pack_int_throw|intros b1]. apply bind_throw; [apply pack_int_throw|intros b2].
  apply bind_throw; [apply pack_int_throw|intros b3]. apply bind_throw; [apply pack_int_throw|intros b4].
  apply bind_throw; [apply write_all_throw, pack_float_throw|intros b5]. apply bind_throw; [apply write_all_throw, pack_int_throw|intros b6].
  apply bind_throw; [|intros b7; eauto]. apply write_all_throw. intros a. unfold arc_bytes.
  apply bind_throw; [apply pack_int_throw|intros]. apply bind_throw; [apply pack_int_throw|intros].
  apply bind_throw; [apply pack_int_throw|intros]. apply bind_throw; [apply pack_float_throw|eauto].
Qed.

Lemma converted_only : forall t, (forall t', packed (n_pack P) t t' -> ~ fst_fits t') ->
  convert_fst P (t_start t) (t_states t) = Fault Throw.
Proof.
  intros t H. destruct (converted_or_throw t) as [(file & E)|E]; [|exact E]. exfalso.
  destruct (converted_inv t file E) as (t' & Q & F & _). exact (H t' Q F).
Qed.
End Convert.

(** * Reading *)

Lemma packed_states : forall N (pack : N -> option Z) t t' s f l, packed pack t t' -> nth_error (t_states t) s = Some (f, l) ->
  exists f' l', nth_error (t_states t') s = Some (f', l') /\ pack f = Some f' /\ Forall2 (packed_arc pack) l l'.
Proof.
  intros N pack t t' s f l (_ & H) E. revert s E. induction H as [|st (f', l') ls ls' (Q1 & Q2) H IH]; intros s E; destruct s; try discriminate.
  - injection E as ->. exists f', l'. auto.
  - exact (IH s E).
Qed.

Lemma packed_count : forall N (pack : N -> option Z) t t', packed pack t t' -> number_of_arcs t' = number_of_arcs t.
Proof.
  intros N pack t t' (_ & H). unfold number_of_arcs. f_equal. induction H as [|st st' ls ls' (_ & Q) H IH]; [reflexivity|].
  cbn [flat_map]. rewrite !app_length, IH. now rewrite (Forall2_len _ _ _ _ _ Q).
Qed.

Lemma labelled_packed : forall N (pack : N -> option Z) x l l', Forall2 (packed_arc pack) l l' ->
  Forall2 (packed_arc pack) (labelled x l) (labelled x l').
Proof.
  intros N pack x l l' H. induction H as [|a a' l l' Q H IH]; [constructor|]. unfold labelled in *. cbn [filter].
  destruct Q as (Q1 & Q2 & Q3). rewrite Q2. destruct (input_label a =? x); [|exact IH]. constructor; [|exact IH]. split; auto.
Qed.

Lemma converted_read : forall N (P : py_float N) t file rest e,
  convert_fst P (t_start t) (t_states t) = Ok file -> 0 < number_of_arcs t ->
  exists g, fst_read (mk_file (file ++ rest) e) = Ok (Some g, mk_file rest e) /\
    start_state g = t_start t /\
    forall s f l, 0 <= s -> nth_error (t_states t) (Z.to_nat s) = Some (f, l) ->
      (exists w, n_pack P f = Some w /\ fst_final g s = Ok w) /\
      exists l', iterate_arcs g s = Ok l' /\ length l' = length l /\ by_label l' /\
        forall x, Forall2 (packed_arc (n_pack P)) (labelled x l) (labelled x l').
Proof.
  intros N P t file rest e H A. apply converted_inv in H as (t' & Q & F & ->).
  assert (S : fst_storable t').
  { destruct F as (F1 & F2 & F3). split; [exact F1|]. split; [|split; assumption]. rewrite (packed_count _ _ _ _ Q). exact A. }
  destruct (Fst.file_round_trip t' rest e S) as (g & E & E1 & E2 & E3). exists g. split; [exact E|].
  split; [rewrite E1; apply Q|]. intros s f l Hs Hn. destruct (packed_states _ _ _ _ _ _ _ Q Hn) as (f' & l' & Hn' & Pf & Pl).
  split; [exists f'; split; [exact Pf|now apply (E2 s f' l')]|].
  assert (Hst : is_state t' s).
  { split; [exact Hs|]. assert (Z.to_nat s < length (t_states t'))%nat by (apply nth_error_Some; congruence). lia. }
  destruct (E3 s Hst) as (l2 & I & Pm & B & Lb). exists l2.
  assert (EA : arcs_at t' s = l') by (unfold arcs_at; now rewrite Hn'). rewrite EA in *.
  split; [exact I|]. split; [rewrite <- (Permutation_length Pm); symmetry; eapply Forall2_len, Pl|]. split; [exact B|].
  intros x. rewrite Lb. now apply labelled_packed.
Qed.

(** Two states; the second is final and has an arc listed before one with a
    smaller label. *)
Definition graph2 : transducer Z :=
  mk_transducer 1 [(9, [mk_arc 1 4 5 6]); (3, [mk_arc 0 7 0 1; mk_arc 1 2 8 (-2); mk_arc 0 7 3 4])].
Lemma packed_same : forall t : transducer Z, packed Some t t.
Proof.
  intros t. split; [reflexivity|]. induction (t_states t) as [|(f, l) ls IH]; constructor; [|exact IH].
  split; [reflexivity|]. cbn [snd]. clear. induction l; constructor; [repeat split|assumption].
Qed.
Lemma graph2_fits : fst_fits graph2.
Proof. unfold fst_fits, sized, graph2, fits. cbn [t_states t_start]. repeat first [apply conj | apply Forall_cons | apply Forall_nil | (vm_compute; discriminate) | (vm_compute; reflexivity)]. Qed.

Definition no_arcs : transducer Z := mk_transducer 0 [(0, [])].
Lemma no_arcs_fails : forall P : py_float Z, n_pack P = Some ->
  exists file f, convert_fst P (t_start no_arcs) (t_states no_arcs) = Ok file /\ fst_read (open file) = Ok (None, f).
Proof.
  intros P E. exists (fst_file no_arcs), (mk_file [] false). split; [|vm_compute; reflexivity].
  apply (converted P no_arcs no_arcs); [rewrite E; apply packed_same|]. unfold fst_fits, sized, no_arcs, fits. cbn [t_states t_start]. repeat first [apply conj | apply Forall_cons | apply Forall_nil | (vm_compute; discriminate) | (vm_compute; reflexivity)].
Qed.
