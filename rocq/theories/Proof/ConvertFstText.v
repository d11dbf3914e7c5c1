(** What the text output of the converter of transducers says. *)
From Coq Require Import ZArith String List Bool Lia Permutation.
From Verif.Base Require Import Prelude Lemmas.
From Verif.Model Require Import Util File Vector Stt Fst Python Tools ConvertFst ConvertFstText.
From Verif.Spec Require Import TextSpec FstSpec ConvertTextSpec.
From Verif.Proof Require Fst Python ConvertFst Number.
Import ListNotations.
Open Scope Z_scope.

Fixpoint lines_from {A} (line : Z -> A -> bytes) (i : Z) (l : list A) : list bytes :=
  match l with [] => [] | x :: l => line i x :: lines_from line (i + 1) l end.

Definition file_lines (ls : list bytes) : bytes := concat (map (fun l => l ++ [10]) ls).

Lemma file_lines_app : forall a b, file_lines (a ++ b) = file_lines a ++ file_lines b.
Proof. intros. unfold file_lines. now rewrite map_app, concat_app. Qed.

Definition entry_line {A} (str : A -> bytes) (i : Z) (x : A) : bytes := to_string i ++ lit " -> " ++ str x.
Definition arc_line {N} (show : N -> bytes) (i : Z) (a : arc N) : bytes :=
  to_string i ++ lit " -> next_state(" ++ to_string (next_state a) ++ lit "), input_label(" ++
  to_string (input_label a) ++ lit "), output_label(" ++ to_string (output_label a) ++ lit "), weight(" ++
  show (weight a) ++ lit ")".

Definition table_lines {N} (show : N -> bytes) (g : fst N) : list bytes :=
  [lit "state_number = " ++ to_string (lenZ (final_ g)); lit "arc_number = " ++ to_string (lenZ (arcs_ g));
   lit "start_state = " ++ to_string (start_state g); lit "============ final ============="] ++
  lines_from (entry_line show) 0 (final_ g) ++ [lit "============ state_arcidx ============="] ++
  lines_from (entry_line to_string) 0 (state_idx g) ++ [lit "============ arcs ============="] ++
  lines_from (arc_line show) 0 (arcs_ g).

Lemma write_table_lines : forall A (str : A -> bytes) l out,
  write_table str l out = Ok (out ++ file_lines (lines_from (entry_line str) 0 l)).
Proof.
  intros A str l out. unfold write_table.
  assert (H : forall l i out, for_each l (fun '(idx, out) x =>
    Ok (idx + 1, out ++ to_string idx ++ lit " -> " ++ str x ++ [10])) (i, out)
    = Ok (i + Z.of_nat (length l), out ++ file_lines (lines_from (entry_line str) i l))).
  { clear. induction l as [|x l IH]; intros i out.
    - cbn. rewrite app_nil_r, Z.add_0_r. reflexivity.
    - cbn [for_each bind]. rewrite IH. cbn [length lines_from]. unfold file_lines. cbn [map concat].
      unfold entry_line at 2. rewrite <- !app_assoc. do 2 f_equal. lia. }
  rewrite H. reflexivity.
Qed.

Lemma write_rows_lines : forall N (show : N -> bytes) l out,
  write_rows show (map ConvertFst.row l) out = Ok (out ++ file_lines (lines_from (arc_line show) 0 (map snd l))).
Proof.
  intros N show l out. unfold write_rows.
  assert (H : forall l i out, for_each (map ConvertFst.row l) (fun '(idx, out) r => Ok (idx + 1, out ++ show_row show idx r)) (i, out)
    = Ok (i + Z.of_nat (length l), out ++ file_lines (lines_from (arc_line show) i (map snd l)))).
  { clear. induction l as [|x l IH]; intros i out.
    - cbn. rewrite app_nil_r, Z.add_0_r. reflexivity.
    - cbn [map for_each bind]. rewrite IH. cbn [length lines_from]. unfold file_lines. cbn [map concat].
      unfold arc_line at 2, show_row, ConvertFst.row. rewrite <- !app_assoc. do 2 f_equal. lia. }
  rewrite H. reflexivity.
Qed.

Lemma text_lines : forall N (show : N -> bytes) (t : transducer N),
  convert_fst_text show (t_start t) (t_states t) = Ok (file_lines (table_lines show (laid_out t))).
Proof.
  intros N show t. unfold convert_fst_text. rewrite ConvertFst.collect_ok. cbn [bind].
  rewrite ConvertFst.sort_rows_map. fold (sorted_arcs t).
  assert (H : Forall (fun x => 0 <= Datatypes.fst x < Z.of_nat (length (t_states t))) (sorted_arcs t)).
  { apply Forall_forall. intros x I. apply ConvertFst.sorted_in, ConvertFst.tagged_range in I. lia. }
  change (lenZ (t_states t)) with (Z.of_nat (length (t_states t))).
  rewrite (ConvertFst.arc_indices_ok _ _ H). cbn [bind]. unfold lenZ at 1 2.
  rewrite !map_length, ConvertFst.states_from_length, Z.eqb_refl. cbn [andb check bind].
  cbv zeta. rewrite write_table_lines. cbn [bind]. rewrite write_table_lines. cbn [bind]. rewrite write_rows_lines.
  unfold table_lines, laid_out. cbn [final_ arcs_ state_idx start_state].
  rewrite !file_lines_app. unfold file_lines at 4. unfold file_lines at 5. unfold file_lines at 6.
  cbn [map concat]. unfold lenZ. rewrite !map_length. rewrite <- !app_assoc. reflexivity.
Qed.

Lemma lines_numbered : forall A (f : Z -> A -> bytes) (R : Z -> A -> bytes -> Prop), (forall i x, R i x (f i x)) ->
  forall l i, numbered R i l (lines_from f i l).
Proof. intros A f R H. induction l; intro i; constructor; auto. Qed.

Lemma text_says : forall N (show : N -> bytes) (t : transducer N),
  exists lines, tables_text (fun x s => s = show x) (laid_out t) lines /\
    convert_fst_text show (t_start t) (t_states t) = Ok (concat (map (fun l => l ++ [10]) lines)).
Proof.
  intros N show t. exists (table_lines show (laid_out t)). split; [|apply text_lines].
  do 6 eexists. repeat (split; [first [apply Python.to_string_decimal | apply lines_numbered; intros i x]|]).
  - exists (to_string i), (show x). repeat split. apply Python.to_string_decimal.
  - exists (to_string i), (to_string x). repeat split; apply Python.to_string_decimal.
  - do 5 eexists. repeat (split; [first [apply Python.to_string_decimal | reflexivity]|]). reflexivity.
  - reflexivity.
Qed.

(** * The tables can be told from the text *)

Lemma to_string_inj : forall a b, to_string a = to_string b -> a = b.
Proof.
  intros a b H. pose proof (Python.int_decimal _ _ (Python.to_string_decimal a)) as A.
  rewrite H, (Python.int_decimal _ _ (Python.to_string_decimal b)) in A. congruence.
Qed.

Lemma to_string_chars : forall z c, In c (to_string z) -> 48 <= c <= 57 \/ c = 45.
Proof.
  intros z c H. destruct (Python.to_string_decimal z) as [n s D|n s P D];
    pose proof (Number.decimal_digits_chars _ _ D) as C; rewrite Forall_forall in C.
  - left. now apply C.
  - destruct H as [<-|H]; [now right|]. left. now apply C.
Qed.

Lemma cut_at : forall (c : Z) u v r s, ~ In c u -> ~ In c v -> u ++ c :: r = v ++ c :: s -> u = v /\ r = s.
Proof.
  induction u as [|a u IH]; intros [|b v] r s Hu Hv H; cbn in H; inversion H; subst.
  - auto.
  - elim Hv. now left.
  - elim Hu. now left.
  - destruct (IH v r s) as [-> ->]; auto; intro; [apply Hu|apply Hv]; now right.
Qed.

Lemma lines_same : forall a b, Forall (fun l => ~ In 10 l) a -> Forall (fun l => ~ In 10 l) b ->
  file_lines a = file_lines b -> a = b.
Proof.
  unfold file_lines. induction a as [|l a IH]; intros [|m b] Ha Hb H; [reflexivity| | |];
    cbn [map concat] in H.
  - rewrite <- app_assoc in H. now destruct m.
  - rewrite <- app_assoc in H. now destruct l.
  - inversion Ha; inversion Hb; subst. rewrite <- !app_assoc in H. cbn [app] in H.
    apply cut_at in H as [-> H]; auto. f_equal. now apply IH.
Qed.

Lemma lines_from_length : forall A (f : Z -> A -> bytes) l i, length (lines_from f i l) = length l.
Proof. induction l; intro i; cbn; congruence. Qed.

Lemma lines_from_inj : forall A (f : Z -> A -> bytes), (forall i x y, f i x = f i y -> x = y) ->
  forall l m i, lines_from f i l = lines_from f i m -> l = m.
Proof.
  intros A f H. induction l as [|x l IH]; intros [|y m] i E; cbn in E; inversion E; [reflexivity|].
  f_equal; eauto.
Qed.

Lemma entry_line_inj : forall A (str : A -> bytes), (forall x y, str x = str y -> x = y) ->
  forall i x y, entry_line str i x = entry_line str i y -> x = y.
Proof. unfold entry_line. intros A str H i x y E. apply app_inv_head, app_inv_head in E. auto. Qed.

Lemma no_paren : forall z, ~ In 41 (to_string z).
Proof. intros z H. apply to_string_chars in H. lia. Qed.

Lemma arc_line_inj : forall N (show : N -> bytes), (forall x y, show x = show y -> x = y) ->
  forall i a b, arc_line show i a = arc_line show i b -> a = b.
Proof.
  unfold arc_line. intros N show H i [n x y w] [n' x' y' w'] E. cbn [next_state input_label output_label weight] in E.
  apply app_inv_head, app_inv_head in E.
  apply cut_at in E as [E1 E]; [|apply no_paren|apply no_paren].
  apply (app_inv_head (lit ", input_label(")) in E. apply cut_at in E as [E2 E]; [|apply no_paren|apply no_paren].
  apply (app_inv_head (lit ", output_label(")) in E. apply cut_at in E as [E3 E]; [|apply no_paren|apply no_paren].
  apply (app_inv_head (lit ", weight(")) in E. apply app_inv_tail in E.
  apply to_string_inj in E1, E2, E3. apply H in E. congruence.
Qed.

Lemma app_same_length : forall A (a b c d : list A), length a = length b -> a ++ c = b ++ d -> a = b /\ c = d.
Proof.
  induction a as [|x a IH]; intros [|y b] c d L H; try discriminate; [auto|].
  cbn in H. inversion H; subst. destruct (IH b c d) as [-> ->]; auto.
Qed.

Lemma lenZ_inj : forall A (a b : list A), lenZ a = lenZ b -> length a = length b.
Proof. unfold lenZ. intros. lia. Qed.

Lemma in_lines_from : forall A (f : Z -> A -> bytes) (Q : bytes -> Prop), (forall i x, Q (f i x)) ->
  forall l i, Forall Q (lines_from f i l).
Proof. intros A f Q H. induction l; intro i; constructor; auto. Qed.

Lemma in_lit : forall s c, existsb (Z.eqb c) (lit s) = false -> ~ In c (lit s).
Proof.
  intros s c H I. assert (existsb (Z.eqb c) (lit s) = true); [|congruence].
  apply existsb_exists. exists c. split; [exact I|apply Z.eqb_refl].
Qed.

Lemma in_number : forall z, ~ In 10 (to_string z).
Proof. intros z H. apply to_string_chars in H. lia. Qed.

Ltac clean_line := intro;
  repeat match goal with H : In _ (_ ++ _) |- _ => apply in_app_or in H; destruct H as [H|H] end;
  match goal with
  | H : In 10 (to_string _) |- _ => exact (in_number _ H)
  | H : In 10 (lit _) |- _ => revert H; apply in_lit; reflexivity
  | H : In 10 (_ _), K : forall x, ~ In 10 _ |- _ => exact (K _ H)
  end.

Lemma table_lines_clean : forall N (show : N -> bytes), (forall x, ~ In 10 (show x)) ->
  forall g, Forall (fun l => ~ In 10 l) (table_lines show g).
Proof.
  intros N show K g. unfold table_lines. repeat (apply Forall_app; split).
  - repeat constructor; clean_line.
  - apply in_lines_from. intros i x. unfold entry_line. clean_line.
  - repeat constructor; clean_line.
  - apply in_lines_from. intros i x. unfold entry_line. clean_line.
  - repeat constructor; clean_line.
  - apply in_lines_from. intros i x. unfold arc_line. clean_line.
Qed.

Lemma table_lines_inj : forall N (show : N -> bytes), (forall x y, show x = show y -> x = y) ->
  forall g h : fst N, length (state_idx g) = length (final_ g) -> length (state_idx h) = length (final_ h) ->
  table_lines show g = table_lines show h -> g = h.
Proof.
  intros N show H [s f i a] [s' f' i' a'] Hg Hh E. unfold table_lines in E.
  cbn [final_ arcs_ state_idx start_state] in *.
  apply app_same_length in E as [E0 E]; [|reflexivity].
  injection E0 as E1 E2 E3.
  apply to_string_inj in E1, E2, E3. apply lenZ_inj in E1, E2.
  apply app_same_length in E as [F E]; [|now rewrite !lines_from_length].
  apply app_same_length in E as [_ E]; [|reflexivity].
  apply app_same_length in E as [I E]; [|rewrite !lines_from_length; congruence].
  apply app_same_length in E as [_ E]; [|reflexivity].
  apply lines_from_inj in F; [|now apply entry_line_inj].
  apply lines_from_inj in I; [|apply entry_line_inj, to_string_inj].
  apply lines_from_inj in E; [|now apply arc_line_inj]. congruence.
Qed.

Lemma text_tells : forall N (show : N -> bytes) (t u : transducer N),
  (forall x y, show x = show y -> x = y) -> (forall x, ~ In 10 (show x)) ->
  convert_fst_text show (t_start t) (t_states t) = convert_fst_text show (t_start u) (t_states u) ->
  t_start t = t_start u /\ map Datatypes.fst (t_states t) = map Datatypes.fst (t_states u) /\
  forall s x, is_state t s -> labelled x (arcs_at t s) = labelled x (arcs_at u s).
Proof.
  intros N show t u Hi Hn E. rewrite !text_lines in E.
  assert (G : laid_out t = laid_out u).
  { apply (table_lines_inj N show Hi).
    - unfold laid_out. cbn [state_idx final_]. now rewrite !map_length, ConvertFst.states_from_length.
    - unfold laid_out. cbn [state_idx final_]. now rewrite !map_length, ConvertFst.states_from_length.
    - apply lines_same; try (apply table_lines_clean; exact Hn). congruence. }
  assert (S : t_start t = t_start u) by exact (f_equal start_state G).
  assert (F : map Datatypes.fst (t_states t) = map Datatypes.fst (t_states u)) by exact (f_equal final_ G).
  split; [exact S|]. split; [exact F|]. intros s x H.
  assert (H' : is_state u s).
  { unfold is_state in *. apply (f_equal (@length N)) in F. rewrite !map_length in F. lia. }
  destruct (Fst.loaded_iterate _ _ _ H) as (l & L & _ & _ & Q).
  destruct (Fst.loaded_iterate _ _ _ H') as (l' & L' & _ & _ & Q').
  rewrite G, L' in L. injection L as <-. now rewrite <- Q, <- Q'.
Qed.

(** * Cases *)

(** The same with the arcs of the second state in another order. *)
Definition graph2_swapped : transducer Z :=
  mk_transducer 1 [(9, [mk_arc 1 4 5 6]); (3, [mk_arc 0 7 0 1; mk_arc 0 7 3 4; mk_arc 1 2 8 (-2)])].

Lemma show_number : (forall x y, to_string x = to_string y -> x = y) /\ (forall x, ~ In 10 (to_string x)).
Proof. exact (conj to_string_inj in_number). Qed.

Lemma case_text : convert_fst_text to_string (t_start ConvertFst.graph2) (t_states ConvertFst.graph2)
  = Ok (concat (map (fun l => l ++ [10])
      [lit "state_number = 2"; lit "arc_number = 4"; lit "start_state = 1"; lit "============ final =============";
       lit "0 -> 9"; lit "1 -> 3"; lit "============ state_arcidx ============="; lit "0 -> 0"; lit "1 -> 1";
       lit "============ arcs =============";
       lit "0 -> next_state(1), input_label(4), output_label(5), weight(6)";
       lit "1 -> next_state(1), input_label(2), output_label(8), weight(-2)";
       lit "2 -> next_state(0), input_label(7), output_label(0), weight(1)";
       lit "3 -> next_state(0), input_label(7), output_label(3), weight(4)"])).
Proof. vm_compute. reflexivity. Qed.

Lemma case_same : ConvertFst.graph2 <> graph2_swapped /\
  convert_fst_text to_string (t_start ConvertFst.graph2) (t_states ConvertFst.graph2) =
  convert_fst_text to_string (t_start graph2_swapped) (t_states graph2_swapped).
Proof. split; [discriminate|]. vm_compute. reflexivity. Qed.
