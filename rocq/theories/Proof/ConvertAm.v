(** Lemmas on the converter of acoustic models. *)
From Coq Require Import ZArith String List Bool Lia.
From Verif.Base Require Import Prelude Lemmas.
From Verif.Model Require Import Util File Vector Nnet Stt Python Tools ConvertAm.
From Verif.Spec Require Import TextSpec AudioSpec AmSpec FormatSpec ToolSpec NnetSpec AmTextSpec.
From Verif.Proof Require Import Text Lines Number Loop Python Tools.
Import ListNotations.
Open Scope Z_scope.
Ltac Zify.zify_post_hook ::= Z.div_mod_to_equations.

Lemma quote_lit s : quote s = lit s.
Proof. reflexivity. Qed.
Lemma mark_tag n : mark n = tag n.
Proof. reflexivity. Qed.

(** * Searching *)

Lemma cut_found pat a b s : found pat a b s -> cut pat s = Some (a, b).
Proof.
  intros (Q & M). unfold cut. rewrite find_zero.
  destruct (find_from pat s 0) as [k|] eqn:E.
  - apply find_from_some in E. destruct E as (P0 & (u & v & Q2 & L) & M2). rewrite Z.sub_0_r in *.
    pose proof (M _ _ Q2) as H1. pose proof (M2 _ _ Q) as H2.
    assert (LE : lenZ a = lenZ u) by (unfold lenZ in *; lia).
    rewrite Q in Q2. destruct (app_len_inj _ _ _ _ Q2 LE) as (<- & Q3). apply app_inv_head in Q3. subst v.
    rewrite Q, <- L. unfold lenZ. f_equal. f_equal.
    + rewrite Nat2Z.id, firstn_app, firstn_all, Nat.sub_diag. cbn [firstn]. apply app_nil_r.
    + rewrite app_assoc, skipn_app, skipn_all2 by (rewrite app_length; lia).
      replace (Z.to_nat _ - _)%nat with 0%nat by (rewrite app_length; lia). reflexivity.
  - exfalso. apply find_from_none in E. apply E. now exists a, b.
Qed.

Lemma found_lstrip pat c p a b s : pat = c :: p -> ~ blank c -> found pat a b s ->
  exists a', found pat a' b (lstrip s).
Proof.
  intros P NB (Q & M). destruct (lstrip_spec s) as (u & Q2 & U & _). rewrite Q in Q2 at 1.
  symmetry in Q2. destruct (app_split _ _ _ _ Q2) as [(e & QL & QA)|(e & NE & QP & QU)].
  - exists e. split; [exact QL|]. intros a' b' Q3.
    assert (H : s = (u ++ a') ++ pat ++ b') by (rewrite <- app_assoc, <- Q3, QL, Q, QA, <- app_assoc; reflexivity).
    apply M in H. rewrite QA, !app_length in H. lia.
  - exfalso. rewrite P in QP. destruct e as [|d e]; [now destruct NE|]. cbn [app] in QP. injection QP as <- _.
    rewrite QU in U. apply Forall_app in U. destruct U as (_ & U). inversion U; contradiction.
Qed.

Lemma goto_found name a b s : found (mark name) a b s -> goto_token name (lstrip s) = Ok b /\ goto_token name s = Ok b.
Proof.
  intros H. unfold goto_token. split.
  - destruct (found_lstrip (mark name) 60 (name ++ quote ">") a b s eq_refl ltac:(unfold blank; lia) H) as (a' & H').
    change (tag name) with (mark name). now rewrite (cut_found _ _ _ _ H').
  - change (tag name) with (mark name). now rewrite (cut_found _ _ _ _ H).
Qed.

Lemma until_found name a b s : found (mark name) a b s -> read_until_token name s = Ok a.
Proof. intros H. unfold read_until_token. change (tag name) with (mark name). now rewrite (cut_found _ _ _ _ H). Qed.

Lemma found_one c a b : ~ In c a -> found [c] a b (a ++ [c] ++ b).
Proof.
  intros N. split; [reflexivity|]. intros a' b' Q. destruct (leftmost_one a b c N) as (_ & _ & M).
  specialize (M _ _ Q). unfold lenZ in M. lia.
Qed.

Lemma after_app pat s : after pat (pat ++ s) = Some s.
Proof.
  unfold after. rewrite (proj2 (prefix_iff pat (pat ++ s))) by now exists s.
  rewrite skipn_app, skipn_all, Nat.sub_diag. reflexivity.
Qed.

Lemma span_app p a r : Forall (fun c => p c = true) a -> (forall c t, r = c :: t -> p c = false) -> span p (a ++ r) = (a, r).
Proof.
  intros A R. induction A as [|c a C A IH]; cbn [app span].
  - destruct r as [|c t]; [reflexivity|]. cbn [span]. now rewrite (R c t eq_refl).
  - rewrite C, IH. reflexivity.
Qed.

Lemma digit_true c : 48 <= c <= 57 -> py_digit c = true.
Proof. intros H. unfold py_digit. destruct (Z.leb_spec 48 c); [|lia]. destruct (Z.leb_spec c 57); [reflexivity|lia]. Qed.
Lemma digit_false c : ~ 48 <= c <= 57 -> py_digit c = false.
Proof. intros H. unfold py_digit. destruct (Z.leb_spec 48 c); [|reflexivity]. destruct (Z.leb_spec c 57); [lia|reflexivity]. Qed.

Lemma word_char_iff c : word_char c = true <-> in_words c.
Proof.
  unfold word_char, in_words. rewrite !orb_true_iff, !andb_true_iff, !Z.leb_le, Z.eqb_eq. lia.
Qed.
Lemma name_char_iff c : name_char c = true <-> in_words c \/ c = 46.
Proof. unfold name_char. rewrite orb_true_iff, word_char_iff, Z.eqb_eq. reflexivity. Qed.
Lemma string_char_iff c : string_char c = true <-> in_words c \/ c = 46 \/ c = 45.
Proof. unfold string_char. rewrite orb_true_iff, name_char_iff, Z.eqb_eq. tauto. Qed.
Lemma bool_false (b : bool) (Q : Prop) : (b = true <-> Q) -> ~ Q -> b = false.
Proof. destruct b; [|reflexivity]. intros (H & _) N. exfalso. now apply N, H. Qed.
Lemma blank_no_word c : blank c -> ~ in_words c /\ c <> 46 /\ c <> 45 /\ ~ 48 <= c <= 57 /\ c <> 101.
Proof. unfold blank, in_words. lia. Qed.

Lemma read_run_ok p w a w' r : all_blank w -> a <> [] -> Forall (fun c => p c = true) a ->
  (forall c, blank c -> p c = false) -> all_blank w' -> w' <> [] ->
  read_run p (w ++ a ++ w' ++ r) = Ok (a, lstrip r).
Proof.
  intros W N A PB W' NW. unfold read_run. rewrite lstrip_blank by exact W. rewrite lstrip_stop.
  2:{ intros c t Q. destruct a as [|d a]; [now destruct N|]. cbn [app] in Q. injection Q as <- _.
      inversion A as [|? ? A1 A2]; subst. intros B. rewrite (PB _ B) in A1. discriminate. }
  rewrite span_app; [| exact A |].
  - destruct a as [|d a]; [now destruct N|]. destruct w' as [|c w']; [now destruct NW|]. cbn [app].
    inversion W' as [|? ? B B']; subst. rewrite (proj2 (space_iff c) B).
    change (c :: w' ++ r) with ((c :: w') ++ r). now rewrite lstrip_blank.
  - intros c t Q. apply PB. destruct w' as [|d w']; [now destruct NW|]. cbn [app] in Q. injection Q as <- _. now inversion W'.
Qed.

Lemma read_string_ok w a w' r : all_blank w -> label a -> all_blank w' -> w' <> [] ->
  read_string (w ++ a ++ w' ++ r) = Ok (a, lstrip r).
Proof.
  intros W (N & A) W' NW. apply read_run_ok; auto.
  - eapply Forall_impl; [|exact A]. intros c H. now apply string_char_iff.
  - intros c B. eapply bool_false; [apply string_char_iff|]. pose proof (blank_no_word c B). tauto.
Qed.

Lemma read_int_ok w n d w' r : all_blank w -> 0 <= n -> decimal n d -> all_blank w' -> w' <> [] ->
  read_int (w ++ d ++ w' ++ r) = Ok (n, lstrip r).
Proof.
  intros W P D W' NW. unfold read_int.
  assert (DD : decimal_digits n d) by (inversion D; subst; [assumption|lia]).
  rewrite read_run_ok; auto.
  - cbn [bind]. now rewrite (int_decimal _ _ D).
  - destruct (decimal_solid _ _ D) as (N & _). exact N.
  - eapply Forall_impl; [|exact (decimal_digits_chars _ _ DD)]. intros c H. now apply digit_true.
  - intros c B. apply digit_false. pose proof (blank_no_word c B). tauto.
Qed.

Lemma read_token_ok w name r : all_blank w -> ~ In 62 name -> read_token (w ++ mark name ++ r) = Ok (name, r).
Proof.
  intros W N. unfold read_token. rewrite lstrip_blank by exact W. rewrite lstrip_stop.
  2:{ intros c t Q. injection Q as <- _. unfold blank. lia. }
  unfold mark. change (quote "<") with (lit "<"). rewrite <- !app_assoc, after_app.
  change (quote ">") with [62]. change (lit ">") with [62].
  now rewrite (cut_found _ _ _ _ (found_one 62 name r N)).
Qed.

Lemma read_token_lstrip s : read_token (lstrip s) = read_token s.
Proof.
  unfold read_token. destruct (lstrip_spec s) as (u & Q & U & B). now rewrite (lstrip_stop (lstrip s)) by exact B.
Qed.

Lemma strip_lstrip s : strip (lstrip s) = strip s.
Proof.
  unfold strip. destruct (lstrip_spec s) as (u & Q & U & B). now rewrite (lstrip_stop (lstrip s)) by exact B.
Qed.

Lemma digits1_ok a r : digits_text a -> (forall c t, r = c :: t -> ~ 48 <= c <= 57) -> digits1 (a ++ r) = Some (a, r).
Proof.
  intros (NE & A) R. unfold digits1. rewrite span_app.
  - destruct a; [now destruct NE|reflexivity].
  - eapply Forall_impl; [|exact A]. intros c H. now apply digit_true.
  - intros c t Q. apply digit_false. eapply R, Q.
Qed.

Lemma minus_digits_ok a r : signed_text a -> (forall c t, r = c :: t -> ~ 48 <= c <= 57) -> minus_digits (a ++ r) = Some (a, r).
Proof.
  intros [A|(t & -> & A)] R.
  - destruct a as [|c a]; [now destruct A|]. unfold minus_digits. cbn [app].
    destruct (Z.eqb_spec c 45) as [->|_].
    + exfalso. destruct A as (_ & A). inversion A; subst. lia.
    + change (c :: a ++ r) with ((c :: a) ++ r). now apply digits1_ok.
  - unfold minus_digits. cbn [app]. change (45 =? 45) with true. now rewrite (digits1_ok t r A R).
Qed.

Lemma signed_head a : signed_text a -> exists c t, a = c :: t /\ (48 <= c <= 57 \/ c = 45).
Proof.
  intros [(NE & A)|(t & -> & A)].
  - destruct a as [|c a]; [now destruct NE|]. inversion A; subst. exists c, a. auto.
  - exists 45, t. auto.
Qed.

Lemma headed_ok h p d r x : p (d ++ r) = Some x -> headed h p ((h :: d) ++ r) = Some (h :: Datatypes.fst x, snd x).
Proof. intros E. cbn [app headed]. rewrite Z.eqb_refl, E. destruct x; reflexivity. Qed.
Lemma headed_none h p r : (forall c t, r = c :: t -> c <> h) -> headed h p r = None.
Proof.
  intros R. destruct r as [|c r]; [reflexivity|]. cbn [headed]. destruct (Z.eqb_spec c h) as [Q|_]; [|reflexivity].
  exfalso. now apply (R c r).
Qed.

Lemma pieces_join : forall ls, ls <> [] -> Forall (fun l => ~ In 10 l) ls -> py_pieces 10 (join [10] ls) = ls.
Proof.
  unfold py_pieces. induction ls as [|l ls IH]; intros NE H; [now destruct NE|].
  inversion H as [|? ? A B]; subst. destruct ls as [|l2 ls].
  - cbn [join]. apply (pieces_none 10 l A).
  - change (join [10] (l :: l2 :: ls)) with (l ++ [10] ++ join [10] (l2 :: ls)).
    rewrite pieces_skip by exact A. cbn [app]. unfold pieces_from at 1. fold pieces_from.
    rewrite Z.eqb_refl. f_equal. apply IH; [discriminate|exact B].
Qed.

Lemma join_no c : forall ls, c <> 10 -> Forall (fun l => ~ In c l) ls -> ~ In c (join [10] ls).
Proof.
  intros ls NC H. induction H as [|l ls A H IH]; [easy|]. destruct ls as [|l2 ls]; [exact A|].
  change (join [10] (l :: l2 :: ls)) with (l ++ [10] ++ join [10] (l2 :: ls)).
  intros I. apply in_app_or in I. destruct I as [I|I]; [contradiction|]. apply in_app_or in I.
  destruct I as [[I|[]]|I]; [congruence|contradiction].
Qed.

(** * Numbers and matrices *)
Section Numbers.
Context {N : Type}.
Variable P : py_float N.
Variable bn_scale : N -> N -> N -> N.
Variable bn_offset : N -> N -> N.
Let number (s : str) (x : N) : Prop := n_parse P s = Some x.

Lemma parse_all_ok : forall fs r, Forall2 number fs r -> parse_all P fs = Ok r.
Proof.
  induction 1 as [|f x fs r Q H IH]; cbn [parse_all]; [reflexivity|].
  unfold py_parse. rewrite Q. cbn [bind]. now rewrite IH.
Qed.

Lemma rows_ok c : forall ls m, number_rows number ls m -> Forall (fun r => length r = c) m ->
  forall n acc, (acc = [] /\ n = 0) \/ (n = Z.of_nat c /\ 0 < n /\ acc <> [] /\ lenZ (hd [] acc) = n) ->
  exists n', for_each ls (fun '(row_num, rows) line =>
            if str_eqb (strip line) [] then Ok (row_num, rows)
            else
              row <- parse_all P (py_fields (strip line)) ;;
              if row_num =? 0 then Ok (lenZ (hd row rows), rows ++ [row])
              else if row_num =? lenZ row then Ok (row_num, rows ++ [row]) else Fault Throw) (n, acc) = Ok (n', acc ++ m).
Proof.
  induction 1 as [|l ls m B H IH|l ls fs r m R NE F H IH]; intros U n acc I.
  - exists n. cbn [for_each]. now rewrite app_nil_r.
  - cbn [for_each]. rewrite (strip_blank l B). cbn [str_eqb bind]. now apply IH.
  - cbn [for_each]. inversion U as [|? ? U1 U2]; subst.
    destruct fs as [|f fs]; [now destruct NE|].
    rewrite (str_eqb_neq (strip l) []) by (eapply row_not_blank, R).
    rewrite (fields_row _ _ (row_strip _ _ R)), (parse_all_ok _ _ F). cbn [bind].
    assert (LP : (0 < length r)%nat) by (inversion F; cbn [length]; lia).
    destruct I as [(-> & ->)|(-> & P0 & NA & HA)].
    + change (0 =? 0) with true. cbn [hd app bind].
      destruct (IH U2 (lenZ r) [r]) as (n' & E).
      { right. unfold lenZ. cbn [hd]. repeat split; [lia|discriminate]. }
      exists n'. exact E.
    + destruct (Z.eqb_spec (Z.of_nat (length r)) 0); [lia|].
      unfold lenZ at 1. rewrite Z.eqb_refl. cbn [bind].
      destruct (IH U2 (Z.of_nat (length r)) (acc ++ [r])) as (n' & E).
      { right. repeat split; auto.
        - destruct acc; discriminate.
        - destruct acc; [now destruct NA|exact HA]. }
      exists n'. rewrite E, <- app_assoc. reflexivity.
Qed.

Lemma read_matrix_ok m s rest : matrix_text number m s rest -> read_matrix P s = Ok (m, lstrip rest) /\ read_matrix P (lstrip s) = Ok (m, lstrip rest).
Proof.
  intros (w & ls & -> & W & NE & H & R & (c & U)).
  assert (G : read_matrix P (w ++ [91] ++ join [10] ls ++ [93] ++ rest) = Ok (m, lstrip rest)).
  { unfold read_matrix. rewrite lstrip_blank by exact W. rewrite lstrip_stop.
    2:{ intros d t Q. injection Q as <- _. unfold blank. lia. }
    change [91] with (lit "["). rewrite after_app. change (lit "]") with [93].
    rewrite (cut_found _ _ _ _ (found_one 93 (join [10] ls) rest (join_no 93 ls ltac:(lia) (Forall_impl _ (fun l => @proj2 _ _) H)))).
    rewrite (pieces_join ls NE (Forall_impl _ (fun l => @proj1 _ _) H)).
    destruct (rows_ok c ls m R U 0 []) as (n' & E); [now left|].
    match goal with |- bind ?x _ = _ => replace x with (Ok (n', m)) by (symmetry; exact E) end. reflexivity. }
  split; [exact G|]. unfold read_matrix in *. destruct (lstrip_spec (w ++ [91] ++ join [10] ls ++ [93] ++ rest)) as (u & Q & _ & B).
  rewrite (lstrip_stop _ B). exact G.
Qed.

Lemma read_float_ok x s rest : float_text number x s rest -> read_float P s = Ok (x, lstrip rest) /\ read_float P (lstrip s) = Ok (x, lstrip rest).
Proof.
  intros (w & a & b & e & w' & -> & W & W' & NW & A & HB & HE & NU).
  assert (BH : forall c t, w' ++ rest = c :: t -> blank c).
  { intros c t Q. destruct w' as [|d w']; [now destruct NW|]. cbn [app] in Q. injection Q as <- _. now inversion W'. }
  assert (G : read_float P (w ++ (a ++ b ++ e) ++ w' ++ rest) = Ok (x, lstrip rest)).
  { unfold read_float. rewrite lstrip_blank by exact W. rewrite lstrip_stop.
    2:{ intros c t Q. destruct (signed_head a A) as (d & u & -> & HD). cbn [app] in Q. injection Q as <- _. unfold blank. lia. }
    replace ((a ++ b ++ e) ++ w' ++ rest) with (a ++ b ++ e ++ w' ++ rest) by now rewrite <- !app_assoc.
    assert (EH : forall c t, e ++ w' ++ rest = c :: t -> c = 101 \/ blank c).
    { intros c t Q. destruct HE as [->|(d & -> & _)]; [right; eapply BH, Q|]. cbn [app] in Q. injection Q as <- _. now left. }
    rewrite minus_digits_ok; [|exact A|].
    2:{ intros c t Q. destruct HB as [->|(d & -> & _)]; [destruct (EH c t Q); [lia|unfold blank in *; lia]|].
        cbn [app] in Q. injection Q as <- _. lia. }
    assert (OB : optional (headed 46 digits1) (b ++ e ++ w' ++ rest) = (b, e ++ w' ++ rest)).
    { unfold optional. destruct HB as [->|(d & -> & D)].
      - cbn [app]. rewrite headed_none; [reflexivity|]. intros c t Q. destruct (EH c t Q); [lia|unfold blank in *; lia].
      - rewrite (headed_ok _ _ _ _ (d, e ++ w' ++ rest)); [reflexivity|]. apply digits1_ok; [exact D|].
        intros c t Q. destruct (EH c t Q); [lia|unfold blank in *; lia]. }
    rewrite OB.
    assert (OE : optional (headed 101 minus_digits) (e ++ w' ++ rest) = (e, w' ++ rest)).
    { unfold optional. destruct HE as [->|(d & -> & D)].
      - cbn [app]. rewrite headed_none; [reflexivity|]. intros c t Q. pose proof (BH c t Q). unfold blank in *. lia.
      - rewrite (headed_ok _ _ _ _ (d, w' ++ rest)); [reflexivity|]. apply minus_digits_ok; [exact D|].
        intros c t Q. pose proof (BH c t Q). unfold blank in *. lia. }
    rewrite OE. destruct (w' ++ rest) as [|c t] eqn:Q; [destruct w'; [now destruct NW|discriminate]|].
    rewrite (proj2 (space_iff c) (BH c t eq_refl)). unfold py_parse. rewrite NU. cbn [bind]. do 2 f_equal.
    rewrite <- Q. now apply lstrip_blank. }
  split; [exact G|]. unfold read_float in *. destruct (lstrip_spec (w ++ (a ++ b ++ e) ++ w' ++ rest)) as (u & Q & _ & B).
  rewrite (lstrip_stop _ B). exact G.
Qed.

Lemma transposed_ok m t : m <> [] -> transpose_of (n_zero P) m t -> transposed P m = Ok t.
Proof.
  intros NE (L & H). unfold transposed. destruct m as [|r m]; [now destruct NE|]. f_equal. cbn [hd] in L.
  set (g := fun j : nat => _). apply (nth_ext _ _ (g 0%nat) []).
  - now rewrite map_length, seq_length.
  - rewrite map_length, seq_length. intros n I. rewrite map_nth, seq_nth by exact I. rewrite H by lia. reflexivity.
Qed.

Lemma map2_combine (f : N -> N -> N) : forall a b, map (fun '(m, s) => f m s) (combine a b) = map2 f a b.
Proof. induction a as [|x a IH]; intros [|y b]; cbn [combine map map2]; [reflexivity..|]. now rewrite IH. Qed.

Lemma component_ok kind s l : component_text number (n_zero P) bn_scale bn_offset kind s l ->
  read_component P bn_scale bn_offset kind s = Ok l.
Proof.
  destruct 1 as [s a1 t1 W r1 a2 t2 b more r2 T F1 M1 NW F2 M2 TR|s
    |s a1 t1 eps r1 a2 t2 rms r2 a3 t3 mean more3 r3 a4 t4 var more4 r4 scale F1 M1 F2 M2 F3 M3 F4 M4 LE Q|s];
    unfold read_component; change lit with quote.
  - change (str_eqb (quote "NaturalGradientAffineComponent") (quote "NaturalGradientAffineComponent")) with true. cbn iota.
    rewrite (proj2 (goto_found _ _ _ _ F1)). cbn [bind]. rewrite (proj1 (read_matrix_ok _ _ _ M1)). cbn [bind].
    rewrite (proj1 (goto_found _ _ _ _ F2)). cbn [bind]. rewrite (proj1 (read_matrix_ok _ _ _ M2)). cbn [bind first_row].
    now rewrite (transposed_ok W T NW TR).
  - reflexivity.
  - change (str_eqb (quote "BatchNormComponent") (quote "NaturalGradientAffineComponent")) with false.
    change (str_eqb (quote "BatchNormComponent") (quote "RectifiedLinearComponent")) with false.
    change (str_eqb (quote "BatchNormComponent") (quote "BatchNormComponent")) with true. cbn iota.
    rewrite (proj2 (goto_found _ _ _ _ F1)). cbn [bind]. rewrite (proj1 (read_float_ok _ _ _ M1)). cbn [bind].
    rewrite (proj1 (goto_found _ _ _ _ F2)). cbn [bind]. rewrite (proj1 (read_float_ok _ _ _ M2)). cbn [bind].
    rewrite (proj1 (goto_found _ _ _ _ F3)). cbn [bind]. rewrite (proj1 (read_matrix_ok _ _ _ M3)). cbn [bind].
    rewrite (proj1 (goto_found _ _ _ _ F4)). cbn [bind]. rewrite (proj1 (read_matrix_ok _ _ _ M4)). cbn [bind first_row].
    unfold broadcast, lenZ. rewrite map_length, LE, Z.eqb_refl. cbn [bind]. rewrite map2_combine. now subst scale.
  - reflexivity.
Qed.

Lemma kind_chars kind s l : component_text number (n_zero P) bn_scale bn_offset kind s l -> ~ In 62 kind.
Proof. destruct 1; vm_compute; intuition discriminate. Qed.

Definition set_all (dict : list (bytes * layer N)) (cs : list (bytes * layer N)) : list (bytes * layer N) :=
  fold_left (fun d e => dict_set (Datatypes.fst e) (snd e) d) cs dict.

Lemma components_ok : forall s cs, components_text number (n_zero P) bn_scale bn_offset s cs ->
  forall fuel dict s', lstrip s' = lstrip s -> (length s' < fuel)%nat ->
  read_components P bn_scale bn_offset fuel dict s' = Ok (set_all dict cs).
Proof.
  induction 1 as [w W|w w1 name w2 kind t content rest l cs W W1 NM W2 NW F CT CS IH]; intros fuel dict s' Q L.
  - destruct fuel as [|fuel]; [lia|]. cbn [read_components].
    rewrite <- strip_lstrip, Q, strip_lstrip, (strip_blank w W). reflexivity.
  - destruct fuel as [|fuel]; [lia|]. cbn [read_components].
    set (s := w ++ mark (quote "ComponentName") ++ w1 ++ name ++ w2 ++ mark kind ++ t) in *.
    assert (T1 : forall x, read_token s = x -> read_token s' = x).
    { intros x <-. rewrite <- (read_token_lstrip s'), Q. apply read_token_lstrip. }
    assert (NB : str_eqb (strip s') [] = false).
    { apply str_eqb_neq. rewrite <- strip_lstrip, Q, strip_lstrip. intros E. apply strip_nil in E.
      unfold s in E. apply Forall_app in E. destruct E as (_ & E). inversion E as [|? ? B _]; subst. unfold blank in B. lia. }
    rewrite NB. rewrite (T1 _ (read_token_ok w (quote "ComponentName") _ W ltac:(vm_compute; intuition discriminate))). cbn [bind].
    change (str_eqb (quote "ComponentName") (lit "ComponentName")) with true. cbn [check bind].
    rewrite (read_string_ok w1 name w2 _ W1 NM W2 NW). cbn [bind]. rewrite read_token_lstrip.
    change (mark kind ++ t) with ([] ++ mark kind ++ t).
    rewrite (read_token_ok [] kind t (Forall_nil _) (kind_chars _ _ _ CT)). cbn [bind].
    change (lit "/" ++ kind) with (quote "/" ++ kind).
    rewrite (until_found _ _ _ _ F), (proj2 (goto_found _ _ _ _ F)). cbn [bind].
    rewrite (component_ok _ _ _ CT). cbn [bind].
    rewrite (IH fuel (dict_set name l dict) rest eq_refl).
    + reflexivity.
    + assert (LR : (length rest < length s')%nat).
      { destruct (lstrip_spec s') as (u' & Q1 & _). destruct (lstrip_spec s) as (u & Q2 & U & _).
        destruct F as (QF & _).
        assert (LS : (length (mark (quote "ComponentName") ++ w1 ++ name ++ w2 ++ mark kind ++ t) <= length (lstrip s))%nat).
        { unfold s. rewrite lstrip_blank by exact W. rewrite lstrip_stop; [lia|].
          intros c r0 Q3. injection Q3 as <- _. unfold blank. lia. }
        rewrite Q1, app_length, Q. rewrite QF in LS. rewrite !app_length in LS. cbn [length] in LS. 
        change (length (mark (quote "ComponentName"))) with 15%nat in LS. lia. }
      lia.
Qed.
End Numbers.

(** * The description *)

Lemma found_head pat c p a b : pat = c :: p -> ~ In c a -> found pat a b (a ++ pat ++ b).
Proof.
  intros Q N. split; [reflexivity|]. intros a' b' E.
  destruct (app_split _ _ _ _ E) as [(e & _ & ->)|(e & NE & Q2 & ->)]; [rewrite app_length; lia|].
  exfalso. destruct e as [|d e]; [now destruct NE|]. rewrite Q in Q2. cbn [app] in Q2. injection Q2 as <- _.
  apply N, in_or_app. right. now left.
Qed.

Lemma node_name_span p t : node_name p -> (forall c r, t = c :: r -> name_char c = false) -> span name_char (p ++ t) = (p, t).
Proof.
  intros (_ & A) T. apply span_app; [|exact T]. eapply Forall_impl; [|exact A]. intros c H. now apply name_char_iff.
Qed.

Lemma offset_at_name p t : node_name p -> (forall c r, t = c :: r -> name_char c = false /\ c <> 40) -> offset_at (p ++ t) = None.
Proof.
  intros NP T. unfold offset_at, after. destruct (prefix (lit "Offset(") (p ++ t)) eqn:E; [|reflexivity]. exfalso.
  apply prefix_iff in E. destruct E as (r & Q).
  change (lit "Offset(") with (quote "Offset" ++ [40]) in Q. rewrite <- app_assoc in Q.
  assert (S2 : span name_char (quote "Offset" ++ [40] ++ r) = (quote "Offset", [40] ++ r)) by reflexivity.
  rewrite <- Q, node_name_span in S2.
  - injection S2 as _ Q2. cbn [app] in Q2. destruct (T _ _ Q2) as (_ & H). now apply H.
  - exact NP.
  - intros c u Q2. now destruct (T _ _ Q2).
Qed.

Lemma decimal_signed k d : decimal k d -> signed_text d.
Proof.
  intros H. destruct H as [n s H|n s P0 H].
  - left. split; [|exact (decimal_digits_chars _ _ H)]. destruct (decimal_digits_head _ _ H) as (_ & c & r & -> & _). discriminate.
  - right. exists s. split; [reflexivity|]. split; [|exact (decimal_digits_chars _ _ H)].
    destruct (decimal_digits_head _ _ H) as (_ & c & r & -> & _). discriminate.
Qed.

Lemma offset_at_ok p gap d t : node_name p -> Forall (fun c => c = 32) gap -> signed_text d ->
  offset_at ((quote "Offset(" ++ p ++ quote "," ++ gap ++ d ++ quote ")") ++ t) = Some (p, d, t).
Proof.
  intros NP G S. unfold offset_at. change (quote "Offset(") with (lit "Offset("). rewrite <- !app_assoc, after_app.
  rewrite node_name_span; [|exact NP|]. 2:{ intros c r Q. injection Q as <- _. reflexivity. }
  destruct p as [|c0 p]; [now destruct NP|]. change (quote ",") with (lit ","). rewrite after_app.
  rewrite (span_app (fun c => c =? 32) gap).
  - rewrite minus_digits_ok; [|exact S|]. 2:{ intros c r Q. injection Q as <- _. lia. }
    change (quote ")") with (lit ")"). now rewrite after_app.
  - eapply Forall_impl; [|exact G]. intros c ->. reflexivity.
  - intros c r Q. destruct (signed_head d S) as (e & u & -> & H). cbn [app] in Q. injection Q as <- _.
    destruct (Z.eqb_spec e 32); [lia|reflexivity].
Qed.

(** What stands between two frames. *)
Definition gap_text (s : str) : Prop := all_blank s \/ exists u v, s = u ++ [44] ++ v /\ all_blank u /\ all_blank v.
Lemma gap_strip s : gap_text s -> strip s = [] \/ strip s = [44].
Proof.
  intros [B|(u & v & -> & U & V)]; [left; now apply strip_blank|right]. apply strip_shows.
  split; [exists u, v; auto|]. split.
  - intros c r Q. injection Q as <- _. unfold blank. lia.
  - intros c r Q. destruct r as [|x [|y r]]; [injection Q as <-; unfold blank; lia|discriminate|discriminate].
Qed.
Lemma gap_index p s : gap_text s -> field_index p s = Ok [].
Proof. intros G. unfold field_index. destruct (gap_strip s G) as [-> | ->]; reflexivity. Qed.
Lemma gap_chars s : gap_text s -> Forall (fun c => name_char c = false /\ c <> 40) s.
Proof.
  assert (B : forall u, all_blank u -> Forall (fun c => name_char c = false /\ c <> 40) u).
  { intros u U. eapply Forall_impl; [|exact U]. intros c BC. cbv beta. split; [|unfold blank in BC; lia].
    eapply bool_false; [apply name_char_iff|]. pose proof (blank_no_word c BC). tauto. }
  intros [H|(u & v & -> & U & V)]; [now apply B|]. apply Forall_app. split; [now apply B|]. constructor; [split; [reflexivity|lia]|now apply B].
Qed.

Lemma split_gap : forall g fuel cur s, Forall (fun c => name_char c = false /\ c <> 40) g ->
  split_inputs (length g + fuel) cur (g ++ s) = split_inputs fuel (cur ++ g) s.
Proof.
  induction g as [|c g IH]; intros fuel cur s H; [now rewrite app_nil_r|]. inversion H as [|? ? (A & B) H2]; subst.
  cbn [length Nat.add app split_inputs].
  assert (E : offset_at (c :: g ++ s) = None).
  { unfold offset_at, after. destruct (prefix (lit "Offset(") (c :: g ++ s)) eqn:E; [|reflexivity].
    apply prefix_iff in E. destruct E as (r & Q). change (lit "Offset(") with (79 :: quote "ffset(") in Q. cbn [app] in Q.
    injection Q as -> _. discriminate A. }
  rewrite E. cbn [span]. rewrite A, IH by exact H2. now rewrite <- app_assoc.
Qed.

Lemma offset_head p k s : node_name p -> offset_text p k s -> exists c r, s = c :: r /\ name_char c = true.
Proof.
  intros (N & A) [(_ & ->)|(d & gap & _ & _ & ->)].
  - destruct p as [|c p]; [now destruct N|]. exists c, p. inversion A; subst. split; [reflexivity|now apply name_char_iff].
  - exists 79. eexists. split; reflexivity.
Qed.

Lemma offset_solid p k s : node_name p -> offset_text p k s -> strip s = s.
Proof.
  intros (N & A) [(_ & ->)|(d & gap & D & G & ->)]; apply strip_shows.
  - apply solid_shows. split; [exact N|]. eapply Forall_impl; [|exact A]. intros c H B. cbv beta in *. pose proof (blank_no_word c B). tauto.
  - split; [exists [], []; rewrite app_nil_r; repeat split; constructor|]. split.
    + intros c r Q. injection Q as <- _. unfold blank. lia.
    + intros c r Q. rewrite !app_assoc in Q. apply app_inj_tail in Q. destruct Q as (_ & <-). unfold blank. vm_compute. intuition lia.
Qed.

Lemma offset_index p k s : node_name p -> offset_text p k s -> field_index p s = Ok [k].
Proof.
  intros NP O. unfold field_index. rewrite (offset_solid p k s NP O). destruct O as [(-> & ->)|(d & gap & D & G & ->)].
  - rewrite <- (app_nil_r p) at 1. rewrite offset_at_name; [|exact NP|discriminate].
    rewrite (str_eqb_neq p [44]), (str_eqb_neq p []).
    + cbn [orb]. now rewrite str_eqb_refl.
    + now destruct NP.
    + intros ->. destruct NP as (_ & A). inversion A as [|? ? B _]; subst. unfold in_words in B. lia.
  - rewrite <- (app_nil_r (quote "Offset(" ++ _)). rewrite (offset_at_ok p gap d [] NP G (decimal_signed _ _ D)).
    rewrite (int_decimal _ _ D). cbn [bind]. now rewrite str_eqb_refl.
Qed.

Lemma split_item p k s fuel cur t : node_name p -> offset_text p k s -> (forall c r, t = c :: r -> name_char c = false /\ c <> 40) ->
  split_inputs (S fuel) cur (s ++ t) = cur :: s :: split_inputs fuel [] t.
Proof.
  intros NP O T. destruct (offset_head p k s NP O) as (c0 & r0 & Q0 & _). cbn [split_inputs].
  rewrite Q0. cbn [app]. change (c0 :: r0 ++ t) with ((c0 :: r0) ++ t). rewrite <- Q0.
  destruct O as [(-> & ->)|(d & gap & D & G & ->)].
  - rewrite (offset_at_name p t NP T), node_name_span; [|exact NP|intros c r Q; now destruct (T _ _ Q)].
    destruct p; [now destruct NP|reflexivity].
  - rewrite (offset_at_ok p gap d t NP G (decimal_signed _ _ D)). f_equal. f_equal.
    set (x := quote "Offset(" ++ _). rewrite app_length, Nat.add_sub, firstn_app, firstn_all, Nat.sub_diag.
    cbn [firstn]. apply app_nil_r.
Qed.

Lemma offsets_ok p : node_name p -> forall ks s, offsets_text p ks s -> forall fuel cur acc,
  gap_text cur -> (exists u v, cur = u ++ v /\ all_blank v /\ (u = [] \/ exists w, u = w ++ [44] /\ all_blank w)) ->
  (length s < fuel)%nat ->
  for_each (split_inputs fuel cur s) (fun l field => i <- field_index p field ;; Ok (l ++ i)) acc = Ok (acc ++ ks).
Proof.
  intros NP. induction 1 as [w k s w' W W' O|w k s w' ks rest W W' O R IH]; intros fuel cur acc GC CU L.
  - assert (GW : gap_text (cur ++ w)).
    { destruct CU as (u & v & -> & V & [->|(x & -> & X0)]); [left; now apply Forall_app|].
      right. exists x, (v ++ w). rewrite <- !app_assoc. repeat split; [exact X0|now apply Forall_app]. }
    rewrite !app_length in L. destruct (offset_head p k s NP O) as (c0 & r0 & Q0 & _).
    assert (LS : (1 <= length s)%nat) by (rewrite Q0; cbn [length]; lia).
    replace fuel with (length w + S (length w' + S (fuel - length w - length w' - 2)))%nat by lia.
    rewrite split_gap by (apply gap_chars; now left).
    pose proof (gap_chars w' (or_introl W')) as GW'.
    rewrite (split_item p k s _ _ w' NP O).
    2:{ intros c r ->. now inversion GW'. }
    cbn [for_each bind]. rewrite (gap_index p _ GW). cbn [bind]. rewrite (offset_index p k s NP O). cbn [bind].
    match goal with |- context [split_inputs (length w' + ?f) [] w'] => pose proof (split_gap w' f [] [] GW') as E end.
    rewrite app_nil_r in E. rewrite E. cbn [split_inputs app for_each bind].
    rewrite (gap_index p w' (or_introl W')). cbn [bind for_each]. now rewrite !app_nil_r.
  - assert (GW : gap_text (cur ++ w)).
    { destruct CU as (u & v & -> & V & [->|(x & -> & X0)]); [left; now apply Forall_app|].
      right. exists x, (v ++ w). rewrite <- !app_assoc. repeat split; [exact X0|now apply Forall_app]. }
    rewrite !app_length in L. destruct (offset_head p k s NP O) as (c0 & r0 & Q0 & _).
    assert (LS : (1 <= length s)%nat) by (rewrite Q0; cbn [length]; lia).
    assert (G44 : gap_text (w' ++ quote ",")).
    { right. exists w', []. repeat split; [exact W'|constructor]. }
    replace fuel with (length w + S (length (w' ++ quote ",") + (fuel - length w - length (w' ++ quote ",") - 1)))%nat
      by (rewrite app_length; lia).
    rewrite split_gap by (apply gap_chars; now left).
    pose proof (gap_chars _ G44) as GC44.
    rewrite (split_item p k s _ _ (w' ++ quote "," ++ rest) NP O).
    2:{ intros c r Q. rewrite app_assoc in Q. rewrite Forall_forall in GC44. apply GC44.
        destruct (w' ++ quote ",") as [|y l] eqn:E; [destruct w'; discriminate|]. cbn [app] in Q. injection Q as <- _. now left. }
    cbn [for_each bind]. rewrite (gap_index p _ GW). cbn [bind]. rewrite (offset_index p k s NP O). cbn [bind].
    rewrite app_assoc. rewrite split_gap by exact GC44. cbn [app].
    rewrite (IH _ (w' ++ quote ",") _ G44).
    + rewrite !app_nil_r, <- app_assoc. reflexivity.
    + exists (w' ++ quote ","), []. rewrite app_nil_r. repeat split; [constructor|]. right. exists w'. now split.
    + rewrite app_length. lia.
Qed.

Lemma min_reach : forall l i, - Z.min (fold_left Z.min l i) 0 = reach_left (i :: l).
Proof.
  unfold reach_left. induction l as [|j l IH]; intros i; cbn [fold_left map fold_right].
  - lia.
  - specialize (IH (Z.min i j)). cbn [map fold_right] in IH. rewrite IH. lia.
Qed.
Lemma max_reach : forall l i, Z.max (fold_left Z.max l i) 0 = reach_right (i :: l).
Proof.
  unfold reach_right. induction l as [|j l IH]; intros i; cbn [fold_left fold_right].
  - lia.
  - specialize (IH (Z.max i j)). cbn [fold_right] in IH. rewrite IH. lia.
Qed.

Lemma offsets_some p ks s : offsets_text p ks s -> ks <> [].
Proof. destruct 1; discriminate. Qed.

Section Description.
Context {N : Type}.
(** The effect of a description on the state of the loop. *)
Definition names_of (n : bytes * option (list Z)) : list bytes :=
  match n with (c, Some _) => [c ++ lit "_splice"; c ++ lit "_narrow"; c] | (c, None) => [c] end.
Definition enter (dict : list (bytes * layer N)) (n : bytes * option (list Z)) : list (bytes * layer N) :=
  match n with
  | (c, Some ks) => dict_set (c ++ lit "_narrow") (Narrow (reach_left ks) (reach_right ks))
                      (dict_set (c ++ lit "_splice") (Splice ks) dict)
  | (_, None) => dict
  end.
Definition node_left (n : bytes * option (list Z)) : Z := match snd n with Some ks => reach_left ks | None => 0 end.
Definition node_right (n : bytes * option (list Z)) : Z := match snd n with Some ks => reach_right ks | None => 0 end.
Definition sumZ (l : list Z) : Z := fold_right Z.add 0 l.

Lemma label_no c s : label s -> ~ (in_words c \/ c = 46 \/ c = 45) -> ~ In c s.
Proof. intros (_ & A) H I. rewrite Forall_forall in A. now apply H, A. Qed.

Lemma strip_tail u t : strip (u ++ t) = u ++ t -> (exists c r, t = c :: r /\ ~ blank c) -> strip t = t.
Proof.
  intros Q (c & r & -> & B). apply strip_shows. destruct (strip_spec (u ++ c :: r)) as (_ & _ & E). rewrite Q in E.
  split; [exists [], []; rewrite app_nil_r; repeat split; constructor|]. split.
  - intros d r' Q2. injection Q2 as <- _. exact B.
  - intros d r' Q2. apply (E d (u ++ r')). now rewrite Q2, app_assoc.
Qed.

Lemma component_node_ok (d : @desc N) name comp input text : label name -> label comp -> label (d_prev d) -> input_text (d_prev d) input text ->
  let l := quote "component-node name=" ++ name ++ quote " component=" ++ comp ++ quote " input=" ++ text in
  strip l = l ->
  component_node d l =
  Ok (mk_desc (d_layers d ++ names_of (comp, input)) (enter (d_dict d) (comp, input)) comp
        (d_left d + node_left (comp, input)) (d_right d + node_right (comp, input))).
Proof.
  intros LN LC LP I l SL. subst l. unfold component_node. change (quote "component-node name=") with (lit "component-node name=").
  rewrite after_app. assert (N32 : ~ In 32 comp) by (apply (label_no _ _ LC); unfold in_words; lia).
  change (lit " component=") with (quote " component=").
  assert (N32' : ~ In 32 name) by (apply (label_no _ _ LN); unfold in_words; lia).
  rewrite (cut_found _ _ _ _ (found_head (quote " component=") 32 _ name _ eq_refl N32')).
  change (lit " input=") with (quote " input=").
  rewrite (cut_found _ _ _ _ (found_head (quote " input=") 32 _ comp text eq_refl N32)).
  assert (ST : strip text = text).
  { rewrite !app_assoc in SL. apply strip_tail in SL; [exact SL|]. destruct I as [|ks s NP OF].
    - destruct LP as (NE & A). destruct (d_prev d) as [|c r]; [now destruct NE|]. exists c, r. split; [reflexivity|].
      inversion A; subst. intros B. pose proof (blank_no_word c B). tauto.
    - exists 65. eexists. split; [reflexivity|]. unfold blank. lia. }
  rewrite ST. destruct I as [|ks s NP OF].
  - assert (NA : after (lit "Append(") (d_prev d) = None).
    { unfold after. destruct (prefix (lit "Append(") (d_prev d)) eqn:E; [|reflexivity]. exfalso.
      apply prefix_iff in E. destruct E as (r & Q). apply (label_no 40 _ LP); [unfold in_words; lia|].
      rewrite Q. apply in_or_app. left. vm_compute. tauto. }
    rewrite NA, str_eqb_refl. cbn [check bind names_of enter node_left node_right snd]. now rewrite !Z.add_0_r.
  - change (quote "Append(") with (lit "Append("). rewrite after_app. rewrite app_length. change (length (quote ")")) with 1%nat.
    rewrite Nat.add_sub. rewrite skipn_app, skipn_all, Nat.sub_diag. cbn [app skipn].
    rewrite firstn_app, firstn_all, Nat.sub_diag. cbn [firstn]. rewrite app_nil_r.
    change (quote ")") with (lit ")"). rewrite str_eqb_refl.
    rewrite (offsets_ok (d_prev d) NP ks s OF (S (length s)) [] []).
    + cbn [bind app]. pose proof (offsets_some _ _ _ OF) as NE. destruct ks as [|k ks]; [now destruct NE|].
      replace (0 <? lenZ (k :: ks)) with true by (symmetry; apply Z.ltb_lt; unfold lenZ; cbn [length]; lia).
      cbn [check bind py_min py_max]. rewrite min_reach, max_reach.
      cbn [d_layers d_dict d_prev d_left d_right names_of enter node_left node_right snd].
      now rewrite <- app_assoc.
    + left. constructor.
    + exists [], []. repeat split; [constructor|now left].
    + lia.
Qed.

Lemma fields_first f r c : Forall (fun c => ~ blank c) f -> f <> [] -> blank c ->
  exists fs, py_fields (f ++ c :: r) = f :: fs.
Proof.
  intros F NE B. unfold py_fields. rewrite fields_solid by exact F. cbn [app fields_from].
  rewrite (proj2 (space_iff c) B). destruct f; [now destruct NE|]. eexists. reflexivity.
Qed.

Lemma strip_idem s : strip (strip s) = strip s.
Proof. destruct (proj1 (shows_iff s (strip s)) (strip_spec s)) as (_ & H). now apply strip_shows. Qed.

Lemma desc_loop : forall p ls ns, nodes_text p ls ns -> forall L D lc rc, label p -> Forall (fun n => Datatypes.fst n = Datatypes.fst (snd n)) ns ->
  exists p', for_each ls (fun d line =>
    let l := strip line in
    match py_fields l with
    | [] => Ok d
    | kind :: _ =>
        if str_eqb kind (lit "component-node") then component_node d l
        else if str_eqb kind (lit "input-node") || str_eqb kind (lit "output-node") then Ok d
        else Fault Assert
    end) (mk_desc L D p lc rc) =
  Ok (mk_desc (L ++ flat_map names_of (map snd ns)) (fold_left enter (map snd ns) D) p' (lc + sumZ (map node_left (map snd ns))) (rc + sumZ (map node_right (map snd ns)))).
Proof.
  induction 1 as [prev|prev l ls ns B H IH|prev l kind fs ls ns R K H IH|prev l name comp input text ls ns LN LC I S H IH]; intros L D lc rc LP SN.
  - exists prev. cbn [for_each flat_map fold_left map sumZ fold_right]. now rewrite app_nil_r, !Z.add_0_r.
  - cbn [for_each]. rewrite (strip_blank l B). cbn [py_fields fields_from bind]. now apply IH.
  - cbn [for_each]. cbv zeta. rewrite (fields_row _ _ (row_strip _ _ R)).
    destruct (IH L D lc rc LP SN) as (p' & E). exists p'.
    destruct K as [-> | ->].
    + change (str_eqb (quote "input-node") (lit "component-node")) with false.
      change (str_eqb (quote "input-node") (lit "input-node")) with true. cbn [orb bind]. exact E.
    + change (str_eqb (quote "output-node") (lit "component-node")) with false.
      change (str_eqb (quote "output-node") (lit "input-node")) with false.
      change (str_eqb (quote "output-node") (lit "output-node")) with true. cbn [orb bind]. exact E.
  - cbn [for_each]. cbv zeta. pose proof (strip_shows _ _ S) as SL. rewrite SL.
    destruct (fields_first (quote "component-node") (quote "name=" ++ name ++ quote " component=" ++ comp ++ quote " input=" ++ text) 32) as (fs & E).
    { let x := eval vm_compute in (quote "component-node") in change (quote "component-node") with x.
      repeat (apply Forall_cons; [unfold blank; lia|]). apply Forall_nil. } { discriminate. } { unfold blank. lia. }
    change (quote "component-node" ++ 32 :: quote "name=" ++ name ++ quote " component=" ++ comp ++ quote " input=" ++ text)
      with (quote "component-node name=" ++ name ++ quote " component=" ++ comp ++ quote " input=" ++ text) in E.
    rewrite E. change (str_eqb (quote "component-node") (lit "component-node")) with true. cbn iota.
    rewrite (component_node_ok (mk_desc L D prev lc rc) name comp input text LN LC LP I) by (rewrite <- SL; apply strip_idem).
    cbn [bind d_layers d_dict d_prev d_left d_right].
    inversion SN as [|? ? SQ SN']; subst. cbn [Datatypes.fst snd] in SQ. subst name.
    destruct (IH (L ++ names_of (comp, input)) (enter D (comp, input)) (lc + node_left (comp, input)) (rc + node_right (comp, input)) LC SN') as (p' & E').
    exists p'. etransitivity; [exact E'|]. cbn [flat_map fold_left map sumZ fold_right snd]. rewrite <- app_assoc, <- !Z.add_assoc. reflexivity.
Qed.
End Description.

(** * The dictionary *)
Section Dictionary.
Context {N : Type}.

Lemma latest_none {V} k (cs : list (str * V)) : ~ In k (map Datatypes.fst cs) -> latest_word k cs = None.
Proof.
  unfold latest_word. induction cs as [|(a, l) cs IH]; cbn [map Datatypes.fst In latest]; intros H; [reflexivity|].
  rewrite IH by tauto. destruct (list_eq_dec Z.eq_dec k a) as [->|_]; [exfalso; tauto|reflexivity].
Qed.
Lemma latest_in {V} k v (cs : list (str * V)) : NoDup (map Datatypes.fst cs) -> In (k, v) cs -> latest_word k cs = Some v.
Proof.
  unfold latest_word. induction cs as [|(a, l) cs IH]; cbn [map Datatypes.fst In latest]; intros ND I; [easy|].
  inversion ND as [|? ? NI ND']; subst. destruct I as [Q|I].
  - injection Q as -> ->. pose proof (latest_none k cs NI) as E. unfold latest_word in E. rewrite E.
    destruct (list_eq_dec Z.eq_dec k k); congruence.
  - now rewrite (IH ND' I).
Qed.

Lemma set_all_get : forall (cs dict : list (bytes * layer N)) k,
  dict_get k (set_all dict cs) = match latest_word k cs with Some l => Some l | None => dict_get k dict end.
Proof.
  induction cs as [|(a, l) cs IH]; intros dict k; [reflexivity|].
  unfold set_all. cbn [fold_left Datatypes.fst snd]. specialize (IH (dict_set a l dict) k). unfold set_all in IH.
  etransitivity; [exact IH|]. unfold latest_word. cbn [latest].
  destruct (latest (list_eq_dec Z.eq_dec) k cs); [reflexivity|]. rewrite dict_get_set.
  destruct (list_eq_dec Z.eq_dec k a) as [->|NE].
  - now rewrite str_eqb_refl.
  - now rewrite (str_eqb_neq k a NE).
Qed.

Lemma splice_inj (c c' : bytes) : c ++ lit "_splice" = c' ++ lit "_splice" -> c = c'.
Proof. apply app_inv_tail. Qed.
Lemma narrow_inj (c c' : bytes) : c ++ lit "_narrow" = c' ++ lit "_narrow" -> c = c'.
Proof. apply app_inv_tail. Qed.
Lemma splice_narrow (c c' : bytes) : c ++ lit "_splice" <> c' ++ lit "_narrow".
Proof.
  intros Q. change (lit "_splice") with (lit "_splic" ++ [101]) in Q. change (lit "_narrow") with (lit "_narro" ++ [119]) in Q.
  rewrite !app_assoc in Q. apply app_inj_tail in Q. destruct Q as (_ & Q). discriminate.
Qed.

Lemma enter_other : forall ns (D : list (bytes * layer N)) k,
  (forall c ks, In (c, Some ks) ns -> k <> c ++ lit "_splice" /\ k <> c ++ lit "_narrow") ->
  dict_get k (fold_left enter ns D) = dict_get k D.
Proof.
  induction ns as [|(c, [ks|]) ns IH]; intros D k H; cbn [fold_left enter]; [reflexivity| |].
  - rewrite IH by (intros c' ks' I; apply (H c' ks'); now right).
    destruct (H c ks (or_introl eq_refl)) as (A & B).
    rewrite dict_get_set, (str_eqb_neq _ _ B), dict_get_set, (str_eqb_neq _ _ A). reflexivity.
  - apply IH. intros c' ks' I. apply (H c' ks'). now right.
Qed.

Lemma enter_at : forall ns (D : list (bytes * layer N)) c ks, NoDup (map Datatypes.fst ns) -> In (c, Some ks) ns ->
  dict_get (c ++ lit "_splice") (fold_left enter ns D) = Some (Splice ks) /\
  dict_get (c ++ lit "_narrow") (fold_left enter ns D) = Some (Narrow (reach_left ks) (reach_right ks)).
Proof.
  induction ns as [|(c0, i0) ns IH]; intros D c ks ND I; [easy|]. cbn [map Datatypes.fst] in ND.
  inversion ND as [|? ? NI ND']; subst. destruct I as [Q|I]; [|now apply IH].
  injection Q as -> ->. cbn [fold_left enter].
  assert (NE : forall c' ks', In (c', Some ks') ns -> c <> c').
  { intros c' ks' I2 <-. apply NI. apply in_map_iff. now exists (c, Some ks'). }
  split; rewrite enter_other.
  - rewrite dict_get_set, (str_eqb_neq _ _ (splice_narrow c c)), dict_get_set, str_eqb_refl. reflexivity.
  - intros c' ks' I2. split; [|apply splice_narrow]. intros Q. apply splice_inj in Q. now apply (NE _ _ I2).
  - rewrite dict_get_set, str_eqb_refl. reflexivity.
  - intros c' ks' I2. split; [intros Q; symmetry in Q; revert Q; apply splice_narrow|].
    intros Q. apply narrow_inj in Q. now apply (NE _ _ I2).
Qed.

Lemma pick_app : forall (dict : list (bytes * layer N)) a b la lb, pick dict a = Ok la -> pick dict b = Ok lb -> pick dict (a ++ b) = Ok (la ++ lb).
Proof.
  induction a as [|n a IH]; cbn [pick app]; intros b la lb A B.
  - injection A as <-. exact B.
  - destruct (dict_get n dict); [|discriminate]. destruct (pick dict a) eqn:E; [|discriminate]. cbn [bind] in *.
    injection A as <-. rewrite (IH _ _ _ eq_refl B). reflexivity.
Qed.

Lemma pick_nodes (dict : list (bytes * layer N)) layer_of : forall ns : list node,
  (forall c i, In (c, i) (map snd ns) -> dict_get c dict = Some (layer_of c)) ->
  (forall c ks, In (c, Some ks) (map snd ns) -> dict_get (c ++ lit "_splice") dict = Some (Splice ks) /\
     dict_get (c ++ lit "_narrow") dict = Some (Narrow (reach_left ks) (reach_right ks))) ->
  pick dict (flat_map names_of (map snd ns)) = Ok (flat_map block_layers (node_blocks layer_of ns)).
Proof.
  induction ns as [|(nm, (c, i)) ns IH]; intros A B; [reflexivity|].
  unfold node_blocks in *. cbn [flat_map map snd]. rewrite flat_map_app. apply pick_app.
  2:{ apply IH; [intros c' i' I; exact (A c' i' (or_intror I))|intros c' ks' I; exact (B c' ks' (or_intror I))]. }
  pose proof (A c i (or_introl eq_refl)) as AC. destruct i as [ks|]; cbn [names_of pick app flat_map block_layers].
  - destruct (B c ks (or_introl eq_refl)) as (-> & ->). now rewrite AC.
  - now rewrite AC.
Qed.

Lemma reach_left_pos ks : 0 <= reach_left ks.
Proof. unfold reach_left. induction ks; cbn [map fold_right]; lia. Qed.
Lemma reach_right_pos ks : 0 <= reach_right ks.
Proof. unfold reach_right. induction ks; cbn [fold_right]; lia. Qed.

Lemma list_sum_app2 a b : list_sum (a ++ b) = (list_sum a + list_sum b)%nat.
Proof. apply list_sum_app. Qed.

Lemma contexts_ok (layer_of : str -> layer N) : forall ns : list node,
  sumZ (map node_left (map snd ns)) = Z.of_nat (left_context (node_blocks layer_of ns)) /\
  sumZ (map node_right (map snd ns)) = Z.of_nat (right_context (node_blocks layer_of ns)).
Proof.
  unfold left_context, right_context, node_blocks.
  induction ns as [|(nm, (c, i)) ns (A & B)]; [split; reflexivity|]. cbn [map flat_map snd]. rewrite !map_app, !list_sum_app.
  unfold sumZ in *. cbn [fold_right]. rewrite A, B. destruct i as [ks|]; unfold node_left, node_right; cbn [snd map block_left block_right list_sum fold_right app].
  - pose proof (reach_left_pos ks). pose proof (reach_right_pos ks). rewrite !Nat2Z.inj_add, !Z2Nat.id by assumption. cbn [Z.of_nat]. lia.
  - lia.
Qed.
End Dictionary.

(** * Checking and writing *)
Lemma fits_len n : 0 <= n <= 2147483647 -> fits 4 n.
Proof. unfold fits. change (2 ^ (8 * Z.of_nat 4 - 1)) with 2147483648. lia. Qed.

Section Writing.
Context {N : Type}.
Variable P : py_float N.
Variable bn_scale : N -> N -> N -> N.
Variable bn_offset : N -> N -> N.
Let number (s : str) (x : N) : Prop := n_parse P s = Some x.
Let stored (x : N) (w : Z) : Prop := n_pack P x = Some w.

Lemma verify_ok ls : columns_agree (N := N) None ls -> verify ls = Ok tt.
Proof.
  intros H. unfold verify.
  assert (G : forall c ls, columns_agree (N := N) c ls -> exists d, for_each ls (fun d l =>
    match d, input_dim l with
    | Some have, Some want => if have =? want then Ok (output_dim l d) else Fault Throw
    | _, _ => Ok (output_dim l d)
    end) (option_map Z.of_nat c) = Ok d).
  { clear. induction 1 as [c|c W b ls A H IH|c idx ls H IH|c l ls K H IH].
    - eexists. reflexivity.
    - cbn [for_each input_dim]. destruct c as [k|]; cbn [option_map].
      + rewrite (A k eq_refl). unfold lenZ at 1. rewrite Z.eqb_refl. cbn [bind]. exact IH.
      + cbn [bind]. exact IH.
    - cbn [for_each input_dim]. destruct c as [k|]; cbn [option_map output_dim bind] in *; [|exact IH].
      rewrite Nat2Z.inj_mul in IH. exact IH.
    - cbn [for_each]. assert (E : input_dim l = None) by (destruct l; easy). rewrite E.
      assert (E2 : forall d, output_dim l d = d) by (destruct l; easy). rewrite E2.
      destruct c; cbn [option_map bind] in *; exact IH. }
  destruct (G None ls H) as (d & E). cbn [option_map] in E.
  match goal with |- bind ?x _ = _ => replace x with (Ok d) by (symmetry; exact E) end. reflexivity.
Qed.

Lemma write_vector_ok v v' : Forall2 stored v v' -> storable v' -> write_vector P v = Ok (vector_file v').
Proof.
  intros H (NE & FI & L). apply write_vec_words; [|exact L]. clear NE L.
  induction H as [|x w v v' S H IH]; [constructor|]. inversion FI; subst. constructor; [|now apply IH].
  unfold pack_float. rewrite S. now apply pack_int_word.
Qed.

Lemma write_matrix_ok m m' : Forall2 (Forall2 stored) m m' -> storable_matrix m' -> write_matrix P m = Ok (matrix_file m').
Proof.
  intros H (NE & FS & (c & U) & L). unfold write_matrix.
  destruct H as [|r r' m m' R H]; [now destruct NE|].
  assert (LM : lenZ (r :: m) = Z.of_nat (length (r' :: m'))) by (unfold lenZ; cbn [length]; now rewrite (Forall2_len _ _ _ _ _ H)).
  assert (LR : lenZ r = Z.of_nat (length (hd [] (r' :: m')))) by (unfold lenZ; cbn [hd]; now rewrite (Forall2_len _ _ _ _ _ R)).
  inversion FS as [|? ? S1 S2]; subst.
  assert (B1 : 1 <= Z.of_nat (length r')).
  { destruct S1 as (N1 & _). destruct r'; [now destruct N1|cbn [length]; lia]. }
  cbn [hd] in L. rewrite LM, LR, (pack_int_word (Z.of_nat (length (r' :: m')))).
  2:{ apply fits_len. split; [lia|]. nia. }
  cbn [bind hd]. rewrite (pack_int_word (Z.of_nat (length r'))).
  2:{ apply fits_len. split; [lia|]. cbn [length] in L. nia. }
  cbn [bind]. rewrite (write_all_flat (write_vector P) vector_file (r :: m) (r' :: m')).
  - reflexivity.
  - clear - R H FS. assert (H2 : Forall2 (Forall2 stored) (r :: m) (r' :: m')) by now constructor. revert H2 FS.
    generalize (r :: m) (r' :: m'). clear. intros a b H. induction H as [|x y a b Q H IH]; intros FS; [constructor|].
    inversion FS; subst. constructor; [now apply write_vector_ok|now apply IH].
Qed.

Lemma write_layer_ok l l' : stored_layer stored l l' -> storable_layer l' -> write_layer P l = Ok (layer_file l').
Proof.
  intros H S. unfold write_layer.
  assert (K : pack_int (layer_type l) = Ok (word (layer_type l))).
  { apply pack_int_word. apply fits_len. destruct l; cbn [layer_type]; lia. }
  rewrite K. cbn [bind]. destruct H as [W b W' b' HW HB| | | |idx|s o s' o' HS HO| |l r]; cbn [storable_layer] in S; try reflexivity.
  - destruct S as (SW & SB). rewrite (write_matrix_ok _ _ HW SW). cbn [bind]. now rewrite (write_vector_ok _ _ HB SB).
  - destruct S as (FI & L). unfold lenZ. rewrite pack_int_word by (apply fits_len; lia). cbn [bind].
    rewrite (write_all_flat pack_int word idx idx); [reflexivity|]. clear - FI.
    induction FI; constructor; [now apply pack_int_word|assumption].
  - destruct S as (SS & SO). rewrite (write_vector_ok _ _ HS SS). cbn [bind]. now rewrite (write_vector_ok _ _ HO SO).
  - destruct S as (SL & SR). rewrite (pack_int_word l SL). cbn [bind]. now rewrite (pack_int_word r SR).
Qed.

Lemma write_network_ok l r ls ls' : Forall2 (stored_layer stored) ls ls' -> Forall storable_layer ls' ->
  fits 4 l -> fits 4 r -> Z.of_nat (length ls) <= 2147483647 -> write_network P l r ls = Ok (network_file l r ls').
Proof.
  intros H S FL FR L. unfold write_network. rewrite (pack_int_word l FL), (pack_int_word r FR). cbn [bind].
  unfold lenZ. rewrite pack_int_word by (apply fits_len; lia). cbn [bind].
  rewrite (write_all_flat (write_layer P) layer_file ls ls').
  - cbn [bind]. unfold network_file. now rewrite (Forall2_len _ _ _ _ _ H).
  - clear L FL FR. induction H; [constructor|]. inversion S; subst. constructor; [now apply write_layer_ok|now apply IHForall2].
Qed.

Lemma universal_none s : ~ In 13 s -> universal s = s.
Proof. intros H. rewrite <- (app_nil_r s) at 1. rewrite universal_line by exact H. cbn [universal]. apply app_nil_r. Qed.

Lemma convert_am_ok nodes comps prior s (layer_of : str -> layer N) ls' prior' :
  model_text number (n_zero P) bn_scale bn_offset nodes comps prior s -> ~ In 13 s ->
  Forall (fun n => Datatypes.fst n = Datatypes.fst (snd n)) nodes ->
  NoDup (map Datatypes.fst (map snd nodes)) -> NoDup (map Datatypes.fst comps) ->
  (forall c i, In (c, i) (map snd nodes) -> In (c, layer_of c) comps) ->
  (forall c ks, In (c, Some ks) (map snd nodes) ->
     ~ In (c ++ quote "_splice") (map Datatypes.fst comps) /\ ~ In (c ++ quote "_narrow") (map Datatypes.fst comps)) ->
  let blocks := node_blocks layer_of nodes in
  let ls := flat_map block_layers blocks in
  columns_agree None ls -> Forall2 (stored_layer stored) ls ls' -> Forall storable_layer ls' ->
  Forall2 stored prior prior' -> storable prior' ->
  Z.of_nat (left_context blocks) <= 2147483647 -> Z.of_nat (right_context blocks) <= 2147483647 ->
  Z.of_nat (length ls) <= 2147483647 ->
  convert_am P bn_scale bn_offset s =
  Ok (network_file (Z.of_nat (left_context blocks)) (Z.of_nat (right_context blocks)) ls', vector_file prior').
Proof.
  intros (a1 & t1 & body & r1 & lines & t2 & w & n & d & w' & cs & a3 & t3 & more & r3 & F1 & F2 & NL & L10 & F3 & NT & Q2 & BW & BW' & NW & PN & DN & CT & F4 & MP)
    N13 SN ND1 ND2 CO FR blocks ls CA ST SB SP SBP FL FRR LL.
  unfold convert_am. rewrite (universal_none s N13). cbv zeta. unfold read_nnet. change lit with quote.
  rewrite (proj2 (goto_found _ _ _ _ F1)). cbn [bind]. rewrite (until_found _ _ _ _ F2). cbn [bind].
  rewrite (until_found _ _ _ _ F3). cbn [bind]. rewrite (proj2 (goto_found _ _ _ _ F3)). cbn [bind].
  rewrite Q2, (read_int_ok w n d w' cs BW PN DN BW' NW). cbn [bind].
  assert (EP : exists p', parse_desc (N := N) (join [10] lines) =
    Ok (mk_desc (flat_map names_of (map snd nodes)) (fold_left enter (map snd nodes) []) p' (0 + sumZ (map node_left (map snd nodes))) (0 + sumZ (map node_right (map snd nodes))))).
  { destruct (desc_loop (N := N) (quote "input") lines nodes NT [] [] 0 0) as (p' & E).
    { split; [discriminate|]. let x := eval vm_compute in (quote "input") in change (quote "input") with x.
      repeat (apply Forall_cons; [unfold in_words; lia|]). apply Forall_nil. }
    { exact SN. }
    exists p'. unfold parse_desc. rewrite (pieces_join lines NL L10). exact E. }
  destruct EP as (p' & EP). rewrite EP.
  cbn [bind d_layers d_dict d_left d_right app].
  assert (EC : read_components P bn_scale bn_offset (S (length (lstrip cs))) (fold_left enter (map snd nodes) []) (lstrip cs)
               = Ok (set_all (fold_left enter (map snd nodes) []) comps)).
  { apply (components_ok P bn_scale bn_offset cs comps CT); [|lia].
    destruct (lstrip_spec cs) as (u & _ & _ & B). now apply lstrip_stop. }
  match goal with |- context [read_components P ?a ?b ?f ?dd ?t] =>
    replace (read_components P a b f dd t) with (Ok (set_all (fold_left enter (map snd nodes) []) comps)) by (symmetry; exact EC) end.
  cbn [bind].
  rewrite (pick_nodes (set_all (fold_left enter (map snd nodes) []) comps) layer_of nodes).
  - cbn [bind]. destruct (contexts_ok layer_of nodes) as (CL & CR). rewrite CL, CR, !Z.add_0_l.
    rewrite (proj2 (goto_found _ _ _ _ F4)). cbn [bind]. rewrite (proj1 (read_matrix_ok P bn_scale bn_offset _ _ _ MP)). cbn [bind first_row].
    fold blocks. fold ls. rewrite (verify_ok ls CA). cbn [bind].
    rewrite (write_network_ok _ _ ls ls' ST SB) by (try exact LL; apply fits_len; lia). cbn [bind].
    now rewrite (write_vector_ok _ _ SP SBP).
  - intros c i I. rewrite set_all_get, (latest_in c (layer_of c) comps ND2 (CO c i I)). reflexivity.
  - intros c ks I. destruct (FR c ks I) as (A & B). destruct (enter_at (map snd nodes) (@nil (bytes * layer N)) c ks ND1 I) as (E1 & E2).
    rewrite !set_all_get. change lit with quote in *. now rewrite (latest_none _ _ A), (latest_none _ _ B).
Qed.
End Writing.
