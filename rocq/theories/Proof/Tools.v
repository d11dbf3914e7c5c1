(** Lemmas on the scripts that make tables of transitions and language models. *)
From Coq Require Import ZArith String List Bool Lia.
From Verif.Base Require Import Prelude Lemmas.
From Verif.Model Require Import Util File Vector Stt Python Tools SymbolTable.
From Verif.Spec Require Import TextSpec AudioSpec FormatSpec ToolSpec.
From Verif.Proof Require Import Text Lines Number Loop Python.
Import ListNotations.
Open Scope Z_scope.
Ltac Zify.zify_post_hook ::= Z.div_mod_to_equations.

Lemma write_vec_words {A} (f : A -> res bytes) (l : list A) (v : list Z) :
  Forall2 (fun a w => f a = Ok (word w)) l v -> Z.of_nat (length v) * 4 + 4 <= 2147483647 ->
  write_vec f l = Ok (vector_file v).
Proof.
  intros H L. pose proof (Forall2_len _ _ _ _ _ H) as E. unfold write_vec, lenZ. rewrite E.
  rewrite !pack_int_word by (unfold fits; change (2 ^ (8 * Z.of_nat 4 - 1)) with 2147483648; lia).
  cbn [bind]. rewrite (write_all_flat f word l v H). cbn [bind]. reflexivity.
Qed.

Lemma write_vec_ints v : storable v -> write_vec pack_int v = Ok (vector_file v).
Proof.
  intros (_ & F & L). apply write_vec_words; [|exact L]. clear L.
  induction F; constructor; [now apply pack_int_word|assumption].
Qed.

(** * Transitions *)

Lemma pair_fields l e : pair_line l e -> exists a b,
  py_fields (strip l) = [a; b] /\ py_int b = Ok (snd e) /\ py_int a = Ok (Datatypes.fst e).
Proof.
  intros (a & b & A & B & R). exists a, b. rewrite (fields_row _ _ (row_strip _ _ R)).
  now rewrite (int_decimal _ _ A), (int_decimal _ _ B).
Qed.

Definition trans_step (m : list Z) (line : bytes) : res (list Z) :=
  match py_fields line with
  | [tid; pdf] => p <- py_int pdf ;; t <- py_int tid ;; py_set m t p
  | _ => Fault Throw
  end.

Lemma trans_loop : forall rest entries, Forall2 pair_line rest entries ->
  forall m, Forall (fun e => 0 <= Datatypes.fst e < lenZ m) entries ->
  exists m', for_each (map strip rest) trans_step m = Ok m' /\ length m' = length m /\
    forall i, (i < length m)%nat ->
      nth i m' 0 = match latest_id (Z.of_nat i) entries with Some p => p | None => nth i m 0 end.
Proof.
  induction 1 as [|l e rest entries PL H IH]; intros m R.
  - exists m. repeat split.
  - inversion R as [|? ? R0 R1]; subst. destruct (pair_fields _ _ PL) as (a & b & Q & B & A).
    cbn [map for_each]. unfold trans_step at 1. rewrite Q, B. cbn [bind]. rewrite A. cbn [bind].
    rewrite py_set_ok by exact R0. cbn [bind].
    destruct (IH (upd m (Z.to_nat (Datatypes.fst e)) (snd e))) as (m' & E & L & V).
    { rewrite lenZ_upd. exact R1. }
    exists m'. rewrite upd_length in *. repeat split; [exact E|exact L|].
    intros i I. rewrite V by exact I. unfold latest_id. cbn [latest]. destruct e as (t, p). cbn [Datatypes.fst snd] in *.
    destruct (latest Z.eq_dec (Z.of_nat i) entries); [reflexivity|].
    unfold lenZ in R0. rewrite nth_upd by lia. destruct (Z.eq_dec (Z.of_nat i) t) as [Q2|Q2].
    + subst t. rewrite Nat2Z.id, Nat.eqb_refl. reflexivity.
    + destruct (Nat.eqb_spec (Z.to_nat t) i); [lia|]. reflexivity.
Qed.

Lemma convert_trans_ok num_pdfs max_id entries ls content :
  text_file ls content -> listing num_pdfs max_id entries ls ->
  Forall (fun e => 0 <= Datatypes.fst e <= max_id) entries -> 0 <= max_id ->
  storable (table_of max_id entries) ->
  convert_trans content = Ok (vector_file (table_of max_id entries)).
Proof.
  intros T (l0 & l1 & rest & a & b & -> & A & R0 & B & R1 & P) R M S.
  unfold convert_trans. rewrite (lines_of _ _ T). cbn [map].
  rewrite (row_single _ _ R0), (row_single _ _ R1), (int_decimal _ _ A), (int_decimal _ _ B). cbn [bind].
  destruct (trans_loop rest entries P (repeat 0 (Z.to_nat (max_id + 1)))) as (m' & E & L & V).
  { eapply Forall_impl; [|exact R]. unfold lenZ. rewrite repeat_length. intros e H. cbv beta in *. lia. }
  fold trans_step. rewrite E. cbn [bind]. rewrite repeat_length in *.
  replace m' with (table_of max_id entries); [now apply write_vec_ints|].
  apply (nth_ext _ _ 0 0).
  - unfold table_of. rewrite map_length, seq_length. lia.
  - unfold table_of at 1. rewrite map_length, seq_length. intros i I. rewrite V by exact I.
    unfold table_of. set (g := fun i => _).
    rewrite (nth_indep _ 0 (g 0%nat)) by (rewrite map_length, seq_length; exact I).
    rewrite map_nth, seq_nth by exact I. unfold g. cbn [Nat.add].
    destruct (latest_id (Z.of_nat i) entries); [reflexivity|]. symmetry. apply nth_repeat.
Qed.

(** A transition behind the announced ones. *)
Lemma trans_loop_fails : forall rest entries, Forall2 pair_line rest entries ->
  forall m, Exists (fun e => lenZ m <= Datatypes.fst e) entries -> Forall (fun e => 0 <= Datatypes.fst e) entries ->
  for_each (map strip rest) trans_step m = Fault Throw.
Proof.
  induction 1 as [|l e rest entries PL H IH]; intros m X N; [inversion X|].
  inversion N as [|? ? N0 N1]; subst. destruct (pair_fields _ _ PL) as (a & b & Q & B & A).
  cbn [map for_each]. unfold trans_step at 1. rewrite Q, B. cbn [bind]. rewrite A. cbn [bind].
  destruct (Z_lt_dec (Datatypes.fst e) (lenZ m)) as [L|L].
  - rewrite py_set_ok by lia. cbn [bind]. apply IH; [|exact N1]. rewrite lenZ_upd.
    inversion X; subst; [lia|assumption].
  - unfold py_set. destruct (Z.ltb_spec (Datatypes.fst e) 0); [lia|].
    destruct (Z.ltb_spec (Datatypes.fst e) (lenZ m)); [lia|]. now rewrite andb_false_r.
Qed.

Lemma convert_trans_unannounced num_pdfs max_id entries ls content :
  text_file ls content -> listing num_pdfs max_id entries ls ->
  Forall (fun e => 0 <= Datatypes.fst e) entries -> 0 <= max_id ->
  Exists (fun e => max_id < Datatypes.fst e) entries ->
  convert_trans content = Fault Throw.
Proof.
  intros T (l0 & l1 & rest & a & b & -> & A & R0 & B & R1 & P) R M S.
  unfold convert_trans. rewrite (lines_of _ _ T). cbn [map].
  rewrite (row_single _ _ R0), (row_single _ _ R1), (int_decimal _ _ A), (int_decimal _ _ B). cbn [bind].
  fold trans_step. rewrite (trans_loop_fails rest entries P); [reflexivity| |exact R].
  eapply Exists_impl; [|exact S]. unfold lenZ. rewrite repeat_length. intros e H. cbv beta in *. lia.
Qed.

(** The program that lists the transitions. *)
Fixpoint numbered (i : Z) (pdfs : list Z) : list (Z * Z) :=
  match pdfs with [] => [] | p :: pdfs => (i, p) :: numbered (i + 1) pdfs end.

Lemma printed_line z : one_line (to_string z) /\ solid (to_string z).
Proof.
  pose proof (decimal_solid _ _ (to_string_decimal z)) as S. split; [|exact S].
  destruct S as (_ & S). rewrite Forall_forall in S. split; intros I; apply (S _ I); unfold blank; lia.
Qed.

Lemma row_pair a b : solid a -> solid b -> row (a ++ [32] ++ b) [a; b].
Proof.
  intros A B. change (row ([] ++ a ++ ([32] ++ b)) [a; b]). constructor; [constructor|exact A| |].
  - rewrite <- (app_nil_r b) at 1. constructor; [constructor; [unfold blank; lia|constructor]|exact B| |discriminate].
    constructor. constructor.
  - cbn [app]. intros c r [= <- _]. unfold blank. lia.
Qed.

Lemma print_lines : forall pdfs i, exists ls, text_file ls (print_pdfs i pdfs) /\ Forall2 pair_line ls (numbered i pdfs).
Proof.
  induction pdfs as [|p pdfs IH]; intros i; cbn [print_pdfs numbered].
  - exists []. split; constructor.
  - destruct (IH (i + 1)) as (ls & T & H). exists ((to_string i ++ [32] ++ to_string p) :: ls).
    destruct (printed_line i) as ((I1 & I2) & SI). destruct (printed_line p) as ((P1 & P2) & SP). split.
    + replace (to_string i ++ [32] ++ to_string p ++ [10] ++ print_pdfs (i + 1) pdfs)
        with ((to_string i ++ [32] ++ to_string p) ++ [10] ++ print_pdfs (i + 1) pdfs) by now rewrite <- !app_assoc.
      constructor; [|exact T].
      split; intros I; apply in_app_or in I; destruct I as [I|I]; try contradiction;
        apply in_app_or in I; destruct I as [[I|[]]|I]; try contradiction; discriminate.
    + constructor; [|exact H]. exists (to_string i), (to_string p). cbn [Datatypes.fst snd].
      repeat split; try apply to_string_decimal. now apply row_pair.
Qed.

Lemma latest_numbered : forall pdfs i n, latest_id (i + Z.of_nat n) (numbered i pdfs) = nth_error pdfs n.
Proof.
  unfold latest_id. assert (B : forall pdfs i j, j < i -> latest Z.eq_dec j (numbered i pdfs) = None).
  { induction pdfs as [|p pdfs IH]; intros i j L; cbn [numbered latest]; [reflexivity|].
    rewrite IH by lia. destruct (Z.eq_dec j i); [lia|reflexivity]. }
  induction pdfs as [|p pdfs IH]; intros i n; cbn [numbered latest]; [now destruct n|].
  destruct n as [|n]; cbn [nth_error].
  - rewrite B by lia. destruct (Z.eq_dec (i + Z.of_nat 0) i); [reflexivity|lia].
  - replace (i + Z.of_nat (S n)) with (i + 1 + Z.of_nat n) by lia. rewrite IH.
    destruct (nth_error pdfs n); [reflexivity|]. destruct (Z.eq_dec (i + 1 + Z.of_nat n) i); [lia|reflexivity].
Qed.

Lemma table_numbered pdfs : table_of (lenZ pdfs - 1) (numbered 0 pdfs) = pdfs.
Proof.
  unfold table_of, lenZ. replace (Z.to_nat (Z.of_nat (length pdfs) - 1 + 1)) with (length pdfs) by lia.
  apply (nth_ext _ _ 0 0).
  - now rewrite map_length, seq_length.
  - rewrite map_length, seq_length. intros i I. set (g := fun i => _).
    rewrite (nth_indep _ 0 (g 0%nat)) by (rewrite map_length, seq_length; exact I).
    rewrite map_nth, seq_nth by exact I. unfold g. cbn [Nat.add].
    change (Z.of_nat i) with (0 + Z.of_nat i). rewrite latest_numbered.
    rewrite (nth_error_nth' _ 0 I). reflexivity.
Qed.

Lemma extracted_listing num_pdfs pdfs : exists ls,
  text_file ls (extract_id2pdf num_pdfs pdfs) /\ listing num_pdfs (lenZ pdfs - 1) (numbered 0 pdfs) ls.
Proof.
  destruct (print_lines pdfs 0) as (ls & T & H).
  exists (to_string num_pdfs :: to_string (lenZ pdfs - 1) :: ls). split.
  - unfold extract_id2pdf. constructor; [apply printed_line|]. constructor; [apply printed_line|exact T].
  - exists (to_string num_pdfs), (to_string (lenZ pdfs - 1)), ls, (to_string num_pdfs), (to_string (lenZ pdfs - 1)).
    repeat split; try apply to_string_decimal; try (apply row_one; apply printed_line). exact H.
Qed.

Lemma numbered_range : forall pdfs i, Forall (fun e => i <= Datatypes.fst e <= i + lenZ pdfs - 1) (numbered i pdfs).
Proof.
  induction pdfs as [|p pdfs IH]; intros i; cbn [numbered]; [constructor|].
  unfold lenZ in *. cbn [length]. constructor; [cbn [Datatypes.fst]; lia|].
  eapply Forall_impl; [|apply IH]. intros e H. cbv beta in *. lia.
Qed.

Lemma extract_convert num_pdfs pdfs : storable pdfs ->
  convert_trans (extract_id2pdf num_pdfs pdfs) = Ok (vector_file pdfs).
Proof.
  intros S. destruct (extracted_listing num_pdfs pdfs) as (ls & T & L).
  pose proof (table_numbered pdfs) as Q. rewrite <- Q at 2.
  eapply convert_trans_ok; [exact T|exact L| | |now rewrite Q].
  - eapply Forall_impl; [|apply numbered_range]. intros e H. cbv beta in *. lia.
  - destruct S as (N & _). destruct pdfs; [now destruct N|]. unfold lenZ. cbn [length]. lia.
Qed.

(** * Language models *)

Lemma for_each_app {S I} (body : S -> I -> res S) : forall a b s,
  for_each (a ++ b) body s = bind (for_each a body s) (for_each b body).
Proof.
  induction a as [|x a IH]; intros b s; cbn [app for_each]; [reflexivity|].
  destruct (body s x) as [s'|f]; cbn [bind]; [apply IH|reflexivity].
Qed.

Lemma count_one (c : Z) : forall t, count_occ Z.eq_dec t c = 1%nat ->
  exists a b, t = a ++ [c] ++ b /\ ~ In c a /\ ~ In c b.
Proof.
  induction t as [|d t IH]; cbn [count_occ]; [discriminate|]. destruct (Z.eq_dec d c) as [->|N]; intros H.
  - exists [], t. repeat split; [easy|]. apply (count_occ_not_In Z.eq_dec). lia.
  - destruct (IH H) as (a & b & -> & A & B). exists (d :: a), b. repeat split; [|exact B].
    intros [E|I]; [now apply N|contradiction].
Qed.

Lemma strip_count l : count_line l -> exists a b, strip l = a ++ [61] ++ b /\ ~ In 61 a /\ ~ In 61 b.
Proof.
  intros (a & b & -> & A & B). apply count_one.
  destruct (strip_spec (a ++ [61] ++ b)) as ((u & v & Q & U & V) & _).
  assert (NB : forall w, all_blank w -> count_occ Z.eq_dec w 61 = 0%nat).
  { intros w W. apply count_occ_not_In. intros I. eapply Forall_forall in W; [|exact I]. unfold blank in W. lia. }
  apply (f_equal (fun x => count_occ Z.eq_dec x 61)) in Q. cbv beta in Q. rewrite !count_occ_app in Q.
  rewrite (NB u U), (NB v V), (proj1 (count_occ_not_In Z.eq_dec a 61) A), (proj1 (count_occ_not_In Z.eq_dec b 61) B) in Q.
  change (count_occ Z.eq_dec [61] 61) with 1%nat in Q. lia.
Qed.

Lemma eqb_nil (l : bytes) : str_eqb l [] = true <-> l = [].
Proof. apply str_eqb_eq. Qed.

(** What a line of unigrams looks like to the scripts. *)
Lemma unigram_fields l e : unigram l e -> exists fs,
  py_fields (strip l) = Datatypes.fst e :: snd e :: fs /\ (length fs <= 1)%nat /\
  str_eqb (strip l) [] = false /\ starts_with_backslash (strip l) = false /\ str_eqb (strip l) s_end = false.
Proof.
  intros (N & H).
  assert (G : exists fs, row l (Datatypes.fst e :: snd e :: fs) /\ (length fs <= 1)%nat).
  { destruct H as [R|(b & R)]; [exists []|exists [b]]; cbn [length]; auto. }
  destruct G as (fs & R & L). exists fs. rewrite (fields_row _ _ (row_strip _ _ R)).
  assert (B : starts_with_backslash (strip l) = false).
  { destruct (row_head _ _ _ R) as (r & ->). inversion R as [|? ? ? ? ? (NE & _)]; subst.
    destruct (Datatypes.fst e) as [|c f]; [now destruct NE|]. cbn [app starts_with_backslash].
    destruct (Z.eqb_spec c 92) as [->|_]; [exfalso; eapply N; reflexivity|reflexivity]. }
  repeat split; auto.
  - apply str_eqb_neq. eapply row_not_blank, R.
  - destruct (str_eqb (strip l) s_end) eqn:E; [|reflexivity]. apply str_eqb_eq in E. rewrite E in B. discriminate.
Qed.

Section Costs.
Context {N : Type}.
Variable P : py_float N.

Definition add_unigram (d : list (bytes * N)) (e : str * str) : res (list (bytes * N)) :=
  x <- py_parse P (Datatypes.fst e) ;; Ok (dict_set (snd e) x d).
Definition uline : arpa_state * list (bytes * N) -> bytes -> res (arpa_state * list (bytes * N)) :=
  fun '(st, cost) line => unigram_line P st cost line.

Lemma uline_blanks d : forall ls st, Forall all_blank ls -> st = Begin \/ st = Data \/ st = Unigram ->
  for_each ls uline (st, d) = Ok (st, d).
Proof.
  intros ls st H K. induction H as [|l ls B H IH]; cbn [for_each]; [reflexivity|].
  unfold uline at 1. unfold unigram_line. rewrite (strip_blank l B). cbn [str_eqb].
  destruct K as [->|[->| ->]]; cbn [bind]; apply IH; auto.
Qed.

Lemma uline_counts d : forall ls, Forall (fun l => all_blank l \/ count_line l) ls ->
  for_each ls uline (Data, d) = Ok (Data, d).
Proof.
  induction 1 as [|l ls K H IH]; cbn [for_each]; [reflexivity|].
  unfold uline at 1. unfold unigram_line. destruct K as [B|K].
  - rewrite (strip_blank l B). cbn [str_eqb bind]. exact IH.
  - destruct (strip_count l K) as (a & b & Q & A & B). rewrite Q, pieces_two by assumption.
    destruct (str_eqb _ []); cbn [bind]; exact IH.
Qed.

Lemma uline_unigrams : forall us es, unigrams us es -> forall d,
  for_each us uline (Unigram, d) = bind (for_each es add_unigram d) (fun d => Ok (Unigram, d)).
Proof.
  induction 1 as [|l ls es B H IH|l ls e es U H IH]; intros d; cbn [for_each bind]; [reflexivity| |].
  - unfold uline at 1. unfold unigram_line. rewrite (strip_blank l B). cbn [str_eqb bind]. apply IH.
  - destruct (unigram_fields l e U) as (fs & Q & L & E1 & E2 & E3).
    unfold uline at 1. unfold unigram_line. rewrite E1, E3, E2, Q. unfold add_unigram at 1.
    destruct fs as [|f [|f2 fs]]; [| |cbn [length] in L; lia];
      (destruct (py_parse P (Datatypes.fst e)) as [x|f0]; cbn [bind]; [apply IH|reflexivity]).
Qed.

Lemma uline_ngrams d : forall ls, Forall (fun x => ~ shows x end_mark) ls -> for_each ls uline (Ngram, d) = Ok (Ngram, d).
Proof.
  induction 1 as [|l ls K H IH]; cbn [for_each]; [reflexivity|]. unfold uline at 1. unfold unigram_line.
  destruct (str_eqb (strip l) s_end) eqn:E; cbn [bind]; [|exact IH].
  exfalso. apply K. apply str_eqb_eq in E. change end_mark with s_end. rewrite <- E. apply strip_spec.
Qed.

Lemma uline_rest d : forall ls, for_each ls uline (End, d) = Ok (End, d).
Proof. induction ls as [|l ls IH]; cbn [for_each]; [reflexivity|]. exact IH. Qed.

Lemma one_step {S I} (body : S -> I -> res S) x l s s' : body s x = Ok s' ->
  for_each ([x] ++ l) body s = for_each l body s'.
Proof. intros H. cbn [app for_each]. now rewrite H. Qed.

Lemma read_unigram_ok es higher ls content : text_file ls content -> arpa es higher ls ->
  no_sections higher \/ sections higher ->
  read_unigram P content = for_each es add_unigram [].
Proof.
  intros T (blanks & data & counts & mark & us & last & rest & -> & HB & HD & HC & HM & HU & HL) S.
  unfold read_unigram. rewrite (lines_of _ _ T). change (fun '(st, cost) line => unigram_line P st cost line) with uline.
  rewrite for_each_app, uline_blanks by auto. cbn [bind].
  erewrite one_step by (unfold uline, unigram_line; rewrite (strip_shows _ _ HD); reflexivity).
  rewrite for_each_app, uline_counts by assumption. cbn [bind].
  erewrite one_step by (unfold uline, unigram_line; rewrite (strip_shows _ _ HM); reflexivity).
  rewrite for_each_app, (uline_unigrams _ _ HU).
  destruct (for_each es add_unigram []) as [d|f]; cbn [bind]; [|reflexivity].
  assert (E : for_each (higher ++ [last] ++ rest) uline (Unigram, d) = Ok (End, d)).
  { destruct S as [->|(l & r & t & -> & S1 & S2)].
    - change ([] ++ [last] ++ rest) with ([last] ++ rest).
      erewrite one_step by (unfold uline, unigram_line; rewrite (strip_shows _ _ HL); reflexivity).
      apply uline_rest.
    - inversion S2 as [|? ? NE S3]; subst.
      change ((l :: r) ++ [last] ++ rest) with ([l] ++ r ++ [last] ++ rest).
      rewrite (one_step uline l _ (Unigram, d) (Ngram, d)).
      2:{ unfold uline, unigram_line. destruct (str_eqb (strip l) s_end) eqn:E.
          - exfalso. apply NE. apply str_eqb_eq in E. change end_mark with s_end. rewrite <- E. apply strip_spec.
          - rewrite (strip_shows _ _ S1) in *. reflexivity. }
      rewrite for_each_app, uline_ngrams by exact S3. cbn [bind].
      erewrite one_step by (unfold uline, unigram_line; rewrite (strip_shows _ _ HL); reflexivity).
      apply uline_rest. }
  match goal with |- bind ?m _ = _ => replace m with (Ok (End, d)) by (symmetry; exact E) end. reflexivity.
Qed.

(** ** Vocabularies *)

Lemma dict_set_new {A} k (v : A) d : ~ In k (map Datatypes.fst d) -> dict_set k v d = d ++ [(k, v)].
Proof.
  induction d as [|(a, b) d IH]; cbn [dict_set map Datatypes.fst In app]; intros H; [reflexivity|].
  destruct (str_eqb k a) eqn:E; [apply str_eqb_eq in E; subst a; exfalso; apply H; now left|].
  f_equal. apply IH. intros I. apply H. now right.
Qed.

Lemma read_vocab_ok ls vs content : text_file ls content -> vocabulary ls vs -> NoDup (map Datatypes.fst vs) ->
  read_vocab content = Ok vs.
Proof.
  intros T V ND. unfold read_vocab. rewrite (lines_of _ _ T). clear T.
  match goal with |- for_each _ ?f _ = _ => set (body := f) end.
  assert (G : forall d, NoDup (map Datatypes.fst (d ++ vs)) -> for_each ls body d = Ok (d ++ vs)).
  { clear ND. induction V as [|l ls es B V IH|l ls e es (a & A & R) V IH]; intros d ND; cbn [for_each].
    - now rewrite app_nil_r.
    - unfold body at 1. rewrite (strip_blank l B). cbn [str_eqb bind]. now apply IH.
    - unfold body at 1. rewrite (str_eqb_neq (strip l) []) by (eapply row_not_blank, R).
      rewrite (fields_row _ _ (row_strip _ _ R)), (int_decimal _ _ A). cbn [bind].
      rewrite dict_set_new.
      + replace (d ++ e :: es) with ((d ++ [e]) ++ es) by now rewrite <- app_assoc. destruct e as (w, i). apply IH.
        now rewrite <- app_assoc.
      + rewrite map_app in ND. cbn [map] in ND. apply NoDup_remove_2 in ND. intros I. apply ND. apply in_or_app. now left. }
  apply (G []). exact ND.
Qed.

(** ** The table of costs *)

Lemma fold_max : forall l i, i <= fold_left Z.max l i /\ (forall x, In x l -> x <= fold_left Z.max l i) /\
  (fold_left Z.max l i = i \/ In (fold_left Z.max l i) l).
Proof.
  induction l as [|x l IH]; intros i; cbn [fold_left].
  - repeat split; [lia|easy|now left].
  - destruct (IH (Z.max i x)) as (A & B & C). repeat split.
    + lia.
    + intros y [->|I]; [lia|now apply B].
    + destruct C as [Q|I]; [|right; now right]. rewrite Q. destruct (Z.max_spec i x) as [(_ & E)|(_ & E)]; rewrite E.
      * right. now left.
      * now left.
Qed.

Definition place (vocab : list (bytes * Z)) (array : list N) (e : bytes * N) : res (list N) :=
  let '(word, cost) := e in
  match dict_get word vocab with
  | None => if str_eqb word (lit "<unk>") then Ok array else Fault Throw
  | Some id => py_set array id (n_cost P cost)
  end.

Lemma place_loop vs : NoDup (map Datatypes.fst vs) -> NoDup (map snd vs) ->
  forall us a, NoDup (map Datatypes.fst us) ->
  (forall w, In w (map Datatypes.fst us) -> w = unk_word \/ In w (map Datatypes.fst vs)) ->
  (forall w i, In (w, i) vs -> 0 <= i < lenZ a) ->
  exists a', for_each us (place vs) a = Ok a' /\ length a' = length a /\
    (forall w i, In (w, i) vs -> nth_error a' (Z.to_nat i) =
       match dict_get w us with Some c => Some (n_cost P c) | None => nth_error a (Z.to_nat i) end) /\
    (forall n, ~ In (Z.of_nat n) (map snd vs) -> nth_error a' n = nth_error a n).
Proof.
  intros NW NI. induction us as [|(w, c) us IH]; intros a NU K R.
  - exists a. repeat split.
  - inversion NU as [|? ? NX NU']; subst. cbn [map Datatypes.fst] in *. cbn [for_each]. unfold place at 1.
    destruct (dict_get w vs) as [i|] eqn:G.
    + apply (dict_get_in vs NW) in G. rewrite py_set_ok by (eapply R, G). cbn [bind].
      destruct (IH (upd a (Z.to_nat i) (n_cost P c))) as (a' & E & L & V & O).
      * exact NU'.
      * intros w' I. apply K. now right.
      * intros w' i' I. rewrite lenZ_upd. eapply R, I.
      * exists a'. rewrite upd_length in L. repeat split; [exact E|exact L| |].
        -- intros w' i' I. rewrite (V _ _ I). cbn [dict_get]. rewrite nth_error_upd.
           destruct (str_eqb w' w) eqn:Q.
           ++ apply str_eqb_eq in Q. subst w'.
              assert (HN : dict_get w us = None) by (apply dict_get_none; exact NX). rewrite HN.
              assert (HI : i' = i).
              { apply (dict_get_in vs NW) in I, G. congruence. }
              subst i'. rewrite Nat.eqb_refl. pose proof (R _ _ I) as Ri. unfold lenZ in Ri.
              destruct (Nat.ltb_spec (Z.to_nat i) (length a)); [reflexivity|lia].
           ++ destruct (dict_get w' us); [reflexivity|].
              destruct (Nat.eqb_spec (Z.to_nat i) (Z.to_nat i')) as [Q2|_]; [|reflexivity].
              exfalso. pose proof (R _ _ I). pose proof (R _ _ G). assert (i' = i) by lia. subst i'.
              assert (Q3 : w' = w).
              { clear - NI I G. induction vs as [|(x, j) vs IHv]; [easy|]. cbn [map snd] in NI. inversion NI as [|? ? N1 N2]; subst.
                destruct I as [I|I], G as [G|G]; auto; try congruence.
                - exfalso. apply N1. injection I as -> ->. now apply (in_map snd) in G.
                - exfalso. apply N1. injection G as -> ->. now apply (in_map snd) in I. }
              subst w'. rewrite str_eqb_refl in Q. discriminate.
        -- intros n I. rewrite (O n I), nth_error_upd.
           destruct (Nat.eqb_spec (Z.to_nat i) n) as [Q2|_]; [|reflexivity].
           exfalso. apply I. subst n. rewrite Z2Nat.id by (eapply R, G). now apply (in_map snd) in G.
    + apply dict_get_none in G. destruct (K w (or_introl eq_refl)) as [Q|I]; [|contradiction].
      assert (U : str_eqb w (lit "<unk>") = true) by (rewrite Q; reflexivity). rewrite U. cbn [bind].
      destruct (IH a) as (a' & E & L & V & O).
      * exact NU'.
      * intros w' I. apply K. now right.
      * exact R.
      * exists a'. repeat split; auto. intros w' i' I. rewrite (V _ _ I). cbn [dict_get].
        destruct (str_eqb w' w) eqn:Q2; [|reflexivity]. apply str_eqb_eq in Q2. subst w'.
        exfalso. apply G. now apply (in_map Datatypes.fst) in I.
Qed.

Lemma place_fails vs w : w <> unk_word -> ~ In w (map Datatypes.fst vs) ->
  (forall v i, In (v, i) vs -> 0 <= i) ->
  forall us a, In w (map Datatypes.fst us) -> (forall v i, In (v, i) vs -> i < lenZ a) -> for_each us (place vs) a = Fault Throw.
Proof.
  intros NU NV Z0. induction us as [|(x, c) us IH]; intros a I R; [easy|]. cbn [map Datatypes.fst In for_each] in *.
  unfold place at 1. destruct (dict_get x vs) as [i|] eqn:G.
  - destruct I as [->|I]; [apply dict_get_none in NV; congruence|].
    assert (In (x, i) vs).
    { clear - G. induction vs as [|(k, v) vs IHv]; [discriminate|]. cbn [dict_get] in G. destruct (str_eqb x k) eqn:E.
      - apply str_eqb_eq in E. injection G as ->. subst. now left.
      - right. now apply IHv. }
    rewrite py_set_ok by (split; [eapply Z0|eapply R]; eassumption). cbn [bind]. apply IH; [exact I|].
    intros. rewrite lenZ_upd. eapply R; eassumption.
  - destruct (str_eqb x (lit "<unk>")) eqn:E; [|reflexivity].
    destruct I as [->|I]; [apply str_eqb_eq in E; subst; now destruct NU|]. cbn [bind]. now apply IH.
Qed.

Definition parsed (e : str * str) (x : str * N) : Prop :=
  snd e = Datatypes.fst x /\ n_parse P (Datatypes.fst e) = Some (snd x).

Lemma add_unigrams : forall es xs, Forall2 parsed es xs -> forall d, NoDup (map Datatypes.fst d) ->
  exists u, for_each es add_unigram d = Ok u /\ NoDup (map Datatypes.fst u) /\
    (forall w, In w (map Datatypes.fst u) <-> In w (map Datatypes.fst xs) \/ In w (map Datatypes.fst d)) /\
    (forall w, dict_get w u = match latest_word w xs with Some x => Some x | None => dict_get w d end).
Proof.
  induction 1 as [|e (w, x) es xs (Q1 & Q2) H IH]; intros d ND; cbn [for_each].
  - exists d. repeat split; auto. cbn [map In]. intuition.
  - cbn [Datatypes.fst snd] in *. unfold add_unigram at 1, py_parse. rewrite Q2. cbn [bind]. rewrite Q1.
    destruct (dict_set_keys w x d ND) as (ND2 & K). destruct (IH (dict_set w x d) ND2) as (u & E & NU & KU & G).
    exists u. repeat split; [exact E|exact NU| | |].
    + intros I. apply KU in I. rewrite K in I. cbn [map Datatypes.fst In]. intuition.
    + intros I. apply KU. rewrite K. cbn [map Datatypes.fst In] in I. intuition.
    + intros v. rewrite G, dict_get_set. unfold latest_word. cbn [latest].
      destruct (latest (list_eq_dec Z.eq_dec) v xs); [reflexivity|].
      destruct (list_eq_dec Z.eq_dec v w) as [->|NE]; [now rewrite str_eqb_refl|now rewrite str_eqb_neq].
Qed.

Lemma latest_snoc {V} w k (v : V) xs :
  latest_word w (xs ++ [(k, v)]) = if list_eq_dec Z.eq_dec w k then Some v else latest_word w xs.
Proof.
  unfold latest_word. induction xs as [|(a, b) xs IH]; cbn [app latest].
  - destruct (list_eq_dec Z.eq_dec w k); reflexivity.
  - rewrite IH. destruct (list_eq_dec Z.eq_dec w k); reflexivity.
Qed.

(** Everything read from the two files. *)
Lemma convert_start lm vocab ls vl es higher vs xs :
  text_file ls lm -> arpa es higher ls -> no_sections higher \/ sections higher ->
  text_file vl vocab -> vocabulary vl vs -> NoDup (map Datatypes.fst vs) -> Forall2 parsed es xs ->
  exists u, NoDup (map Datatypes.fst u) /\
    (forall w, In w (map Datatypes.fst u) <-> In w (map Datatypes.fst xs) \/ w = start_word) /\
    (forall w, dict_get w u = latest_word w (xs ++ [(start_word, n_zero P)])) /\
    convert_unigram P lm vocab = bind (build_cost_array P vs u) (write_vec (pack_float P)).
Proof.
  intros T A S TV V NW H. destruct (add_unigrams es xs H [] (NoDup_nil _)) as (u & E & NU & K & G).
  destruct (dict_set_keys start_word (n_zero P) u NU) as (ND2 & K2).
  exists (dict_set start_word (n_zero P) u). split; [exact ND2|]. split; [|split].
  - intros w. rewrite K2, K. cbn [map In]. intuition.
  - intros w. rewrite dict_get_set, latest_snoc, G.
    destruct (list_eq_dec Z.eq_dec w start_word) as [->|NE]; [now rewrite str_eqb_refl|rewrite str_eqb_neq by exact NE].
    cbn [dict_get]. destruct (latest_word w xs); reflexivity.
  - unfold convert_unigram. rewrite (read_vocab_ok _ _ _ TV V NW). cbn [bind].
    rewrite (read_unigram_ok _ _ _ _ T A S), E. cbn [bind]. reflexivity.
Qed.

Lemma build_ok (vs : list (bytes * Z)) (u : list (bytes * N)) : NoDup (map Datatypes.fst vs) -> NoDup (map snd vs) -> Forall (fun e => 0 <= snd e) vs -> vs <> [] ->
  NoDup (map Datatypes.fst u) ->
  (forall w, In w (map Datatypes.fst u) -> w = unk_word \/ In w (map Datatypes.fst vs)) ->
  forall xs, (forall w, dict_get w u = latest_word w xs) ->
  exists a, build_cost_array P vs u = Ok a /\ costs_for (n_cost P) (n_inf P) vs xs a.
Proof.
  intros NW NI Z0 NE NU K xs G. unfold build_cost_array.
  destruct (map snd vs) as [|i is] eqn:Q; [destruct vs; [now destruct NE|discriminate]|].
  destruct (fold_max is i) as (M1 & M2 & M3). set (m := fold_left Z.max is i) in *.
  assert (MI : forall w j, In (w, j) vs -> 0 <= j <= m).
  { intros w j I. split; [rewrite Forall_forall in Z0; apply (Z0 _ I)|].
    apply (in_map snd) in I. cbn [snd] in I. rewrite Q in I. destruct I as [<-|I]; [exact M1|now apply M2]. }
  assert (MX : exists w, In (w, m) vs).
  { assert (I : In m (map snd vs)) by (rewrite Q; destruct M3 as [->|I]; [now left|now right]).
    apply in_map_iff in I. destruct I as ((w & j) & E & I). cbn [snd] in E. subst j. now exists w. }
  destruct MX as (wm & MX). pose proof (MI _ _ MX) as M0.
  rewrite <- Q in NI.
  destruct (place_loop vs NW NI u (repeat (n_inf P) (Z.to_nat (m + 1))) NU K) as (a & E & L & V & O).
  { intros w j I. unfold lenZ. rewrite repeat_length. pose proof (MI _ _ I). lia. }
  fold place. change (for_each u (place vs) (repeat (n_inf P) (Z.to_nat (m + 1))) = Ok a) in E.
  exists a. rewrite repeat_length in L. split; [exact E|]. unfold costs_for. rewrite L. repeat split.
  - intros w j I. pose proof (MI _ _ I). lia.
  - exists wm. now replace (Z.of_nat (Z.to_nat (m + 1)) - 1) with m by lia.
  - intros w j I. rewrite (V _ _ I), G. destruct (latest_word w xs); [reflexivity|].
    apply nth_error_repeat. pose proof (MI _ _ I). lia.
  - intros n I J. rewrite (O n J). now apply nth_error_repeat.
Qed.

Lemma nth_error_same {A} : forall a b : list A, (forall n, nth_error a n = nth_error b n) -> a = b.
Proof.
  induction a as [|x a IH]; intros [|y b] H; auto; try (specialize (H 0%nat); discriminate).
  pose proof (H 0%nat) as H0. injection H0 as ->. f_equal. apply IH. intros n. exact (H (S n)).
Qed.

Lemma costs_fun cost inf vs xs a b : Forall (fun e => 0 <= snd e) vs -> costs_for cost inf vs xs a -> costs_for (N := N) cost inf vs xs b -> a = b.
Proof.
  intros Z0 (A1 & (wa & A2) & A3 & A4) (B1 & (wb & B2) & B3 & B4).
  assert (L : length a = length b).
  { pose proof (A1 _ _ B2). pose proof (B1 _ _ A2). lia. }
  apply nth_error_same. intros n.
  destruct (le_lt_dec (length a) n) as [H|H].
  - rewrite !(proj2 (nth_error_None _ _)) by lia. reflexivity.
  - destruct (in_dec Z.eq_dec (Z.of_nat n) (map snd vs)) as [I|I].
    + apply in_map_iff in I. destruct I as ((w & j) & E & I). cbn [snd] in E. subst j.
      pose proof (A3 _ _ I) as QA. pose proof (B3 _ _ I) as QB. rewrite Nat2Z.id in *. congruence.
    + rewrite A4, B4 by (auto; lia). reflexivity.
Qed.

Lemma convert_unigram_ok lm vocab ls vl es higher vs xs costs ws :
  text_file ls lm -> arpa es higher ls -> no_sections higher \/ sections higher ->
  text_file vl vocab -> vocabulary vl vs ->
  NoDup (map Datatypes.fst vs) -> NoDup (map snd vs) -> Forall (fun e => 0 <= snd e) vs ->
  Forall2 parsed es xs -> In start_word (map Datatypes.fst vs) ->
  (forall w, In w (map Datatypes.fst xs) -> w = unk_word \/ In w (map Datatypes.fst vs)) ->
  costs_for (n_cost P) (n_inf P) vs (xs ++ [(start_word, n_zero P)]) costs ->
  Forall2 (fun c w => n_pack P c = Some w) costs ws -> storable ws ->
  convert_unigram P lm vocab = Ok (vector_file ws).
Proof.
  intros T A S TV V NW NI Z0 H IS K CF PK ST.
  destruct (convert_start _ _ _ _ _ _ _ _ T A S TV V NW H) as (u & NU & KU & G & E). rewrite E.
  destruct (build_ok vs u NW NI Z0) with (xs := xs ++ [(start_word, n_zero P)]) as (a & EB & CA); auto.
  { intros ->. easy. }
  { intros w I. apply KU in I. destruct I as [I| ->]; [now apply K|now right]. }
  rewrite EB. cbn [bind]. replace a with costs by (eapply costs_fun; eassumption).
  destruct ST as (_ & F & L). apply write_vec_words; [|exact L]. clear - PK F.
  induction PK as [|c w costs ws Q PK IH]; constructor.
  - unfold pack_float. rewrite Q. inversion F; subst. now apply pack_int_word.
  - inversion F; subst. now apply IH.
Qed.

Lemma convert_unigram_missing lm vocab ls vl es higher (vs : list (bytes * Z)) xs w :
  text_file ls lm -> arpa es higher ls -> no_sections higher \/ sections higher ->
  text_file vl vocab -> vocabulary vl vs ->
  NoDup (map Datatypes.fst vs) -> Forall (fun e => 0 <= snd e) vs ->
  Forall2 parsed es xs -> In w (start_word :: map Datatypes.fst xs) -> w <> unk_word -> ~ In w (map Datatypes.fst vs) ->
  convert_unigram P lm vocab = Fault Throw.
Proof.
  intros T A S TV V NW Z0 H IS NK NV.
  destruct (convert_start _ _ _ _ _ _ _ _ T A S TV V NW H) as (u & NU & KU & G & E). rewrite E.
  unfold build_cost_array. destruct (map snd vs) as [|i is] eqn:Q; [reflexivity|].
  destruct (fold_max is i) as (M1 & M2 & M3). set (m := fold_left Z.max is i) in *.
  assert (MI : forall w j, In (w, j) vs -> 0 <= j <= m).
  { intros v j I. split; [rewrite Forall_forall in Z0; apply (Z0 _ I)|].
    apply (in_map snd) in I. cbn [snd] in I. rewrite Q in I. destruct I as [<-|I]; [exact M1|now apply M2]. }
  assert (IW : In w (map Datatypes.fst u)) by (apply KU; destruct IS as [<-|I]; [now right|now left]).
  pose proof (place_fails vs w NK NV (fun v j I => proj1 (MI v j I)) u (repeat (n_inf P) (Z.to_nat (m + 1))) IW) as PF.
  match goal with |- bind ?x _ = _ => replace x with (@Fault (list N) Throw); [reflexivity|symmetry; apply PF] end.
  intros v j I. unfold lenZ. rewrite repeat_length. pose proof (MI _ _ I). lia.
Qed.
End Costs.

(** * Pruning *)

(** Rewriting up to the names of types. *)
Ltac use E :=
  match type of E with ?a = _ => match goal with |- context [for_each ?l ?f ?s] => change (for_each l f s) with a end end;
  rewrite E.

Definition pline : arpa_state * list bytes -> bytes -> res (arpa_state * list bytes) :=
  fun '(st, out) line => '(st, more) <- prune_line st line ;; Ok (st, out ++ more).

Lemma pline_pre out : forall ls, Forall (fun l => all_blank l \/ shows l (lit "iARPA")) ls ->
  for_each ls pline (Begin, out) = Ok (Begin, out).
Proof.
  induction 1 as [|l ls B H IH]; cbn [for_each]; [reflexivity|]. unfold pline at 1. unfold prune_line.
  destruct B as [B|B].
  - rewrite (strip_blank l B). cbn [str_eqb bind]. rewrite app_nil_r. exact IH.
  - rewrite (strip_shows _ _ B). change (str_eqb (lit "iARPA") []) with false. change (str_eqb (lit "iARPA") (lit "iARPA")) with true.
    cbn [bind]. rewrite app_nil_r. exact IH.
Qed.

Lemma one_line_strip l : one_line l -> one_line (strip l).
Proof.
  intros (A & B). destruct (strip_spec l) as ((u & v & Q & _) & _).
  split; intros I; [apply A|apply B]; rewrite Q; apply in_or_app; right; apply in_or_app; now left.
Qed.

Lemma pline_counts : forall ls, Forall (fun l => all_blank l \/ count_line l) ls -> Forall one_line ls -> forall out,
  exists ls', for_each ls pline (Data, out) = Ok (Data, out ++ ls') /\
    Forall (fun l => all_blank l \/ count_line l) ls' /\ Forall one_line ls'.
Proof.
  induction 1 as [|l ls K H IH]; intros OL out; cbn [for_each].
  - exists []. rewrite app_nil_r. repeat split; constructor.
  - inversion OL as [|? ? O1 O2]; subst. unfold pline at 1. unfold prune_line. destruct K as [B|K].
    + rewrite (strip_blank l B). cbn [str_eqb bind]. destruct (IH O2 (out ++ [[]])) as (ls' & E & A & B').
      exists ([] :: ls'). use E; rewrite <- app_assoc. repeat split; constructor; auto; try (split; easy). left. constructor.
    + destruct (strip_count l K) as (a & b & Q & A & B).
      assert (NE : str_eqb (strip l) [] = false) by (rewrite Q; destruct a; reflexivity).
      rewrite NE, Q, pieces_two by assumption. rewrite <- Q. destruct (str_eqb (strip a) (lit "ngram 1")); cbn [bind].
      * destruct (IH O2 (out ++ [strip l])) as (ls' & E & A' & B').
        exists (strip l :: ls'). use E; rewrite <- app_assoc. repeat split; constructor; auto.
        -- right. now exists a, b.
        -- now apply one_line_strip.
      * rewrite app_nil_r. apply (IH O2 out).
Qed.

Lemma row_parts l fs : row l fs -> Forall solid fs /\ (forall f c, In f fs -> In c f -> In c l).
Proof.
  induction 1 as [w W|w f l fs W S R (IH1 & IH2) G].
  - split; [constructor|easy].
  - split; [now constructor|]. intros g c [<-|I] J; apply in_or_app; right; apply in_or_app; [now left|right; eapply IH2; eassumption].
Qed.

Lemma pline_unigrams : forall us es, unigrams us es -> Forall one_line us -> forall out,
  exists us', for_each us pline (Unigram, out) = Ok (Unigram, out ++ us') /\ unigrams us' es /\ Forall one_line us'.
Proof.
  induction 1 as [|l ls es B H IH|l ls e es U H IH]; intros OL out; cbn [for_each].
  - exists []. rewrite app_nil_r. repeat split; constructor.
  - inversion OL as [|? ? O1 O2]; subst. unfold pline at 1. unfold prune_line. rewrite (strip_blank l B). cbn [str_eqb bind].
    destruct (IH O2 (out ++ [[]])) as (us' & E & A & B'). exists ([] :: us'). use E; rewrite <- app_assoc.
    repeat split; constructor; auto; try (split; easy). constructor.
  - inversion OL as [|? ? O1 O2]; subst. destruct (unigram_fields l e U) as (fs & Q & L & E1 & E2 & E3).
    assert (G : exists fs, row l (Datatypes.fst e :: snd e :: fs)).
    { destruct U as (_ & [R|(b & R)]); [now exists []|now exists [b]]. }
    destruct G as (fs' & R). destruct (row_parts _ _ R) as (S & IN).
    inversion S as [|? ? S1 S']; subst. inversion S' as [|? ? S2 S'']; subst.
    unfold pline at 1. unfold prune_line. rewrite E1, E2, Q.
    set (nl := Datatypes.fst e ++ [32] ++ snd e).
    destruct (IH O2 (out ++ [nl])) as (us' & E & A & B').
    assert (HU : unigram nl e).
    { split; [apply U|]. left. now apply row_pair. }
    assert (HO : one_line nl).
    { destruct O1 as (OA & OB).
      split; intros I; apply in_app_or in I; destruct I as [I|I];
        try (apply OA; eapply IN; [|exact I]; cbn [In]; auto; fail); try (apply OB; eapply IN; [|exact I]; cbn [In]; auto; fail);
        apply in_app_or in I; destruct I as [[I|[]]|I]; try discriminate;
        try (apply OA; eapply IN; [|exact I]; cbn [In]; auto; fail); try (apply OB; eapply IN; [|exact I]; cbn [In]; auto; fail). }
    exists (nl :: us'). destruct fs as [|f [|f2 fs]]; [| |cbn [length] in L; lia]; cbn [bind]; fold nl; use E; rewrite <- app_assoc;
      (split; [reflexivity|split; [now apply UEntry|now constructor]]).
Qed.

Lemma pline_ngrams out : forall ls, Forall (fun x => ~ shows x end_mark) ls -> for_each ls pline (Ngram, out) = Ok (Ngram, out).
Proof.
  induction 1 as [|l ls K H IH]; cbn [for_each]; [reflexivity|]. unfold pline at 1. unfold prune_line.
  destruct (str_eqb (strip l) s_end) eqn:E; cbn [bind]; [|rewrite app_nil_r; exact IH].
  exfalso. apply K. apply str_eqb_eq in E. change end_mark with s_end. rewrite <- E. apply strip_spec.
Qed.

Lemma pline_rest out : forall ls, for_each ls pline (End, out) = Ok (End, out).
Proof. induction ls as [|l ls IH]; cbn [for_each]; [reflexivity|]. unfold pline at 1, prune_line. cbn [bind]. rewrite app_nil_r. exact IH. Qed.

Lemma text_lines ls s : text_file ls s -> Forall one_line ls.
Proof. induction 1; constructor; auto. Qed.

(** Up to the end of the unigrams. *)
Lemma prune_start pre es higher ls content : text_file (pre ++ ls) content ->
  Forall (fun l => all_blank l \/ shows l (lit "iARPA")) pre -> arpa es higher ls ->
  exists counts us last rest,
    (exists head, ls = head ++ higher ++ [last] ++ rest) /\
    Forall (fun l => all_blank l \/ count_line l) counts /\ Forall one_line counts /\
    unigrams us es /\ Forall one_line us /\ shows last end_mark /\
    for_each (py_lines content) pline (Begin, []) =
    for_each (higher ++ [last] ++ rest) pline (Unigram, [data_mark] ++ counts ++ [unigram_mark] ++ us).
Proof.
  intros T HP (blanks & data & counts & mark & us & last & rest & -> & HB & HD & HC & HM & HU & HL).
  pose proof (text_lines _ _ T) as OL. rewrite !Forall_app in OL.
  destruct OL as (_ & _ & _ & OC & _ & OU & _).
  destruct (pline_counts counts HC OC [data_mark]) as (counts' & EC & C1 & C2).
  destruct (pline_unigrams us es HU OU ([data_mark] ++ counts' ++ [unigram_mark])) as (us' & EU & U1 & U2).
  exists counts', us', last, rest. split.
  { exists (blanks ++ [data] ++ counts ++ [mark] ++ us). now rewrite <- !app_assoc. }
  repeat split; auto; try (apply HL). rewrite (lines_of _ _ T).
  rewrite for_each_app, pline_pre by exact HP. cbn [bind].
  rewrite for_each_app, pline_pre by (eapply Forall_impl; [|exact HB]; auto). cbn [bind].
  erewrite one_step by (unfold pline, prune_line; rewrite (strip_shows _ _ HD); reflexivity).
  rewrite for_each_app.
  match goal with |- bind ?m _ = _ => replace m with (Ok (Data, [data_mark] ++ counts')) by (symmetry; exact EC) end.
  cbn [bind]. erewrite one_step by (unfold pline, prune_line; rewrite (strip_shows _ _ HM); reflexivity).
  rewrite for_each_app.
  replace (([data_mark] ++ counts') ++ [s_unigrams]) with ([data_mark] ++ counts' ++ [unigram_mark]) by (rewrite <- app_assoc; reflexivity).
  match goal with |- bind ?m _ = _ => replace m with (Ok (Unigram, ([data_mark] ++ counts' ++ [unigram_mark]) ++ us')) by (symmetry; exact EU) end.
  cbn [bind]. rewrite <- !app_assoc. reflexivity.
Qed.

Lemma prune_ok pre es higher ls content : text_file (pre ++ ls) content ->
  Forall (fun l => all_blank l \/ shows l (lit "iARPA")) pre -> arpa es higher ls -> sections higher ->
  exists ls' content', prune_lm content = Ok content' /\ text_file ls' content' /\ arpa es [] ls'.
Proof.
  intros T HP A (l & r & t & -> & S1 & S2).
  destruct (prune_start _ _ _ _ _ T HP A) as (counts & us & last & rest & _ & C1 & C2 & U1 & U2 & HL & E).
  set (out := [data_mark] ++ counts ++ [unigram_mark] ++ us) in *.
  inversion S2 as [|? ? NE S3]; subst.
  exists (out ++ [end_mark]), (text (out ++ [end_mark])). split; [|split].
  - unfold prune_lm. match goal with |- bind (for_each _ ?f _) _ = _ => change f with pline end.
    replace (for_each (py_lines content) pline (Begin, [])) with (Ok (End, out ++ [end_mark])); [reflexivity|].
    rewrite E. change ((l :: r) ++ [last] ++ rest) with ([l] ++ r ++ [last] ++ rest).
    rewrite (one_step pline l _ (Unigram, out) (Ngram, out)).
    2:{ unfold pline, prune_line. rewrite (strip_shows _ _ S1). cbn [str_eqb starts_with_backslash bind].
        change (92 =? 92) with true. cbn [bind]. now rewrite app_nil_r. }
    rewrite for_each_app, pline_ngrams by exact S3. cbn [bind].
    erewrite one_step by (unfold pline, prune_line; rewrite (strip_shows _ _ HL); reflexivity).
    symmetry. apply pline_rest.
  - apply lines_text. unfold out. rewrite !Forall_app.
    assert (M : forall m, In m [data_mark; unigram_mark; end_mark] -> one_line m).
    { intros m I. split; intros J; repeat (destruct I as [<-|I]; [repeat (destruct J as [J|J]; [discriminate|]); exact J|]); easy. }
    repeat split; auto; constructor; auto; apply M; cbn [In]; auto.
  - exists [], data_mark, counts, unigram_mark, us, end_mark, [].
    assert (M : forall m, In m [data_mark; unigram_mark; end_mark] -> shows m m).
    { intros m I. apply solid_shows. split; [intros ->; cbn [In] in I; intuition discriminate|].
      repeat (destruct I as [<-|I]; [repeat (constructor; [unfold blank; lia|]); constructor|]). easy. }
    split; [unfold out; now rewrite <- !app_assoc|].
    split; [constructor|]. split; [apply M; cbn [In]; auto|]. split; [exact C1|]. split; [apply M; cbn [In]; auto|].
    split; [exact U1|]. apply M; cbn [In]; auto.
Qed.

(** A model of unigrams only: the end mark is taken for a section. *)
Lemma prune_unigrams_fails pre es ls content : text_file (pre ++ ls) content ->
  Forall (fun l => all_blank l \/ shows l (lit "iARPA")) pre -> arpa es [] ls ->
  (forall a x b y c, ls = a ++ [x] ++ b ++ [y] ++ c -> shows x end_mark -> shows y end_mark -> False) ->
  prune_lm content = Fault Throw.
Proof.
  intros T HP A ONE. destruct (prune_start _ _ _ _ _ T HP A) as (counts & us & last & rest & (head & Q) & _ & _ & _ & _ & HL & E).
  unfold prune_lm. match goal with |- bind (for_each _ ?f _) _ = _ => change f with pline end.
  set (out := [data_mark] ++ counts ++ [unigram_mark] ++ us) in *.
  replace (for_each (py_lines content) pline (Begin, [])) with (Ok (Ngram, out)); [reflexivity|].
  rewrite E. change ([] ++ [last] ++ rest) with ([last] ++ rest).
  rewrite (one_step pline last _ (Unigram, out) (Ngram, out)).
  2:{ unfold pline, prune_line. rewrite (strip_shows _ _ HL). cbn [bind]. change (str_eqb end_mark []) with false.
      change (starts_with_backslash end_mark) with true. cbn [bind]. now rewrite app_nil_r. }
  symmetry. apply pline_ngrams. apply Forall_forall. intros y I S.
  apply in_split in I. destruct I as (b & c & ->). eapply (ONE head last b y c); [exact Q|exact HL|exact S].
Qed.

(** Pruning does not change what is made of a model. *)
Lemma prune_convert {N} (P : py_float N) es higher ls content content' vocab : text_file ls content -> arpa es higher ls -> sections higher ->
  prune_lm content = Ok content' -> convert_unigram P content' vocab = convert_unigram P content vocab.
Proof.
  intros T A S E. destruct (prune_ok [] es higher ls content) as (ls' & c & E' & T' & A'); auto.
  rewrite E in E'. injection E' as <-. unfold convert_unigram.
  rewrite (read_unigram_ok P _ _ _ _ T' A') by (left; reflexivity).
  rewrite (read_unigram_ok P _ _ _ _ T A) by (right; exact S). reflexivity.
Qed.

(** * Words *)

(** The words "a" and "b" with the ids 0 and 1. *)
Definition two_words : bytes := lit "a 0" ++ [10] ++ lit "b 1" ++ [10].
Lemma words_unreadable : exists file,
  convert_words two_words = Ok file /\
  sym_read symtab_init file = Ok (symtab_init, false).
Proof.
  exists [83; 89; 77; 48; 20; 0; 0; 0; 2; 0; 0; 0; 4; 0; 0; 0; 0; 0; 0; 0; 2; 0; 0; 0; 97; 0; 98; 0].
  split; vm_compute; reflexivity.
Qed.
