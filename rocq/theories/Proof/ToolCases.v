(** Cases of the properties of the scripts. *)
From Coq Require Import ZArith String List Bool Lia.
From Verif.Base Require Import Prelude Lemmas.
From Verif.Model Require Import Util File Vector Stt Python Tools SymbolTable Formats.
From Verif.Spec Require Import TextSpec AudioSpec FormatSpec ToolSpec.
From Verif.Proof Require Import Text Lines Number Loop Python Tools ToolsMore.
From Verif.Proof Require Formats.
Import ListNotations.
Open Scope Z_scope.

Lemma extract_read num_pdfs pdfs file old : storable pdfs ->
  convert_trans (extract_id2pdf num_pdfs pdfs) = Ok file ->
  exists f, vec_read old (open file) = Ok (true, map Some pdfs, f).
Proof.
  intros S E. rewrite (extract_convert num_pdfs pdfs S) in E. injection E as <-.
  eexists. rewrite <- (app_nil_r (vector_file pdfs)). apply Proof.Formats.vec_read_file. exact S.
Qed.

(** Deciding the shape of concrete lines. *)
Lemma one_line_dec l : (if in_dec Z.eq_dec 10 l then false else if in_dec Z.eq_dec 13 l then false else true) = true -> one_line l.
Proof. destruct (in_dec Z.eq_dec 10 l); [discriminate|]. destruct (in_dec Z.eq_dec 13 l); [discriminate|]. now split. Qed.
Lemma blank_dec l : forallb py_space l = true -> all_blank l.
Proof. intros H. apply Forall_forall. intros c I. apply space_iff. eapply forallb_forall in H; eassumption. Qed.
Definition solidb (f : bytes) : bool := negb (str_eqb f []) && forallb (fun c => negb (py_space c)) f.
Lemma solid_dec f : solidb f = true -> solid f.
Proof.
  unfold solidb. rewrite andb_true_iff. intros (A & B). split.
  - intros ->. discriminate.
  - apply Forall_forall. intros c I. eapply forallb_forall in B; [|exact I]. apply space_not. now destruct (py_space c).
Qed.
(** A line made of gaps and fields. *)
Fixpoint spaced (ps : list (bytes * bytes)) (last : bytes) : bytes :=
  match ps with [] => last | (w, f) :: ps => w ++ f ++ spaced ps last end.
Fixpoint spaced_ok (ps : list (bytes * bytes)) (last : bytes) : bool :=
  match ps with
  | [] => forallb py_space last
  | (w, f) :: ps => forallb py_space w && solidb f && spaced_ok ps last &&
      match spaced ps last with [] => true | c :: _ => py_space c end
  end.
Lemma spaced_row : forall ps last, spaced_ok ps last = true -> row (spaced ps last) (map snd ps).
Proof.
  induction ps as [|(w, f) ps IH]; intros last H; cbn [spaced spaced_ok map snd] in *.
  - constructor. now apply blank_dec.
  - rewrite !andb_true_iff in H. destruct H as (((A & B) & C) & G). constructor.
    + now apply blank_dec.
    + now apply solid_dec.
    + now apply IH.
    + intros c r Q. rewrite Q in G. now apply space_iff.
Qed.

Lemma digit_decimal d : 0 <= d <= 9 -> decimal d [48 + d].
Proof. intros H. constructor. now constructor. Qed.

Definition sp : bytes := [32].

Lemma transition_case :
  storable (table_of 3 [(3, 1); (2, 5); (1, 7); (2, 6)]) /\
  table_of 3 [(3, 1); (2, 5); (1, 7); (2, 6)] = [0; 7; 6; 1] /\
  exists ls content, text_file ls content /\ listing 8 3 [(3, 1); (2, 5); (1, 7); (2, 6)] ls /\
    convert_trans content = Ok (vector_file [0; 7; 6; 1]).
Proof.
  assert (Q : table_of 3 [(3, 1); (2, 5); (1, 7); (2, 6)] = [0; 7; 6; 1]) by reflexivity.
  rewrite Q. split.
  { split; [discriminate|]. split; [|cbn; lia]. repeat (constructor; [unfold fits; cbn; lia|]). constructor. }
  split; [reflexivity|].
  exists [lit "8"; lit "3 "; lit "3 1"; lit "2  5"; lit " 1 7"; lit "2 6"].
  exists (lit "8" ++ [13; 10] ++ lit "3 " ++ [13; 10] ++ lit "3 1" ++ [13; 10] ++ lit "2  5" ++ [13; 10] ++ lit " 1 7" ++ [10] ++ lit "2 6").
  split; [|split].
  - repeat (apply TDos; [apply one_line_dec; reflexivity|]). apply TUnix; [apply one_line_dec; reflexivity|].
    apply TOpen; [apply one_line_dec; reflexivity|discriminate].
  - exists (lit "8"), (lit "3 "), [lit "3 1"; lit "2  5"; lit " 1 7"; lit "2 6"], (lit "8"), (lit "3").
    split; [reflexivity|]. split; [apply (digit_decimal 8); lia|].
    split; [apply (spaced_row [([], lit "8")] []); reflexivity|]. split; [apply (digit_decimal 3); lia|].
    split; [apply (spaced_row [([], lit "3")] sp); reflexivity|].
    repeat constructor.
    + exists (lit "3"), (lit "1"). split; [apply (digit_decimal 3); lia|]. split; [apply (digit_decimal 1); lia|].
      apply (spaced_row [([], lit "3"); (sp, lit "1")] []); reflexivity.
    + exists (lit "2"), (lit "5"). split; [apply (digit_decimal 2); lia|]. split; [apply (digit_decimal 5); lia|].
      apply (spaced_row [([], lit "2"); (lit "  ", lit "5")] []); reflexivity.
    + exists (lit "1"), (lit "7"). split; [apply (digit_decimal 1); lia|]. split; [apply (digit_decimal 7); lia|].
      apply (spaced_row [(sp, lit "1"); (sp, lit "7")] []); reflexivity.
    + exists (lit "2"), (lit "6"). split; [apply (digit_decimal 2); lia|]. split; [apply (digit_decimal 6); lia|].
      apply (spaced_row [([], lit "2"); (sp, lit "6")] []); reflexivity.
  - vm_compute. reflexivity.
Qed.

Lemma unannounced_case : exists ls content, text_file ls content /\ listing 8 1 [(1, 7); (2, 6)] ls.
Proof.
  exists [lit "8"; lit "1"; lit "1 7"; lit "2 6"], (text [lit "8"; lit "1"; lit "1 7"; lit "2 6"]). split.
  - apply lines_text. repeat (constructor; [apply one_line_dec; reflexivity|]). constructor.
  - exists (lit "8"), (lit "1"), [lit "1 7"; lit "2 6"], (lit "8"), (lit "1").
    split; [reflexivity|]. split; [apply (digit_decimal 8); lia|].
    split; [apply (spaced_row [([], lit "8")] []); reflexivity|]. split; [apply (digit_decimal 1); lia|].
    split; [apply (spaced_row [([], lit "1")] []); reflexivity|].
    repeat constructor.
    + exists (lit "1"), (lit "7"). split; [apply (digit_decimal 1); lia|]. split; [apply (digit_decimal 7); lia|].
      apply (spaced_row [([], lit "1"); (sp, lit "7")] []); reflexivity.
    + exists (lit "2"), (lit "6"). split; [apply (digit_decimal 2); lia|]. split; [apply (digit_decimal 6); lia|].
      apply (spaced_row [([], lit "2"); (sp, lit "6")] []); reflexivity.
Qed.

(** * Language models *)

Definition bigrams : list bytes := [lit "\2-grams:"; lit "-1 a b"; []].
Definition model_lines : list bytes :=
  [[]; lit "\data\"; lit "ngram 1=5"; lit "ngram 2 = 1"; []; lit "\1-grams:"; lit "-99 <s> -1"; lit "-1  a";
   lit "-2 <unk>"; lit "-3 b"; lit "-4 b "; []] ++ bigrams ++ [lit "\end\"].
Definition model_entries : list (str * str) :=
  [(lit "-99", start_word); (lit "-1", lit "a"); (lit "-2", unk_word); (lit "-3", lit "b"); (lit "-4", lit "b")].

Lemma shows_same l : shows l (strip l).
Proof. apply strip_spec. Qed.

Lemma model_arpa : arpa model_entries bigrams model_lines.
Proof.
  exists [[]], (lit "\data\"), [lit "ngram 1=5"; lit "ngram 2 = 1"; []], (lit "\1-grams:"),
    [lit "-99 <s> -1"; lit "-1  a"; lit "-2 <unk>"; lit "-3 b"; lit "-4 b "; []], (lit "\end\"), [].
  split; [reflexivity|]. split; [constructor; constructor|].
  split; [exact (shows_same (lit "\data\"))|].
  split.
  { constructor; [|constructor; [|constructor; [|constructor]]].
    - right. exists (lit "ngram 1"), (lit "5"). repeat split; intros I; vm_compute in I; intuition discriminate.
    - right. exists (lit "ngram 2 "), (lit " 1"). repeat split; intros I; vm_compute in I; intuition discriminate.
    - left. constructor. }
  split; [exact (shows_same (lit "\1-grams:"))|].
  split; [|exact (shows_same (lit "\end\"))].
  apply UEntry. { split; [discriminate|]. right. exists (lit "-1").
    apply (spaced_row [([], lit "-99"); (sp, start_word); (sp, lit "-1")] []). reflexivity. }
  apply UEntry. { split; [discriminate|]. left. apply (spaced_row [([], lit "-1"); (lit "  ", lit "a")] []). reflexivity. }
  apply UEntry. { split; [discriminate|]. left. apply (spaced_row [([], lit "-2"); (sp, unk_word)] []). reflexivity. }
  apply UEntry. { split; [discriminate|]. left. apply (spaced_row [([], lit "-3"); (sp, lit "b")] []). reflexivity. }
  apply UEntry. { split; [discriminate|]. left. apply (spaced_row [([], lit "-4"); (sp, lit "b")] sp). reflexivity. }
  apply UBlank; [constructor|]. constructor.
Qed.

Lemma not_end l : str_eqb (strip l) s_end = false -> ~ shows l end_mark.
Proof. intros H S. rewrite (strip_shows _ _ S) in H. discriminate. Qed.

Lemma bigram_sections : sections bigrams.
Proof.
  exists (lit "\2-grams:"), [lit "-1 a b"; []], (lit "2-grams:"). split; [reflexivity|].
  split; [exact (shows_same (lit "\2-grams:"))|].
  unfold bigrams. repeat (constructor; [apply not_end; reflexivity|]). constructor.
Qed.

Definition vocab_lines : list bytes := [lit "<s> 0"; lit "a 3"; []; lit "b 2"; lit "c 4"].
Definition vocab_entries : list (str * Z) := [(start_word, 0); ([97], 3); ([98], 2); ([99], 4)].
Lemma vocab_vocabulary : vocabulary vocab_lines vocab_entries.
Proof.
  unfold vocab_lines, vocab_entries.
  apply VWord. { exists (lit "0"). split; [apply (digit_decimal 0); lia|]. apply (spaced_row [([], start_word); (sp, lit "0")] []). reflexivity. }
  apply VWord. { exists (lit "3"). split; [apply (digit_decimal 3); lia|]. apply (spaced_row [([], lit "a"); (sp, lit "3")] []). reflexivity. }
  apply VBlank; [constructor|].
  apply VWord. { exists (lit "2"). split; [apply (digit_decimal 2); lia|]. apply (spaced_row [([], lit "b"); (sp, lit "2")] []). reflexivity. }
  apply VWord. { exists (lit "4"). split; [apply (digit_decimal 4); lia|]. apply (spaced_row [([], lit "c"); (sp, lit "4")] []). reflexivity. }
  constructor.
Qed.

Lemma unigram_case (P : py_float Z) :
  n_parse P = (fun s => match py_int s with Ok n => Some n | _ => None end) ->
  n_cost P = (fun n => - 23 * n) -> n_inf P = 1000000 -> n_zero P = 0 -> n_pack P = Some ->
  exists lm vocab ls vl es higher vs,
    text_file ls lm /\ arpa es higher ls /\ sections higher /\ text_file vl vocab /\ vocabulary vl vs /\
    map snd es = [start_word; [97]; unk_word; [98]; [98]] /\
    vs = [(start_word, 0); ([97], 3); ([98], 2); ([99], 4)] /\
    costs_for (n_cost P) (n_inf P) vs [(start_word, -99); ([97], -1); (unk_word, -2); ([98], -3); ([98], -4); (start_word, 0)]
      [0; 1000000; 92; 23; 1000000] /\
    convert_unigram P lm vocab = Ok (vector_file [0; 1000000; 92; 23; 1000000]).
Proof.
  intros H1 H2 H3 H4 H5.
  exists (text model_lines), (text vocab_lines), model_lines, vocab_lines, model_entries, bigrams, vocab_entries.
  split; [apply lines_text; repeat (constructor; [apply one_line_dec; reflexivity|]); constructor|].
  split; [exact model_arpa|]. split; [exact bigram_sections|].
  split; [apply lines_text; repeat (constructor; [apply one_line_dec; reflexivity|]); constructor|].
  split; [exact vocab_vocabulary|]. split; [reflexivity|]. split; [reflexivity|].
  rewrite H2, H3. split.
  - split; [|split; [|split]].
    + intros w i I. repeat (destruct I as [[= <- <-]|I]; [cbn; lia|]). easy.
    + exists [99]. cbn. auto.
    + intros w i I. repeat (destruct I as [[= <- <-]|I]; [reflexivity|]). easy.
    + intros n L I. do 5 (destruct n as [|n]; [try reflexivity; exfalso; apply I; cbn; auto|]). cbn in L. lia.
  - destruct P as [p1 p2 p3 p4 p5]. cbn [n_parse n_cost n_inf n_zero n_pack] in *. subst. vm_compute. reflexivity.
Qed.

Lemma prune_case : exists content content', prune_lm content = Ok content' /\ prune_lm content' = Fault Throw.
Proof.
  exists (text model_lines),
    (text [lit "\data\"; lit "ngram 1=5"; []; lit "\1-grams:"; lit "-99 <s>"; lit "-1 a"; lit "-2 <unk>"; lit "-3 b"; lit "-4 b"; []; lit "\end\"]).
  split; vm_compute; reflexivity.
Qed.

(** * Symbol tables and statistics *)

Lemma words_case : exists ls content,
  text_file ls content /\ Forall2 word_line ls [([97], 1); ([98], 4); ([99], 1); ([100], 2)] /\
  symbols [([97], 1); ([98], 4); ([99], 1); ([100], 2)] = [empty_word; [99]; [100]; empty_word; [98]].
Proof.
  exists [lit "a 1"; lit "b  4"; lit "c 1"; lit "d 2"], (text [lit "a 1"; lit "b  4"; lit "c 1"; lit "d 2"]).
  split; [|split; [|reflexivity]].
  - apply lines_text. repeat (constructor; [apply one_line_dec; reflexivity|]). constructor.
  - constructor; [|constructor; [|constructor; [|constructor; [|constructor]]]].
    + exists (lit "1"). split; [apply (digit_decimal 1); cbn; lia|]. apply (spaced_row [([], lit "a"); (sp, lit "1")] []); reflexivity.
    + exists (lit "4"). split; [apply (digit_decimal 4); cbn; lia|]. apply (spaced_row [([], lit "b"); (lit "  ", lit "4")] []); reflexivity.
    + exists (lit "1"). split; [apply (digit_decimal 1); cbn; lia|]. apply (spaced_row [([], lit "c"); (sp, lit "1")] []); reflexivity.
    + exists (lit "2"). split; [apply (digit_decimal 2); cbn; lia|]. apply (spaced_row [([], lit "d"); (sp, lit "2")] []); reflexivity.
Qed.

Lemma numbers_of_filter : forall fs, numbers_of fs (filter is_number fs).
Proof.
  induction fs as [|f fs IH]; cbn [filter]; [constructor|]. destruct (is_number f) eqn:Q.
  - constructor; [now apply is_number_iff|exact IH].
  - constructor; [|exact IH]. intros K. apply is_number_iff in K. congruence.
Qed.

Definition stats_rows : list (list (bytes * bytes)) :=
  [[(sp, lit "[")]; repeat (sp, lit "1.5e+07") 41; repeat (sp, lit "-2") 41 ++ [(sp, lit "]")]].

Lemma stats_case : exists content fs ns, file_fields content fs /\ numbers_of fs ns /\ length ns = 82%nat /\
  length fs = 84%nat.
Proof.
  exists (text (map (fun ps => spaced ps []) stats_rows)), (concat (map (map snd) stats_rows)),
    (filter is_number (concat (map (map snd) stats_rows))).
  split; [|split; [apply numbers_of_filter|split; reflexivity]].
  exists (map (fun ps => spaced ps []) stats_rows), (map (map snd) stats_rows). split; [|split; [|reflexivity]].
  - apply lines_text. unfold stats_rows. cbn [map]. repeat (constructor; [apply one_line_dec; reflexivity|]). constructor.
  - unfold stats_rows. cbn [map]. repeat (constructor; [apply spaced_row; reflexivity|]). constructor.
Qed.
