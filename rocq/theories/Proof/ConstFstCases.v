(** Example files of graphs. *)
From Coq Require Import ZArith String List Bool Lia Floats.SpecFloat.
From Verif.Base Require Import Prelude Lemmas.
From Verif.Model Require Import Util File Arith Binary Fst Decoder Stt Main FbankInit Loading Ieee IeeeFbank ConstFst.
From Verif.Spec Require Import AudioSpec FormatSpec FstSpec TextSpec LoadingSpec ConstFstSpec GraphModelSpec.
From Verif.Proof Require Import Binary ConstFstGraph.
From Verif.Proof Require TotalCases FiniteCases EndCases IeeeCases Lines.
Import ListNotations.
Open Scope Z_scope.

(** ** Parts of a model *)
Lemma whole_stored : forall F (O : fops F) of_word junk files room fn m, stored_whole O of_word files room fn m ->
  stored O of_word files (graph_read junk room of_word files) fn (with_graph of_word m).
Proof.
  intros F O of_word junk files room fn m (content & lines & Fc & Cl & (p & Pp & (c & t & rest & Ec & Gf & St & M)) & H).
  exists content, lines. split; [exact Fc|]. split; [exact Cl|]. split; [|exact H].
  exists p. split; [exact Pp|]. exact (read_file F of_word junk room files p t c rest (m_graph m) Ec Gf M St).
Qed.

(** ** A graph of three states *)
Definition tables14 : tables := mk_tables 0
  [mk_row 2139095040 0 2 1 1; mk_row 1050253722 2 2 0 1; mk_row 1036831949 4 1 0 1]
  [mk_arc 0 1 0 1060320051; mk_arc 1 0 5 1045220557; mk_arc 1 1 0 1036831949; mk_arc 2 2 7 (-1110651699); mk_arc 2 2 0 0].
Definition graph14 : transducer Z := mk_transducer 0
  [(2139095040, [mk_arc 0 1 0 1060320051; mk_arc 1 0 5 1045220557]);
   (1050253722, [mk_arc 1 1 0 1036831949; mk_arc 2 2 7 (-1110651699)]);
   (1036831949, [mk_arc 2 2 0 0])].

Definition sized (s : str) : str := word (lenZ s) ++ s.
Definition front14 (version flags start states arcs : Z) : str :=
  word 2125659606 ++ sized (lit "const") ++ sized (lit "standard") ++ word version ++ word flags ++ encode 8 3 ++
  encode 8 start ++ encode 8 states ++ encode 8 arcs.
Definition symbols14 : str :=
  word 2125658996 ++ sized (lit "words") ++ encode 8 8 ++ encode 8 2 ++
  (sized (lit "so") ++ encode 8 5) ++ (sized (lit "what") ++ encode 8 7).
Definition rows14 : str := flat_map row_bytes (tb_states tables14).
Definition arcs14 : str := flat_map arc_bytes (tb_arcs tables14).

(** Without tables of symbols or padding. *)
Definition plain14 : str := front14 2 0 0 3 5 ++ rows14 ++ arcs14.
(** With two tables of symbols and padding, and two more bytes behind. *)
Definition full14 : str :=
  (front14 1 3 0 3 5 ++ symbols14 ++ symbols14) ++ repeat 0 9 ++ rows14 ++ repeat 0 4 ++ arcs14 ++ [1; 2].

Ltac fit := unfold fits, natural; cbn; lia.

Lemma tables14_fit : tables_fit tables14.
Proof.
  split; [fit|]. split; [|split; [|cbn; lia]].
  - repeat (constructor; [repeat split; fit|]). constructor.
  - repeat (constructor; [repeat split; fit|]). constructor.
Qed.

Lemma sized_ok : forall s, lenZ s <= 2147483647 -> sized_text (sized s) s.
Proof.
  intros s L. exists (lenZ s). split; [unfold fits, lenZ in *; cbn; lia|]. split; [unfold lenZ; lia|reflexivity].
Qed.

Lemma symbols14_file : symbol_file symbols14.
Proof.
  exists 2125658996, (sized (lit "words")), (lit "words"), 8, 2,
    [sized (lit "so") ++ encode 8 5; sized (lit "what") ++ encode 8 7].
  split; [fit|]. split; [apply sized_ok; vm_compute; discriminate|]. split; [fit|]. split; [fit|]. split; [reflexivity|].
  split; [|reflexivity]. constructor; [exists (sized (lit "so")), (lit "so"), 5|constructor; [exists (sized (lit "what")), (lit "what"), 7|constructor]];
    (split; [apply sized_ok; vm_compute; discriminate|split; [fit|reflexivity]]).
Qed.

Lemma layout14 : forall start states arcs, fits 8 start -> fits 8 states -> fits 8 arcs ->
  graph_layout start states arcs tables14 (front14 2 0 start states arcs ++ rows14 ++ arcs14) [].
Proof.
  intros start states arcs F1 F2 F3. exists (sized (lit "const")), (sized (lit "standard")), 2, 0, 3, [], [], [], [].
  split; [apply sized_ok; vm_compute; discriminate|]. split; [apply sized_ok; vm_compute; discriminate|].
  split; [fit|]. split; [lia|]. split; [fit|]. split; [fit|]. split; [exact F1|]. split; [exact F2|]. split; [exact F3|].
  split; [reflexivity|]. split; [reflexivity|]. cbv zeta. split; [reflexivity|]. split; [reflexivity|].
  unfold front14, rows14, arcs14. rewrite !app_nil_r, <- !app_assoc. reflexivity.
Qed.

Lemma plain14_file : graph_file tables14 plain14 [].
Proof. split; [exact tables14_fit|]. apply layout14; fit. Qed.

Lemma full14_file : graph_file tables14 full14 [1; 2].
Proof.
  split; [exact tables14_fit|]. exists (sized (lit "const")), (sized (lit "standard")), 1, 3, 3, symbols14, symbols14, (repeat 0 9), (repeat 0 4).
  split; [apply sized_ok; vm_compute; discriminate|]. split; [apply sized_ok; vm_compute; discriminate|].
  split; [fit|]. split; [lia|]. split; [fit|]. split; [fit|]. split; [fit|]. split; [fit|]. split; [fit|].
  split; [exact symbols14_file|]. split; [exact symbols14_file|]. cbv zeta.
  split; [split; [cbn; lia|vm_compute; reflexivity]|]. split; [split; [cbn; lia|vm_compute; reflexivity]|]. vm_compute. reflexivity.
Qed.

Lemma stands14 : stands_for tables14 graph14.
Proof.
  split; [reflexivity|].
  repeat (constructor; [split; [reflexivity|]|]); [exists []|exists (firstn 2 (tb_arcs tables14))|exists (firstn 4 (tb_arcs tables14))|constructor];
    eexists; (split; [reflexivity|]); split; reflexivity.
Qed.

Definition plenty (n : Z) : bool := n <=? 1000.
Lemma memory14 : memory_for plenty (Z.of_nat (length (tb_states tables14))) (Z.of_nat (length (tb_arcs tables14))).
Proof. repeat split; cbn; lia. Qed.

Definition one_file (content : str) (name : str) : option str := if str_eqb name (lit "g") then Some content else None.

Lemma read14 : forall junk content rest, graph_file tables14 content rest ->
  graph_read junk plenty EndCases.bits32 (one_file content) (lit "g") = Ok (Some TotalCases.graph9).
Proof.
  intros junk content rest G.
  rewrite (read_file _ EndCases.bits32 junk plenty (one_file content) (lit "g") tables14 content rest graph14 eq_refl G memory14 stands14).
  vm_compute. reflexivity.
Qed.

Lemma case14 : graph_file tables14 plain14 [] /\ graph_file tables14 full14 [1; 2] /\ stands_for tables14 graph14 /\
  memory_for plenty (Z.of_nat (length (tb_states tables14))) (Z.of_nat (length (tb_arcs tables14))) /\
  (forall junk, graph_read junk plenty EndCases.bits32 (one_file plain14) (lit "g") = Ok (Some TotalCases.graph9)) /\
  (forall junk, graph_read junk plenty EndCases.bits32 (one_file full14) (lit "g") = Ok (Some TotalCases.graph9)).
Proof.
  split; [exact plain14_file|]. split; [exact full14_file|]. split; [exact stands14|]. split; [exact memory14|].
  split; intros junk; eapply read14; [exact plain14_file|exact full14_file].
Qed.

(** ** Damaged files *)
Lemma byte_check : forall b, forallb is_byte b = true -> byte_list b.
Proof.
  intros b H. apply Forall_forall. intros x I. pose proof (proj1 (forallb_forall _ _) H x I) as B. unfold is_byte in B.
  apply andb_true_iff in B. destruct B as [B1 B2]. apply Z.leb_le in B1. apply Z.ltb_lt in B2. lia.
Qed.

Lemma truncated14 : byte_list plain14 /\
  forall junk n, (n < length plain14)%nat ->
    graph_read junk plenty EndCases.bits32 (one_file (firstn n plain14)) (lit "g") = Ok None.
Proof.
  assert (B : byte_list plain14) by (apply byte_check; vm_compute; reflexivity). split; [exact B|].
  intros junk n L. apply (read_truncated _ EndCases.bits32 junk plenty (one_file (firstn n plain14)) (lit "g") tables14 (firstn n plain14) (skipn n plain14)).
  - rewrite firstn_skipn. exact plain14_file.
  - intros E. apply (f_equal (@length Z)) in E. rewrite skipn_length in E. cbn [length] in E. lia.
  - rewrite firstn_skipn. exact B.
  - exact memory14.
  - reflexivity.
Qed.

(** Version 0, another type, other arcs, no content. *)
Definition foreign14 : list str :=
  [front14 0 0 0 3 5 ++ rows14 ++ arcs14;
   word 2125659606 ++ sized (lit "vector") ++ skipn 13 plain14;
   word 2125659606 ++ sized (lit "const") ++ sized (lit "log") ++ skipn 25 plain14;
   []].
Lemma foreign_refused : forall junk, Forall (fun c =>
    byte_list c /\ graph_read junk plenty EndCases.bits32 (one_file c) (lit "g") = Ok None) foreign14.
Proof.
  intros junk. repeat (constructor; [split; [apply byte_check; vm_compute; reflexivity|vm_compute; reflexivity]|]). constructor.
Qed.

(** A start state of 2^32 is taken for 0, 2^32 + 3 states for 3, 2^60 + 5 arcs
    for 5. *)
Lemma wrapped14 : forall junk,
  graph_read junk plenty EndCases.bits32
    (one_file (front14 2 0 4294967296 4294967299 1152921504606846981 ++ rows14 ++ arcs14)) (lit "g") = Ok (Some TotalCases.graph9).
Proof.
  intros junk.
  rewrite (read_layout _ EndCases.bits32 junk plenty (one_file _) (lit "g") _ _ _ tables14 _ [] graph14 eq_refl
    (layout14 4294967296 4294967299 1152921504606846981 ltac:(fit) ltac:(fit) ltac:(fit))).
  - vm_compute. reflexivity.
  - repeat split; exists 1; reflexivity.
  - exact tables14_fit.
  - exact memory14.
  - exact stands14.
Qed.

(** 2^60 - 1 arcs: bytes are written outside the memory. A negative number of
    states: no memory. *)
Lemma overrun14 : forall junk,
  graph_read junk plenty EndCases.bits32 (one_file (front14 2 0 0 3 1152921504606846975 ++ rows14 ++ arcs14)) (lit "g") = Fault Undef.
Proof. intros junk. vm_compute. reflexivity. Qed.

Lemma negative14 : forall junk room,
  graph_read junk room EndCases.bits32 (one_file (front14 2 0 0 (-1) 5 ++ rows14 ++ arcs14)) (lit "g") = Fault Throw.
Proof. intros junk room. vm_compute. reflexivity. Qed.

(** The second state asks for arcs behind the last one. *)
Definition tables15 : tables := mk_tables 0 [mk_row 0 0 1 0 0; mk_row 0 1 2 0 0] [mk_arc 1 1 0 0].
Lemma outside15 : forall junk, exists content r, graph_file tables15 content [] /\ In r (tb_states tables15) /\ row_outside tables15 r /\
  graph_read junk plenty EndCases.bits32 (one_file content) (lit "g") = Fault Undef.
Proof.
  intros junk. exists (front14 2 0 0 2 1 ++ flat_map row_bytes (tb_states tables15) ++ flat_map arc_bytes (tb_arcs tables15)), (mk_row 0 1 2 0 0).
  assert (G : graph_file tables15 (front14 2 0 0 2 1 ++ flat_map row_bytes (tb_states tables15) ++ flat_map arc_bytes (tb_arcs tables15)) []).
  { split.
    - split; [fit|]. split; [|split; [|cbn; lia]]; repeat (constructor; [repeat split; fit|]); constructor.
    - exists (sized (lit "const")), (sized (lit "standard")), 2, 0, 3, [], [], [], [].
      split; [apply sized_ok; vm_compute; discriminate|]. split; [apply sized_ok; vm_compute; discriminate|].
      split; [fit|]. split; [lia|]. split; [fit|]. split; [fit|]. split; [fit|]. split; [fit|]. split; [fit|].
      split; [reflexivity|]. split; [reflexivity|]. cbv zeta. split; [reflexivity|]. split; [reflexivity|]. vm_compute. reflexivity. }
  assert (I : In (mk_row 0 1 2 0 0) (tb_states tables15)) by (cbn; tauto).
  assert (U : row_outside tables15 (mk_row 0 1 2 0 0)) by (split; cbn; lia).
  split; [exact G|]. split; [exact I|]. split; [exact U|].
  assert (M : memory_for plenty (Z.of_nat (length (tb_states tables15))) (Z.of_nat (length (tb_arcs tables15)))) by (repeat split; cbn; lia).
  refine (read_outside _ EndCases.bits32 junk plenty _ (lit "g") tables15 _ [] _ eq_refl G M I U).
Qed.

(** ** A whole model in files *)
Definition files14 (name : str) : option str := if str_eqb name (lit "d/g") then Some full14 else EndCases.files11 name.
Definition model14 : model (transducer Z) :=
  mk_model graph14 EndCases.layers11 [0; 0] 1 1 2 2 [0; 0; 1] EndCases.words11 9 8 None.

Lemma stored14 : stored_whole (ieee FiniteCases.rough) EndCases.bits32 files14 plenty (lit "d/m") model14.
Proof.
  destruct EndCases.stored11 as (content & lines & Fc & Cl & (p & Pp & Hp') & Hn & Hp & H1 & H2 & H3 & H4 & Ht & Hs & Hl).
  assert (Ep : p = lit "d/g").
  { unfold EndCases.hclg11 in Hp'. destruct (str_eqb p (lit "d/g")) eqn:E; [apply Lines.str_eqb_eq; exact E|discriminate Hp']. }
  assert (K : forall p c, EndCases.files11 p = Some c -> files14 p = Some c).
  { intros q c E. unfold files14. destruct (str_eqb q (lit "d/g")) eqn:E1; [|exact E].
    apply Lines.str_eqb_eq in E1. subst q. discriminate E. }
  assert (S : forall k good, stored_at EndCases.files11 (lit "d/m") lines k good -> stored_at files14 (lit "d/m") lines k good).
  { intros k good (q & c & P1 & P2 & P3). exists q, c. auto. }
  exists content, lines. split; [now apply K|]. split; [exact Cl|].
  split; [exists p; split; [exact Pp|]; subst p; exists full14, tables14, [1; 2]; split; [reflexivity|]; split; [exact full14_file|]; split; [exact stands14|exact memory14]|].
  split; [now apply S|]. split; [now apply S|]. split; [exact H1|]. split; [exact H2|]. split; [exact H3|]. split; [exact H4|].
  split; [now apply S|]. split; [now apply S|]. exact Hl.
Qed.

Lemma graph14_meant : graph_meant EndCases.bits32 graph14 = TotalCases.graph9.
Proof. vm_compute. reflexivity. Qed.

Lemma model14_meant : with_graph EndCases.bits32 model14 = EndCases.model11.
Proof. unfold with_graph, model14, EndCases.model11. cbn [m_graph m_layers m_prior m_left m_right m_chunk m_pdfs m_tid2pdf m_words m_bos m_eos m_lm]. rewrite graph14_meant. reflexivity. Qed.

Lemma printed14 : forall junk junk_int junk_char unknown why lm_fuel header_error,
  exists fuel0, forall fuel, (fuel0 <= fuel)%nat ->
  run_main (ieee FiniteCases.rough) ieee_wide (IeeeCases.tenth 1) fuel files14
    (stt_load (ieee FiniteCases.rough) (ieee_trig FiniteCases.rough_trig) (ieee_init FiniteCases.rough_trig) junk junk_int EndCases.bits32 unknown
       files14 (graph_read junk_char plenty EndCases.bits32 files14) why lm_fuel) header_error
    [lit "d/m"; lit "u.wav"] = Ok (lit "so what" ++ [10], 0).
Proof.
  intros junk junk_int junk_char unknown why lm_fuel header_error. apply EndCases.printed_with; [|reflexivity].
  rewrite <- model14_meant. apply whole_stored. exact stored14.
Qed.
