(** What Kaldi may leave, what the scripts make of it and what the program
    prints. *)
From Coq Require Import ZArith String List Bool Lia.
From Verif.Base Require Import Prelude Lemmas.
From Verif.Spec Require Import AudioSpec TextSpec AmSpec FormatSpec ToolSpec NnetSpec AmTextSpec FstSpec ConvertFstSpec LoadingSpec ProgramSpec EndSpec ChainSpec.
From Verif.Model Require Import Util File Arith Nnet Fst Decoder Stt Main Loading Python Tools ConvertAm ConvertFst Ieee IeeeFbank.
From Verif.Proof Require Import Lines IeeeCases TotalCases FiniteCases ToolCases ConvertCases EndCases Chain.
From Verif.Proof Require Tools ToolsMore Text Lines Python ConvertFst LoadingCases Lm.
Import ListNotations.
Open Scope Z_scope.

(** Numbers are written as 32-bit words. *)
Definition word_float : py_float Z :=
  mk_py_float _ (fun s => match py_int s with Ok n => Some n | _ => None end) (fun n => - 23 * n) 1000000 0 Some.
Notation number11 := (fun s x => n_parse word_float s = Some x).

Definition row11 (w : string) : bytes := spaced (repeat (sp, lit w) 120) sp.
Definition affine11 : bytes :=
  lit " <MaxChange> 0.75 <LinearParams>  [" ++ nl ++ row11 "1065353216" ++ nl ++ row11 "-1082130432" ++ lit "]" ++ nl ++
  lit "<BiasParams>  [ -1110651699 -1097229926 ]" ++ nl.
Definition desc11 : list bytes :=
  [ []; lit "input-node name=input dim=40";
    lit "component-node name=a component=a input=Append(Offset(input, -1), input, Offset(input, 1))";
    lit "output-node name=output input=a"; [] ].
Definition parts_text11 : bytes :=
  lit "<ComponentName> a <NaturalGradientAffineComponent>" ++ affine11 ++ lit "</NaturalGradientAffineComponent> " ++ nl.
Definition body11 : bytes := join [10] desc11 ++ lit "<NumComponents> 1 " ++ nl ++ parts_text11.
Definition am11 : bytes :=
  lit "<TransitionModel> </TransitionModel> <Nnet3>" ++ body11 ++ lit "</Nnet3> <Priors>  [ 0 0 ]" ++ nl.
Definition layer11 : layer Z := Linear (repeat [1065353216; -1082130432] 120) [-1110651699; -1097229926].
Definition nodes11 : list node := [([97], ([97], Some [-1; 0; 1]))].

Lemma repeat_numbers : forall s x n, number11 s x -> Forall2 number11 (repeat s n) (repeat x n).
Proof. intros s x n H. induction n; cbn [repeat]; constructor; assumption. Qed.

Lemma row11_row : forall w, solidb (lit w) = true -> row (row11 w) (repeat (lit w) 120).
Proof.
  intros w S. unfold row11. generalize 120%nat. intros n.
  assert (E : map snd (repeat (sp, lit w) n) = repeat (lit w) n) by (induction n; cbn [repeat map snd]; congruence).
  rewrite <- E. apply spaced_row. induction n as [|n IH]; [reflexivity|]. cbn [repeat spaced_ok]. rewrite S, IH by (clear; induction n; cbn [repeat map snd]; congruence).
  destruct n; reflexivity.
Qed.

Lemma matrix11 : number_rows number11 [[]; row11 "1065353216"; row11 "-1082130432"] [repeat 1065353216 120; repeat (-1082130432) 120].
Proof.
  apply RBlank; [constructor|].
  apply RRow with (fs := repeat (lit "1065353216") 120); [apply row11_row; reflexivity|discriminate|apply repeat_numbers; reflexivity|].
  apply RRow with (fs := repeat (lit "-1082130432") 120); [apply row11_row; reflexivity|discriminate|apply repeat_numbers; reflexivity|constructor].
Qed.

Lemma component11 : forall sc off, component_text number11 0 sc off (quote "NaturalGradientAffineComponent") affine11 layer11.
Proof.
  intros sc off.
  eapply TAffine with (W := [repeat 1065353216 120; repeat (-1082130432) 120]) (more := []) (a1 := lit " <MaxChange> 0.75 ")
    (t1 := lit "  [" ++ nl ++ row11 "1065353216" ++ nl ++ row11 "-1082130432" ++ lit "]" ++ nl ++ lit "<BiasParams>  [ -1110651699 -1097229926 ]" ++ nl)
    (r1 := nl ++ lit "<BiasParams>  [ -1110651699 -1097229926 ]" ++ nl) (a2 := nl) (t2 := lit "  [ -1110651699 -1097229926 ]" ++ nl) (r2 := nl).
  - apply found_dec. vm_compute. reflexivity.
  - exists (lit "  "), [[]; row11 "1065353216"; row11 "-1082130432"]. split; [reflexivity|].
    split; [apply blank_dec; reflexivity|]. split; [discriminate|]. split.
    { repeat (apply Forall_cons; [split; apply not_in_dec; vm_compute; reflexivity|]). apply Forall_nil. }
    split; [exact matrix11|]. exists 120%nat. repeat constructor.
  - discriminate.
  - apply found_dec. vm_compute. reflexivity.
  - exists (lit "  "), [lit " -1110651699 -1097229926 "]. split; [reflexivity|].
    split; [apply blank_dec; reflexivity|]. split; [discriminate|]. split.
    { constructor; [|constructor]. split; apply not_in_dec; vm_compute; reflexivity. }
    split.
    { apply RRow with (fs := [lit "-1110651699"; lit "-1097229926"]);
        [exact (spaced_row [(sp, lit "-1110651699"); (sp, lit "-1097229926")] sp eq_refl)|discriminate| |constructor].
      repeat constructor. }
    exists 2%nat. now repeat constructor.
  - split; [reflexivity|]. rewrite repeat_length. generalize 120%nat. intros n i L.
    rewrite (nth_indep _ [] [1065353216; -1082130432]) by (rewrite repeat_length; exact L). rewrite nth_repeat. cbn [map].
    rewrite (nth_indep _ 0 1065353216) by (rewrite repeat_length; exact L). rewrite nth_repeat.
    rewrite (nth_indep _ 0 (-1082130432)) by (rewrite repeat_length; exact L). rewrite nth_repeat. reflexivity.
Qed.

Lemma am11_model : forall sc off, model_text number11 0 sc off nodes11 [([97], layer11)] [0; 0] am11.
Proof.
  intros sc off.
  exists (lit "<TransitionModel> </TransitionModel> "), (body11 ++ lit "</Nnet3> <Priors>  [ 0 0 ]" ++ nl),
    body11, (lit " <Priors>  [ 0 0 ]" ++ nl), desc11, (lit " 1 " ++ nl ++ parts_text11),
    sp, 1, (lit "1"), (sp ++ nl), parts_text11,
    (lit "<TransitionModel> </TransitionModel> <Nnet3>" ++ body11 ++ lit "</Nnet3> "),
    (lit "  [ 0 0 ]" ++ nl), [], nl.
  split; [apply found_dec; vm_compute; reflexivity|].
  split; [apply found_dec; vm_compute; reflexivity|].
  split; [discriminate|].
  split; [apply no_lines_dec; vm_compute; reflexivity|].
  split; [apply found_dec; vm_compute; reflexivity|].
  split.
  { apply NBlank; [constructor|].
    apply NEnds with (kind := quote "input-node") (fs := [lit "name=input"; lit "dim=40"]); [|now left|].
    { exact (spaced_row [([], lit "input-node"); (sp, lit "name=input"); (sp, lit "dim=40")] [] eq_refl). }
    apply NNode with (text := lit "Append(Offset(input, -1), input, Offset(input, 1))").
    { apply label_dec; reflexivity. } { apply label_dec; reflexivity. }
    { apply (IAppend (quote "input") [-1; 0; 1] (lit "Offset(input, -1), input, Offset(input, 1)")); [apply node_name_dec; reflexivity|].
      apply (OMore (quote "input") [] (-1) (lit "Offset(input, -1)") [] [0; 1] (lit " input, Offset(input, 1)")); [constructor|constructor| |].
      - right. exists (lit "-1"), sp. repeat split; [|repeat constructor]. apply (DNeg 1 (lit "1")); [lia|]. apply (DD1 1). lia.
      - apply (OMore (quote "input") sp 0 (lit "input") [] [1] (lit " Offset(input, 1)")); [apply blank_dec; reflexivity|constructor|now left|].
        apply (OLast (quote "input") sp 1 (lit "Offset(input, 1)") []); [apply blank_dec; reflexivity|constructor|].
        right. exists (lit "1"), sp. repeat split; [|repeat constructor]. apply (digit_decimal 1). lia. }
    { apply shows_dec; vm_compute; reflexivity. }
    apply NEnds with (kind := quote "output-node") (fs := [lit "name=output"; lit "input=a"]); [|now right|].
    { exact (spaced_row [([], lit "output-node"); (sp, lit "name=output"); (sp, lit "input=a")] [] eq_refl). }
    apply NBlank; [constructor|]. constructor. }
  split; [reflexivity|]. split; [apply blank_dec; reflexivity|]. split; [apply blank_dec; reflexivity|].
  split; [discriminate|]. split; [lia|]. split; [apply (digit_decimal 1); lia|].
  split.
  { apply CNext with (w := []) (w1 := sp) (name := [97]) (w2 := sp) (kind := quote "NaturalGradientAffineComponent")
      (t := affine11 ++ lit "</NaturalGradientAffineComponent> " ++ nl) (content := affine11) (rest := sp ++ nl).
    - constructor.
    - apply blank_dec; reflexivity.
    - apply label_dec; reflexivity.
    - apply blank_dec; reflexivity.
    - discriminate.
    - apply found_dec. vm_compute. reflexivity.
    - exact (component11 sc off).
    - apply CEnd. apply blank_dec; reflexivity. }
  split; [apply found_dec; vm_compute; reflexivity|].
  exists (lit "  "), [lit " 0 0 "]. split; [reflexivity|].
  split; [apply blank_dec; reflexivity|]. split; [discriminate|]. split.
  { constructor; [|constructor]. split; apply not_in_dec; vm_compute; reflexivity. }
  split; [|exists 2%nat; now repeat constructor].
  apply RRow with (fs := [lit "0"; lit "0"]); [exact (spaced_row [(sp, lit "0"); (sp, lit "0")] sp eq_refl)|discriminate| |constructor].
  repeat constructor.
Qed.

Lemma same_words : forall l : list Z, Forall2 (fun x w => n_pack word_float x = Some w) l l.
Proof. intros l. induction l; constructor; [reflexivity|assumption]. Qed.
Lemma same_word_rows : forall m : list (list Z), Forall2 (Forall2 (fun x w => n_pack word_float x = Some w)) m m.
Proof. intros m. induction m; constructor; [apply same_words|assumption]. Qed.

Lemma acoustic11 : forall sc off, acoustic word_float sc off am11 blocks11 [0; 0] layers11 [0; 0].
Proof.
  intros sc off. exists nodes11, [([97], layer11)], (fun _ => layer11).
  split; [exact (am11_model sc off)|]. split; [apply not_in_dec; vm_compute; reflexivity|].
  split; [repeat constructor|].
  split.
  { split; [cbn; repeat constructor; cbn; tauto|]. split; [cbn; repeat constructor; cbn; tauto|]. split.
    - intros c i [Q|[]]. injection Q as <- _. now left.
    - intros c ks [Q|[]]. injection Q as <- _. vm_compute. intuition discriminate. }
  split; [reflexivity|].
  split.
  { unfold layers11. change (flat_map block_layers blocks11) with layers11. unfold layers11.
    apply Forall2_cons; [constructor|]. apply Forall2_cons; [constructor|]. apply Forall2_cons; [|apply Forall2_nil].
    constructor; [apply same_word_rows|apply same_words]. }
  split; [destruct network11 as (? & ? & ? & _ & _ & _ & S & _); exact S|].
  split; [apply same_words|]. split; [LoadingCases.small|]. repeat split; vm_compute; discriminate.
Qed.

Lemma runs11 : runs_on 40 (flat_map block_layers blocks11) (length [0; 0]).
Proof. exact (nf_runs _ _ fits11). Qed.

Definition kaldi11 (lm : option (str * str * transducer Z)) : kaldi (graph float32) Z :=
  mk_kaldi graph9 am11 2 [0; 0; 1] 2 words11 9 8 lm.

Lemma meant11 : forall sc off, meant (ieee rough) bits32 word_float sc off (kaldi11 None) blocks11 model11.
Proof.
  intros sc off. constructor; try reflexivity.
  - exists [0; 0]. split; [apply acoustic11|exact runs11].
  - repeat (constructor; [vm_compute; reflexivity|]). constructor.
  - split; [reflexivity|cbn; lia].
  - vm_compute. discriminate.
  - split; [reflexivity|]. LoadingCases.small.
  - repeat split.
Qed.

Import LoadingCases.
Lemma am11_converted : forall sc off, convert_am word_float sc off am11 = Ok (network_file 1 1 layers11, vector_file [0; 0]).
Proof. intros sc off. exact (acoustic_converted word_float sc off am11 blocks11 [0; 0] layers11 [0; 0] (acoustic11 sc off) runs11). Qed.
Lemma pdfs11_converted : convert_trans (extract_id2pdf 2 [0; 0; 1]) = Ok (vector_file [0; 0; 1]).
Proof. apply Tools.extract_convert. small. Qed.

Lemma made11 : forall sc off, made_by_scripts word_float sc off files11 hclg11 (lit "d/m") (kaldi11 None) blocks11.
Proof.
  intros sc off. exists (text lines11 ++ last11), (lines11 ++ [last11]). split; [reflexivity|].
  split.
  { exists lines11, last11. split; [reflexivity|]. split; [unfold lines11; cbn [map]; repeat (constructor; [plain9|]); constructor|].
    split; [plain9|]. split; [reflexivity|].
    repeat (constructor; [right; do 2 eexists; apply classify_some; vm_compute; reflexivity|]). constructor. }
  split; [exists (lit "d/g"); split; [apply graph9_set; vm_compute; reflexivity|reflexivity]|].
  split.
  { exists (network_file 1 1 layers11), (vector_file [0; 0]). split; [exact (am11_converted sc off)|].
    split; [data9 "n"%string; reflexivity|data9 "p"%string; reflexivity]. }
  split; [apply (number9 _ _ 1); [vm_compute; reflexivity|cbn; lia]|].
  split; [apply (number9 _ _ 1); [vm_compute; reflexivity|cbn; lia]|].
  split; [apply (number9 _ _ 2); [vm_compute; reflexivity|cbn; lia]|].
  split; [apply (number9 _ _ 2); [vm_compute; reflexivity|cbn; lia]|].
  split; [exists (vector_file [0; 0; 1]); split; [exact pdfs11_converted|data9 "t"%string; reflexivity]|].
  split; [data9 "w"%string; exact words11_file|].
  apply absent9. vm_compute. reflexivity.
Qed.

(** The same with language models. *)
Definition lines12 : list str := map lit
  ["fst=g"; "nnet=n"; "prior=p"; "left_context=1"; "right_context=1"; "chunk_size=2"; "num_pdfs=2"; "tid2pdf=t"; "large_lm=l"; "original_lm=o"]%string.
Definition lm12 : option (str * str * transducer Z) := Some (text model_lines, text vocab_lines, Lm.example_lm).
Definition costs12 : list Z := [0; 1000000; 92; 23; 1000000].
Definition model12 : model (graph float32) :=
  mk_model TotalCases.graph9 layers11 [0; 0] 1 1 2 2 [0; 0; 1] words11 9 8 (Some (costs12, Lm.example_lm)).
Definition files12 (name : str) : option str :=
  if str_eqb name (lit "d/m") then Some (text lines12 ++ last11)
  else if str_eqb name (lit "d/o") then Some (vector_file costs12)
  else if str_eqb name (lit "d/l") then Some (fst_file Lm.example_lm)
  else files11 name.

Lemma unigrams12 : unigram_words word_float (text model_lines) (text vocab_lines) costs12.
Proof.
  exists model_lines, vocab_lines, model_entries, bigrams, vocab_entries,
    [(start_word, -99); ([97], -1); (unk_word, -2); ([98], -3); ([98], -4)], costs12.
  split; [apply Python.lines_text; repeat (constructor; [apply one_line_dec; reflexivity|]); constructor|].
  split; [exact model_arpa|]. split; [right; exact bigram_sections|].
  split; [apply Python.lines_text; repeat (constructor; [apply one_line_dec; reflexivity|]); constructor|].
  split; [exact vocab_vocabulary|].
  split; [unfold vocab_entries; cbn [map Datatypes.fst]; repeat (constructor; [vm_compute; intuition discriminate|]); constructor|].
  split; [unfold vocab_entries; cbn [map snd]; repeat (constructor; [vm_compute; intuition discriminate|]); constructor|].
  split; [repeat (constructor; [cbn; lia|]); constructor|].
  split; [repeat (constructor; [split; vm_compute; reflexivity|]); constructor|].
  split; [now left|].
  split. { intros w I. cbn [map Datatypes.fst In vocab_entries] in *. intuition. }
  split.
  { split; [|split; [|split]].
    + intros w i I. repeat (destruct I as [[= <- <-]|I]; [cbn; lia|]). easy.
    + exists [99]. cbn. auto.
    + intros w i I. repeat (destruct I as [[= <- <-]|I]; [reflexivity|]). easy.
    + intros n L I. do 5 (destruct n as [|n]; [try reflexivity; exfalso; apply I; cbn; auto|]). cbn in L. lia. }
  split; [apply same_words|]. unfold costs12. small.
Qed.

Lemma lm12_fits : fst_fits Lm.example_lm.
Proof.
  destruct lm9 as (rest & _ & (_ & _ & S2 & S3) & (B & _)). split; [exact B|]. split; assumption.
Qed.

Lemma meant12 : forall sc off, meant (ieee rough) bits32 word_float sc off (kaldi11 lm12) blocks11 model12.
Proof.
  intros sc off. destruct (meant11 sc off) as [Mg Ma Mp Ml Mr Mc Ms Mn Mt Mw _]. constructor; try assumption.
  split; [exact unigrams12|]. split; [apply ConvertFst.packed_same|]. split; [exact lm12_fits|]. split; [reflexivity|exact Lm.example_wf].
Qed.

Lemma made12 : forall sc off, made_by_scripts word_float sc off files12 hclg11 (lit "d/m") (kaldi11 lm12) blocks11.
Proof.
  intros sc off. exists (text lines12 ++ last11), (lines12 ++ [last11]). split; [reflexivity|].
  split.
  { exists lines12, last11. split; [reflexivity|]. split; [unfold lines12; cbn [map]; repeat (constructor; [plain9|]); constructor|].
    split; [plain9|]. split; [reflexivity|].
    repeat (constructor; [right; do 2 eexists; apply classify_some; vm_compute; reflexivity|]). constructor. }
  split; [exists (lit "d/g"); split; [apply graph9_set; vm_compute; reflexivity|reflexivity]|].
  split.
  { exists (network_file 1 1 layers11), (vector_file [0; 0]). split; [exact (am11_converted sc off)|].
    split; [data9 "n"%string; reflexivity|data9 "p"%string; reflexivity]. }
  split; [apply (number9 _ _ 1); [vm_compute; reflexivity|cbn; lia]|].
  split; [apply (number9 _ _ 1); [vm_compute; reflexivity|cbn; lia]|].
  split; [apply (number9 _ _ 2); [vm_compute; reflexivity|cbn; lia]|].
  split; [apply (number9 _ _ 2); [vm_compute; reflexivity|cbn; lia]|].
  split; [exists (vector_file [0; 0; 1]); split; [exact pdfs11_converted|data9 "t"%string; reflexivity]|].
  split; [data9 "w"%string; exact words11_file|].
  split.
  - exists (vector_file costs12). split; [|data9 "o"%string; reflexivity].
    destruct (unigrams12) as (ls & vl & es & higher & vs & xs & cs & U1 & U2 & U3 & U4 & U5 & U6 & U7 & U8 & U9 & U10 & U11 & U12 & U13 & U14).
    exact (Tools.convert_unigram_ok word_float _ _ ls vl es higher vs xs cs costs12 U1 U2 U3 U4 U5 U6 U7 U8 U9 U10 U11 U12 U13 U14).
  - exists (fst_file Lm.example_lm). split; [|data9 "l"%string; reflexivity].
    apply (ConvertFst.converted word_float Lm.example_lm); [apply ConvertFst.packed_same|exact lm12_fits].
Qed.
