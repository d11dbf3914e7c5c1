(** Models that cannot be loaded, and the texts. *)
From Coq Require Import ZArith String List Bool Lia.
From Verif.Base Require Import Prelude Lemmas.
From Verif.Model Require Import Util File Binary Arith Srfft FbankInit Pcm Nnet Am Configuration SymbolTable Fst Decoder Formats Stt Loading Messages.
From Verif.Spec Require Import AudioSpec PcmSpec AmSpec FormatSpec TextSpec FstSpec LoadingSpec MessageSpec.
From Verif.Proof Require Lm Text Python.
From Verif.Proof Require Import Messages MessagesText MessagesInit MessagesCut.
Import ListNotations.
Open Scope Z_scope.

(** A model of the configuration [conf], the network [net], the words [words] and
    the language model [lm]. *)
Definition files10 (fn conf net words lm : str) (name : str) : option str :=
  match List.find (fun e => str_eqb name (Datatypes.fst e))
    [(fn, conf); (lit "d/n", net); (lit "d/p", vector_file [0]); (lit "d/w", words); (lit "d/l", lm)] with
  | Some e => Some (snd e)
  | None => None
  end.

Definition conf10 : list string :=
  ["fst=g"; "nnet=n"; "prior=p"; "left_context=1"; "right_context=1"; "chunk_size=2"; "num_pdfs=2"; "tid2pdf=p";
   "symbol_table=w"; "large_lm=l"; "original_lm=p"; ""]%string.
Definition text10 (ls : list string) : str := join [10] (map lit ls).
Definition net10 : str := network_file 1 1 [LogSoftmax].
Definition words10 : str := text10 ["<s> 1"; "</s> 2"; ""]%string.

Section Cases.
Context {F : Type}.
Variable O : fops F.
Variable T : trig_ops F.
Variable I : init_ops F.
Variable junk : nat -> F.
Variable junk_int : nat -> Z.
Variable of_word : Z -> F.
Variable unknown : F.
Variable lm_fuel : nat.
Variable g : graph F.
Hypothesis Nonneg : f_nonneg O (of_word 0) = true.

Definition hclg10 (name : str) : res (option (graph F)) := Ok (if str_eqb name (lit "d/g") then Some g else None).
Definition init10 (fn conf net words lm : str) :=
  ml_init O T I junk junk_int of_word unknown (files10 fn conf net words lm) hclg10 lm_fuel fn.

Ltac run0 := vm_compute; reflexivity.
Ltac run := let N := fresh in pose proof Nonneg as N; unfold f_nonneg in N; vm_compute; rewrite ?N; reflexivity.

Lemma no_graph_key : init10 (lit "d/m") [] net10 words10 [] = Ok (inr (lit "Corruption: Unable to find key 'fst' in "), [Recognizer]).
Proof. run0. Qed.
Lemma bad_line : init10 (lit "d/m") (text10 ["fst=g"; "a b"; ""]%string) net10 words10 [] = Ok (inr (lit "Corruption: Unexpected line in d/m: a b"), [Recognizer]).
Proof. run0. Qed.
Lemma no_value : init10 (lit "d/m") (text10 ["fst=g"; " Prior ="; ""]%string) net10 words10 [] = Ok (inr (lit "Corruption: Unexpected line in d/m: Prior ="), [Recognizer]).
Proof. run0. Qed.
Lemma empty_value : init10 (lit "d/m") (text10 ["fst=g"; " Prior =="; ""]%string) net10 words10 [] = Ok (inr (lit "Corruption: Value cound not be empty: d/m"), [Recognizer]).
Proof. run0. Qed.
Lemma no_network : init10 (lit "d/m") (text10 ["fst=g"; "nnet=q"; ""]%string) net10 words10 [] = Ok (inr (lit "IOError: Unable to open d/q"), [Recognizer]).
Proof. run0. Qed.
Lemma no_prior : init10 (lit "d/m") (text10 ["fst=g"; "nnet=n"; ""]%string) net10 words10 []
  = Ok (inr (lit "Corruption: Unable to find key 'prior' in 'd/m'"), [Recognizer]).
Proof. run0. Qed.
Lemma bad_words : init10 (lit "d/m") (text10 conf10) net10 (text10 ["<s> 1"; "so"; ""]%string) []
  = Ok (inr (lit "Corruption: 2 column expected but 1 found: so"), [Recognizer]).
Proof. run. Qed.
Lemma no_bos : init10 (lit "d/m") (text10 conf10) net10 (text10 ["</s> 1"; "so 2"; ""]%string) []
  = Ok (inr (lit "Corruption: symbol_table: unable to find BOS/EOS symbol"), [Recognizer]).
Proof. run. Qed.
Lemma bad_number : init10 (lit "d/m") (text10 conf10) net10 (text10 ["<s> 1"; "so b2"; ""]%string) []
  = Ok (inr (lit "Corruption: unexpected number string: b2"), [Recognizer]).
Proof. run. Qed.
Lemma no_end : init10 (lit "d/m") (text10 conf10) net10 (text10 ["<s> 1"; "</s> 2"]%string) []
  = Ok (inr (lit "IOError: EOF already reached: d/w"), [Recognizer]).
Proof. run. Qed.
Lemma no_lm_key : init10 (lit "d/m") (text10 (firstn 10 conf10 ++ [""%string])) net10 words10 []
  = Ok (inr (lit "Corruption: Unable to find key 'original_lm' in "), [Recognizer]).
Proof. run. Qed.
Lemma cut_lm : init10 (lit "d/m") (text10 conf10) net10 words10 (firstn 60 (fst_file Lm.example_lm))
  = Ok (inr (lit "IOError: failed to read: d/l"), [Recognizer]).
Proof. run. Qed.
Lemma bad_splice : init10 (lit "d/m") (text10 conf10) (lit "NN02" ++ word 1 ++ word 1 ++ word 1 ++ lit "LAY0" ++ word 6 ++ word (-1)) words10 []
  = Ok (inr (lit "Corruption: SpliceLayer: unexpected num_indcies"), [Recognizer]).
Proof. run0. Qed.
Lemma lm_size : init10 (lit "d/m") (text10 conf10) net10 words10 (lit "pk::fst_0" ++ repeat 0 23 ++ word 30 ++ word 1 ++ word 0 ++ word 0)
  = Ok (inr (lit "Corruption: section_size == 20 expected, but 30 found"), [Recognizer]).
Proof. run. Qed.
Lemma brace_name : init10 (lit "d/{}") (text10 ["a b"; ""]%string) net10 words10 []
  = Ok (inr (lit "Corruption: Unexpected line in d/a b: {}"), [Recognizer]).
Proof. run0. Qed.

End Cases.

(** * Texts without a name *)

Lemma fault_slash F files (hclg : str -> res (option (graph F))) fn p : In 47 fn -> at_fault files hclg fn p -> In 47 p.
Proof.
  intros S A.
  assert (forall key, named files fn key p -> In 47 p) as Nm.
  { intros key (v & _ & _ & [((r & ->) & ->)|(_ & [(dir & base & _ & _ & ->)|(N & _)])]); [now left| |contradiction].
    apply in_or_app. right. now left. }
  destruct A as [(-> & _)|[(N & _)|[(key & _ & N & _)|(c & _ & [(N & _)|[(key & _ & N & _)|[(N & _)|(N & _)]]])]]]; eauto.
Qed.

Lemma slash_free F files (hclg : str -> res (option (graph F))) fn msg : In 47 fn -> ~ In 47 msg ->
  forall p, at_fault files hclg fn p -> ~ contains msg p.
Proof.
  intros S N p A (u & v & ->). apply N. apply in_or_app. right. apply in_or_app. left. eapply fault_slash; eassumption.
Qed.

Definition names_none {F} (files : str -> option str) (hclg : str -> res (option (graph F))) (fn msg : str) : Prop :=
  forall p, at_fault files hclg fn p -> ~ contains msg p.

Ltac free := refine (slash_free _ _ _ _ _ _ _); [cbn; tauto|intros J; vm_compute in J; repeat (destruct J as [J|J]; [discriminate J|]); exact J].

Section Nameless.
Context {F : Type}.
Variable O : fops F.
Variable T : trig_ops F.
Variable I : init_ops F.
Variable junk : nat -> F.
Variable junk_int : nat -> Z.
Variable of_word : Z -> F.
Variable unknown : F.
Variable lm_fuel : nat.
Variable g : graph F.
Hypothesis Nonneg : f_nonneg O (of_word 0) = true.

(** The text for these files names none of those at fault. *)
Definition unhelpful (conf net words lm : str) : Prop :=
  exists msg, init10 O T I junk junk_int of_word unknown lm_fuel g (lit "d/m") conf net words lm = Ok (inr msg, [Recognizer]) /\
    names_none (files10 (lit "d/m") conf net words lm) (hclg10 g) (lit "d/m") msg.

Lemma unhelpful_texts :
  unhelpful [] net10 words10 [] /\
  unhelpful (text10 (firstn 10 conf10 ++ [""%string])) net10 words10 [] /\
  unhelpful (text10 conf10) net10 (text10 ["<s> 1"; "so"; ""]%string) [] /\
  unhelpful (text10 conf10) net10 (text10 ["<s> 1"; "so b2"; ""]%string) [] /\
  unhelpful (text10 conf10) (lit "NN02" ++ word 1 ++ word 1 ++ word 1 ++ lit "LAY0" ++ word 6 ++ word (-1)) words10 [] /\
  unhelpful (text10 conf10) net10 words10 (lit "pk::fst_0" ++ repeat 0 23 ++ word 30 ++ word 1 ++ word 0 ++ word 0).
Proof.
  split. { eexists. split; [apply no_graph_key|free]. }
  split. { eexists. split; [apply no_lm_key; exact Nonneg|free]. }
  split. { eexists. split; [apply bad_words; exact Nonneg|free]. }
  split. { eexists. split; [apply bad_number; exact Nonneg|free]. }
  split. { eexists. split; [apply bad_splice|free]. }
  eexists. split; [apply lm_size; exact Nonneg|free].
Qed.

(** A name with braces. *)
Lemma brace_text :
  init10 O T I junk junk_int of_word unknown lm_fuel g (lit "d/{}") (text10 ["a b"; ""]%string) net10 words10 []
    = Ok (inr (lit "Corruption: Unexpected line in d/a b: {}"), [Recognizer]) /\
  ~ contains (lit "Corruption: Unexpected line in d/a b: {}") (lit "d/{}").
Proof.
  split; [apply brace_name|]. apply (Text.find_from_none (lit "d/{}") _ 0). vm_compute. reflexivity.
Qed.

Notation init := (init10 O T I junk junk_int of_word unknown lm_fuel g).

Lemma example_texts :
  init (lit "d/m") (text10 ["fst=g"; "a b"; ""]%string) net10 words10 [] = Ok (inr (lit "Corruption: Unexpected line in d/m: a b"), [Recognizer]) /\
  init (lit "d/m") (text10 ["fst=g"; " Prior ="; ""]%string) net10 words10 [] = Ok (inr (lit "Corruption: Unexpected line in d/m: Prior ="), [Recognizer]) /\
  init (lit "d/m") (text10 ["fst=g"; " Prior =="; ""]%string) net10 words10 [] = Ok (inr (lit "Corruption: Value cound not be empty: d/m"), [Recognizer]) /\
  init (lit "d/m") (text10 ["fst=g"; "nnet=q"; ""]%string) net10 words10 [] = Ok (inr (lit "IOError: Unable to open d/q"), [Recognizer]) /\
  init (lit "d/m") (text10 ["fst=g"; "nnet=n"; ""]%string) net10 words10 [] = Ok (inr (lit "Corruption: Unable to find key 'prior' in 'd/m'"), [Recognizer]) /\
  init (lit "d/m") (text10 conf10) net10 (text10 ["</s> 1"; "so 2"; ""]%string) []
    = Ok (inr (lit "Corruption: symbol_table: unable to find BOS/EOS symbol"), [Recognizer]) /\
  init (lit "d/m") (text10 conf10) net10 (text10 ["<s> 1"; "</s> 2"]%string) [] = Ok (inr (lit "IOError: EOF already reached: d/w"), [Recognizer]) /\
  init (lit "d/m") (text10 conf10) net10 words10 (firstn 60 (fst_file Lm.example_lm)) = Ok (inr (lit "IOError: failed to read: d/l"), [Recognizer]) /\
  ~ contains (lit "d/m") (lit "{}").
Proof.
  split; [apply bad_line|]. split; [apply no_value|]. split; [apply empty_value|]. split; [apply no_network|]. split; [apply no_prior|].
  split; [apply no_bos; exact Nonneg|]. split; [apply no_end; exact Nonneg|]. split; [apply cut_lm; exact Nonneg|].
  apply (Text.find_from_none (lit "{}") _ 0). vm_compute. reflexivity.
Qed.

End Nameless.

(** * Headers *)

Lemma header_cases :
  header_error (lit "RIFX" ++ [1; 2]) (lit "Corruption: ReadAndVerifyString: 'RIFF' expected but 'RIFX' found in ") /\
  header_error (known_fields 36 1 16000 16000 2 16 ++ [5]) (lit "Corruption: bytes_rate == 32000 expected, but 16000 found: ") /\
  header_error (firstn 40 (pcm_header 36 1 16000 32000 2 16 0)) (lit "IOError: failed to read: ").
Proof.
  split; [|split].
  - apply (H_riff (lit "RIFX") [1; 2]). unfold other_tag. split; [reflexivity|]. split; [discriminate|].
    repeat split; intros J; vm_compute in J; repeat (destruct J as [J|J]; [discriminate J|]); exact J.
  - apply (H_byte_rate 36 1 16000 16000 2 16 [5] (lit "32000") (lit "16000")); try (vm_compute; split; congruence); try discriminate.
    + exact (Python.to_string_decimal 32000).
    + exact (Python.to_string_decimal 16000).
  - apply (H_cut 36 1 16000 32000 2 16 0 40); try (vm_compute; split; congruence); vm_compute; lia.
Qed.

(** As before but for the text. *)
Lemma header_alike content :
  match header_text content with
  | Ok None => exists w f, Pcm.read_pcm_header (open content) = Ok (Some w, f)
  | Ok (Some _) => exists f, Pcm.read_pcm_header (open content) = Ok (None, f)
  | Fault e => Pcm.read_pcm_header (open content) = Fault e
  end.
Proof.
  unfold header_text. rewrite (drops_pcm [] (open content)).
  destruct (m_header [] (open content)) as [[[w|t] f]|e]; cbn [bind drop Datatypes.fst snd]; [now exists w, f|now exists f|reflexivity].
Qed.

Lemma cut_vector_case name : storable [7; 0] /\ Z.of_nat (length (vector_file [7; 0])) = 20 /\
  (exists f, m_vector name (open (firstn 9 (vector_file [7; 0]))) = Ok (inr (lit "IOError: failed to read: " ++ name), f)) /\
  other_tag (lit "VEC0") (lit "MAT0") /\ other_tag (lit "NN02") (lit "AM02").
Proof.
  assert (storable [7; 0]) as S.
  { split; [discriminate|]. split; [|vm_compute; discriminate]. repeat constructor; vm_compute; congruence. }
  split; [exact S|]. split; [reflexivity|]. split; [apply vector_cut; [exact S|vm_compute; lia]|].
  split; (split; [reflexivity|]; split; [discriminate|];
    repeat split; intros J; vm_compute in J; repeat (destruct J as [J|J]; [discriminate J|]); exact J).
Qed.
