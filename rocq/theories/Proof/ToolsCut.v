(** Language models without their last line. *)
From Coq Require Import ZArith String List Bool Lia.
From Verif.Base Require Import Prelude Lemmas.
From Verif.Model Require Import Util File Vector Stt Python Tools.
From Verif.Spec Require Import TextSpec AudioSpec FormatSpec ToolSpec.
From Verif.Proof Require Import Text Lines Number Loop Python Tools.
Import ListNotations.
Open Scope Z_scope.

Definition throws {A} (r : res A) : Prop := match r with Ok _ => True | Fault f => f = Throw end.

Lemma throws_bind {A B} (r : res A) (k : A -> res B) : throws r -> (forall a, throws (k a)) -> throws (bind r k).
Proof. destruct r; cbn; auto. Qed.

Lemma loop_throws {S I} (P : S -> Prop) (body : S -> I -> res S) : forall is s,
  (forall s i, In i is -> P s -> match body s i with Ok s' => P s' | Fault f => f = Throw end) ->
  P s -> match for_each is body s with Ok s' => P s' | Fault f => f = Throw end.
Proof.
  induction is as [|i is IH]; intros s H Ps; [exact Ps|]. cbn [for_each].
  pose proof (H s i (or_introl eq_refl) Ps) as Hb. destruct (body s i) as [s1|f]; cbn [bind]; [|exact Hb].
  apply IH; [|exact Hb]. intros s2 j J. apply H. now right.
Qed.

Lemma int_throws s : throws (py_int s).
Proof.
  unfold py_int. cbv zeta. destruct (match strip s with [] => _ | _ :: _ => _ end) as [neg t].
  destruct t as [|c t]; [reflexivity|]. destruct (py_digit c); [|reflexivity]. destruct (int_digits 0 (c :: t)); [exact Logic.I|reflexivity].
Qed.

Lemma vocab_throws content : throws (read_vocab content).
Proof.
  unfold read_vocab. set (body := fun _ _ => _).
  pose proof (loop_throws (fun _ => True) body (py_lines content) []) as H.
  destruct (for_each (py_lines content) body []) as [v|f]; [exact Logic.I|]. apply H; auto. clear.
  intros s l _ _. unfold body. destruct (str_eqb (strip l) []); [exact Logic.I|].
  destruct (py_fields (strip l)) as [|w [|i [|? ?]]]; try reflexivity.
  pose proof (int_throws i) as T. destruct (py_int i); cbn [bind]; auto.
Qed.

Lemma not_end l : ~ shows l end_mark -> str_eqb (strip l) s_end = false.
Proof.
  intros K. destruct (str_eqb (strip l) s_end) eqn:E; [|reflexivity].
  exfalso. apply K. apply str_eqb_eq in E. change end_mark with s_end. rewrite <- E. apply strip_spec.
Qed.

Section Cut.
Context {N : Type}.
Variable P : py_float N.

Lemma unigram_cut ls lm : text_file ls lm -> Forall (fun l => ~ shows l end_mark) ls -> read_unigram P lm = Fault Throw.
Proof.
  intros T K. unfold read_unigram. rewrite (lines_of _ _ T).
  match goal with |- context [for_each _ ?b _] => set (body := b) end.
  match goal with |- bind ?m _ = _ => assert (H : match m with Ok s' => Datatypes.fst s' <> End | Fault f => f = Throw end); [|destruct m as [[st out]|f]] end.
  { apply loop_throws; [|discriminate]. intros [st cost] l J Hs. cbn [Datatypes.fst] in Hs.
    rewrite Forall_forall in K. pose proof (not_end l (K l J)) as E. unfold body, unigram_line. rewrite E.
    destruct st; try congruence.
    - destruct (str_eqb (strip l) []); [discriminate|]. destruct (str_eqb (strip l) s_data); [discriminate|reflexivity].
    - destruct (str_eqb (strip l) []); [discriminate|]. destruct (py_pieces 61 (strip l)) as [|a [|b [|? ?]]]; try discriminate;
        (destruct (str_eqb (strip l) s_unigrams); [discriminate|reflexivity]).
    - destruct (str_eqb (strip l) []); [discriminate|]. destruct (starts_with_backslash (strip l)); [discriminate|].
      destruct (py_fields (strip l)) as [|a [|b [|c [|? ?]]]]; try reflexivity;
        (unfold py_parse; destruct (n_parse P a); cbn [bind]; [discriminate|reflexivity]).
    - discriminate. }
  2:{ subst f. reflexivity. }
  cbn [Datatypes.fst bind] in *. destruct st; try reflexivity. congruence.
Qed.

Lemma convert_cut ls lm vocab : text_file ls lm -> Forall (fun l => ~ shows l end_mark) ls -> convert_unigram P lm vocab = Fault Throw.
Proof.
  intros T K. unfold convert_unigram. pose proof (vocab_throws vocab) as V.
  destruct (read_vocab vocab) as [v|f]; cbn [bind]; [|now cbn in V; rewrite V].
  now rewrite (unigram_cut _ _ T K).
Qed.
End Cut.

Lemma prune_cut ls lm : text_file ls lm -> Forall (fun l => ~ shows l end_mark) ls -> prune_lm lm = Fault Throw.
Proof.
  intros T K. unfold prune_lm. rewrite (lines_of _ _ T).
  match goal with |- context [for_each _ ?b _] => set (body := b) end.
  match goal with |- bind ?m _ = _ => assert (H : match m with Ok s' => Datatypes.fst s' <> End | Fault f => f = Throw end); [|destruct m as [[st out]|f]] end.
  { apply loop_throws; [|discriminate]. intros [st out] l J Hs. cbn [Datatypes.fst] in Hs.
    rewrite Forall_forall in K. pose proof (not_end l (K l J)) as E. unfold body, prune_line. rewrite E.
    destruct st; try congruence.
    - destruct (str_eqb (strip l) []); [discriminate|]. destruct (str_eqb (strip l) (lit "iARPA")); [discriminate|].
      destruct (str_eqb (strip l) s_data); [discriminate|reflexivity].
    - destruct (str_eqb (strip l) []); [discriminate|]. destruct (py_pieces 61 (strip l)) as [|a [|b [|? ?]]]; try discriminate;
        (destruct (str_eqb (strip l) s_unigrams); [discriminate|reflexivity]).
    - destruct (str_eqb (strip l) []); [discriminate|]. destruct (starts_with_backslash (strip l)); [discriminate|].
      destruct (py_fields (strip l)) as [|a [|b [|c [|? ?]]]]; try reflexivity; discriminate.
    - discriminate. }
  2:{ subst f. reflexivity. }
  cbn [Datatypes.fst bind] in *. destruct st; try reflexivity. congruence.
Qed.

(** A model of one word, without its last line. *)
Definition cut_lines : list str := map lit ["\data\"; "ngram 1=1"; "\1-grams:"; "-1 a"]%string.
Lemma cut_case : text_file cut_lines (text cut_lines) /\ Forall (fun l => ~ shows l end_mark) cut_lines.
Proof.
  split.
  - unfold cut_lines, text. cbn [map concat app].
    repeat (match goal with |- text_file (?l :: ?ls) ?s => refine (TUnix l ls _ _ _); [split; cbn; intuition discriminate|] end).
    constructor.
  - unfold cut_lines. cbn [map]. repeat (constructor; [intros S; apply strip_shows in S; vm_compute in S; discriminate S|]). constructor.
Qed.
