(** What the scripts that make model files are expected to do, without
    reference to their code: text files of lines and fields, tables of
    transitions, vocabularies and language models in the ARPA format. *)
From Coq Require Import ZArith List.
From Verif.Spec Require Import TextSpec AudioSpec FormatSpec.
Import ListNotations.
Open Scope Z_scope.

(** White space of Python in ASCII. *)
Definition blank (c : Z) : Prop := 9 <= c <= 13 \/ 28 <= c <= 32.
Definition all_blank (s : str) : Prop := Forall blank s.

(** A text file with the lines [ls]: a line ends with \n or \r\n, the last one
    possibly without. *)
Definition one_line (l : str) : Prop := ~ In 10 l /\ ~ In 13 l.
Inductive text_file : list str -> str -> Prop :=
| TNone : text_file [] []
| TOpen l : one_line l -> l <> [] -> text_file [l] l
| TUnix l ls s : one_line l -> text_file ls s -> text_file (l :: ls) (l ++ [10] ++ s)
| TDos l ls s : one_line l -> text_file ls s -> text_file (l :: ls) (l ++ [13; 10] ++ s).

(** [l] is [t] with white space around; [t] has none at its ends. *)
Definition shows (l t : str) : Prop :=
  (exists u v, l = u ++ t ++ v /\ all_blank u /\ all_blank v) /\
  (forall c r, t = c :: r -> ~ blank c) /\
  (forall c r, t = r ++ [c] -> ~ blank c).

(** The fields of a line, separated and surrounded by white space. *)
Definition solid (f : str) : Prop := f <> [] /\ Forall (fun c => ~ blank c) f.
Inductive row : str -> list str -> Prop :=
| REnd w : all_blank w -> row w []
| RField w f l fs : all_blank w -> solid f -> row l fs ->
    (forall c r, l = c :: r -> blank c) -> row (w ++ f ++ l) (f :: fs).

(** The value that was given last for a key. *)
Section Latest.
Context {K V : Type}.
Variable same : forall a b : K, {a = b} + {a <> b}.
Fixpoint latest (k : K) (l : list (K * V)) : option V :=
  match l with
  | [] => None
  | (k', v) :: l =>
      match latest k l with
      | Some x => Some x
      | None => if same k k' then Some v else None
      end
  end.
End Latest.
Definition latest_id {V} := @latest Z V Z.eq_dec.
Definition latest_word {V} := @latest str V (list_eq_dec Z.eq_dec).

(** * Transitions *)

(** The lines of a listing: the number of pdfs, the largest transition id, then
    a transition and its pdf in each line. *)
Definition pair_line (l : str) (e : Z * Z) : Prop :=
  exists a b, decimal (Datatypes.fst e) a /\ decimal (snd e) b /\ row l [a; b].
Definition listing (num_pdfs max_id : Z) (entries : list (Z * Z)) (ls : list str) : Prop :=
  exists l0 l1 rest a b,
    ls = l0 :: l1 :: rest /\
    decimal num_pdfs a /\ row l0 [a] /\ decimal max_id b /\ row l1 [b] /\
    Forall2 pair_line rest entries.

(** The table of a listing: the pdf given last for each transition, 0 if none. *)
Definition table_of (max_id : Z) (entries : list (Z * Z)) : list Z :=
  map (fun i => match latest_id (Z.of_nat i) entries with Some p => p | None => 0 end)
      (seq 0 (Z.to_nat (max_id + 1))).

(** * Vocabularies *)

Definition word_line (l : str) (e : str * Z) : Prop :=
  exists a, decimal (snd e) a /\ row l [Datatypes.fst e; a].
(** Lines with words and ids, and blank lines. *)
Inductive vocabulary : list str -> list (str * Z) -> Prop :=
| VNone : vocabulary [] []
| VBlank l ls es : all_blank l -> vocabulary ls es -> vocabulary (l :: ls) es
| VWord l ls e es : word_line l e -> vocabulary ls es -> vocabulary (l :: ls) (e :: es).

(** * Language models *)

Definition data_mark : str := [92; 100; 97; 116; 97; 92].                     (* \data\ *)
Definition unigram_mark : str := [92; 49; 45; 103; 114; 97; 109; 115; 58].    (* \1-grams: *)
Definition end_mark : str := [92; 101; 110; 100; 92].                         (* \end\ *)

(** A line "ngram n = count", or any other with one equals sign. *)
Definition count_line (l : str) : Prop :=
  exists a b, l = a ++ [61] ++ b /\ ~ In 61 a /\ ~ In 61 b.

(** A unigram: log probability, word and perhaps a weight. *)
Definition unigram (l : str) (e : str * str) : Prop :=
  (forall r, Datatypes.fst e <> 92 :: r) /\
  (row l [Datatypes.fst e; snd e] \/ exists b, row l [Datatypes.fst e; snd e; b]).

Inductive unigrams : list str -> list (str * str) -> Prop :=
| UNone : unigrams [] []
| UBlank l ls es : all_blank l -> unigrams ls es -> unigrams (l :: ls) es
| UEntry l ls e es : unigram l e -> unigrams ls es -> unigrams (l :: ls) (e :: es).

(** The sections of higher order, if any: the first line begins with a
    backslash, none is the end mark. *)
Definition no_sections (ls : list str) : Prop := ls = [].
Definition sections (ls : list str) : Prop :=
  exists l rest t, ls = l :: rest /\ shows l (92 :: t) /\
    Forall (fun x => ~ shows x end_mark) ls.

(** A model in the ARPA format with the unigrams [es]; the lines after them are
    [higher]. *)
Definition arpa (es : list (str * str)) (higher ls : list str) : Prop :=
  exists blanks data counts mark us last rest,
    ls = blanks ++ [data] ++ counts ++ [mark] ++ us ++ higher ++ [last] ++ rest /\
    Forall all_blank blanks /\
    shows data data_mark /\
    Forall (fun l => all_blank l \/ count_line l) counts /\
    shows mark unigram_mark /\
    unigrams us es /\
    shows last end_mark.

(** The costs of the words: [costs] has a place for every id up to the largest;
    the place of a word holds the cost of the log probability given last in
    [xs], and every other place is infinite. *)
Definition costs_for {N} (cost : N -> N) (inf : N) (vs : list (str * Z)) (xs : list (str * N)) (costs : list N) : Prop :=
  (forall w i, In (w, i) vs -> i < Z.of_nat (length costs)) /\
  (exists w, In (w, Z.of_nat (length costs) - 1) vs) /\
  (forall w i, In (w, i) vs ->
     nth_error costs (Z.to_nat i) = Some (match latest_word w xs with Some x => cost x | None => inf end)) /\
  (forall n, (n < length costs)%nat -> ~ In (Z.of_nat n) (map snd vs) -> nth_error costs n = Some inf).

Definition unk_word : str := [60; 117; 110; 107; 62].   (* <unk> *)
Definition start_word : str := [60; 115; 62].           (* <s> *)

(** * Symbol tables *)

Definition empty_word : str := [60; 101; 109; 112; 116; 121; 62].   (* <empty> *)

(** The words of a list of words and ids: the word given last for each id up to
    the largest. *)
Definition symbols (entries : list (str * Z)) : list str :=
  map (fun i => match latest_id (Z.of_nat i) (map (fun e => (snd e, Datatypes.fst e)) entries) with
                | Some w => w
                | None => empty_word
                end)
      (seq 0 (Z.to_nat (fold_right Z.max 0 (map snd entries) + 1))).

(** [file] is a symbol section for [ws]: one word after the other, each with a 0
    at its end, and in front of them their positions. *)
Definition symbol_section (ws : list str) (file : list Z) : Prop :=
  exists starts buffer,
    file = [83; 89; 77; 48] ++ word (8 + 4 * Z.of_nat (length ws) + Z.of_nat (length buffer)) ++
           word (Z.of_nat (length ws)) ++ word (Z.of_nat (length buffer)) ++
           flat_map word starts ++ buffer /\
    length starts = length ws /\
    buffer = flat_map (fun w => w ++ [0]) ws /\
    forall i w s, nth_error ws i = Some w -> nth_error starts i = Some s ->
      0 <= s /\ exists r, skipn (Z.to_nat s) buffer = w ++ [0] ++ r.

(** * Statistics *)

Definition digit (c : Z) : Prop := 48 <= c <= 57.
Definition digits (s : str) : Prop := s <> [] /\ Forall digit s.
Definition sign (s : str) : Prop := s = [] \/ s = [43] \/ s = [45].
Definition fraction (s : str) : Prop := s = [] \/ exists d, digits d /\ s = 46 :: d.
Definition exponent (s : str) : Prop := s = [] \/ exists a d, sign a /\ digits d /\ s = 101 :: a ++ d.
(** Numbers as Kaldi prints them: sign, digits, fraction, exponent. *)
Definition number_text (s : str) : Prop :=
  exists a d f e, sign a /\ digits d /\ fraction f /\ exponent e /\ s = a ++ d ++ f ++ e.

(** The fields of all lines of a file. *)
Definition file_fields (content : str) (fs : list str) : Prop :=
  exists ls rows, text_file ls content /\ Forall2 row ls rows /\ fs = concat rows.

(** Those of the fields that are numbers. *)
Inductive numbers_of : list str -> list str -> Prop :=
| NNone : numbers_of [] []
| NNumber f fs ns : number_text f -> numbers_of fs ns -> numbers_of (f :: fs) (f :: ns)
| NOther f fs ns : ~ number_text f -> numbers_of fs ns -> numbers_of (f :: fs) ns.
