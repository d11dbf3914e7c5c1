(** What splitting hypotheses into characters should do, without the program. *)
From Coq Require Import List ZArith Bool.
Import ListNotations.
Open Scope Z_scope.

(** The code points with Unicode's property White_Space. *)
Definition white (c : Z) : bool :=
  existsb (Z.eqb c)
    [9; 10; 11; 12; 13; 32; 133; 160; 5760; 8192; 8193; 8194; 8195; 8196; 8197;
     8198; 8199; 8200; 8201; 8202; 8232; 8233; 8239; 8287; 12288].

Section Spec.
(** The characters taken for blank. *)
Variable blank : Z -> bool.

Definition all_blank (s : list Z) : Prop := forall c, In c s -> blank c = true.
Definition none_blank (s : list Z) : Prop := forall c, In c s -> blank c = false.

(** A line is made of these words, with blanks around and between them. *)
Inductive line_of : list (list Z) -> list Z -> Prop :=
| line_blank : forall b, all_blank b -> line_of [] b
| line_word : forall b w ws rest,
    all_blank b -> w <> [] -> none_blank w ->
    (forall c r, rest = c :: r -> blank c = true) ->
    line_of ws rest -> line_of (w :: ws) (b ++ w ++ rest).

(** Marks such as [noise], <unk> and !SIL, which are no words to be split. *)
Definition mark (w : list Z) : Prop :=
  (exists x y z, w = x ++ [91] ++ y ++ [93] ++ z)
  \/ (exists x y z, w = x ++ [60] ++ y ++ [62] ++ z)
  \/ (exists x z, w = x ++ [33; 83; 73; 76] ++ z).

(** Words and what they are split into. *)
Inductive pieces : list (list Z) -> list (list Z) -> Prop :=
| pieces_nil : pieces [] []
| pieces_mark : forall w ws ps, mark w -> pieces ws ps -> pieces (w :: ws) (w :: ps)
| pieces_word : forall w ws ps, ~ mark w -> pieces ws ps ->
    pieces (w :: ws) (map (fun c => [c]) w ++ ps).

(** A line and the line it becomes: the first word, the name of the utterance,
    stays as it is. *)
Inductive split_line : list Z -> list Z -> Prop :=
| split_blank : forall l, line_of [] l -> split_line l []
| split_words : forall l name ws ps, line_of (name :: ws) l -> pieces ws ps ->
    split_line l (name ++ concat (map (fun p => 32 :: p) ps)).

(** The characters one sees. *)
Definition seen (s : list Z) : list Z := filter (fun c => negb (blank c)) s.
End Spec.

(** A file of lines that all end in a newline. *)
Definition file_of (ls : list (list Z)) : list Z :=
  concat (map (fun l => l ++ [10]) ls).
Definition no_newline (l : list Z) : Prop := ~ In 10 l.

(** A word. *)
Definition a_word (w : list Z) : Prop := w <> [] /\ none_blank white w.

(** The bytes of a character, and of a text, in UTF-8. *)
Definition six_bits (a : Z) : Prop := 0 <= a < 64.
Inductive utf8_char : Z -> list Z -> Prop :=
| utf8_1 : forall a, 0 <= a < 128 -> utf8_char a [a]
| utf8_2 : forall a b, 2 <= a < 32 -> six_bits b -> utf8_char (a * 2 ^ 6 + b) [192 + a; 128 + b]
| utf8_3 : forall a b c, 0 <= a < 16 -> six_bits b -> six_bits c -> 2 ^ 11 <= a * 2 ^ 12 + b * 2 ^ 6 + c ->
    utf8_char (a * 2 ^ 12 + b * 2 ^ 6 + c) [224 + a; 128 + b; 128 + c]
| utf8_4 : forall a b c d, 0 <= a < 8 -> six_bits b -> six_bits c -> six_bits d ->
    2 ^ 16 <= a * 2 ^ 18 + b * 2 ^ 12 + c * 2 ^ 6 + d ->
    utf8_char (a * 2 ^ 18 + b * 2 ^ 12 + c * 2 ^ 6 + d) [240 + a; 128 + b; 128 + c; 128 + d].
Inductive utf8 : list Z -> list Z -> Prop :=
| utf8_nil : utf8 [] []
| utf8_cons : forall c bs s rest, utf8_char c bs -> utf8 s rest -> utf8 (c :: s) (bs ++ rest).
