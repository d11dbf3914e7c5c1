(** What the string helpers, the line reader, the configuration parser and the
    symbol table are expected to do, without reference to their code. *)
From Coq Require Import ZArith List.
Import ListNotations.
Open Scope Z_scope.

Notation str := (list Z).

Definition white (c : Z) : Prop := c = 32 \/ 9 <= c <= 13.
Definition all_white (s : str) : Prop := Forall white s.

(** [t] is [s] without its surrounding white space. *)
Definition trimmed (s t : str) : Prop :=
  (exists u v, s = u ++ t ++ v /\ all_white u /\ all_white v) /\
  (forall c r, t = c :: r -> ~ white c) /\
  (forall c r, t = r ++ [c] -> ~ white c).

(** [d] occurs in [s]. *)
Definition contains (s d : str) : Prop := exists u v, s = u ++ d ++ v.

Fixpoint join (d : str) (fs : list str) : str :=
  match fs with
  | [] => []
  | [f] => f
  | f :: r => f ++ d ++ join d r
  end.

(** Every "{}" of the format, in order, is replaced by the next argument. *)
Fixpoint substitute (fmt : str) (args : list str) : str :=
  match args with
  | [] => fmt
  | a :: r =>
      match fmt with
      | 123 :: 125 :: f => a ++ substitute f r
      | c :: f => c :: substitute f args
      | [] => []
      end
  end.

(** Decimal representation, without leading zeros. *)
Inductive decimal_digits : Z -> str -> Prop :=
| DD1 d : 0 <= d <= 9 -> decimal_digits d [48 + d]
| DDS n s d : 0 < n -> decimal_digits n s -> 0 <= d <= 9 ->
    decimal_digits (10 * n + d) (s ++ [48 + d]).

Inductive decimal : Z -> str -> Prop :=
| DPos n s : decimal_digits n s -> decimal n s
| DNeg n s : 0 < n -> decimal_digits n s -> decimal (- n) (45 :: s).

(** Numbers as [strtol] with base 0 understands them: decimal, octal after a zero,
    hexadecimal after 0x. *)
Definition digit_value (base c d : Z) : Prop :=
  d < base /\ ((48 <= c <= 57 /\ d = c - 48) \/ (97 <= c <= 102 /\ d = c - 87) \/ (65 <= c <= 70 /\ d = c - 55)).
Definition in_base (base : Z) (s : str) (n : Z) : Prop :=
  exists ds, Forall2 (digit_value base) s ds /\ n = fold_left (fun a d => a * base + d) ds 0.
Definition literal (s : str) (n : Z) : Prop :=
  (exists c r, s = c :: r /\ c <> 48 /\ in_base 10 s n) \/
  (exists r, s = 48 :: r /\ in_base 8 s n) \/
  (exists x r, s = 48 :: x :: r /\ (x = 120 \/ x = 88) /\ r <> [] /\ in_base 16 r n).

(** The part of a text before the first NUL byte. *)
Definition before_nul (t c : str) : Prop := ~ In 0 c /\ (t = c \/ exists r, t = c ++ 0 :: r).

(** [z] is the value of the text: blank text is 0, values beyond the range of
    [long] are its limits. *)
Definition long_number (s : str) (z : Z) : Prop :=
  exists t c, trimmed s t /\ before_nul t c /\
    ((c = [] /\ z = 0) \/
     exists sign body n, c = sign ++ body /\ literal body n /\
       ((sign = [] \/ sign = [43]) /\ z = Z.min 9223372036854775807 n \/
        sign = [45] /\ z = Z.max (-9223372036854775808) (- n))).

(** A text made of complete lines. *)
Definition text (ls : list str) : str := concat (map (fun l => l ++ [10]) ls).

(** A line that fits into the line buffer. *)
Definition plain_line (l : str) : Prop :=
  ~ In 10 l /\ ~ In 0 l /\ Z.of_nat (length l) < 4095.

(** [t] is [l] without the carriage returns and newlines at its end. *)
Definition chomped (l t : str) : Prop :=
  (exists v, l = t ++ v /\ Forall (fun c => c = 13 \/ c = 10) v) /\
  (forall c r, t = r ++ [c] -> c <> 13 /\ c <> 10).

(** The parts in which a file of any bytes is read: lines with their newline, or
    4095 bytes where the next newline is farther away. The flag tells whether the
    end of the file was met while the last part was read. *)
Inductive pieces : str -> list str -> bool -> Prop :=
| P_end : pieces [] [] false
| P_rest l : l <> [] -> ~ In 10 l -> Z.of_nat (length l) < 4095 -> pieces l [l] true
| P_line l r ps e : ~ In 10 l -> Z.of_nat (length l) < 4095 -> pieces r ps e ->
    pieces (l ++ 10 :: r) ((l ++ [10]) :: ps) e
| P_full l r ps e : ~ In 10 l -> Z.of_nat (length l) = 4095 -> pieces r ps e ->
    pieces (l ++ r) (l :: ps) e.

(** What is seen of a part: nothing from a NUL byte on. *)
Definition shown (p t : str) : Prop :=
  exists c, before_nul p c /\ chomped c t.

Definition lower_case (a b : str) : Prop :=
  Forall2 (fun x y => (65 <= x <= 90 /\ y = x + 32) \/ (~ 65 <= x <= 90 /\ y = x)) a b.

(** The lines of a configuration file: blank or comment, or an entry. *)
Definition no_effect (l : str) : Prop :=
  exists t, trimmed l t /\ (t = [] \/ exists r, t = 35 :: r).

Definition entry (l k v : str) : Prop :=
  exists t a b k',
    trimmed l t /\ t = a ++ [61] ++ b /\ ~ In 61 a /\ ~ In 61 b /\
    (forall r, t <> 35 :: r) /\
    trimmed a k' /\ lower_case k' k /\ trimmed b v /\ v <> [].

(** The value of the last entry with key [k] among the lines. *)
Inductive last_value : list str -> str -> option str -> Prop :=
| LV0 k : last_value [] k None
| LVskip ls l k r : no_effect l -> last_value ls k r -> last_value (ls ++ [l]) k r
| LVother ls l k k' v r : entry l k' v -> k' <> k -> last_value ls k r ->
    last_value (ls ++ [l]) k r
| LVhere ls l k v : entry l k v -> last_value (ls ++ [l]) k (Some v).

(** A line that the configuration parser takes as an entry: an entry, or one with a
    further "=" behind it. *)
Definition taken (l k v : str) : Prop :=
  entry l k v \/ exists e, trimmed l (e ++ [61]) /\ entry e k v.

(** [a] is the last member of [l] with [P]. *)
Definition last_such {A} (P : A -> Prop) (l : list A) (a : A) : Prop :=
  exists u v, l = u ++ a :: v /\ P a /\ Forall (fun x => ~ P x) v.

(** A line of a words file as the parser takes it: word, space and number, or word,
    space, number (which may be missing) and space. *)
Definition word_entry (l w : str) (id : Z) : Prop :=
  exists num, ~ In 32 w /\ ~ In 32 num /\ long_number num id /\
    (l = w ++ 32 :: num /\ num <> [] \/ l = w ++ 32 :: num ++ [32]).

(** The entries of a words file that is accepted: complete lines, ids in the range of a
    table, both sentence symbols. *)
Definition words_entries (content : str) (es : list (str * Z)) : Prop :=
  exists ps rs, pieces content ps false /\ Forall2 shown ps rs /\
    Forall2 (fun l e => word_entry l (fst e) (snd e)) rs es /\
    Forall (fun e => 0 <= snd e < 288230376151711743) es /\
    In [60; 115; 62] (map fst es) /\ In [60; 47; 115; 62] (map fst es).
