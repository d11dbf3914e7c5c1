(** Properties of the string helpers and of line reading (C08 to C13). *)
From Coq Require Import ZArith List.
From Verif.Base Require Import Prelude.
From Verif.Model Require Import Util File.
From Verif.Spec Require Import TextSpec.
From Verif.Proof Require Text Number Lines LinesExact NumberExact TextCases.
Import ListNotations.
Open Scope Z_scope.

(** C08: [Trim] yields the string without its surrounding white space, which is
    unique, and is empty exactly for white strings. *)
Theorem trim_exact : forall s,
  trimmed s (trim s) /\ (forall t, trimmed s t -> t = trim s) /\ (trim s = [] <-> all_white s).
Proof. exact Proof.TextCases.trim_exact. Qed.
Print Assumptions trim_exact.

(** " a b\t" *)
Example trim_exact_case : trim [32; 97; 32; 98; 9] = [97; 32; 98].
Proof. exact Proof.TextCases.trim_case. Qed.

(** C09: joining gives the input back, up to one trailing delimiter, and no
    field contains the delimiter. *)
Theorem split_join_inverse : forall s d, d <> [] ->
  exists fs, split s d = Ok fs /\
    (s = join d fs \/ s = join d (fs ++ [[]])) /\
    Forall (fun f => ~ contains f d) fs.
Proof. exact Proof.TextCases.split_join_inverse. Qed.
Print Assumptions split_join_inverse.

(** C09, the other direction for one-character delimiters. *)
Theorem split_of_join : forall c fs,
  Forall (fun f => ~ In c f) fs -> (forall r f, fs = r ++ [f] -> f <> []) ->
  split (join [c] fs) [c] = Ok fs.
Proof. exact Proof.Text.split_join. Qed.
Print Assumptions split_of_join.

(** "a==b=" at "=" and "xabyab" at "ab" *)
Example split_case :
  split [97; 61; 61; 98; 61] [61] = Ok [[97]; []; [98]] /\
  split [120; 97; 98; 121; 97; 98] [97; 98] = Ok [[120]; [121]].
Proof. exact Proof.TextCases.split_case. Qed.

(** C10, the part that holds: substitution is faithful if every argument but
    the last is non-empty and free of braces. *)
Theorem format_substitutes_partial : forall fmt args,
  Forall (fun a => a <> [] /\ ~ In 123 a /\ ~ In 125 a) (removelast args) ->
  format fmt args = substitute fmt args.
Proof. exact Proof.Text.format_substitute. Qed.
Print Assumptions format_substitutes_partial.

Example format_case :
  format [123; 125; 61; 123; 125] [[97]; [123; 125]] = [97; 61; 123; 125].
Proof. exact Proof.TextCases.format_case. Qed.

(** C10 is false in general: arguments are searched for "{}" again; an empty
    argument can even put a "{}" together. *)
Theorem format_substitutes_refuted :
  format [123; 125; 32; 123; 125] [[123; 125]; [120]]
    <> substitute [123; 125; 32; 123; 125] [[123; 125]; [120]] /\
  format [123; 123; 125; 125; 123; 125] [[]; [120]]
    <> substitute [123; 123; 125; 125; 123; 125] [[]; [120]].
Proof. exact Proof.TextCases.format_refuted. Qed.
Print Assumptions format_substitutes_refuted.

(** C11: bounded copy of the C string [s] in memory. *)
Theorem bounded_copy : forall dst s rest siz,
  ~ In 0 s -> (siz <= length dst)%nat ->
  exists dst', strlcpy dst (s ++ 0 :: rest) siz = Ok (dst', lenZ s) /\
    (siz = O -> dst' = dst) /\
    (siz <> O -> exists p r, s = p ++ r /\ length p = Nat.min (siz - 1) (length s) /\
       dst' = p ++ [0] ++ skipn (length p + 1) dst).
Proof. exact Proof.TextCases.bounded_copy. Qed.
Print Assumptions bounded_copy.

(** "abc" into three of the five bytes of "vwxyz" *)
Example bounded_copy_case :
  strlcpy [118; 119; 120; 121; 122] [97; 98; 99; 0] 3 = Ok ([97; 98; 0; 121; 122], 3).
Proof. exact Proof.TextCases.bounded_copy_case. Qed.

(** C12: decimal numbers with white space around them are read exactly. *)
Theorem decimal_exact : forall z s u v,
  decimal z s -> all_white u -> all_white v ->
  -9223372036854775808 <= z <= 9223372036854775807 ->
  string_to_long (u ++ s ++ v) = Some z.
Proof. exact Proof.TextCases.decimal_exact. Qed.
Print Assumptions decimal_exact.

(** C12: anything but white space, a digit, a NUL byte or (after a lone zero) a
    hexadecimal mark behind the number is an error. *)
Theorem decimal_garbage : forall z s u c g,
  decimal z s -> all_white u -> c <> 0 -> ~ all_white (c :: g) ->
  ~ 48 <= c <= 57 -> (z = 0 -> c <> 120 /\ c <> 88) ->
  string_to_long (u ++ s ++ c :: g) = None.
Proof. exact Proof.Number.string_to_long_garbage. Qed.
Print Assumptions decimal_garbage.

(** C12: numbers beyond the range give its limits, blank text gives 0, and neither
    is an error. Then exactly what is accepted, and as what. *)
Theorem decimal_beyond : forall z s u v, decimal z s -> all_white u -> all_white v ->
  (9223372036854775807 < z -> string_to_long (u ++ s ++ v) = Some 9223372036854775807) /\
  (z < -9223372036854775808 -> string_to_long (u ++ s ++ v) = Some (-9223372036854775808)).
Proof. exact Proof.TextCases.decimal_beyond. Qed.
Print Assumptions decimal_beyond.

Theorem number_exact : forall s z, string_to_long s = Some z <-> long_number s z.
Proof. exact Proof.NumberExact.number_exact. Qed.
Print Assumptions number_exact.

(** " 0x1F", "-017" and "+5"; "0x" and "08" are errors. *)
Example number_case :
  string_to_long [32; 48; 120; 49; 70] = Some 31 /\ string_to_long [45; 48; 49; 55] = Some (-15) /\
  string_to_long [43; 53] = Some 5 /\ string_to_long [48; 120] = None /\ string_to_long [48; 56] = None.
Proof. exact (conj eq_refl (conj eq_refl (conj eq_refl (conj eq_refl eq_refl)))). Qed.

Theorem blank_number : forall u, all_white u -> string_to_long u = Some 0.
Proof. exact Proof.TextCases.blank_number. Qed.
Print Assumptions blank_number.

Example decimal_beyond_case :
  string_to_long [57;50;50;51;51;55;50;48;51;54;56;53;52;55;55;53;56;48;56] = Some 9223372036854775807 /\
  string_to_long [32; 9] = Some 0.
Proof. exact (conj eq_refl eq_refl). Qed.

(** " -120\n" is -120; "12 3" is an error; "010" is octal, outside the claim. *)
Example decimal_case :
  decimal (-120) [45; 49; 50; 48] /\
  string_to_long [32; 45; 49; 50; 48; 10] = Some (-120) /\
  string_to_long [49; 50; 32; 51] = None /\
  string_to_long [48; 49; 48] = Some 8.
Proof. exact Proof.TextCases.decimal_case. Qed.

(** C13, the part that holds: a text whose last line is complete. *)
Theorem read_lines_partial : forall ls, Forall plain_line ls ->
  exists rs, all_lines (text ls) = Ok (rs, true) /\ Forall2 chomped ls rs.
Proof. exact Proof.Lines.all_lines_ok. Qed.
Print Assumptions read_lines_partial.

(** C13 with the test for the end of the file that the configuration parser
    makes: the last line may be incomplete. *)
Theorem read_lines_checked_partial : forall ls l, Forall plain_line ls -> plain_line l ->
  exists rs, all_lines_eof (text ls ++ l) = Ok (rs, true) /\
    Forall2 chomped (if l then ls else ls ++ [l]) rs.
Proof. exact Proof.Lines.all_lines_eof_ok. Qed.
Print Assumptions read_lines_checked_partial.

(** C13 is false for the plain loop: whenever the last line has no newline, all
    lines are read but the end of the file is reported as an error. *)
Theorem read_lines_refuted :
  (forall ls l, Forall plain_line ls -> plain_line l -> l <> [] ->
     exists rs, all_lines (text ls ++ l) = Ok (rs, false) /\ Forall2 chomped (ls ++ [l]) rs) /\
  plain_line [97].
Proof. exact Proof.TextCases.read_lines_refuted. Qed.
Print Assumptions read_lines_refuted.

(** C13 for files of any bytes: what the lines are. Lines that do not fit into the
    buffer come in parts, and NUL bytes hide the rest of a part. *)
Theorem read_lines_exact : forall content,
  (exists ps e, pieces content ps e) /\
  forall ps e, pieces content ps e -> exists rs,
    all_lines content = Ok (rs, negb e) /\ all_lines_eof content = Ok (rs, true) /\ Forall2 shown ps rs.
Proof. exact Proof.LinesExact.lines_exact. Qed.
Print Assumptions read_lines_exact.

(** C13 is false for long lines and for lines with NUL bytes: there is one line
    too many after a line of 4095 bytes, and "b\0c" is read as "b". *)
Theorem long_lines_refuted : forall l, ~ In 10 l -> ~ In 0 l -> ~ In 13 l -> Z.of_nat (length l) = 4095 ->
  all_lines (text [l; [98]]) = Ok ([l; []; [98]], true) /\ all_lines (text [[98; 0; 99]]) = Ok ([[98]], true).
Proof. exact Proof.LinesExact.long_line_case. Qed.
Print Assumptions long_lines_refuted.

Example long_lines_case : let l := repeat 97 (Z.to_nat 4095) in
  ~ In 10 l /\ ~ In 0 l /\ ~ In 13 l /\ Z.of_nat (length l) = 4095.
Proof. exact Proof.LinesExact.long_line. Qed.

(** "a\r\n\nb\n", then "a\nb". *)
Example read_lines_case :
  text [[97; 13]; []; [98]] = [97; 13; 10; 10; 98; 10] /\
  Forall plain_line [[97; 13]; []; [98]] /\
  all_lines [97; 13; 10; 10; 98; 10] = Ok ([[97]; []; [98]], true) /\
  all_lines [97; 10; 98] = Ok ([[97]; [98]], false) /\
  all_lines_eof [97; 10; 98] = Ok ([[97]; [98]], true).
Proof. exact Proof.TextCases.read_lines_case. Qed.
