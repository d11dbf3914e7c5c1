(** Properties of the configuration parser and the symbol table (C14 to C17,
    C58). *)
From Coq Require Import ZArith List.
From Verif.Base Require Import Prelude.
From Verif.Model Require Import Util File Configuration SymbolTable.
From Verif.Spec Require Import TextSpec.
From Verif.Proof Require Config Symbols TextCases SymbolsExact ConfigExact.
Import ListNotations.
Open Scope Z_scope.

(** C14, the part that holds: a file of blank lines, comments and entries, the
    last line with or without newline, is accepted, and every key in any
    letter case gives its last value, or the default. *)
Theorem config_accepts_partial : forall fn ls l,
  Forall plain_line ls -> plain_line l ->
  let lines := match l with [] => ls | _ => ls ++ [l] end in
  Forall (fun l => no_effect l \/ exists k v, entry l k v) lines ->
  exists c, conf_read conf_empty fn (text ls ++ l) = Ok (c, true) /\
    forall key k d, lower_case key k ->
      exists r, last_value lines k r /\
        get_string c key d = match r with Some v => v | None => d end.
Proof. exact Proof.TextCases.config_accepts. Qed.
Print Assumptions config_accepts_partial.

(** C14, the part that holds: any other line makes [Read] fail, except an entry
    with one more "=" behind it. *)
Theorem config_rejects_partial : forall fn ls l bad,
  Forall plain_line ls -> plain_line l ->
  In bad (match l with [] => ls | _ => ls ++ [l] end) ->
  ~ no_effect bad -> (forall k v, ~ entry bad k v) ->
  (forall e k v, trimmed bad (e ++ [61]) -> ~ entry e k v) ->
  exists c, conf_read conf_empty fn (text ls ++ l) = Ok (c, false).
Proof. exact Proof.TextCases.config_rejects. Qed.
Print Assumptions config_rejects_partial.

(** C14 is false in general: "a=b=" is not of the form key=value (the value of
    an entry has no "=") but is accepted as "a=b". *)
Theorem config_rejects_refuted :
  exists c, conf_read conf_empty [102] [97; 61; 98; 61; 10] = Ok (c, true) /\
    (forall d, get_string c [97] d = [98]) /\
    ~ no_effect [97; 61; 98; 61] /\ (forall k v, ~ entry [97; 61; 98; 61] k v).
Proof. exact Proof.TextCases.config_refuted. Qed.
Print Assumptions config_rejects_refuted.

(** C14 for files of any bytes: exactly which files are accepted, and what every key
    then gives. *)
Theorem config_exact : forall fn content ps e rs, pieces content ps e -> Forall2 shown ps rs ->
  exists c ok, conf_read conf_empty fn content = Ok (c, ok) /\
    (ok = true <-> Forall (fun l => no_effect l \/ exists k v, taken l k v) rs) /\
    (ok = true -> forall key k, lower_case key k ->
      (exists l v, last_such (fun l => exists v, taken l k v) rs l /\ taken l k v /\ forall d, get_string c key d = v) \/
      (Forall (fun l => forall v, ~ taken l k v) rs /\ forall d, get_string c key d = d)).
Proof. exact Proof.ConfigExact.config_exact. Qed.
Print Assumptions config_exact.

(** "a=b=" and then "a=c" with a NUL byte behind it. *)
Example config_exact_case : let content := [97; 61; 98; 61; 10; 97; 61; 99; 0; 61; 10] in
  pieces content [[97; 61; 98; 61; 10]; [97; 61; 99; 0; 61; 10]] false /\
  exists c, conf_read conf_empty [102] content = Ok (c, true) /\ get_string c [65] [] = [99].
Proof. exact Proof.ConfigExact.config_exact_case. Qed.

(** "# c\n Nnet = x y \nnnet=z", read from "d/m.conf". *)
Example config_case :
  exists c, conf_read conf_empty [100; 47; 109]
      [35; 32; 99; 10; 32; 78; 110; 101; 116; 32; 61; 32; 120; 32; 121; 32; 10; 110; 110; 101; 116; 61; 122]
    = Ok (c, true) /\
  get_string c [110; 78; 69; 84] [100] = [122] /\ get_string c [113] [100] = [100] /\
  entry [32; 78; 110; 101; 116; 32; 61; 32; 120; 32; 121; 32] [110; 110; 101; 116] [120; 32; 121].
Proof. exact Proof.TextCases.config_case. Qed.

(** C15: paths. [p] is the value of the key; the internal marker for missing
    keys is excluded as a value. *)
Theorem config_paths : forall fn content c ok key d,
  conf_read conf_empty fn content = Ok (c, ok) ->
  (forall p, (forall d', get_string c key d' = p) -> p <> default_string ->
     p <> [] /\
     (forall r, p = 47 :: r -> get_path c key d = Ok p) /\
     ((forall r, p <> 47 :: r) ->
       (forall dir base, fn = dir ++ 47 :: base -> ~ In 47 base ->
          get_path c key d = Ok (dir ++ 47 :: p)) /\
       (~ In 47 fn -> get_path c key d = Ok p))) /\
  ((forall d', get_string c key d' = d') -> get_path c key d = Ok d).
Proof. exact Proof.TextCases.config_paths. Qed.
Print Assumptions config_paths.

(** "fst=g" in "d/m" *)
Example config_paths_case :
  exists c, conf_read conf_empty [100; 47; 109] [102; 115; 116; 61; 103; 10] = Ok (c, true) /\
    get_path c [102; 115; 116] [] = Ok [100; 47; 103] /\ get_path c [113] [120] = Ok [120].
Proof. exact Proof.TextCases.config_paths_case. Qed.

(** C58, the part that holds: an integer setting in decimal is read exactly, a
    missing one is reported. *)
Theorem config_integers_partial : forall c key,
  (forall z s, (forall d, get_string c key d = s) -> decimal z s ->
     -2147483648 < z <= 2147483647 -> get_integer c key = Ok (Some z)) /\
  ((forall d, get_string c key d = d) -> get_integer c key = Ok None).
Proof. exact Proof.TextCases.config_integers. Qed.
Print Assumptions config_integers_partial.

(** C58 is false in general: a value that is not a number ends in an exception,
    and "12x" is taken as 12. *)
Theorem config_integers_refuted :
  exists c, conf_read conf_empty [102] [97; 61; 120; 10; 98; 61; 49; 50; 120; 10] = Ok (c, true) /\
    get_integer c [97] = Fault Throw /\ get_integer c [98] = Ok (Some 12).
Proof. exact Proof.TextCases.config_integers_refuted. Qed.
Print Assumptions config_integers_refuted.

Example config_integers_case :
  exists c, conf_read conf_empty [102] [97; 61; 45; 49; 50; 10] = Ok (c, true) /\
    decimal (-12) [45; 49; 50] /\ (forall d, get_string c [97] d = [45; 49; 50]).
Proof. exact Proof.TextCases.config_integers_case. Qed.

(** C16: reading a words file with distinct words and ids. *)
Theorem symbol_table_consistent : forall es ls b e,
  Forall2 (fun e l => exists s, decimal (snd e) s /\ l = fst e ++ [32] ++ s) es ls ->
  Forall plain_line ls ->
  Forall (fun e => ~ In 32 (fst e) /\ 0 <= snd e <= 2147483647) es ->
  NoDup (map fst es) -> NoDup (map snd es) ->
  In ([60; 115; 62], b) es -> In ([60; 47; 115; 62], e) es ->
  exists t, sym_read symtab_init (text ls) = Ok (t, true) /\
    (forall w i, In (w, i) es -> sym_get t i = Ok w /\ sym_id t w = i) /\
    (forall w, ~ In w (map fst es) -> sym_id t w = -1) /\
    s_bos t = b /\ s_eos t = e.
Proof. exact Proof.TextCases.symbol_table. Qed.
Print Assumptions symbol_table_consistent.

(** "<s> 2\nab 0\n</s> 1\n" *)
Example symbol_table_case :
  let ls := [[60; 115; 62; 32; 50]; [97; 98; 32; 48]; [60; 47; 115; 62; 32; 49]] in
  Forall2 (fun e l => exists s, decimal (snd e) s /\ l = fst e ++ [32] ++ s)
    [([60; 115; 62], 2); ([97; 98], 0); ([60; 47; 115; 62], 1)] ls /\
  exists t, sym_read symtab_init (text ls) = Ok (t, true) /\
    sym_get t 0 = Ok [97; 98] /\ s_bos t = 2 /\ s_eos t = 1.
Proof. exact Proof.TextCases.symbol_table_case. Qed.

(** C16 for files of any bytes: exactly which files are accepted, and what the table
    then says. For a word or an id that occurs several times the last line counts; ids
    are cut to 32 bits; ids outside the table fail an assertion. *)
Theorem symbol_table_exact : forall content,
  (forall t, sym_read symtab_init content = Ok (t, true) -> exists es, words_entries content es) /\
  forall es, words_entries content es -> exists t, sym_read symtab_init content = Ok (t, true) /\
    (forall i, 0 <= i -> (exists e, In e es /\ i <= snd e) ->
       (exists e, last_such (fun e => snd e = i) es e /\ sym_get t i = Ok (fst e)) \/
       (Forall (fun e => snd e <> i) es /\ sym_get t i = Ok [])) /\
    (forall i, -2147483648 <= i <= 2147483647 -> i < 0 \/ Forall (fun e => snd e < i) es -> sym_get t i = Fault Assert) /\
    (forall w, (exists e, last_such (fun e => fst e = w) es e /\ sym_id t w = (snd e + 2147483648) mod 4294967296 - 2147483648) \/
               (Forall (fun e => fst e <> w) es /\ sym_id t w = -1)) /\
    s_bos t = sym_id t [60; 115; 62] /\ s_eos t = sym_id t [60; 47; 115; 62].
Proof. exact Proof.SymbolsExact.table_exact. Qed.
Print Assumptions symbol_table_exact.

(** "<s> 2\n</s> 0x0 \na 0\na 4\n" *)
Example symbol_table_exact_case :
  let content := [60; 115; 62; 32; 50; 10; 60; 47; 115; 62; 32; 48; 120; 48; 32; 10; 97; 32; 48; 10; 97; 32; 52; 10] in
  words_entries content [([60; 115; 62], 2); ([60; 47; 115; 62], 0); ([97], 0); ([97], 4)] /\
  exists t, sym_read symtab_init content = Ok (t, true) /\ sym_get t 0 = Ok [97] /\ sym_get t 3 = Ok [] /\
    sym_get t 5 = Fault Assert /\ sym_id t [97] = 4 /\ s_eos t = 0.
Proof. exact Proof.SymbolsExact.table_exact_case. Qed.

(** C17: a file that is not accepted is reported, unless an id is out of range. *)
Theorem symbol_table_reports : forall content ps e rs, pieces content ps e -> Forall2 shown ps rs ->
  (forall l w id, In l rs -> word_entry l w id -> 0 <= id < 288230376151711743) ->
  (forall es, ~ words_entries content es) -> exists t, sym_read symtab_init content = Ok (t, false).
Proof. exact Proof.SymbolsExact.words_rejected. Qed.
Print Assumptions symbol_table_reports.

(** C17, the part that holds: reading ends with a status if every id read is
    neither negative nor beyond the size limit of a vector. *)
Theorem symbol_table_safe_partial : forall content,
  exists rs b, all_lines content = Ok (rs, b) /\
    ((forall l w num id, In l rs -> split l [32] = Ok [w; num] -> string_to_long num = Some id ->
        0 <= id < 288230376151711743) ->
     exists t ok, sym_read symtab_init content = Ok (t, ok)).
Proof. exact Proof.TextCases.symbol_table_safe. Qed.
Print Assumptions symbol_table_safe_partial.

(** "a b c\n" and "a x\n" are reported; a NUL byte is harmless. *)
Example symbol_table_safe_case :
  (exists t, sym_read symtab_init [97; 32; 98; 32; 99; 10] = Ok (t, false)) /\
  (exists t, sym_read symtab_init [97; 32; 120; 10] = Ok (t, false)) /\
  (exists t, sym_read symtab_init [97; 0; 32; 49; 10] = Ok (t, false)).
Proof. exact Proof.TextCases.symbol_table_safe_case. Qed.

(** C17 is false in general: "a -1\n" writes outside the table, "a -2\n" ends
    in an exception. *)
Theorem symbol_table_safe_refuted :
  sym_read symtab_init [97; 32; 45; 49; 10] = Fault Undef /\
  sym_read symtab_init [97; 32; 45; 50; 10] = Fault Throw.
Proof. exact Proof.TextCases.symbol_table_refuted. Qed.
Print Assumptions symbol_table_safe_refuted.
