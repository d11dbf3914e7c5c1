(** C113: hypotheses split into characters. *)
From Coq Require Import List ZArith.
From Verif.Base Require Import Prelude.
From Verif.Spec Require Import TextSpec ProgramSpec CharTokSpec.
From Verif.Model Require Import CharTok.
From Verif.Proof Require Import CharTok CharTokUtf8.
Import ListNotations.
Open Scope Z_scope.

Theorem chartok_lines : forall ls os, Forall no_newline ls ->
  Forall2 (split_line white) ls os -> conv_chartok (file_of ls) = file_of os.
Proof. exact lines_split. Qed.
Print Assumptions chartok_lines.

Theorem chartok_last_line : forall ls last os o,
  Forall no_newline ls -> no_newline last -> last <> [] ->
  Forall2 (split_line white) ls os -> split_line white last o ->
  conv_chartok (file_of ls ++ last) = file_of (os ++ [o]).
Proof. exact last_split. Qed.
Print Assumptions chartok_last_line.

Theorem chartok_every_text : forall s, exists ls last os,
  s = file_of ls ++ last /\ Forall no_newline ls /\ no_newline last
  /\ Forall2 (split_line white)
       (ls ++ match last with [] => [] | _ => [last] end) os
  /\ conv_chartok s = file_of os.
Proof. exact every_text. Qed.
Print Assumptions chartok_every_text.

Theorem chartok_one_way : forall l o o',
  split_line white l o -> split_line white l o' -> o = o'.
Proof. exact white_unique. Qed.
Print Assumptions chartok_one_way.

Theorem chartok_idempotent : forall s,
  conv_chartok (conv_chartok s) = conv_chartok s.
Proof. exact chartok_twice. Qed.
Print Assumptions chartok_idempotent.

Theorem chartok_keeps : forall s, seen white (conv_chartok s) = seen white s.
Proof. exact seen_kept. Qed.
Print Assumptions chartok_keeps.

(** "v1 so <unk>" and a blank line. *)
Example chartok_case :
  Forall no_newline [[118; 49; 32; 115; 111; 32; 60; 117; 110; 107; 62]; [9]]
  /\ Forall2 (split_line white)
       [[118; 49; 32; 115; 111; 32; 60; 117; 110; 107; 62]; [9]]
       [[118; 49; 32; 115; 32; 111; 32; 60; 117; 110; 107; 62]; []]
  /\ conv_chartok [118; 49; 32; 115; 111; 32; 60; 117; 110; 107; 62; 10; 9; 10]
     = [118; 49; 32; 115; 32; 111; 32; 60; 117; 110; 107; 62; 10; 10].
Proof. exact case_so. Qed.

(** "v2", three blanks and a word with a mark within, without a newline: the
    word stays in one piece. *)
Example chartok_case_last :
  split_line white [118; 50; 32; 32; 12288; 97; 91; 98; 93; 99]
    [118; 50; 32; 97; 91; 98; 93; 99]
  /\ conv_chartok [118; 50; 32; 32; 12288; 97; 91; 98; 93; 99]
     = [118; 50; 32; 97; 91; 98; 93; 99; 10].
Proof. exact case_last. Qed.

(** The bytes of the files, in UTF-8: the characters of the result are those of
    the theorems above, and there is one way to write them. *)
Theorem chartok_utf8 : forall s bs, utf8 s bs ->
  exists out, conv_file bs = Some out /\ utf8 (conv_chartok s) out.
Proof. exact file_utf8. Qed.
Print Assumptions chartok_utf8.

Theorem chartok_utf8_one_way : forall s bs bs', utf8 s bs -> utf8 s bs' -> bs = bs'.
Proof. exact utf8_unique. Qed.
Print Assumptions chartok_utf8_one_way.

(** What the recogniser prints for a list of recordings (C65), with names and
    words in UTF-8. *)
Theorem chartok_printed : forall entries names namess wordss pss,
  Forall2 (fun (e : bytes * bytes) name => utf8 name (fst e) /\ a_word name) entries names ->
  Forall2 (Forall2 (fun b w => utf8 w b /\ a_word w)) namess wordss ->
  length entries = length namess -> Forall2 pieces wordss pss ->
  exists out, conv_file (printed entries (map (join [32]) namess)) = Some out /\
    utf8 (file_of (map (fun p => fst p ++ concat (map (fun q => 32 :: q) (snd p))) (combine names pss))) out.
Proof. exact list_utf8. Qed.
Print Assumptions chartok_printed.

(** The name v1 and a word of two characters, U+4F60 and U+597D. *)
Example chartok_printed_case :
  let name := [118; 49] in
  let word := [20320; 22909] in
  let bytes := [228; 189; 160; 229; 165; 189] in
  utf8 name name /\ a_word name /\ utf8 word bytes /\ a_word word /\ pieces [word] [[20320]; [22909]] /\
  conv_file (printed [(name, [97])] (map (join [32]) [[bytes]]))
    = Some [118; 49; 32; 228; 189; 160; 32; 229; 165; 189; 10].
Proof. exact case_hello. Qed.
