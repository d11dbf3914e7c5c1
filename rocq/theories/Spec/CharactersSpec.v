(** The line that error rates are computed from, for one recording. *)
From Coq Require Import ZArith List.
From Verif.Base Require Import Prelude.
From Verif.Spec Require Import TextSpec CharTokSpec.
Import ListNotations.
Open Scope Z_scope.

(** For the entry [e] of a list, a name and a file: the name, and behind it the
    characters of words [bs] that were [said] in the file. *)
Definition line_for (files : bytes -> option bytes) (said : bytes -> bytes -> Prop)
  (e : bytes * bytes) (line : list Z) : Prop :=
  exists content bs name ws ps, files (snd e) = Some content /\ said content (join [32] bs) /\
    utf8 name (fst e) /\ a_word name /\ Forall2 (fun b w => utf8 w b /\ a_word w) bs ws /\ pieces ws ps /\
    line = name ++ concat (map (fun p => 32 :: p) ps).
