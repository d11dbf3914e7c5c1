(** Transducers with numbers as weights and the same with 32-bit words. *)
From Coq Require Import ZArith List.
From Verif.Base Require Import Prelude.
From Verif.Model Require Import Fst.
From Verif.Spec Require Import AudioSpec FormatSpec FstSpec.
Import ListNotations.
Open Scope Z_scope.

(** [t'] is [t] with its weights turned into words by [pack]. *)
Definition packed_arc {N} (pack : N -> option Z) (a : arc N) (a' : arc Z) : Prop :=
  next_state a' = next_state a /\ input_label a' = input_label a /\ output_label a' = output_label a /\
  pack (weight a) = Some (weight a').

Definition packed {N} (pack : N -> option Z) (t : transducer N) (t' : transducer Z) : Prop :=
  t_start t' = t_start t /\
  Forall2 (fun st st' => pack (Datatypes.fst st) = Some (Datatypes.fst st') /\ Forall2 (packed_arc pack) (snd st) (snd st'))
    (t_states t) (t_states t').

(** Everything fits into 32 bits. *)
Definition fst_fits (t : transducer Z) : Prop :=
  sized t /\ fits 4 (t_start t) /\
  Forall (fun st => fits 4 (Datatypes.fst st) /\
    Forall (fun a => fits 4 (next_state a) /\ fits 4 (input_label a) /\ fits 4 (output_label a) /\
                     fits 4 (weight a)) (snd st)) (t_states t).
