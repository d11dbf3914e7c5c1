(** What the audio readers should accept and reject. *)
From Coq Require Import ZArith List.
From Verif.Model Require Import Pcm.
Import ListNotations.
Open Scope Z_scope.

(** Byte rate and block alignment of one channel. *)
Definition consistent (rate byte_rate align bits : Z) : Prop :=
  byte_rate = Z.quot (rate * bits) 8 /\ align = Z.quot bits 8.

Definition valid_width (bits : Z) : Prop := bits = 8 \/ bits = 16 \/ bits = 32.

Definition supported (f : wave_format) : Prop :=
  w_channels f = 1 /\ w_rate f = 16000 /\ valid_width (w_bits f).

(** The call [c] must be rejected after the calls [before]. *)
Definition rejected (before : list reader_call) (c : reader_call) : Prop :=
  match c with
  | CallSetFormat f => ~ supported f
  | CallProcess None _ => True
  | CallProcess (Some _) n => n <= 0 \/ (forall f, In (CallSetFormat f) before -> ~ supported f)
  | CallReset => False
  end.

(** [f] is the last supported format set by these calls. *)
Definition in_force (cs : list reader_call) (f : wave_format) : Prop :=
  exists cs1 cs2, cs = cs1 ++ CallSetFormat f :: cs2 /\ supported f /\
    forall g, In (CallSetFormat g) cs2 -> ~ supported g.
