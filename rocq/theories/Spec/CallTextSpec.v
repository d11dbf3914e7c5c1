(** The texts of failed calls other than loading (C104), independent of the model. *)
From Coq Require Import ZArith String List.
From Verif.Base Require Import Prelude.
From Verif.Model Require Import Pcm Stt.
From Verif.Spec Require Import AudioSpec PcmSpec TextSpec.
Import ListNotations.
Open Scope Z_scope.

(** The first thing about a format that is not supported. *)
Inductive unsupported_text (f : wave_format) : str -> Prop :=
| U_channels s : w_channels f <> 1 -> decimal (w_channels f) s ->
    unsupported_text f (lit "Corruption: num_channels = " ++ s ++ lit " not supported")
| U_rate s : w_channels f = 1 -> w_rate f <> 16000 -> decimal (w_rate f) s ->
    unsupported_text f (lit "Corruption: sample_rate = " ++ s ++ lit " not supported")
| U_bits s : w_channels f = 1 -> w_rate f = 16000 -> ~ In (w_bits f) [8; 16; 32] -> decimal (w_bits f) s ->
    unsupported_text f (lit "Corruption: bits_per_sample == 8, 16 or 32 expected, but " ++ s ++ lit " found").

(** What is the matter with the audio given. *)
Inductive audio_text : option str -> Z -> str -> Prop :=
| A_null size : audio_text None size (lit "RuntimeError: buffer is nullptr")
| A_size data size s : size <= 0 -> decimal size s ->
    audio_text (Some data) size (lit "RuntimeError: unexpected size: " ++ s).

(** How the program is called. *)
Definition usage_text : str := concat (map (fun l => lit l ++ [10])
  ["Usage: pocketkaldi <model-file> <input-file>"; "  Input-file:"; "    *.wav: decode this file.";
   "    *.scp: decode audios listed in it."]%string).
