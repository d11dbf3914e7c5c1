(** Audio data as bytes, frames of a sample stream. *)
From Coq Require Import ZArith List.
Import ListNotations.
Open Scope Z_scope.

(** The [n] bytes of [z], least significant first (two's complement). *)
Fixpoint encode (n : nat) (z : Z) : list Z :=
  match n with
  | O => []
  | S n => z mod 256 :: encode n (z / 256)
  end.

(** [z] fits into [n] bytes, signed. *)
Definition fits (n : nat) (z : Z) : Prop :=
  - 2 ^ (8 * Z.of_nat n - 1) <= z < 2 ^ (8 * Z.of_nat n - 1).

Definition byte_list (b : list Z) : Prop := Forall (fun c => 0 <= c < 256) b.

(** The canonical 44-byte header of a PCM WAV file. *)
Definition pcm_header (chunk channels rate byte_rate align bits size : Z) : list Z :=
  [82; 73; 70; 70] ++ encode 4 chunk ++ [87; 65; 86; 69] ++
  [102; 109; 116; 32] ++ encode 4 16 ++ encode 2 1 ++ encode 2 channels ++
  encode 4 rate ++ encode 4 byte_rate ++ encode 2 align ++ encode 2 bits ++
  [100; 97; 116; 97] ++ encode 4 size.

(** [stream] is the encoding of [samples] in [n] bytes each, followed by less
    than one sample. *)
Definition decodes (n : nat) (stream samples rest : list Z) : Prop :=
  stream = concat (map (encode n) samples) ++ rest /\
  Forall (fits n) samples /\ (length rest < n)%nat.

(** Frames: [count] windows of [len] elements, [shift] apart. *)
Definition window {A} (len shift : nat) (s : list A) (i : nat) : list A :=
  firstn len (skipn (i * shift) s).
Definition num_windows (len shift n : nat) : nat :=
  if Nat.ltb n len then 0%nat else S ((n - len) / shift).
Definition windows {A} (len shift : nat) (s : list A) : list (list A) :=
  map (window len shift s) (seq 0 (num_windows len shift (length s))).
