(** What a program that uses the interface should see. *)
From Coq Require Import ZArith String List Bool.
From Verif.Base Require Import Prelude.
From Verif.Model Require Import Util File Arith Pcm Decoder Stt Api.
From Verif.Spec Require Import SttSpec.
Import ListNotations.
Open Scope Z_scope.

(** The utterance a call is about. *)
Definition about (c : call) : option nat :=
  match c with
  | Start k _ _ | Feed k _ _ | Finish k | Look k | Stop k => Some k
  | _ => None
  end.

(** The calls that make up what happens to one utterance: those about it, and
    those that make and destroy recognizers. *)
Definition concerns (k : nat) (c : call) : bool :=
  match c with
  | Load _ | Unload _ => true
  | _ => match about c with Some k' => Nat.eqb k k' | None => false end
  end.
Definition alone (k : nat) (cs : list call) : list call := filter (concerns k) cs.
Definition seen {A} (k : nat) (t : list (call * A)) : list (call * A) := filter (fun x => concerns k (Datatypes.fst x)) t.

Section Spec.
Context {F C : Type}.
Variable loads : bytes -> res (recognizer F C + bytes).

(** After a program with the trace [t], the variable [k] is a null pointer. *)
Fixpoint is_null (k : nat) (t : list (call * answer F)) (now : bool) : bool :=
  match t with
  | [] => now
  | (Start k' _ _, Pointer b) :: t => is_null k t (if Nat.eqb k k' then b else now)
  | _ :: t => is_null k t now
  end.

(** Why a format is not supported. *)
Definition format_message (f : wave_format) : bytes :=
  if negb (w_channels f =? 1) then lit "Corruption: num_channels = " ++ to_string (w_channels f) ++ lit " not supported"
  else if negb (w_rate f =? 16000) then lit "Corruption: sample_rate = " ++ to_string (w_rate f) ++ lit " not supported"
  else lit "Corruption: bits_per_sample == 8, 16 or 32 expected, but " ++ to_string (w_bits f) ++ lit " found".

(** The message of a call with its answer, if it failed, after [t]. *)
Definition message (t : list (call * answer F)) (c : call) (a : answer F) : option bytes :=
  match c, a with
  | Load config, Pointer true => match loads config with Ok (inr why) => Some why | _ => None end
  | Start _ _ f, Pointer true => Some (format_message f)
  | Feed k data size, Number (-1) =>
      Some (if is_null k t false then lit "utt is NULL"
            else match data with
                 | None => lit "RuntimeError: buffer is nullptr"
                 | Some _ => lit "RuntimeError: unexpected size: " ++ to_string size
                 end)
  | Header _ why, Format None => Some why
  | _, _ => None
  end.

(** The messages of a trace, in order. *)
Fixpoint messages (before t : list (call * answer F)) : list (option bytes) :=
  match t with
  | [] => []
  | (c, a) :: t => message before c a :: messages (before ++ [(c, a)]) t
  end.

(** The configurations of the recognizers, in order. *)
Definition configs (cs : list call) : list bytes :=
  flat_map (fun c => match c with Load config => [config] | _ => [] end) cs.

(** The calls about one utterance. *)
Definition of_utt (k : nat) (c : call) : bool :=
  match about c with Some k' => Nat.eqb k k' | None => false end.

(** A session: an utterance is started, given some audio in pieces, and its text
    is read at the end. *)
Definition whole_session (k r : nat) (f : wave_format) (pieces : list bytes) : list call :=
  Start k r f :: map (fun p => Feed k (Some p) (lenZ p)) pieces ++ [Finish k; Look k].
End Spec.
