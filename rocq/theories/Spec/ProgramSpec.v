(** What the command line program should do. *)
From Coq Require Import ZArith String List Bool.
From Verif.Base Require Import Prelude.
From Verif.Spec Require Import AudioSpec PcmSpec TextSpec SttSpec.
From Verif.Model Require Import Util File Arith Pcm SymbolTable Fst Decoder Stt.
Import ListNotations.
Open Scope Z_scope.

(** A mono 16 kHz WAV file: its header with two sizes, and what follows. *)
Definition wav (bits chunk size : Z) (data : bytes) : bytes :=
  pcm_header chunk 1 16000 (2000 * bits) (bits / 8) bits size ++ data.

Definition wav_sizes (bits chunk size : Z) : Prop := valid_width bits /\ fits 4 chunk /\ fits 4 size.

Definition ends_in (name suffix : bytes) : Prop := exists p, name = p ++ suffix.

(** The transcript of a file: the text of some session over what follows the
    header. *)
Definition transcript {F D C} (O : fops F) (X : xops F D) tenth fuel (rc : recognizer F C) (content hyp : bytes) : Prop :=
  exists bits chunk size data ps err u ns mem ll,
    content = wav bits chunk size data /\ wav_sizes bits chunk size /\
    utt_init O X tenth fuel err rc (mk_format 1 16000 bits) = Ok (Some u, err) /\
    Forall piece ps /\ concat ps = data /\
    session O X tenth fuel err (Some u) ps = Ok (ns, mem, ll) /\ hyp = cstr mem.

(** One line of a list: a name and a file. *)
Definition entry_line (e : bytes * bytes) : bytes := Datatypes.fst e ++ [32] ++ Datatypes.snd e.

Definition clean (s : bytes) : Prop := ~ In 0 s /\ ~ In 10 s /\ ~ In 13 s /\ ~ In 32 s.

Definition entry_ok (e : bytes * bytes) : Prop :=
  clean (Datatypes.fst e) /\ clean (Datatypes.snd e) /\ Datatypes.snd e <> [] /\ lenZ (entry_line e) < 4095.

Definition list_file (entries : list (bytes * bytes)) : bytes := text (map entry_line entries).

(** What the program should print for a list. *)
Definition printed (entries : list (bytes * bytes)) (hyps : list bytes) : bytes :=
  concat (map (fun p => Datatypes.fst (Datatypes.fst p) ++ [32] ++ Datatypes.snd p ++ [10]) (combine entries hyps)).

(** The error buffer of a fresh program. *)
Definition no_error : bytes := repeat 0 (Z.to_nat error_size).

(** The arguments make no sense. *)
Definition is_usage (args : list bytes) : Prop :=
  match args with [_; input] => lenZ input < 4 | _ => True end.

Section Program.
Context {F D C : Type}.
Variable O : fops F.
Variable X : xops F D.
Variable tenth : F.
Variable fuel : nat.
Variable files : bytes -> option bytes.
Variable header_error : bytes -> bytes.

(** An entry of a list with the transcript of its file. *)
Definition ready_entry (rc : recognizer F C) (e : bytes * bytes) (hyp : bytes) : Prop :=
  exists content, files (Datatypes.snd e) = Some content /\ byte_list content /\ transcript O X tenth fuel rc content hyp.

(** Why a file cannot be decoded. *)
Inductive unreadable (name : bytes) : bytes -> Prop :=
| no_file : files name = None -> ~ In 0 name -> unreadable name (lit "unable to open: " ++ name)
| bad_header : forall content f, files name = Some content -> read_pcm_header (open content) = Ok (None, f) ->
    unreadable name (firstn (Z.to_nat 2047) (cstr (header_error content)))
| bad_format : forall content fmt f, files name = Some content -> read_pcm_header (open content) = Ok (Some fmt, f) ->
    ~ supported fmt -> unreadable name (firstn (Z.to_nat 2047) (cstr (set_format_error fmt))).

(** The recognizer works at all. *)
Definition can_start (rc : recognizer F C) : Prop :=
  exists fmt err u, utt_init O X tenth fuel err rc fmt = Ok (Some u, err).
End Program.
