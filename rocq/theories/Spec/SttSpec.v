(** What the calls of the C interface should do. *)
From Coq Require Import ZArith String List Bool.
From Verif.Base Require Import Prelude.
From Verif.Spec Require Import AudioSpec PcmSpec TextSpec.
From Verif.Model Require Import Util File Arith Pcm Am SymbolTable Pool OLabel Fst Decoder Stt.
Import ListNotations.
Open Scope Z_scope.

(** A piece of audio that can be given to one call. *)
Definition piece (p : bytes) : Prop := byte_list p /\ p <> [] /\ lenZ p < 536870000.

Definition total (ns : list Z) : Z := fold_right Z.add 0 ns.

(** The text of the words [words] in memory of exactly the size needed. *)
Definition spells (symbols : symtab) (words : list Z) (memory : bytes) : Prop :=
  exists names, Forall2 (fun w name => sym_get symbols w = Ok name) words names /\
    memory = join [32] names ++ [0].

(** Both fail, with related faults, or both succeed with related results. *)
Definition alike {A B} (same : fault -> fault -> Prop) (R : A -> B -> Prop) (a : res A) (b : res B) : Prop :=
  match a, b with
  | Ok x, Ok y => R x y
  | Fault f, Fault g => same f g
  | _, _ => False
  end.

(** No matter which. *)
Definition any (f g : fault) : Prop := True.

(** A handle that no call can work with, and what is said about it. *)
Definition complaint {F C} (u : option (utt F C)) : option string :=
  match u with
  | None => Some "utt is NULL"%string
  | Some u =>
      match u_internal u with
      | None => Some "utt->internal is NULL"%string
      | Some i =>
          match i_recognizer i with
          | None => Some "utt->internal->recognizer is NULL"%string
          | Some _ => None
          end
      end
  end.

(** An utterance as the interface hands it out: its reader has a format. *)
Definition set_up {F C} (u : option (utt F C)) : Prop :=
  forall v i, u = Some v -> u_internal v = Some i -> r_ready (i_reader i) = true.

(** The message a call reports, if it fails. *)
Definition reported {F C} (c : stt_call (F := F) (C := C)) (msg : option bytes) : Prop :=
  match c with
  | CallLoad why => msg = why
  | CallInit _ f => (supported f /\ msg = None) \/ (~ supported f /\ msg = Some (set_format_error f))
  | CallProcess u data size =>
      match complaint u with
      | Some s => msg = Some (lit s)
      | None =>
          match data with
          | None => msg = Some (lit "RuntimeError: buffer is nullptr")
          | Some _ =>
              if size <=? 0
              then msg = Some (lit "RuntimeError: unexpected size: " ++ to_string size)
              else msg = None
          end
      end
  | CallEnd u => msg = option_map lit (complaint u)
  | CallHeader f why =>
      (exists fmt f', read_pcm_header f = Ok (Some fmt, f') /\ msg = None) \/
      (exists f', read_pcm_header f = Ok (None, f') /\ msg = Some why)
  end.

Definition handle {F C} (c : stt_call (F := F) (C := C)) : Prop :=
  match c with CallProcess u _ _ | CallEnd u => set_up u | _ => True end.

(** What [ce_stt_last_error] should show after these messages, newest last. *)
Fixpoint shown (last : bytes) (msgs : list (option bytes)) : bytes :=
  match msgs with
  | [] => last
  | None :: msgs => shown last msgs
  | Some m :: msgs => shown (firstn (Z.to_nat 2047) (cstr m)) msgs
  end.

Section Runs.
Context {F D C : Type}.
Variable O : fops F.
Variable X : xops F D.
Variable cfg : config F C.
Variable fuel : nat.

(** The decoder [d'] is [d] after some rows. *)
Inductive reached : decoder F C -> decoder F C -> Prop :=
| reached_here : forall d, reached d d
| reached_row : forall d d1 d2 logp ok, reached d d1 ->
    process O X cfg (ogc label_block) fuel d1 logp = Ok (d2, ok) -> reached d d2.

(** The text and log likelihood [new] are the old ones, or those of a decoder
    met between [d] and [d'] after a multiple of 20 frames. *)
Definition text_of (symbols : symtab) (d d' : decoder F C) (old new : bytes * F) : Prop :=
  new = old \/ exists d1 words weight, reached d d1 /\ reached d1 d' /\ Z.rem (d_frames d1) 20 = 0 /\
    best_path O X cfg d1 = Ok (words, weight) /\
    spells symbols (rev words) (Datatypes.fst new) /\
    (words <> [] -> snd new = f_div O weight (f_int O (d_frames d1))).
End Runs.
