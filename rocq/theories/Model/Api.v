(** Model of src/ce_stt.h: a program that uses the interface, with any number of
    recognizers and utterances at the same time. *)
From Coq Require Import ZArith String List Bool.
From Verif.Base Require Import Prelude.
From Verif.Model Require Import Util File Arith Pcm Decoder Stt.
Import ListNotations.
Open Scope Z_scope.

Section Api.
Context {F D C : Type}.
Variable O : fops F.
Variable X : xops F D.
Variable tenth : F.
Variable fuel : nat.
(** What [ce_stt_init] makes of a configuration file (Model/Loading.v): a
    recognizer or the text of an error. *)
Variable loads : bytes -> res (recognizer F C + bytes).

(** What a variable for a recognizer points to. [ce_stt_destroy] deletes the
    members and sets them to null, but the structure itself stays
    (src/ce_stt.cc:233-254). *)
Inductive stt_var : Type := NoStt | Stt (rc : recognizer F C) | Emptied.

(** The same for an utterance; it knows its recognizer, whose number is kept
    beside it. A variable that was never set and one whose utterance was
    destroyed may not be used. *)
Inductive utt_var : Type := Dangling | NoUtt | Utt (r : nat) (u : utt F C).

(** The calls. Recognizers are numbered in the order of the calls that make
    them, utterances are kept in numbered variables. *)
Inductive call : Type :=
| Load (config : bytes)                            (* stt = ce_stt_init(config) *)
| Unload (r : nat)                                 (* ce_stt_destroy(stt) *)
| Start (k r : nat) (f : wave_format)              (* utt_k = ce_utt_init(stt_r, &f) *)
| Feed (k : nat) (data : option bytes) (size : Z)  (* ce_stt_process(utt_k, data, size) *)
| Finish (k : nat)                                 (* ce_stt_end_of_stream(utt_k) *)
| Look (k : nat)                                   (* reading utt_k->hyp and the likelihood *)
| Stop (k : nat)                                   (* ce_utt_destroy(utt_k) *)
| Header (f : file) (why : bytes)                  (* ce_read_pcm_header(f, &format) *)
| LastError.                                       (* ce_stt_last_error() *)

Inductive answer : Type :=
| Nothing
| Pointer (null : bool)
| Number (n : Z)
| Text (s : bytes) (ll : F)
| Format (f : option wave_format)
| Message (s : bytes).

Record state : Type := mk_state {
  s_err : bytes;
  s_stt : list stt_var;
  s_utt : nat -> utt_var
}.

(** src/ce_stt.cc:65, [error_message] is a static array. *)
Definition init_state : state := mk_state (repeat 0 (Z.to_nat error_size)) [] (fun _ => Dangling).

Definition set_utt (m : nat -> utt_var) (k : nat) (x : utt_var) : nat -> utt_var :=
  fun k' => if Nat.eqb k k' then x else m k'.

Definition stt_of (s : state) (r : nat) : res stt_var :=
  match nth_error (s_stt s) r with Some v => Ok v | None => Fault Undef end.

(** src/ce_stt.cc:295-340 with a recognizer that was emptied: line 313 calls a
    member of a null pointer. *)
Definition process_emptied (err : bytes) (u : utt F C) (data : option bytes) (size : Z)
  : res (Z * option (utt F C) * bytes) :=
  '(p, err) <- check_utt err (Some u) ;;
  match p with
  | None => Ok (failed, Some u, err)
  | Some (v, i, rc) =>
      '(samples, r) <- reader_process (i_reader i) data size ;;
      match samples with
      | None => err <- set_error err (process_error data size) ;; Ok (failed, Some u, err)
      | Some samples =>
          if lenZ samples =? 0
          then Ok (0, Some (mk_utt (Some (mk_internal (i_recognizer i) r (i_wave i) (i_am i) (i_decoder i)))
                              (u_hyp v) (u_loglik v)), err)
          else Fault Undef
      end
  end.

(** src/ce_stt.cc:342-362 with a recognizer that was emptied: line 353 calls a
    member of a null pointer. *)
Definition end_emptied (err : bytes) (u : utt F C) : res (option (utt F C) * bytes) :=
  '(p, err) <- check_utt err (Some u) ;;
  match p with
  | None => Ok (Some u, err)
  | Some _ => Fault Undef
  end.

Definition utt_pointer (r : nat) (u : option (utt F C)) : utt_var :=
  match u with Some u => Utt r u | None => NoUtt end.

(** One call. Destroying a null pointer, and starting an utterance with a null
    pointer or a recognizer that was emptied, go through null pointers
    (src/ce_stt.cc:234, 262, 286). Destroying a recognizer twice deletes null
    pointers, which does nothing. *)
Definition step (s : state) (c : call) : res (state * answer) :=
  let '(mk_state err stts utts) := s in
  match c with
  | Load config =>
      r <- loads config ;;
      match r with
      | inl rc => Ok (mk_state err (stts ++ [Stt rc]) utts, Pointer false)
      | inr why => err <- set_error err why ;; Ok (mk_state err (stts ++ [NoStt]) utts, Pointer true)
      end
  | Unload r =>
      v <- stt_of s r ;;
      match v with
      | NoStt => Fault Undef
      | _ => Ok (mk_state err (upd stts r Emptied) utts, Nothing)
      end
  | Start k r f =>
      v <- stt_of s r ;;
      match v with
      | Stt rc =>
          '(u, err) <- utt_init O X tenth fuel err rc f ;;
          Ok (mk_state err stts (set_utt utts k (utt_pointer r u)), Pointer (match u with None => true | _ => false end))
      | _ => Fault Undef
      end
  | Feed k data size =>
      match utts k with
      | Dangling => Fault Undef
      | NoUtt =>
          '(n, _, err) <- stt_process O X tenth fuel err (None : option (utt F C)) data size ;;
          Ok (mk_state err stts utts, Number n)
      | Utt r u =>
          v <- stt_of s r ;;
          '(n, u, err) <- match v with
                          | Emptied => process_emptied err u data size
                          | _ => stt_process O X tenth fuel err (Some u) data size
                          end ;;
          Ok (mk_state err stts (set_utt utts k (utt_pointer r u)), Number n)
      end
  | Finish k =>
      match utts k with
      | Dangling => Fault Undef
      | NoUtt => '(_, err) <- stt_end O X tenth fuel err (None : option (utt F C)) ;; Ok (mk_state err stts utts, Nothing)
      | Utt r u =>
          v <- stt_of s r ;;
          '(u, err) <- match v with
                       | Emptied => end_emptied err u
                       | _ => stt_end O X tenth fuel err (Some u)
                       end ;;
          Ok (mk_state err stts (set_utt utts k (utt_pointer r u)), Nothing)
      end
  | Look k =>
      match utts k with
      | Utt _ u =>
          _ <- check (existsb (Z.eqb 0) (u_hyp u)) Undef ;;
          Ok (s, Text (cstr (u_hyp u)) (u_loglik u))
      | _ => Fault Undef
      end
  | Stop k =>
      match utts k with
      | Dangling => Fault Undef
      | NoUtt => _ <- utt_destroy (None : option (utt F C)) ;; Ok (s, Nothing)
      | Utt _ u => _ <- utt_destroy (Some u) ;; Ok (mk_state err stts (set_utt utts k Dangling), Nothing)
      end
  | Header f why =>
      '(fmt, _, err) <- pcm_header_of err f why ;;
      Ok (mk_state err stts utts, Format fmt)
  | LastError => Ok (s, Message (last_error err))
  end.

(** A program: its calls and what they answer. *)
Fixpoint run (s : state) (cs : list call) : res (list (call * answer)) :=
  match cs with
  | [] => Ok []
  | c :: cs =>
      '(s, a) <- step s c ;;
      t <- run s cs ;;
      Ok ((c, a) :: t)
  end.

End Api.
Arguments answer : clear implicits.
Arguments state : clear implicits.
Arguments utt_var : clear implicits.
Arguments stt_var : clear implicits.
