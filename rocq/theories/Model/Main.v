(** Model of src/main.cc, the command line program. *)
From Coq Require Import ZArith String List Bool.
From Verif.Base Require Import Prelude.
From Verif.Model Require Import Util File Arith Pcm SymbolTable Fst Decoder Stt.
Import ListNotations.
Open Scope Z_scope.

(** [fread(buffer, 1, n, fd)]. *)
Definition fread (f : file) (n : Z) : bytes * file :=
  (firstn (Z.to_nat n) (f_rest f),
   mk_file (skipn (Z.to_nat n) (f_rest f)) (f_eof f || (lenZ (f_rest f) <? n))).

(** The program either goes on with a value or ends with an exit code. *)
Inductive outcome (A : Type) : Type :=
| Go (a : A)
| Exit (code : Z).
Arguments Go {A} a. Arguments Exit {A} code.

Section Main.
Context {F D C : Type}.
Variable O : fops F.
Variable X : xops F D.
Variable tenth : F.
Variable fuel : nat.
(** The files that can be opened, by name; what [ce_stt_init] does with a
    configuration file: a recognizer or the text of an error; the text of the
    error for a bad header. *)
Variable files : bytes -> option bytes.
Variable load : bytes -> res (recognizer F C + bytes).
Variable header_error : bytes -> bytes.

(** What has been printed, and the error buffer. *)
Record world : Type := mk_world { w_out : bytes; w_err : bytes }.

Definition print (w : world) (s : bytes) : world := mk_world (w_out w ++ s) (w_err w).

(** src/main.cc:15-18, [Fatal]. *)
Definition fatal {A} (w : world) (msg : bytes) : res (world * outcome A) :=
  Ok (print w (lit "error: " ++ cstr msg ++ [10]), Exit 22).

(** src/main.cc:39-44. *)
Fixpoint audio_loop (n : nat) (f : file) (u : option (utt F C)) (err : bytes) : res (option (utt F C) * bytes) :=
  match n with
  | 0%nat => Fault Fuel
  | S n =>
      if f_eof f then Ok (u, err)
      else
        let '(b, f) := fread f 1024 in
        if lenZ b =? 0 then Ok (u, err)
        else
          '(_, u, err) <- stt_process O X tenth fuel err u (Some b) (lenZ b) ;;
          audio_loop n f u err
  end.

(** src/main.cc:28-52, [ProcessAudio]. *)
Definition process_audio (w : world) (rc : recognizer F C) (name : bytes) : res (world * outcome bytes) :=
  match files name with
  | None => fatal w (lit "unable to open: " ++ name)
  | Some content =>
      '(fmt, f, err) <- pcm_header_of (w_err w) (open content) (header_error content) ;;
      let w := mk_world (w_out w) err in
      match fmt with
      | None => fatal w (last_error err)
      | Some fmt =>
          '(u, err) <- utt_init O X tenth fuel err rc fmt ;;
          let w := mk_world (w_out w) err in
          match u with
          | None => fatal w (last_error err)
          | Some _ =>
              '(u, err) <- audio_loop (S (S (length content))) f u err ;;
              '(u, err) <- stt_end O X tenth fuel err u ;;
              let hyp := match u with None => [] | Some u => cstr (u_hyp u) end in
              _ <- utt_destroy u ;;
              Ok (mk_world (w_out w) err, Go hyp)
          end
      end
  end.

(** src/main.cc:62-74: the loop over the lines of a list, and [CheckStatus]
    behind it (lines 20-25) with exit code 1; [name] is the name of the list in
    the message. *)
Fixpoint scp_loop (n : nat) (w : world) (rc : recognizer F C) (name : bytes) (f : file) : res (world * outcome unit) :=
  match n with
  | 0%nat => Fault Fuel
  | S n =>
      match read_line f with
      | (Line line, f) =>
          fields <- split line [32] ;;
          match fields with
          | [utt; wav] =>
              '(w, r) <- process_audio w rc wav ;;
              match r with
              | Exit c => Ok (w, Exit c)
              | Go hyp => scp_loop n (print w (cstr utt ++ [32] ++ cstr hyp ++ [10])) rc name f
              end
          | _ => Ok (print w (lit "scp: unexpected line: " ++ cstr line ++ [10]), Exit 22)
          end
      | (NoLine, _) => Ok (w, Go tt)
      | (LineError, _) =>
          Ok (print w (lit "pasco: IOError: EOF already reached: " ++ name ++ [10]), Exit 1)
      end
  end.

(** src/main.cc:55-75, [process_scp]. *)
Definition process_scp (w : world) (rc : recognizer F C) (name : bytes) : res (world * outcome unit) :=
  match files name with
  | None => Ok (print w (lit "pasco: IOError: Unable to open " ++ name ++ [10]), Exit 1)
  | Some content => scp_loop (S (S (length content))) w rc name (open content)
  end.

(** src/main.cc:78-84, [print_usage]. *)
Definition usage : bytes :=
  lit "Usage: pocketkaldi <model-file> <input-file>" ++ [10] ++
  lit "  Input-file:" ++ [10] ++
  lit "    *.wav: decode this file." ++ [10] ++
  lit "    *.scp: decode audios listed in it." ++ [10].

(** src/main.cc:86-106, [main] with its arguments (C strings, without the name
    of the program): what is printed and the exit code. *)
Definition run_main (args : list bytes) : res (bytes * Z) :=
  let w := mk_world [] (repeat 0 (Z.to_nat error_size)) in
  match args with
  | [model; input] =>
      if lenZ input <? 4 then Ok (usage, 1)
      else
        r <- load model ;;
        match r with
        | inr msg =>
            err <- set_error (w_err w) msg ;;
            Ok (lit "error: " ++ last_error err ++ [10], 22)
        | inl rc =>
            let suffix := skipn (Z.to_nat (lenZ input - 4)) input in
            if str_eqb suffix (lit ".wav")
            then
              '(w, r) <- process_audio w rc input ;;
              match r with
              | Exit c => Ok (w_out w, c)
              | Go hyp => Ok (w_out w ++ hyp ++ [10], 0)
              end
            else
              '(w, r) <- process_scp w rc input ;;
              match r with
              | Exit c => Ok (w_out w, c)
              | Go _ => Ok (w_out w, 0)
              end
        end
  | _ => Ok (usage, 1)
  end.

End Main.
