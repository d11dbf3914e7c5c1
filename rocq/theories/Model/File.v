(** Model of [ReadableFile] (src/util.cc:63-147, src/util.h). *)
From Coq Require Import ZArith List Bool.
From Verif.Base Require Import Prelude.
From Verif.Model Require Import Util.
Import ListNotations.
Open Scope Z_scope.

(** An open file: the bytes not yet read and the end-of-file indicator. Read
    errors of the operating system are not modelled. *)
Record file : Type := mk_file {
  f_rest : bytes;
  f_eof : bool
}.

(** src/util.cc:75-88, [Open] of an existing file. *)
Definition open (content : bytes) : file := mk_file content false.

(** [fgets(buf, n + 1, fd)]: at most [n] bytes, up to and including a newline;
    [None] is the null result. *)
Fixpoint fgets_bytes (n : nat) (s : bytes) : bytes * bytes * bool :=
  match n with
  | O => ([], s, false)
  | S n =>
      match s with
      | [] => ([], [], true)
      | c :: r =>
          if c =? 10 then ([c], r, false)
          else let '(l, rest, e) := fgets_bytes n r in (c :: l, rest, e)
      end
  end.

Definition fgets (n : nat) (f : file) : option bytes * file :=
  let '(l, rest, e) := fgets_bytes n (f_rest f) in
  (match l with [] => None | _ => Some l end, mk_file rest (f_eof f || e)).

(** src/util.cc:111-116: trailing CR and LF are dropped. *)
Definition is_crlf (c : Z) : bool := (c =? 13) || (c =? 10).

Fixpoint drop_while (p : Z -> bool) (s : bytes) : bytes :=
  match s with
  | c :: r => if p c then drop_while p r else s
  | [] => []
  end.

Definition drop_trailing (p : Z -> bool) (s : bytes) : bytes := rev (drop_while p (rev s)).

(** What [ReadLine] tells its caller: a line; false with an unchanged status;
    false with an error status. *)
Inductive line_result : Type :=
| Line (s : bytes)
| NoLine
| LineError.

Definition chunk : nat := Z.to_nat 4095.  (* src/util.cc:99: 4096 bytes with the NUL *)

(** src/util.cc:90-118, [ReadLine]. The text read is used as a C string. *)
Definition read_line (f : file) : line_result * file :=
  if f_eof f then (LineError, f)
  else
    let '(r, f) := fgets chunk f in
    match r with
    | None => ((if f_eof f then NoLine else LineError), f)
    | Some s => (Line (drop_trailing is_crlf (cstr s)), f)
    end.

(** src/util.cc:120-126, [Read] into a buffer of [size] bytes: [fread] of one
    object of [size] bytes. [None] is the error status; a read of zero bytes is
    an error. A negative size becomes a huge one: the rest of the file is
    written behind the buffer. *)
Definition read (f : file) (size : Z) : res (option bytes * file) :=
  if size <? 0 then
    match f_rest f with
    | [] => Ok (None, mk_file [] true)
    | _ => Fault Undef
    end
  else if size =? 0 then Ok (None, f)
  else if size <=? lenZ (f_rest f) then
    Ok (Some (firstn (Z.to_nat size) (f_rest f)),
        mk_file (skipn (Z.to_nat size) (f_rest f)) (f_eof f))
  else Ok (None, mk_file [] true).

(** Equality of strings. *)
Fixpoint str_eqb (a b : bytes) : bool :=
  match a, b with
  | [], [] => true
  | x :: a, y :: b => (x =? y) && str_eqb a b
  | _, _ => false
  end.

(** src/util.cc:128-143, [ReadAndVerifyString]: the bytes read are compared as a
    C string; false is an error status. *)
Definition read_and_verify (f : file) (expected : bytes) : res (bool * file) :=
  '(r, f) <- read f (lenZ expected) ;;
  match r with
  | None => Ok (false, f)
  | Some b => Ok (str_eqb expected (cstr b), f)
  end.

(** The loop [while (fd.ReadLine(&line, &status) && status.ok())] of
    src/symbol_table.cc:23 and src/main.cc:62 with an empty body: the lines and
    whether the status is still ok. *)
Fixpoint read_lines (fuel : nat) (f : file) : res (list bytes * bool) :=
  match fuel with
  | O => Fault Fuel
  | S fuel =>
      match read_line f with
      | (Line s, f) => '(l, ok) <- read_lines fuel f ;; Ok (s :: l, ok)
      | (NoLine, _) => Ok ([], true)
      | (LineError, _) => Ok ([], false)
      end
  end.

Definition all_lines (content : bytes) : res (list bytes * bool) :=
  read_lines (length content + 2) (open content).

(** The loop [while (!fd.Eof() && fd.ReadLine(&line, &status))] of
    src/configuration.cc:27. *)
Fixpoint read_lines_eof (fuel : nat) (f : file) : res (list bytes * bool) :=
  match fuel with
  | O => Fault Fuel
  | S fuel =>
      if f_eof f then Ok ([], true)
      else match read_line f with
           | (Line s, f) => '(l, ok) <- read_lines_eof fuel f ;; Ok (s :: l, ok)
           | (NoLine, _) => Ok ([], true)
           | (LineError, _) => Ok ([], false)
           end
  end.

Definition all_lines_eof (content : bytes) : res (list bytes * bool) :=
  read_lines_eof (length content + 2) (open content).
