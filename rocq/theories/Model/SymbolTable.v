(** Model of src/symbol_table.cc. *)
From Coq Require Import ZArith List Bool.
From Verif.Base Require Import Prelude ZMap.
From Verif.Model Require Import Util File.
Import ListNotations.
Open Scope Z_scope.

(** src/symbol_table.h, the members. [words_] is its size and its non-empty
    strings; [word_ids_] an association list, newest entry first. *)
Record symtab : Type := mk_symtab {
  s_size : Z;
  s_words : zmap bytes;
  s_ids : list (bytes * Z);
  s_bos : Z;
  s_eos : Z
}.

(** src/symbol_table.cc:14. *)
Definition symtab_init : symtab := mk_symtab 0 zempty [] 0 0.

Fixpoint id_of (w : bytes) (t : list (bytes * Z)) : option Z :=
  match t with
  | [] => None
  | (k, v) :: r => if str_eqb w k then Some v else id_of w r
  end.

(** The largest [vector<string>] size with 32-byte strings. *)
Definition max_strings : Z := 288230376151711743.

(** src/symbol_table.cc:36-38: the word enters [word_ids_] (as an [int]), the
    vector is resized if the id (compared as unsigned) is not below its size,
    and the slot is written. *)
Definition add_word (t : symtab) (word : bytes) (id : Z) : res symtab :=
  let ids := (word, wrap32 id) :: s_ids t in
  '(size, words) <-
    (if size_t id <? s_size t then Ok (s_size t, s_words t)
     else if id =? long_max then Fault Undef
     else let n := size_t (id + 1) in
          if max_strings <? n then Fault Throw
          else if n <? s_size t then Ok (n, zempty) else Ok (n, s_words t)) ;;
  if (0 <=? id) && (id <? size)
  then Ok (mk_symtab size (zset words id word) ids (s_bos t) (s_eos t))
  else Fault Undef.

(** src/symbol_table.cc:24-38, the body of the loop for one line; [None] is an
    error status. *)
Definition sym_line (t : symtab) (line : bytes) : res (option symtab) :=
  fields <- split line [32] ;;
  match fields with
  | [word; num] =>
      match string_to_long num with
      | None => Ok None
      | Some id => t <- add_word t word id ;; Ok (Some t)
      end
  | _ => Ok None
  end.

(** src/symbol_table.cc:23-40. *)
Fixpoint sym_loop (fuel : nat) (f : file) (t : symtab) : res (symtab * bool) :=
  match fuel with
  | O => Fault Fuel
  | S fuel =>
      match read_line f with
      | (Line s, f) =>
          r <- sym_line t s ;;
          match r with
          | None => Ok (t, false)
          | Some t => sym_loop fuel f t
          end
      | (NoLine, _) => Ok (t, true)
      | (LineError, _) => Ok (t, false)
      end
  end.

Definition bos_symbol : bytes := [60; 115; 62].       (* <s> *)
Definition eos_symbol : bytes := [60; 47; 115; 62].   (* </s> *)

(** src/symbol_table.cc:16-51, [Read] of an existing file; the boolean says
    whether the status is ok. *)
Definition sym_read (t : symtab) (content : bytes) : res (symtab * bool) :=
  '(t, ok) <- sym_loop (length content + 2) (open content) t ;;
  if ok then
    match id_of bos_symbol (s_ids t), id_of eos_symbol (s_ids t) with
    | Some b, Some e => Ok (mk_symtab (s_size t) (s_words t) (s_ids t) b e, true)
    | _, _ => Ok (t, false)
    end
  else Ok (t, false).

(** src/symbol_table.cc:53-56, [Get]; the id is compared as unsigned. The
    result is read as a C string. *)
Definition sym_get (t : symtab) (id : Z) : res bytes :=
  _ <- check (size_t id <? s_size t) Assert ;;
  Ok (cstr (match zget (s_words t) id with Some w => w | None => [] end)).

(** src/symbol_table.cc:58-65, [GetId]. *)
Definition sym_id (t : symtab) (w : bytes) : Z :=
  match id_of w (s_ids t) with
  | Some i => i
  | None => -1
  end.
