(** The parts of Python that the scripts in tool/ use. Strings are lists of
    bytes. Bytes above 127, which are parts of characters in UTF-8, count as
    neither white space nor digits, and the text is taken to be valid UTF-8. An
    exception is [Fault Throw]. *)
From Coq Require Import ZArith List Bool.
From Verif.Base Require Import Prelude.
From Verif.Model Require Import Util File.
Import ListNotations.
Open Scope Z_scope.

(** [str.isspace] on ASCII. *)
Definition py_space (c : Z) : bool :=
  ((9 <=? c) && (c <=? 13)) || ((28 <=? c) && (c <=? 32)).

(** [str.strip()]. *)
Fixpoint lstrip (s : bytes) : bytes :=
  match s with
  | c :: r => if py_space c then lstrip r else s
  | [] => []
  end.
Definition strip (s : bytes) : bytes := rev (lstrip (rev (lstrip s))).

(** [str.split()]: [cur] is the field read so far, if any. *)
Fixpoint fields_from (cur s : bytes) : list bytes :=
  match s with
  | [] => match cur with [] => [] | _ => [cur] end
  | c :: r =>
      if py_space c
      then match cur with [] => fields_from [] r | _ => cur :: fields_from [] r end
      else fields_from (cur ++ [c]) r
  end.
Definition py_fields (s : bytes) : list bytes := fields_from [] s.

(** [str.split(d)] for a single character: at least one piece. *)
Fixpoint pieces_from (d : Z) (cur s : bytes) : list bytes :=
  match s with
  | [] => [cur]
  | c :: r => if c =? d then cur :: pieces_from d [] r else pieces_from d (cur ++ [c]) r
  end.
Definition py_pieces (d : Z) (s : bytes) : list bytes := pieces_from d [] s.

(** Reading a text file: \r\n and \r become \n. *)
Fixpoint universal (s : bytes) : bytes :=
  match s with
  | [] => []
  | c :: r =>
      if c =? 13
      then 10 :: match r with
                 | d :: r' => if d =? 10 then universal r' else universal r
                 | [] => []
                 end
      else c :: universal r
  end.

(** [for line in fd]: the lines, here without the \n at the end of each, which
    every script strips. *)
Fixpoint lines_from (cur s : bytes) : list bytes :=
  match s with
  | [] => match cur with [] => [] | _ => [cur] end
  | c :: r => if c =? 10 then cur :: lines_from [] r else lines_from (cur ++ [c]) r
  end.
Definition py_lines (content : bytes) : list bytes := lines_from [] (universal content).

Definition py_digit (c : Z) : bool := (48 <=? c) && (c <=? 57).

(** [int(s)]: digits, possibly with single underscores between them. *)
Fixpoint int_digits (acc : Z) (s : bytes) : option Z :=
  match s with
  | [] => Some acc
  | c :: r =>
      if py_digit c then int_digits (acc * 10 + (c - 48)) r
      else if c =? 95 then
        match r with
        | d :: r' => if py_digit d then int_digits (acc * 10 + (d - 48)) r' else None
        | [] => None
        end
      else None
  end.
Definition py_int (s : bytes) : res Z :=
  let t := strip s in
  let '(neg, t) := match t with
                   | c :: r => if c =? 45 then (true, r) else if c =? 43 then (false, r) else (false, t)
                   | [] => (false, t)
                   end in
  match t with
  | c :: _ =>
      if py_digit c
      then match int_digits 0 t with Some n => Ok (if neg : bool then - n else n) | None => Fault Throw end
      else Fault Throw
  | [] => Fault Throw
  end.

(** [l[i] = x]: negative indices count from the end. *)
Definition py_set {A} (l : list A) (i : Z) (x : A) : res (list A) :=
  let j := if i <? 0 then i + lenZ l else i in
  if (0 <=? j) && (j <? lenZ l) then Ok (upd l (Z.to_nat j) x) else Fault Throw.

(** [struct.pack("<i", v)]. *)
Definition pack_int (v : Z) : res bytes :=
  if in_int32 v then Ok [v mod 256; v / 256 mod 256; v / 65536 mod 256; v / 16777216 mod 256] else Fault Throw.

(** Writing a list of items one after the other. *)
Fixpoint write_all {A} (f : A -> res bytes) (l : list A) : res bytes :=
  match l with
  | [] => Ok []
  | x :: l => b <- f x ;; rest <- write_all f l ;; Ok (b ++ rest)
  end.

(** A [dict]: its items in the order of insertion. *)
Section Dict.
Context {A : Type}.
Fixpoint dict_get (k : bytes) (d : list (bytes * A)) : option A :=
  match d with
  | [] => None
  | (k', v) :: d => if str_eqb k k' then Some v else dict_get k d
  end.
Fixpoint dict_set (k : bytes) (v : A) (d : list (bytes * A)) : list (bytes * A) :=
  match d with
  | [] => [(k, v)]
  | (k', v') :: d => if str_eqb k k' then (k', v) :: d else (k', v') :: dict_set k v d
  end.
End Dict.
