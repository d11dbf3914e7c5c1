(** Model of src/configuration.cc and src/configuration.h. *)
From Coq Require Import ZArith List Bool.
From Verif.Base Require Import Prelude.
From Verif.Model Require Import Util File.
Import ListNotations.
Open Scope Z_scope.

(** src/configuration.h:62-63, the members. [table_] is an association list, newest
    entry first. *)
Record conf : Type := mk_conf {
  c_filename : bytes;
  c_table : list (bytes * bytes)
}.

Definition conf_empty : conf := mk_conf [] [].

Fixpoint assoc (k : bytes) (t : list (bytes * bytes)) : option bytes :=
  match t with
  | [] => None
  | (k', v) :: r => if str_eqb k k' then Some v else assoc k r
  end.

(** src/configuration.cc:28-50, the body of the loop for one line: the new
    table, or [None] for an error status. *)
Definition conf_line (t : list (bytes * bytes)) (line : bytes)
  : res (option (list (bytes * bytes))) :=
  let line := trim line in
  match line with
  | [] => Ok (Some t)
  | c :: _ =>
      if c =? 35 then Ok (Some t)
      else
        fields <- split line [61] ;;
        match fields with
        | [k; v] =>
            let key := lower (trim k) in
            let value := trim v in
            match value with
            | [] => Ok None
            | _ => Ok (Some ((key, value) :: t))
            end
        | _ => Ok None
        end
  end.

(** src/configuration.cc:27-53, the loop: the table and whether the status
    returned is ok. *)
Fixpoint conf_loop (fuel : nat) (f : file) (t : list (bytes * bytes))
  : res (list (bytes * bytes) * bool) :=
  match fuel with
  | O => Fault Fuel
  | S fuel =>
      if f_eof f then Ok (t, true)
      else match read_line f with
           | (Line s, f) =>
               r <- conf_line t s ;;
               match r with
               | None => Ok (t, false)
               | Some t => conf_loop fuel f t
               end
           | (NoLine, _) => Ok (t, true)
           | (LineError, _) => Ok (t, false)
           end
  end.

(** src/configuration.cc:14-54, [Read] of an existing file. *)
Definition conf_read (c : conf) (filename content : bytes) : res (conf * bool) :=
  '(t, ok) <- conf_loop (length content + 2) (open content) (c_table c) ;;
  Ok (mk_conf filename t, ok).

(** src/configuration.cc:73-82, [GetStringOrElse]. *)
Definition get_string (c : conf) (key default : bytes) : bytes :=
  match assoc (lower key) (c_table c) with
  | Some v => v
  | None => default
  end.

(** src/configuration.cc:12, [kDefaultString] = "~_$$NOT_Ext_Val$$>-^-<@@_". *)
Definition default_string : bytes :=
  [126; 95; 36; 36; 78; 79; 84; 95; 69; 120; 116; 95; 86; 97; 108; 36; 36; 62; 45; 94; 45; 60;
   64; 64; 95].

(** [std::string::rfind] of one character. *)
Fixpoint rfind_from (c : Z) (s : bytes) (pos : Z) : option Z :=
  match s with
  | [] => None
  | x :: r => match rfind_from c r (pos + 1) with
              | Some p => Some p
              | None => if x =? c then Some pos else None
              end
  end.

(** src/configuration.cc:56-71, [GetPathOrElse]. [front()] of an empty string
    is undefined. *)
Definition get_path (c : conf) (key default : bytes) : res bytes :=
  let path := get_string c key default_string in
  if str_eqb path default_string then Ok default
  else match path with
       | [] => Fault Undef
       | x :: _ =>
           if x =? 47 then Ok path
           else match rfind_from 47 (c_filename c) 0 with
                | None => Ok path
                | Some pos => Ok (sub (c_filename c) 0 (pos + 1) ++ path)
                end
       end.

(** [std::stoi] in base 10: leading white space, a sign, the longest run of
    digits; what follows is ignored. No digits, or a value outside [int], is an
    exception. *)
Definition stoi (s : bytes) : res Z :=
  let t := skip_space s in
  let '(neg, t) := match t with
                   | c :: r => if c =? 45 then (true, r) else if c =? 43 then (false, r) else (false, t)
                   | [] => (false, t)
                   end in
  match t with
  | [] => Fault Throw
  | c :: _ =>
      match digit 10 c with
      | None => Fault Throw
      | Some _ =>
          let v := fst (digits 10 0 t) in
          let v := if neg then - v else v in
          if in_int32 v then Ok v else Fault Throw
      end
  end.

(** src/configuration.cc:84-88, [GetIntegerOrElse]. *)
Definition get_integer_or_else (c : conf) (key : bytes) (default : Z) : res Z :=
  let s := get_string c key default_string in
  if str_eqb s default_string then Ok default else stoi s.

(** src/configuration.h:47-52, [GetInteger]; [None] is the error status. *)
Definition get_integer (c : conf) (key : bytes) : res (option Z) :=
  v <- get_integer_or_else c key int_min ;;
  if v =? int_min then Ok None else Ok (Some v).

(** src/configuration.h:35-40 and 41-46, [GetPath] and [GetString]. *)
Definition get_path_status (c : conf) (key : bytes) : res (option bytes) :=
  p <- get_path c key default_string ;;
  if str_eqb p default_string then Ok None else Ok (Some p).

Definition get_string_status (c : conf) (key : bytes) : option bytes :=
  let p := get_string c key default_string in
  if str_eqb p default_string then None else Some p.
