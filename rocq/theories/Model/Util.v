(** Model of src/util.cc, src/util.h (string helpers) and src/strlcpy.cc.
    Strings are lists of bytes 0..255. *)
From Coq Require Import ZArith List Bool.
From Verif.Base Require Import Prelude.
Import ListNotations.
Open Scope Z_scope.

(** [isspace] and [tolower] of the C locale. The code passes plain [char]
    values; bytes above 127 are taken as glibc takes them: not white space, not
    letters. *)
Definition isspace (c : Z) : bool := ((9 <=? c) && (c <=? 13)) || (c =? 32).
Definition tolower (c : Z) : Z := if (65 <=? c) && (c <=? 90) then c + 32 else c.

(** src/util.cc:22, the first loop of [Trim]: number of leading spaces. *)
Fixpoint trim_begin (s : bytes) : Z :=
  match s with
  | [] => 0
  | c :: r => if isspace c then 1 + trim_begin r else 0
  end.

(** src/util.cc:23, the second loop of [Trim]; [fuel] is the string length. *)
Fixpoint trim_end (fuel : nat) (s : bytes) (b e : Z) : Z :=
  match fuel with
  | O => e
  | S fuel =>
      if (b <? e) && isspace (nth (Z.to_nat e) s 0) then trim_end fuel s b (e - 1) else e
  end.

(** The bytes of [s] from position [b] up to, not including, [e]. *)
Definition sub (s : bytes) (b e : Z) : bytes :=
  firstn (Z.to_nat (e - b)) (skipn (Z.to_nat b) s).

(** src/util.cc:18-25, [Trim]. Iterators are positions; for the empty string
    the code forms the position -1, which is only compared and incremented
    (strictly, forming it is undefined; here it is a number). *)
Definition trim (s : bytes) : bytes :=
  let b := trim_begin s in
  let e := trim_end (length s) s b (lenZ s - 1) in
  sub s b (e + 1).

(** [std::string::find]: the first position at or after the current one where
    [pat] occurs. *)
Fixpoint prefix (pat s : bytes) : bool :=
  match pat, s with
  | [], _ => true
  | _ :: _, [] => false
  | p :: pr, c :: r => (p =? c) && prefix pr r
  end.

Fixpoint find_from (pat s : bytes) (pos : Z) : option Z :=
  if prefix pat s then Some pos
  else match s with
       | [] => None
       | _ :: r => find_from pat r (pos + 1)
       end.

Definition find (s pat : bytes) (start : Z) : option Z :=
  if lenZ s <? start then None else find_from pat (skipn (Z.to_nat start) s) start.

(** src/util.cc:27-42, [Split]. Positions are [int]s in the code: strings are
    assumed shorter than 2^31. *)
Fixpoint split_loop (fuel : nat) (s delim : bytes) (start : Z) (fields : list bytes)
  : res (list bytes) :=
  match fuel with
  | O => Fault Fuel
  | S fuel =>
      match find s delim start with
      | Some pos => split_loop fuel s delim (pos + lenZ delim) (fields ++ [sub s start pos])
      | None =>
          if start <? lenZ s then Ok (fields ++ [sub s start (lenZ s)]) else Ok fields
      end
  end.

Definition split (s delim : bytes) : res (list bytes) :=
  split_loop (S (length s)) s delim 0 [].

(** src/util.cc:44-48, [Tolower]. *)
Definition lower (s : bytes) : bytes := map tolower s.

(** What [c_str()] shows of a string, and a C string in memory: the bytes up
    to the first NUL. *)
Fixpoint cstr (s : bytes) : bytes :=
  match s with
  | [] => []
  | c :: r => if c =? 0 then [] else c :: cstr r
  end.

(** Value of a digit in a base up to 16. *)
Definition digit (base c : Z) : option Z :=
  let v := if (48 <=? c) && (c <=? 57) then c - 48
           else if (97 <=? c) && (c <=? 102) then c - 87
           else if (65 <=? c) && (c <=? 70) then c - 55
           else 99 in
  if v <? base then Some v else None.

(** The longest run of digits: value and rest. *)
Fixpoint digits (base acc : Z) (s : bytes) : Z * bytes :=
  match s with
  | [] => (acc, [])
  | c :: r => match digit base c with
              | Some v => digits base (acc * base + v) r
              | None => (acc, s)
              end
  end.

Definition long_max : Z := 9223372036854775807.
Definition long_min : Z := -9223372036854775808.
Definition clamp_long (z : Z) : Z := Z.max long_min (Z.min long_max z).

Fixpoint skip_space (s : bytes) : bytes :=
  match s with
  | c :: r => if isspace c then skip_space r else s
  | [] => []
  end.

(** [strtol(s, &end, 0)] on a C string: value (saturated) and the text at
    [end]. *)
Definition strtol0 (s : bytes) : Z * bytes :=
  let t := skip_space s in
  let '(neg, t) := match t with
                   | c :: r => if c =? 45 then (true, r) else if c =? 43 then (false, r) else (false, t)
                   | [] => (false, t)
                   end in
  let out '(v, rest) := (clamp_long (if neg then - v else v), rest) in
  match t with
  | [] => (0, s)
  | c :: r =>
      if c =? 48 then
        match r with
        | x :: h :: r' =>
            if ((x =? 120) || (x =? 88)) && match digit 16 h with Some _ => true | None => false end
            then out (digits 16 0 (h :: r'))
            else out (digits 8 0 t)
        | _ => out (digits 8 0 t)
        end
      else match digit 10 c with
           | Some _ => out (digits 10 0 t)
           | None => (0, s)
           end
  end.

(** src/util.cc:51-60, [StringToLong]; [None] is the error status. *)
Definition string_to_long (s : bytes) : option Z :=
  let '(v, rest) := strtol0 (cstr (trim s)) in
  match rest with
  | [] => Some v
  | _ :: _ => None
  end.

(** src/util.h:70-85, [FormatImpl] and 92-95, [Format]; the arguments are
    already converted by [ToString]. *)
Fixpoint format (fmt : bytes) (args : list bytes) : bytes :=
  match args with
  | [] => fmt
  | a :: r =>
      match find fmt [123; 125] 0 with
      | Some pos => format (sub fmt 0 pos ++ a ++ skipn (Z.to_nat (pos + 2)) fmt) r
      | None => format fmt r
      end
  end.

(** src/strlcpy.cc:33-37, the copy loop. [n] is positive on entry. The source is
    the memory from [src] on, the destination the whole block [dst]. The
    result is the destination, the positions of [d] and [s], the rest of the
    source and [n]. *)
Fixpoint copy_loop (n : nat) (dst : bytes) (d : Z) (src : bytes) (k : Z)
  : res (bytes * Z * bytes * Z * nat) :=
  match n with
  | O => Ok (dst, d, src, k, O)
  | S n' =>
      match src with
      | [] => Fault Undef
      | c :: r =>
          dst <- setZ dst d c ;;
          if c =? 0 then Ok (dst, d + 1, r, k + 1, S n')
          else copy_loop n' dst (d + 1) r (k + 1)
      end
  end.

(** src/strlcpy.cc:42: the number of bytes up to and including the NUL. *)
Fixpoint run_to_nul (src : bytes) (k : Z) : res Z :=
  match src with
  | [] => Fault Undef
  | c :: r => if c =? 0 then Ok (k + 1) else run_to_nul r (k + 1)
  end.

(** src/strlcpy.cc:27-46, [pasco_strlcpy]. *)
Definition strlcpy (dst src : bytes) (siz : nat) : res (bytes * Z) :=
  '(dst, d, rest, k, n) <-
    match siz with
    | O => Ok (dst, 0, src, 0, O)
    | S n => copy_loop n dst 0 src 0
    end ;;
  match n with
  | S _ => Ok (dst, k - 1)
  | O =>
      dst <- match siz with O => Ok dst | S _ => setZ dst d 0 end ;;
      k <- run_to_nul rest k ;;
      Ok (dst, k - 1)
  end.
