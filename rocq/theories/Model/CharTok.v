(** tool/conv_chartok.sh: the hypotheses of the recogniser are split into
    characters, so that error rates of characters can be computed from them. *)
From Coq Require Import List ZArith Bool.
Import ListNotations.
Open Scope Z_scope.

(** Text is a list of code points: `perl -CSDA` (conv_chartok.sh:10) decodes
    its input from UTF-8 and encodes its output, see the end of this file. *)
Definition text := list Z.

(** What `perl -a` (conv_chartok.sh:10) takes for blank in decoded text: the
    code points with Unicode's property White_Space, as Perl does from version
    5.18 on. *)
Definition is_space (c : Z) : bool :=
  ((9 <=? c) && (c <=? 13)) || (c =? 32) || (c =? 133) || (c =? 160)
  || (c =? 5760) || ((8192 <=? c) && (c <=? 8202))
  || (c =? 8232) || (c =? 8233) || (c =? 8239) || (c =? 8287) || (c =? 12288).

(** The loop of `perl -n` (conv_chartok.sh:10): lines with their newlines; the
    last line may lack it. [cur] holds the line read so far, turned round. *)
Fixpoint read_lines (cur s : text) : list text :=
  match s with
  | [] => match cur with [] => [] | _ => [rev cur] end
  | c :: r => if c =? 10 then rev (c :: cur) :: read_lines [] r
              else read_lines (c :: cur) r
  end.

(** The split of `perl -a` into @F (conv_chartok.sh:10), `split(' ')`: fields
    between stretches of blanks, none of them empty. [cur] holds the field read
    so far, turned round. *)
Fixpoint split_fields (cur s : text) : list text :=
  match s with
  | [] => match cur with [] => [] | _ => [rev cur] end
  | c :: r =>
      if is_space c
      then match cur with [] => split_fields [] r | _ => rev cur :: split_fields [] r end
      else split_fields (c :: cur) r
  end.

(** `.*` followed by the character [b] (conv_chartok.sh:14): the longest stretch
    without newlines is tried first. *)
Fixpoint star_then (b : Z) (s : text) : bool :=
  match s with
  | [] => false
  | c :: r => (negb (c =? 10) && star_then b r) || (c =? b)
  end.

(** The expressions /\[.*\]/ and /\<.*\>/ (conv_chartok.sh:14). *)
Fixpoint match_between (a b : Z) (s : text) : bool :=
  match s with
  | [] => false
  | c :: r => ((c =? a) && star_then b r) || match_between a b r
  end.

(** Does the text begin with the given one? *)
Fixpoint starts_with (p s : text) : bool :=
  match p, s with
  | [], _ => true
  | a :: p', c :: s' => (a =? c) && starts_with p' s'
  | _ :: _, [] => false
  end.

(** The expression "!SIL" (conv_chartok.sh:14). *)
Fixpoint match_literal (p s : text) : bool :=
  starts_with p s || match s with [] => false | _ :: r => match_literal p r end.

Definition sil : text := [33; 83; 73; 76].

(** The test of conv_chartok.sh:14. *)
Definition kept_whole (s : text) : bool :=
  match_between 91 93 s || match_between 60 62 s || match_literal sil s.

(** The body of the outer loop (conv_chartok.sh:14-21): what is printed for a
    field. *)
Definition print_field (s : text) : text :=
  if kept_whole s then 32 :: s else flat_map (fun c => [32; c]) s.

(** The program for one line (conv_chartok.sh:11-24). For a blank line $F[0] is
    undefined and prints nothing, and the range 1..$#F is empty. *)
Definition print_line (l : text) : text :=
  match split_fields [] l with
  | [] => [10]
  | f :: fs => f ++ flat_map print_field fs ++ [10]
  end.

(** conv_chartok.sh:10-24, from the contents of the first file to those of the
    second. *)
Definition conv_chartok (s : text) : text :=
  flat_map print_line (read_lines [] s).

(** UTF-8 as `perl -CSDA` (conv_chartok.sh:10) writes it, for code points below
    2^21. *)
Definition encode_char (c : Z) : list Z :=
  if c <? 128 then [c]
  else if c <? 2048 then [192 + c / 64; 128 + c mod 64]
  else if c <? 65536 then [224 + c / 4096; 128 + c / 64 mod 64; 128 + c mod 64]
  else [240 + c / 262144; 128 + c / 4096 mod 64; 128 + c / 64 mod 64; 128 + c mod 64].
Definition encode (s : text) : list Z := flat_map encode_char s.

(** A byte within a character. *)
Definition inner (b : Z) : bool := (128 <=? b) && (b <? 192).

(** `perl -CSDA` (conv_chartok.sh:10) reading UTF-8. What Perl makes of other
    input is left out: [None]. *)
Fixpoint decode (s : list Z) : option text :=
  match s with
  | [] => Some []
  | b :: r =>
      if (0 <=? b) && (b <? 128) then option_map (cons b) (decode r)
      else if (194 <=? b) && (b <? 224) then
        match r with
        | b1 :: r1 => if inner b1 then option_map (cons ((b - 192) * 64 + (b1 - 128))) (decode r1) else None
        | _ => None
        end
      else if (224 <=? b) && (b <? 240) then
        match r with
        | b1 :: b2 :: r2 =>
            let c := (b - 224) * 4096 + (b1 - 128) * 64 + (b2 - 128) in
            if inner b1 && inner b2 && (2048 <=? c) then option_map (cons c) (decode r2) else None
        | _ => None
        end
      else if (240 <=? b) && (b <? 248) then
        match r with
        | b1 :: b2 :: b3 :: r3 =>
            let c := (b - 240) * 262144 + (b1 - 128) * 4096 + (b2 - 128) * 64 + (b3 - 128) in
            if inner b1 && inner b2 && inner b3 && (65536 <=? c) then option_map (cons c) (decode r3) else None
        | _ => None
        end
      else None
  end.

(** conv_chartok.sh:10-24, from the bytes of the first file to those of the
    second. *)
Definition conv_file (bytes : list Z) : option (list Z) :=
  match decode bytes with Some s => Some (encode (conv_chartok s)) | None => None end.
