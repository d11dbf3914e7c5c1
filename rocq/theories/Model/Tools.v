(** Models of the scripts in tool/ that make model files: convert_trans.py,
    convert_unigram.py, prune_lm.py, convert_words.py, convert_cmvn_stats.py,
    and of the output of extract_id2pdf.cc. What the scripts print to the terminal is modelled only
    where it is their result. *)
From Coq Require Import ZArith String List Bool.
From Verif.Base Require Import Prelude.
From Verif.Model Require Import Util File Vector Stt Python.
Import ListNotations.
Open Scope Z_scope.

(** * Vectors *)

(** tool/convert_trans.py:26-32 and tool/convert_unigram.py:91-97, also
    tool/convert_am.py:26-31: a vector, given how to write its elements. *)
Definition write_vec {A} (f : A -> res bytes) (v : list A) : res bytes :=
  size <- pack_int (lenZ v * 4 + 4) ;;
  dim <- pack_int (lenZ v) ;;
  data <- write_all f v ;;
  Ok (lit "VEC0" ++ size ++ dim ++ data).

(** * Transitions *)

(** tool/extract_id2pdf.cc:53-60: what is printed for a model with [num_pdfs]
    pdfs, given the pdf of every transition from 0 on. *)
Fixpoint print_pdfs (tid : Z) (pdfs : list Z) : bytes :=
  match pdfs with
  | [] => []
  | p :: pdfs => to_string tid ++ [32] ++ to_string p ++ [10] ++ print_pdfs (tid + 1) pdfs
  end.
Definition extract_id2pdf (num_pdfs : Z) (pdfs : list Z) : bytes :=
  to_string num_pdfs ++ [10] ++ to_string (lenZ pdfs - 1) ++ [10] ++ print_pdfs 0 pdfs.

(** tool/convert_trans.py:15-32. *)
Definition convert_trans (content : bytes) : res bytes :=
  match map strip (py_lines content) with
  | l0 :: l1 :: rest =>
      _ <- py_int l0 ;;
      num_transitions <- py_int l1 ;;
      map_list <- for_each rest (fun m line =>
        match py_fields line with
        | [tid; pdf] => p <- py_int pdf ;; t <- py_int tid ;; py_set m t p
        | _ => Fault Throw
        end) (repeat 0 (Z.to_nat (num_transitions + 1))) ;;
      write_vec pack_int map_list
  | _ => Fault Throw
  end.

(** * Language models in the ARPA format *)

(** tool/prune_lm.py:4-9, tool/convert_unigram.py:9-14. *)
Inductive arpa_state : Type := Begin | Data | Unigram | Ngram | End.

Definition s_data : bytes := lit "\data\".
Definition s_end : bytes := lit "\end\".
Definition s_unigrams : bytes := lit "\1-grams:".

Definition starts_with_backslash (s : bytes) : bool :=
  match s with c :: _ => c =? 92 | [] => false end.

(** tool/prune_lm.py:12-52, one line: the next state and the lines printed. *)
Definition prune_line (st : arpa_state) (line : bytes) : res (arpa_state * list bytes) :=
  let l := strip line in
  match st with
  | Begin =>
      if str_eqb l [] then Ok (Begin, [])
      else if str_eqb l (lit "iARPA") then Ok (Begin, [])
      else if str_eqb l s_data then Ok (Data, [l])
      else Fault Throw
  | Data =>
      if str_eqb l [] then Ok (Data, [l])
      else match py_pieces 61 l with
           | [name; _] => Ok (Data, if str_eqb (strip name) (lit "ngram 1") then [l] else [])
           | _ => if str_eqb l s_unigrams then Ok (Unigram, [l]) else Fault Throw
           end
  | Unigram =>
      if str_eqb l [] then Ok (Unigram, [l])
      else if starts_with_backslash l then Ok (Ngram, [])
      else match py_fields l with
           | [p; w] | [p; w; _] => Ok (Unigram, [p ++ [32] ++ w])
           | _ => Fault Throw
           end
  | Ngram => if str_eqb l s_end then Ok (End, [l]) else Ok (Ngram, [])
  | End => Ok (End, [])
  end.

(** tool/prune_lm.py:11-55, the whole input. *)
Definition prune_lm (content : bytes) : res bytes :=
  '(st, out) <- for_each (py_lines content) (fun '(st, out) line =>
    '(st, more) <- prune_line st line ;; Ok (st, out ++ more)) (Begin, []) ;;
  match st with
  | End => Ok (concat (map (fun l => l ++ [10]) out))
  | _ => Fault Throw
  end.

(** Python's [float]: [float(s)], [-x * M_LN10], infinity, the 0 of
    tool/convert_unigram.py:110, and
    [struct.pack("<f", x)] as a 32-bit word ([None]: too large). *)
Record py_float (N : Type) : Type := mk_py_float {
  n_parse : bytes -> option N;
  n_cost : N -> N;
  n_inf : N;
  n_zero : N;
  n_pack : N -> option Z
}.
Arguments n_parse {N}. Arguments n_cost {N}. Arguments n_inf {N}. Arguments n_zero {N}. Arguments n_pack {N}.

Section Unigram.
Context {N : Type}.
Variable P : py_float N.

Definition py_parse (s : bytes) : res N :=
  match n_parse P s with Some x => Ok x | None => Fault Throw end.
Definition pack_float (x : N) : res bytes :=
  match n_pack P x with Some w => pack_int w | None => Fault Throw end.

(** tool/convert_unigram.py:20-56, one line of [read_unigram]. *)
Definition unigram_line (st : arpa_state) (cost : list (bytes * N)) (line : bytes)
  : res (arpa_state * list (bytes * N)) :=
  let l := strip line in
  match st with
  | Begin =>
      if str_eqb l [] then Ok (Begin, cost)
      else if str_eqb l s_data then Ok (Data, cost)
      else Fault Throw
  | Data =>
      if str_eqb l [] then Ok (Data, cost)
      else match py_pieces 61 l with
           | [_; _] => Ok (Data, cost)
           | _ => if str_eqb l s_unigrams then Ok (Unigram, cost) else Fault Throw
           end
  | Unigram =>
      if str_eqb l [] then Ok (Unigram, cost)
      else if str_eqb l s_end then Ok (End, cost)
      else if starts_with_backslash l then Ok (Ngram, cost)
      else match py_fields l with
           | [p; w] | [p; w; _] => x <- py_parse p ;; Ok (Unigram, dict_set w x cost)
           | _ => Fault Throw
           end
  | Ngram => Ok (if str_eqb l s_end then End else Ngram, cost)
  | End => Ok (End, cost)
  end.

(** tool/convert_unigram.py:16-59. *)
Definition read_unigram (content : bytes) : res (list (bytes * N)) :=
  '(st, cost) <- for_each (py_lines content) (fun '(st, cost) line => unigram_line st cost line) (Begin, []) ;;
  match st with End => Ok cost | _ => Fault Throw end.

(** tool/convert_unigram.py:61-74. *)
Definition read_vocab (content : bytes) : res (list (bytes * Z)) :=
  for_each (py_lines content) (fun vocab line =>
    let l := strip line in
    if str_eqb l [] then Ok vocab
    else match py_fields l with
         | [word; id] => i <- py_int id ;; Ok (dict_set word i vocab)
         | _ => Fault Throw
         end) [].

(** tool/convert_unigram.py:76-89. *)
Definition build_cost_array (vocab : list (bytes * Z)) (ucost : list (bytes * N)) : res (list N) :=
  match map snd vocab with
  | [] => Fault Throw
  | i :: is =>
      let array_size := fold_left Z.max is i + 1 in
      for_each ucost (fun array '(word, cost) =>
        match dict_get word vocab with
        | None => if str_eqb word (lit "<unk>") then Ok array else Fault Throw
        | Some id => py_set array id (n_cost P cost)
        end) (repeat (n_inf P) (Z.to_nat array_size))
  end.

(** tool/convert_unigram.py:99-113, the main program. *)
Definition convert_unigram (lm vocab : bytes) : res bytes :=
  v <- read_vocab vocab ;;
  u <- read_unigram lm ;;
  costs <- build_cost_array v (dict_set (lit "<s>") (n_zero P) u) ;;
  write_vec pack_float costs.

(** * Statistics of the features *)

Definition is_digit (c : Z) : bool := (48 <=? c) && (c <=? 57).
Definition is_sign (c : Z) : bool := (c =? 43) || (c =? 45).
(** [[-+]?] and [[0-9]+] of the expression below: what is left of the text. *)
Definition skip_sign (s : bytes) : bytes :=
  match s with c :: r => if is_sign c then r else s | [] => s end.
Fixpoint skip_digits (s : bytes) : bytes :=
  match s with c :: r => if is_digit c then skip_digits r else s | [] => s end.
Definition skip_digits1 (s : bytes) : option bytes :=
  match s with c :: r => if is_digit c then Some (skip_digits r) else None | [] => None end.

(** tool/convert_cmvn_stats.py:14, the end of the expression: an exponent or
    nothing. *)
Definition ends_number (s : bytes) : bool :=
  match s with
  | [] => true
  | c :: r => (c =? 101) && match skip_digits1 (skip_sign r) with Some [] => true | _ => false end
  end.
(** tool/convert_cmvn_stats.py:14: [^[-+]?[0-9]+(\.[0-9]+)?(e[-+]?[0-9]+)?$]
    matches. The text is a field of [split], so it holds no newline. *)
Definition is_number (s : bytes) : bool :=
  match skip_digits1 (skip_sign s) with
  | None => false
  | Some [] => true
  | Some (c :: r) =>
      if c =? 46 then match skip_digits1 r with Some r => ends_number r | None => false end
      else ends_number (c :: r)
  end.

(** tool/convert_cmvn_stats.py:16-34. The lines are joined by spaces behind
    their newlines; whether the last line has one makes no difference to
    [split]. [sys.exit(1)] is an exception. *)
Definition convert_cmvn_stats (content : bytes) : res bytes :=
  data <- for_each (filter is_number (py_fields (flat_map (fun l => l ++ [10; 32]) (py_lines content))))
            (fun d t => x <- py_parse t ;; Ok (d ++ [x])) [] ;;
  if lenZ data =? 82 then write_vec pack_float (firstn 41 data) else Fault Throw.
End Unigram.

(** * Words *)

(** tool/convert_words.py:13-50. A line without two columns makes the
    assignment in line 20 fail, after the message in line 19. *)
Definition convert_words (content : bytes) : res bytes :=
  '(idx, max_idx) <- for_each (py_lines content) (fun '(idx, m) line =>
    match py_fields (strip line) with
    | [word; wid] => i <- py_int wid ;; Ok (idx ++ [(word, i)], if m <? i then i else m)
    | _ => Fault Throw
    end) ([], 0) ;;
  words <- for_each idx (fun ws '(word, i) => py_set ws i word)
             (repeat (lit "<empty>") (Z.to_nat (max_idx + 1))) ;;
  let items := map (fun w => strip w ++ [0]) words in
  let starts := snd (fold_left (fun '(at_, l) b => (at_ + lenZ b, l ++ [at_])) items (0, [])) in
  let buffer := concat items in
  size <- pack_int (8 + lenZ starts * 4 + lenZ buffer) ;;
  n <- pack_int (lenZ starts) ;;
  len <- pack_int (lenZ buffer) ;;
  index <- write_all pack_int starts ;;
  Ok (lit "SYM0" ++ size ++ n ++ len ++ index ++ buffer).
