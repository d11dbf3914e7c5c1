(** Model of tool/convert_am.py: the text of a Kaldi nnet3 acoustic model
    becomes a network file and a file of priors. The regular expressions are
    modelled as scanners that give what the expressions give; [\w] is taken as
    ASCII letters, digits and the underscore. *)
From Coq Require Import ZArith String List Bool.
From Verif.Base Require Import Prelude.
From Verif.Model Require Import Util File Vector Nnet Stt Python Tools.
Import ListNotations.
Open Scope Z_scope.

Definition word_char (c : Z) : bool :=
  ((48 <=? c) && (c <=? 57)) || ((65 <=? c) && (c <=? 90)) || ((97 <=? c) && (c <=? 122)) || (c =? 95).
(** [[\w\.]] and [[-_A-Za-z0-9\.]]. *)
Definition name_char (c : Z) : bool := word_char c || (c =? 46).
Definition string_char (c : Z) : bool := name_char c || (c =? 45).

(** The longest beginning of characters in a class, and the rest. *)
Fixpoint span (p : Z -> bool) (s : bytes) : bytes * bytes :=
  match s with
  | c :: r => if p c then let '(a, b) := span p r in (c :: a, b) else ([], s)
  | [] => ([], [])
  end.

(** What stands before and after the first occurrence of [pat]. *)
Definition cut (pat s : bytes) : option (bytes * bytes) :=
  match find s pat 0 with
  | Some i => Some (firstn (Z.to_nat i) s, skipn (Z.to_nat (i + lenZ pat)) s)
  | None => None
  end.

(** [s] without the beginning [pat]. *)
Definition after (pat s : bytes) : option bytes :=
  if prefix pat s then Some (skipn (length pat) s) else None.

Definition tag (name : bytes) : bytes := lit "<" ++ name ++ lit ">".

(** tool/convert_am.py:172-184, [goto_token] and [read_until_token]. The names
    used hold no special characters. *)
Definition goto_token (name text : bytes) : res bytes :=
  match cut (tag name) text with Some (_, r) => Ok r | None => Fault Throw end.
Definition read_until_token (name text : bytes) : res bytes :=
  match cut (tag name) text with Some (l, _) => Ok l | None => Fault Throw end.

(** A non-empty run of characters of a class behind white space, followed by
    white space: tool/convert_am.py:186-190, [read_string], and 198-202,
    [read_int]. *)
Definition read_run (p : Z -> bool) (text : bytes) : res (bytes * bytes) :=
  let '(a, r) := span p (lstrip text) in
  match a, r with
  | _ :: _, c :: _ => if py_space c then Ok (a, lstrip r) else Fault Throw
  | _, _ => Fault Throw
  end.
Definition read_string : bytes -> res (bytes * bytes) := read_run string_char.
Definition read_int (text : bytes) : res (Z * bytes) :=
  '(a, r) <- read_run py_digit text ;; n <- py_int a ;; Ok (n, r).

(** tool/convert_am.py:192-196, [read_token]. *)
Definition read_token (text : bytes) : res (bytes * bytes) :=
  match after (lit "<") (lstrip text) with
  | Some t => match cut (lit ">") t with Some r => Ok r | None => Fault Throw end
  | None => Fault Throw
  end.

Section Numbers.
Context {N : Type}.
Variable P : py_float N.
(** numpy in [compute_batch_norm] (tool/convert_am.py:228-232):
    [(var + eps) ** -0.5 * target_rms] and [-mean * scale]. *)
Variable bn_scale : N -> N -> N -> N.
Variable bn_offset : N -> N -> N.

(** tool/convert_am.py:204-208, [read_float]: an optional minus, digits, perhaps
    a point with digits, perhaps an exponent without plus, then white space. *)
Definition optional (p : bytes -> option (bytes * bytes)) (s : bytes) : bytes * bytes :=
  match p s with Some r => r | None => ([], s) end.
Definition digits1 (s : bytes) : option (bytes * bytes) :=
  match span py_digit s with ((_ :: _) as a, r) => Some (a, r) | _ => None end.
Definition minus_digits (s : bytes) : option (bytes * bytes) :=
  match s with
  | c :: r => if c =? 45 then match digits1 r with Some (a, r) => Some (c :: a, r) | None => None end else digits1 s
  | [] => None
  end.
Definition headed (h : Z) (p : bytes -> option (bytes * bytes)) (s : bytes) : option (bytes * bytes) :=
  match s with
  | c :: r => if c =? h then match p r with Some (a, r) => Some (c :: a, r) | None => None end else None
  | [] => None
  end.
Definition read_float (text : bytes) : res (N * bytes) :=
  match minus_digits (lstrip text) with
  | None => Fault Throw
  | Some (a, r) =>
      let '(b, r) := optional (headed 46 digits1) r in
      let '(e, r) := optional (headed 101 minus_digits) r in
      match r with
      | c :: _ => if py_space c then x <- py_parse P (a ++ b ++ e) ;; Ok (x, lstrip r) else Fault Throw
      | [] => Fault Throw
      end
  end.

(** tool/convert_am.py:210-226, [read_matrix] with [float]s. The rows of a
    numpy array of no rows are none. *)
Fixpoint parse_all (l : list bytes) : res (list N) :=
  match l with
  | [] => Ok []
  | s :: l => x <- py_parse P s ;; xs <- parse_all l ;; Ok (x :: xs)
  end.
Definition read_matrix (text : bytes) : res (list (list N) * bytes) :=
  match after (lit "[") (lstrip text) with
  | None => Fault Throw
  | Some t =>
      match cut (lit "]") t with
      | None => Fault Throw
      | Some (body, remained) =>
          '(_, rows) <- for_each (py_pieces 10 body) (fun '(row_num, rows) line =>
            if str_eqb (strip line) [] then Ok (row_num, rows)
            else
              row <- parse_all (py_fields (strip line)) ;;
              if row_num =? 0 then Ok (lenZ (hd row rows), rows ++ [row])
              else if row_num =? lenZ row then Ok (row_num, rows ++ [row]) else Fault Throw) (0, []) ;;
          Ok (rows, lstrip remained)
      end
  end.

(** [b[0]] of a numpy array. *)
Definition first_row (m : list (list N)) : res (list N) :=
  match m with r :: _ => Ok r | [] => Fault Throw end.

(** [W.T]; an array without rows is no matrix, which [LinearLayer] refuses
    (tool/convert_am.py:56). *)
Definition transposed (m : list (list N)) : res (list (list N)) :=
  match m with
  | [] => Fault Assert
  | r :: _ => Ok (map (fun j => map (fun row => nth j row (n_zero P)) m) (seq 0 (length r)))
  end.

(** [np.multiply(-mean, scale)] in tool/convert_am.py:231: a vector of one
    element is used for all elements of the other. *)
Definition broadcast (mean scale : list N) : res (list N) :=
  if lenZ mean =? lenZ scale then Ok (map (fun '(m, s) => bn_offset m s) (combine mean scale))
  else match mean, scale with
       | [m], _ => Ok (map (bn_offset m) scale)
       | _, [s] => Ok (map (fun m => bn_offset m s) mean)
       | _, _ => Fault Throw
       end.

(** * The description of the network *)

(** tool/convert_am.py:237. One match of [Offset\([\w\.]+, *-?\d+\)] at the beginning of [s]: the name,
    the number and the rest. *)
Definition offset_at (s : bytes) : option (bytes * bytes * bytes) :=
  match after (lit "Offset(") s with
  | None => None
  | Some t =>
      let '(name, t) := span name_char t in
      match name, after (lit ",") t with
      | _ :: _, Some t =>
          let '(_, t) := span (fun c => c =? 32) t in
          match minus_digits t with
          | Some (num, t) => match after (lit ")") t with Some t => Some (name, num, t) | None => None end
          | None => None
          end
      | _, _ => None
      end
  end.

(** tool/convert_am.py:236 and 259, [re_split.split]: the pieces between the matches
    and the matches; [cur] is the piece read so far. Each match takes at least
    one character. *)
Fixpoint split_inputs (fuel : nat) (cur s : bytes) : list bytes :=
  match fuel with
  | O => [cur]
  | S fuel =>
      match s with
      | [] => [cur]
      | c :: r =>
          match offset_at s with
          | Some (_, _, t) => cur :: firstn (length s - length t) s :: split_inputs fuel [] t
          | None =>
              match span name_char s with
              | ((_ :: _) as a, t) => cur :: a :: split_inputs fuel [] t
              | _ => split_inputs fuel (cur ++ [c]) r
              end
          end
      end
  end.

(** tool/convert_am.py:260-271, one field: an index, or nothing. *)
Definition field_index (prev field : bytes) : res (list Z) :=
  let f := strip field in
  match offset_at f with
  | Some (name, num, []) =>
      i <- py_int num ;; _ <- check (str_eqb name prev) Assert ;; Ok [i]
  | _ =>
      if str_eqb f [44] || str_eqb f [] then Ok []
      else _ <- check (str_eqb f prev) Assert ;; Ok [0]
  end.

(** [min(l)] and [max(l)], exceptions for an empty list. *)
Definition py_min (l : list Z) : res Z :=
  match l with [] => Fault Throw | i :: l => Ok (fold_left Z.min l i) end.
Definition py_max (l : list Z) : res Z :=
  match l with [] => Fault Throw | i :: l => Ok (fold_left Z.max l i) end.

(** The state of the loop: the layers in order, the dictionary, the previous
    component and the contexts. *)
Record desc : Type := mk_desc {
  d_layers : list bytes;
  d_dict : list (bytes * layer N);
  d_prev : bytes;
  d_left : Z;
  d_right : Z
}.

(** tool/convert_am.py:252-289, a component node: the component and its input. *)
Definition component_node (d : desc) (line : bytes) : res desc :=
  match after (lit "component-node name=") line with
  | None => Fault Assert
  | Some t =>
      match cut (lit " component=") t with
      | None => Fault Assert
      | Some (_, t) =>
          match cut (lit " input=") t with
          | None => Fault Assert
          | Some (comp, input) =>
              let input := strip input in
              d <- match after (lit "Append(") input with
                   | Some t =>
                       if str_eqb (skipn (length t - 1) t) (lit ")")
                       then
                         let arg := firstn (length t - 1) t in
                         indices <- for_each (split_inputs (S (length arg)) [] arg) (fun l field =>
                           i <- field_index (d_prev d) field ;; Ok (l ++ i)) [] ;;
                         _ <- check (0 <? lenZ indices) Assert ;;
                         mn <- py_min indices ;; mx <- py_max indices ;;
                         let narrow_left := - Z.min mn 0 in
                         let narrow_right := Z.max mx 0 in
                         let splice := comp ++ lit "_splice" in
                         let narrow := comp ++ lit "_narrow" in
                         Ok (mk_desc (d_layers d ++ [splice; narrow])
                               (dict_set narrow (Narrow narrow_left narrow_right)
                                  (dict_set splice (Splice indices) (d_dict d)))
                               (d_prev d) (d_left d + narrow_left) (d_right d + narrow_right))
                       else _ <- check (str_eqb input (d_prev d)) Assert ;; Ok d
                   | None => _ <- check (str_eqb input (d_prev d)) Assert ;; Ok d
                   end ;;
              Ok (mk_desc (d_layers d ++ [comp]) (d_dict d) comp (d_left d) (d_right d))
          end
      end
  end.

(** tool/convert_am.py:238-290, [parse_nnet3_desc]. *)
Definition parse_desc (text : bytes) : res desc :=
  for_each (py_pieces 10 text) (fun d line =>
    let l := strip line in
    match py_fields l with
    | [] => Ok d
    | kind :: _ =>
        if str_eqb kind (lit "component-node") then component_node d l
        else if str_eqb kind (lit "input-node") || str_eqb kind (lit "output-node") then Ok d
        else Fault Assert
    end) (mk_desc [] [] (lit "input") 0 0).

(** * The components *)

(** tool/convert_am.py:318-340, one component by its tag. *)
Definition read_component (kind content : bytes) : res (layer N) :=
  if str_eqb kind (lit "NaturalGradientAffineComponent") then
    t <- goto_token (lit "LinearParams") content ;;
    '(W, t) <- read_matrix t ;;
    t <- goto_token (lit "BiasParams") t ;;
    '(b, _) <- read_matrix t ;;
    b <- first_row b ;; W <- transposed W ;; Ok (Linear W b)
  else if str_eqb kind (lit "RectifiedLinearComponent") then Ok ReLU
  else if str_eqb kind (lit "BatchNormComponent") then
    t <- goto_token (lit "Epsilon") content ;;
    '(eps, t) <- read_float t ;;
    t <- goto_token (lit "TargetRms") t ;;
    '(rms, t) <- read_float t ;;
    t <- goto_token (lit "StatsMean") t ;;
    '(mean, t) <- read_matrix t ;;
    t <- goto_token (lit "StatsVar") t ;;
    '(var, _) <- read_matrix t ;;
    mean <- first_row mean ;; var <- first_row var ;;
    let scale := map (bn_scale eps rms) var in
    offset <- broadcast mean scale ;; Ok (BatchNorm scale offset)
  else if str_eqb kind (lit "LogSoftmaxComponent") then Ok LogSoftmax
  else Fault Throw.

(** tool/convert_am.py:307-341, the loop over the components. Each turn takes at
    least one character. *)
Fixpoint read_components (fuel : nat) (dict : list (bytes * layer N)) (text : bytes) : res (list (bytes * layer N)) :=
  match fuel with
  | O => Fault Fuel
  | S fuel =>
      if str_eqb (strip text) [] then Ok dict
      else
        '(name_tag, t) <- read_token text ;;
        _ <- check (str_eqb name_tag (lit "ComponentName")) Assert ;;
        '(name, t) <- read_string t ;;
        '(kind, t) <- read_token t ;;
        content <- read_until_token (lit "/" ++ kind) t ;;
        t <- goto_token (lit "/" ++ kind) t ;;
        l <- read_component kind content ;;
        read_components fuel (dict_set name l dict) t
  end.

(** tool/convert_am.py:344-351, the layers by their names. *)
Fixpoint pick (dict : list (bytes * layer N)) (names : list bytes) : res (list (layer N)) :=
  match names with
  | [] => Ok []
  | n :: names =>
      match dict_get n dict with
      | Some l => ls <- pick dict names ;; Ok (l :: ls)
      | None => Fault Throw
      end
  end.

(** tool/convert_am.py:293-353, [read_nnet]: the layers and the contexts. The
    number of components is read but not used. *)
Definition read_nnet (model_text : bytes) : res (list (layer N) * Z * Z) :=
  t <- goto_token (lit "Nnet3") model_text ;;
  t <- read_until_token (lit "/Nnet3") t ;;
  description <- read_until_token (lit "NumComponents") t ;;
  t <- goto_token (lit "NumComponents") t ;;
  '(_, t) <- read_int t ;;
  d <- parse_desc description ;;
  dict <- read_components (S (length t)) (d_dict d) t ;;
  ls <- pick dict (d_layers d) ;;
  Ok (ls, d_left d, d_right d).

(** * Checking and writing *)

(** tool/convert_am.py:45-49, 67-71 and 89-92: [input_dim] and [output_dim]. *)
Definition input_dim (l : layer N) : option Z :=
  match l with Linear W _ => Some (lenZ W) | _ => None end.
Definition output_dim (l : layer N) (d : option Z) : option Z :=
  match l with
  | Linear W _ => Some (lenZ (hd [] W))
  | Splice idx => match d with Some d => Some (d * lenZ idx) | None => None end
  | _ => d
  end.

(** tool/convert_am.py:145-154, [AM.verify]. *)
Definition verify (ls : list (layer N)) : res unit :=
  _ <- for_each ls (fun d l =>
    match d, input_dim l with
    | Some have, Some want => if have =? want then Ok (output_dim l d) else Fault Throw
    | _, _ => Ok (output_dim l d)
    end) None ;;
  Ok tt.

(** tool/convert_am.py:26-39, [write_vector] and [write_matrix]. *)
Definition write_vector : list N -> res bytes := write_vec (pack_float P).
Definition write_matrix (m : list (list N)) : res bytes :=
  rows <- pack_int (lenZ m) ;;
  cols <- match m with r :: _ => pack_int (lenZ r) | [] => Fault Throw end ;;
  data <- write_all write_vector m ;;
  eight <- pack_int 8 ;;
  Ok (lit "MAT0" ++ eight ++ rows ++ cols ++ data).

(** tool/convert_am.py:17-23, the numbers of the layers; [Normalize] and
    [Softmax] are never made. *)
Definition layer_type (l : layer N) : Z :=
  match l with
  | Linear _ _ => 0 | ReLU => 1 | Normalize => 2 | Softmax => 3
  | Splice _ => 6 | BatchNorm _ _ => 7 | LogSoftmax => 8 | Narrow _ _ => 9
  end.

(** tool/convert_am.py:41-43, 62-65, 94-98, 110-113 and 127-130. *)
Definition write_layer (l : layer N) : res bytes :=
  kind <- pack_int (layer_type l) ;;
  data <- match l with
          | Linear W b => m <- write_matrix W ;; v <- write_vector b ;; Ok (m ++ v)
          | Splice idx => n <- pack_int (lenZ idx) ;; i <- write_all pack_int idx ;; Ok (n ++ i)
          | BatchNorm s o => s <- write_vector s ;; o <- write_vector o ;; Ok (s ++ o)
          | Narrow l r => l <- pack_int l ;; r <- pack_int r ;; Ok (l ++ r)
          | _ => Ok []
          end ;;
  Ok (lit "LAY0" ++ kind ++ data).

(** tool/convert_am.py:156-166, the network file of [AM.write]. *)
Definition write_network (context_left context_right : Z) (ls : list (layer N)) : res bytes :=
  l <- pack_int context_left ;; r <- pack_int context_right ;; n <- pack_int (lenZ ls) ;;
  data <- write_all write_layer ls ;;
  Ok (lit "NN02" ++ l ++ r ++ n ++ data).

(** tool/convert_am.py:355-370 and 167-168, the main program: the contents of the
    files .nnet and .prior. What was written before an exception is left out. *)
Definition convert_am (content : bytes) : res (bytes * bytes) :=
  let model_text := universal content in
  '(ls, context_left, context_right) <- read_nnet model_text ;;
  t <- goto_token (lit "Priors") model_text ;;
  '(prior, _) <- read_matrix t ;;
  prior <- first_row prior ;;
  _ <- verify ls ;;
  nnet <- write_network context_left context_right ls ;;
  v <- write_vector prior ;;
  Ok (nnet, v).
End Numbers.
