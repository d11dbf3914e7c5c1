(** Model of loading a recognizer: [AcousticModel::Read] (src/am.cc:26-64),
    [ce_stt_init] with the functions it calls (src/ce_stt.cc:67-131, 193-231) and
    [ce_stt_destroy] (233-254). *)
From Coq Require Import ZArith String List Bool.
From Verif.Base Require Import Prelude.
From Verif.Model Require Import Util File Binary Arith Vector Fbank Srfft FbankInit Nnet Formats Am Configuration
  SymbolTable Fst Decoder Stt.
Import ListNotations.
Open Scope Z_scope.

(** The objects made with [new] for a recognizer: the recognizer and what its
    members point to (src/ce_stt.cc:41-49). *)
Inductive part : Type :=
| Recognizer | Graph | LargeLm | DeltaLm | OriginalLm | Acoustic | Symbols | Features.

(** The words of a file as elements. *)
Definition map_layer {A B} (f : A -> B) (l : layer A) : layer B :=
  match l with
  | Linear W b => Linear (map (map f) W) (map f b)
  | ReLU => ReLU
  | Normalize => Normalize
  | Softmax => Softmax
  | Splice idx => Splice idx
  | BatchNorm s o => BatchNorm (map f s) (map f o)
  | LogSoftmax => LogSoftmax
  | Narrow l r => Narrow l r
  end.

Definition float_fst {F} (f : Z -> F) (g : fst Z) : fst F :=
  mk_fst (start_state g) (map f (final_ g)) (state_idx g)
    (map (fun a => mk_arc (next_state a) (input_label a) (output_label a) (f (weight a))) (arcs_ g)).

(** A function that makes objects and returns a [Status]: the value or the text
    of the error, and the objects alive. *)
Definition load (A : Type) : Type := list part -> res ((A + bytes) * list part).

Definition load_ret {A} (a : A) : load A := fun ps => Ok (inl a, ps).
Definition load_fail {A} (why : bytes) : load A := fun ps => Ok (inr why, ps).
Definition load_new (p : part) : load unit := fun ps => Ok (inl tt, p :: ps).
Definition load_res {A} (m : res A) : load A := fun ps => a <- m ;; Ok (inl a, ps).
Definition load_bind {A B} (m : load A) (k : A -> load B) : load B := fun ps =>
  '(r, ps) <- m ps ;;
  match r with
  | inl a => k a ps
  | inr why => Ok (inr why, ps)
  end.

Declare Scope load_scope.
Delimit Scope load_scope with load.
Notation "x <~ m ;; k" := (load_bind m (fun x => k))
  (at level 61, m at next level, right associativity) : load_scope.
Open Scope load_scope.

Section Load.
Context {F : Type}.
Variable O : fops F.
Variable T : trig_ops F.
Variable I : init_ops F.
Variable junk : nat -> F.
Variable junk_int : nat -> Z.
Variable of_word : Z -> F.       (* the [float] with these bits *)
Variable unknown : F.            (* an element that was never set (Model/Formats.v) *)
(** The files that can be opened, by name; what [ConstFst::Read] of OpenFst
    makes of a file (Model/ConstFst.v; here any function, [None] is a null
    pointer); the text of the error for a damaged file. *)
Variable files : bytes -> option bytes.
Variable hclg : bytes -> res (option (graph F)).
Variable why : bytes -> bytes.
(** Bound for chains of back-off arcs (Model/Fst.v). *)
Variable lm_fuel : nat.

Definition value (c : cell) : F := match c with Some w => of_word w | None => unknown end.

(** src/util.cc:75-88, [Open]. *)
Definition open_file (name : bytes) : load bytes :=
  match files name with
  | Some content => load_ret content
  | None => load_fail (lit "IOError: " ++ format (lit "Unable to open {}") [name])
  end.

(** A reader applied to an opened file. *)
Definition read_with {A} (m : io A) (name content : bytes) : load A := fun ps =>
  '(r, _) <- m (open content) ;;
  Ok (match r with Some a => inl a | None => inr (why name) end, ps).

(** src/configuration.h:66-71, [KeyNotFound]. *)
Definition key_not_found {A} (c : conf) (key : bytes) : load A :=
  load_fail (lit "Corruption: " ++ format (lit "Unable to find key '{}' in '{}'") [key; c_filename c]).

(** src/configuration.h:35-40 and 47-52, [GetPath] and [GetInteger]. *)
Definition load_path (c : conf) (key : bytes) : load bytes :=
  p <~ load_res (get_path_status c key) ;;
  match p with Some p => load_ret p | None => key_not_found c key end.
Definition load_int (c : conf) (key : bytes) : load Z :=
  n <~ load_res (get_integer c key) ;;
  match n with Some n => load_ret n | None => key_not_found c key end.

(** src/configuration.cc:14-54, [Read] into a new configuration. *)
Definition load_conf (name : bytes) : load conf :=
  content <~ open_file name ;;
  r <~ load_res (conf_read conf_empty name content) ;;
  if snd r then load_ret (Datatypes.fst r) else load_fail (why name).

(** src/am.cc:26-64, [AcousticModel::Read]: the model and [tid2pdf_]. The number
    of pdfs and the contexts stored with the network are not used. *)
Definition load_am (c : conf) : load (am F * list Z) :=
  nnet_name <~ load_path c (lit "nnet") ;;
  content <~ open_file nnet_name ;;
  nnet <~ read_with nnet_read nnet_name content ;;
  prior_name <~ load_path c (lit "prior") ;;
  content <~ open_file prior_name ;;
  prior <~ read_with io_vector prior_name content ;;
  log_prior <~ load_res (apply_log O (map value prior)) ;;
  left <~ load_int c (lit "left_context") ;;
  right <~ load_int c (lit "right_context") ;;
  chunk <~ load_int c (lit "chunk_size") ;;
  num_pdfs <~ load_int c (lit "num_pdfs") ;;
  pdf_name <~ load_path c (lit "tid2pdf") ;;
  content <~ open_file pdf_name ;;
  pdf <~ read_with io_vector pdf_name content ;;
  load_ret (mk_am left right chunk log_prior (nnet_propagate O (map (map_layer value) (snd nnet))),
            map (fun w => match w with Some w => w | None => 0 end) pdf).

(** src/ce_stt.cc:116-129, [ReadHclgFst]. *)
Definition load_graph (c : conf) : load (graph F) :=
  name <~ load_res (get_path c (lit "fst") []) ;;
  if str_eqb name [] then load_fail (lit "Corruption: " ++ format (lit "Unable to find key 'fst' in {}") [name])
  else
    g <~ load_res (hclg name) ;;
    match g with
    | None => load_fail (lit "IOError: " ++ name)
    | Some g => _ <~ load_new Graph ;; load_ret g
    end.

(** src/ce_stt.cc:68-79, [ReadSymbolTable]. *)
Definition load_symbols (c : conf) : load symtab :=
  name <~ load_res (get_path c (lit "symbol_table") []) ;;
  if str_eqb name []
  then load_fail (lit "Corruption: " ++ format (lit "Unable to find key 'symbol_table' in {}") [name])
  else
    _ <~ load_new Symbols ;;
    content <~ open_file name ;;
    r <~ load_res (sym_read symtab_init content) ;;
    if snd r then load_ret (Datatypes.fst r) else load_fail (why name).

(** src/ce_stt.cc:82-113, [ReadDeltaLmFst]; [None] if there is no large language
    model. *)
Definition load_lm (c : conf) (s : symtab) : load (option (delta_lm F)) :=
  large <~ load_res (get_path c (lit "large_lm") []) ;;
  if str_eqb large [] then load_ret None
  else
    original <~ load_res (get_path c (lit "original_lm") []) ;;
    if str_eqb original []
    then load_fail (lit "Corruption: " ++ format (lit "Unable to find key 'original_lm' in {}") [original])
    else
      content <~ open_file original ;;
      _ <~ load_new OriginalLm ;;
      small <~ read_with io_vector original content ;;
      content <~ open_file large ;;
      _ <~ load_new LargeLm ;;
      g <~ read_with fst_read large content ;;
      let g := float_fst of_word g in
      bucket <~ load_res (init_bucket g) ;;
      _ <~ load_new DeltaLm ;;
      load_ret (Some (mk_delta (map value small) g bucket (s_bos s) (s_eos s))).

(** src/ce_stt.cc:193-222, [ce_stt_init] up to the handling of errors. A
    decoder with a language model has a cache of 1000000 entries
    (src/decoder.cc:60-63). *)
Definition load_parts (config_file : bytes) : load (recognizer F (list (Z * option (arc F)))) :=
  _ <~ load_new Recognizer ;;
  c <~ load_conf config_file ;;
  g <~ load_graph c ;;
  _ <~ load_new Acoustic ;;
  a <~ load_am c ;;
  s <~ load_symbols c ;;
  d <~ load_lm c s ;;
  fb <~ load_res (fbank_new O T I junk junk_int) ;;
  _ <~ load_new Features ;;
  cache <~ load_res (match d with Some _ => new_cache 1000000 | None => Ok [] end) ;;
  load_ret (mk_recognizer g (Datatypes.fst a) (snd a)
              (match d with Some d => Some (cached_lm O lm_fuel d) | None => None end) cache fb s).

(** src/ce_stt.cc:233-254, [ce_stt_destroy]: the members are deleted, the
    recognizer itself is not. *)
Definition stt_destroy (ps : list part) : list part :=
  filter (fun p => match p with Recognizer => true | _ => false end) ps.

(** src/ce_stt.cc:193-231, [ce_stt_init]: a recognizer, or the text for the
    error buffer, and the objects alive. *)
Definition stt_init (config_file : bytes)
  : res ((recognizer F (list (Z * option (arc F))) + bytes) * list part) :=
  '(r, ps) <- load_parts config_file [] ;;
  Ok (r, match r with inl _ => ps | inr _ => stt_destroy ps end).

(** The same for the program (Model/Main.v). *)
Definition stt_load (config_file : bytes) : res (recognizer F (list (Z * option (arc F))) + bytes) :=
  '(r, _) <- stt_init config_file ;; Ok r.

End Load.
