(** Models as they are stored in files, and what a recognizer made of them
    consists of. *)
From Coq Require Import ZArith String List Bool.
From Verif.Base Require Import Prelude.
From Verif.Model Require Import Arith Fbank Srfft FbankInit Nnet Am SymbolTable Fst Decoder Stt.
From Verif.Spec Require Import AudioSpec AmSpec FormatSpec TextSpec FstSpec.
Import ListNotations.
Open Scope Z_scope.

(** The contents of the files of a model and the numbers in its configuration.
    Elements are 32-bit words. *)
Record model (G : Type) : Type := mk_model {
  m_graph : G;
  m_layers : list (layer Z);
  m_prior : list Z;
  m_left : Z;
  m_right : Z;
  m_chunk : Z;
  m_pdfs : Z;
  m_tid2pdf : list Z;
  m_words : list (str * Z);
  m_bos : Z;
  m_eos : Z;
  m_lm : option (list Z * transducer Z)     (* costs of the words, large model *)
}.
Arguments mk_model {G}. Arguments m_graph {G}. Arguments m_layers {G}. Arguments m_prior {G}.
Arguments m_left {G}. Arguments m_right {G}. Arguments m_chunk {G}. Arguments m_pdfs {G}.
Arguments m_tid2pdf {G}. Arguments m_words {G}. Arguments m_bos {G}. Arguments m_eos {G}. Arguments m_lm {G}.

(** A configuration file: blank lines, comments and entries, the last line with
    or without newline. *)
Definition config_lines (content : str) (lines : list str) : Prop :=
  exists ls l, content = text ls ++ l /\ Forall plain_line ls /\ plain_line l /\
    lines = match l with [] => ls | _ => ls ++ [l] end /\
    Forall (fun l => no_effect l \/ exists k v, entry l k v) lines.

(** The text that stands for missing values and is no value itself. *)
Definition reserved : str := lit "~_$$NOT_Ext_Val$$>-^-<@@_".

Definition setting (lines : list str) (key v : str) : Prop :=
  last_value lines key (Some v) /\ v <> reserved.

Definition number (lines : list str) (key : str) (z : Z) : Prop :=
  exists s, setting lines key s /\ decimal z s /\ -2147483648 < z <= 2147483647.

(** Where the file [v] mentioned in the configuration file [fn] is. *)
Definition located (fn v p : str) : Prop :=
  (exists r, v = 47 :: r) /\ p = v \/
  (forall r, v <> 47 :: r) /\
    ((exists dir base, fn = dir ++ 47 :: base /\ ~ In 47 base /\ p = dir ++ 47 :: v) \/ (~ In 47 fn /\ p = v)).

Definition points_to (fn : str) (lines : list str) (key p : str) : Prop :=
  exists v, setting lines key v /\ located fn v p.

(** A words file. *)
Definition words_file (es : list (str * Z)) (b e : Z) (content : str) : Prop :=
  exists ls, content = text ls /\
    Forall2 (fun e l => exists s, decimal (snd e) s /\ l = Datatypes.fst e ++ [32] ++ s) es ls /\
    Forall plain_line ls /\
    Forall (fun e => ~ In 32 (Datatypes.fst e) /\ 0 <= snd e <= 2147483647) es /\
    NoDup (map Datatypes.fst es) /\ NoDup (map snd es) /\
    In (lit "<s>", b) es /\ In (lit "</s>", e) es.

(** A layer with its words taken as numbers. *)
Definition layer_numbers {F} (f : Z -> F) (l : layer Z) : layer F :=
  match l with
  | Linear W b => Linear (map (map f) W) (map f b)
  | ReLU => ReLU
  | Normalize => Normalize
  | Softmax => Softmax
  | Splice idx => Splice idx
  | BatchNorm s o => BatchNorm (map f s) (map f o)
  | LogSoftmax => LogSoftmax
  | Narrow l r => Narrow l r
  end.

Section Loading.
Context {F : Type}.
Variable O : fops F.
Variable of_word : Z -> F.
Variable files : str -> option str.
Variable hclg : str -> res (option (graph F)).

(** What the files may contain, possibly with further bytes behind it. The
    numbers of contexts stored with a network have no influence. *)
Definition is_network (ls : list (layer Z)) (content : str) : Prop :=
  exists l r rest, content = network_file l r ls ++ rest /\ fits 4 l /\ fits 4 r /\
    Forall storable_layer ls /\ Z.of_nat (length ls) <= 2147483647.

Definition is_vector (v : list Z) (content : str) : Prop :=
  exists rest, content = vector_file v ++ rest /\ storable v.

Definition is_prior (v : list Z) (content : str) : Prop :=
  is_vector v content /\ Forall (fun w => f_nonneg O (of_word w) = true) v.

Definition is_lm (t : transducer Z) (content : str) : Prop :=
  exists rest, content = fst_file t ++ rest /\ fst_storable t /\ back_off_model t.

Definition stored_at (fn : str) (lines : list str) (key : str) (good : str -> Prop) : Prop :=
  exists p content, points_to fn lines key p /\ files p = Some content /\ good content.

(** The model [m] is stored under the configuration file [fn], its graph as
    [graph_at] says. *)
Definition stored_by {G} (graph_at : str -> G -> Prop) (fn : str) (m : model G) : Prop :=
  exists content lines, files fn = Some content /\ config_lines content lines /\
    (exists p, points_to fn lines (lit "fst") p /\ graph_at p (m_graph m)) /\
    stored_at fn lines (lit "nnet") (is_network (m_layers m)) /\
    stored_at fn lines (lit "prior") (is_prior (m_prior m)) /\
    number lines (lit "left_context") (m_left m) /\
    number lines (lit "right_context") (m_right m) /\
    number lines (lit "chunk_size") (m_chunk m) /\
    number lines (lit "num_pdfs") (m_pdfs m) /\
    stored_at fn lines (lit "tid2pdf") (is_vector (m_tid2pdf m)) /\
    stored_at fn lines (lit "symbol_table") (words_file (m_words m) (m_bos m) (m_eos m)) /\
    match m_lm m with
    | None => last_value lines (lit "large_lm") None
    | Some (costs, t) =>
        stored_at fn lines (lit "original_lm") (is_vector costs) /\
        stored_at fn lines (lit "large_lm") (is_lm t)
    end.

Definition stored (fn : str) (m : model (graph F)) : Prop :=
  stored_by (fun p g => hclg p = Ok (Some g)) fn m.

(** A recognizer for the model [m]. *)
Definition made_of (T : trig_ops F) (I : init_ops F) junk junk_int lm_fuel (m : model (graph F))
  (rc : recognizer F (list (Z * option (arc F)))) : Prop :=
  rc_graph rc = m_graph m /\
  am_left (rc_am rc) = m_left m /\ am_right (rc_am rc) = m_right m /\ am_chunk (rc_am rc) = m_chunk m /\
  am_prior (rc_am rc) = map (fun w => f_log O (of_word w)) (m_prior m) /\
  am_nnet (rc_am rc) = nnet_propagate O (map (layer_numbers of_word) (m_layers m)) /\
  rc_pdf rc = m_tid2pdf m /\
  (forall w i, In (w, i) (m_words m) -> sym_get (rc_symbols rc) i = Ok w /\ sym_id (rc_symbols rc) w = i) /\
  (forall w, ~ In w (map Datatypes.fst (m_words m)) -> sym_id (rc_symbols rc) w = -1) /\
  fbank_new O T I junk junk_int = Ok (rc_fbank rc) /\
  match m_lm m with
  | None => rc_lm rc = None
  | Some (costs, t) =>
      let t := map_weights of_word t in
      exists table, init_bucket (laid_out t) = Ok table /\
        rc_lm rc = Some (cached_lm O lm_fuel
          (mk_delta (map of_word costs) (laid_out t) table (m_bos m) (m_eos m))) /\
        new_cache 1000000 = Ok (rc_cache rc)
  end.

(** * What can be missing *)

(** What a configuration has to provide, in the order in which it is looked
    for. *)
Inductive kind : Type :=
| GraphFile                        (* the name of a decoding graph *)
| Number
| DataFile (good : str -> Prop).   (* the name of a file with such contents *)

Definition need : Type := (str * kind).

Definition needs : list need :=
  [(lit "fst", GraphFile);
   (lit "nnet", DataFile (fun c => exists ls, is_network ls c));
   (lit "prior", DataFile (fun c => exists v, is_prior v c));
   (lit "left_context", Number);
   (lit "right_context", Number);
   (lit "chunk_size", Number);
   (lit "num_pdfs", Number);
   (lit "tid2pdf", DataFile (fun c => exists v, is_vector v c));
   (lit "symbol_table", DataFile (fun c => exists es b e, words_file es b e c))].

(** The same with a large language model. *)
Definition lm_needs : list need :=
  [(lit "original_lm", DataFile (fun c => exists v, is_vector v c));
   (lit "large_lm", DataFile (fun c => exists t, is_lm t c))].

Definition all_needs (lines : list str) (ns : list need) : Prop :=
  last_value lines (lit "large_lm") None /\ ns = needs \/
  (exists v, setting lines (lit "large_lm") v) /\ ns = needs ++ lm_needs.

Definition met (fn : str) (lines : list str) (n : need) : Prop :=
  match snd n with
  | GraphFile => exists p g, points_to fn lines (Datatypes.fst n) p /\ hclg p = Ok (Some g)
  | Number => exists z, number lines (Datatypes.fst n) z
  | DataFile good => stored_at fn lines (Datatypes.fst n) good
  end.

(** There is a value, and what it points to can be opened. *)
Definition available (fn : str) (lines : list str) (n : need) : Prop :=
  match snd n with
  | GraphFile => exists p g, points_to fn lines (Datatypes.fst n) p /\ hclg p = Ok (Some g)
  | Number => exists s, setting lines (Datatypes.fst n) s
  | DataFile _ => exists p c, points_to fn lines (Datatypes.fst n) p /\ files p = Some c
  end.

Definition no_key_text (fn key : str) : str :=
  lit "Corruption: Unable to find key '" ++ key ++ lit "' in '" ++ fn ++ lit "'".

Definition no_file_text (p : str) : str := lit "IOError: Unable to open " ++ p.

(** The file for a need cannot be opened. *)
Definition no_file (fn : str) (lines : list str) (n : need) (msg : str) : Prop :=
  exists p, points_to fn lines (Datatypes.fst n) p /\
    match snd n with
    | GraphFile => hclg p = Ok None /\ msg = lit "IOError: " ++ p
    | Number => False
    | DataFile _ => files p = None /\ msg = no_file_text p
    end.

End Loading.
