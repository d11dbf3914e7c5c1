(** What in the files of a model makes loading crash. *)
From Coq Require Import ZArith String List Bool.
From Verif.Base Require Import Prelude.
From Verif.Model Require Import Arith Fbank Fst Decoder Stt FbankInit.
From Verif.Spec Require Import AudioSpec FormatSpec TextSpec FstSpec LoadingSpec.
Import ListNotations.
Open Scope Z_scope.

(** ** Configurations of any bytes *)

(** The last line that the configuration file [fn] has for [key] gives [v]. *)
Definition config_value (files : str -> option str) (fn key v : str) : Prop :=
  exists content ps e rs l, files fn = Some content /\ pieces content ps e /\ Forall2 shown ps rs /\
    last_such (fun l => exists v, taken l key v) rs l /\ taken l key v.

(** The key names the file [p] with the content [c]. *)
Definition config_file (files : str -> option str) (fn key c : str) : Prop :=
  exists v p, config_value files fn key v /\ v <> reserved /\ located fn v p /\ files p = Some c.

(** A number in the range of [int], whatever follows its digits. *)
Definition int_prefix (s : str) : Prop :=
  exists sign ds rest n, s = sign ++ ds ++ rest /\ ds <> [] /\ in_base 10 ds n /\
    (forall c r, rest = c :: r -> ~ 48 <= c <= 57) /\
    ((sign = [] \/ sign = [43]) /\ n <= 2147483647 \/ sign = [45] /\ n <= 2147483648).

(** ** Sections of files *)

(** A vector with a negative dimension. *)
Definition negative_vector (c : str) : Prop :=
  exists size dim rest, c = lit "VEC0" ++ word size ++ word dim ++ rest /\ fits 4 dim /\ dim < 0.

(** A matrix with a negative dimension, with rows or columns but not both, with
    too many elements or too long rows. *)
Definition odd_matrix (c : str) : Prop :=
  exists size rows cols rest, c = lit "MAT0" ++ word size ++ word rows ++ word cols ++ rest /\
    fits 4 rows /\ fits 4 cols /\
    (rows < 0 \/ cols < 0 \/ rows = 0 /\ 0 < cols \/ 0 < rows /\ cols = 0 \/
     2147483647 < rows * cols \/ 2147483644 < cols).

(** One of these somewhere in a file. *)
Definition odd_section (c : str) : Prop :=
  exists before after, c = before ++ after /\ (negative_vector after \/ odd_matrix after).

(** A transducer with a negative or too large number of states or arcs. *)
Definition odd_counts (c : str) : Prop :=
  exists name size s a st rest, c = name ++ word size ++ word s ++ word a ++ word st ++ rest /\
    length name = 32%nat /\ fits 4 s /\ fits 4 a /\ (s < 0 \/ a < 0 \/ 536870912 <= s \/ 134217728 <= a).

(** Where the arcs of the first state end: at the first positive index of another
    state, or at the end of all arcs. *)
Definition first_end (after : list Z) (arcs last : Z) : Prop :=
  (exists u r, after = u ++ last :: r /\ Forall (fun i => i <= 0) u /\ 0 < last) \/
  Forall (fun i => i <= 0) after /\ last = arcs.

(** The first state of a transducer has an arc that does not exist, or one with a
    negative label or with the label 2147483647. *)
Definition odd_first_state (c : str) : Prop :=
  exists name size st finals first after (arcs : list (arc Z)) rest last i,
    c = name ++ word size ++ word (Z.of_nat (length finals)) ++ word (Z.of_nat (length arcs)) ++ word st ++
        flat_map word finals ++ flat_map word (first :: after) ++
        flat_map (fun a => word (next_state a) ++ word (input_label a) ++ word (output_label a) ++ word (weight a)) arcs ++
        rest /\
    length name = 32%nat /\ length finals = S (length after) /\ 0 <= first /\
    first_end after (Z.of_nat (length arcs)) last /\ first <= i < last /\
    (Z.of_nat (length arcs) <= i \/
     exists a, nth_error arcs (Z.to_nat i) = Some a /\ (input_label a < 0 \/ input_label a = 2147483647)).

(** A words file with an id that is negative or beyond the size of a table. *)
Definition odd_id (c : str) : Prop :=
  exists ps e rs l w id, pieces c ps e /\ Forall2 shown ps rs /\ In l rs /\ word_entry l w id /\
    ~ 0 <= id < 288230376151711743.

(** ** Why loading crashes, and how *)
Definition crash_cause {F} (O : fops F) (of_word : Z -> F) (files : str -> option str)
  (hclg : str -> res (option (graph F))) (new : res (fbank F)) (fn : str) (f : fault) : Prop :=
  (* the graph *)
  (exists v p, config_value files fn (lit "fst") v /\ v <> reserved /\ located fn v p /\ hclg p = Fault f) \/
  (* the network *)
  (exists c, config_file files fn (lit "nnet") c /\ odd_section c /\ (f = Assert \/ f = Undef)) \/
  (* vectors *)
  (exists key c, In key [lit "prior"; lit "tid2pdf"; lit "original_lm"] /\ config_file files fn key c /\
     negative_vector c /\ f = Assert) \/
  (* the logarithm of a prior *)
  (exists c v, config_file files fn (lit "prior") c /\ is_vector v c /\
     Exists (fun w => f_nonneg O (of_word w) = false) v /\ f = Assert) \/
  (* numbers *)
  (exists key v, In key [lit "left_context"; lit "right_context"; lit "chunk_size"; lit "num_pdfs"] /\
     config_value files fn key v /\ v <> reserved /\ ~ int_prefix v /\ f = Throw) \/
  (* words *)
  (exists c, config_file files fn (lit "symbol_table") c /\ odd_id c /\ (f = Throw \/ f = Undef)) \/
  (* the large language model *)
  (exists c, config_file files fn (lit "large_lm") c /\
     (odd_counts c /\ (f = Throw \/ f = Undef) \/ odd_first_state c /\ f = Undef)) \/
  (* the feature extractor *)
  new = Fault f.
