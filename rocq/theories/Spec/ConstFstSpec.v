(** Files of decoding graphs: the binary format of OpenFst for constant
    transducers with standard arcs. *)
From Coq Require Import ZArith String List Bool.
From Verif.Base Require Import Prelude.
From Verif.Model Require Import Arith Fst Decoder Stt.
From Verif.Spec Require Import AudioSpec FormatSpec TextSpec FstSpec.
Import ListNotations.
Open Scope Z_scope.

(** A text with its length in front; a negative length stands for an empty
    text. *)
Definition sized_text (b s : list Z) : Prop :=
  exists n, fits 4 n /\ length s = Z.to_nat n /\ b = word n ++ s.

(** A table of symbols: a number that is not looked at, a name, the next free
    key, the number of symbols, and the symbols with their keys. *)
Definition symbol_entry (b : list Z) : Prop :=
  exists t s key, sized_text t s /\ fits 8 key /\ b = t ++ encode 8 key.

Definition symbol_file (b : list Z) : Prop :=
  exists magic t name next n entries, fits 4 magic /\ sized_text t name /\ fits 8 next /\ fits 8 n /\
    length entries = Z.to_nat n /\ Forall symbol_entry entries /\
    b = word magic ++ t ++ encode 8 next ++ encode 8 n ++ concat entries.

(** A row of the table of states: final weight, position of the first arc,
    number of arcs, and two numbers that are not looked at. *)
Record state_row : Type := mk_row {
  r_weight : Z;
  r_first : Z;
  r_arcs : Z;
  r_in_eps : Z;
  r_out_eps : Z
}.

Definition natural (z : Z) : Prop := 0 <= z < 4294967296.
Definition row_fits (r : state_row) : Prop :=
  fits 4 (r_weight r) /\ natural (r_first r) /\ natural (r_arcs r) /\ natural (r_in_eps r) /\ natural (r_out_eps r).
Definition row_bytes (r : state_row) : list Z :=
  word (r_weight r) ++ word (r_first r) ++ word (r_arcs r) ++ word (r_in_eps r) ++ word (r_out_eps r).

Definition arc_fits (a : arc Z) : Prop :=
  fits 4 (next_state a) /\ fits 4 (input_label a) /\ fits 4 (output_label a) /\ fits 4 (weight a).
Definition arc_bytes (a : arc Z) : list Z :=
  word (input_label a) ++ word (output_label a) ++ word (weight a) ++ word (next_state a).

(** What a file holds. *)
Record tables : Type := mk_tables {
  tb_start : Z;
  tb_states : list state_row;
  tb_arcs : list (arc Z)
}.

Definition tables_fit (t : tables) : Prop :=
  fits 4 (tb_start t) /\ Forall row_fits (tb_states t) /\ Forall arc_fits (tb_arcs t) /\
  Z.of_nat (length (tb_states t)) <= 2147483647.

(** [b] fills up [front] to a multiple of 16 bytes, if that is asked for. *)
Definition padding (asked : bool) (front b : list Z) : Prop :=
  if asked
  then (length b < 16)%nat /\ Z.of_nat (length front + length b) mod 16 = 0
  else b = [].

(** The layout of a file with the numbers [start], [states] and [arcs] in its
    header and [rest] behind it. Bit 0 and 1 of the flags ask for tables of
    symbols, bit 2 or version 1 for padding. *)
Definition graph_layout (start states arcs : Z) (t : tables) (content rest : list Z) : Prop :=
  exists t1 t2 version flags props isyms osyms pad1 pad2,
    sized_text t1 (lit "const") /\ sized_text t2 (lit "standard") /\
    fits 4 version /\ 1 <= version /\ fits 4 flags /\ fits 8 props /\
    fits 8 start /\ fits 8 states /\ fits 8 arcs /\
    (if Z.testbit flags 0 then symbol_file isyms else isyms = []) /\
    (if Z.testbit flags 1 then symbol_file osyms else osyms = []) /\
    let aligned := (version =? 1) || Z.testbit flags 2 in
    let front := word 2125659606 ++ t1 ++ t2 ++ word version ++ word flags ++ encode 8 props ++
                 encode 8 start ++ encode 8 states ++ encode 8 arcs ++ isyms ++ osyms in
    let middle := front ++ pad1 ++ flat_map row_bytes (tb_states t) in
    padding aligned front pad1 /\ padding aligned middle pad2 /\
    content = middle ++ pad2 ++ flat_map arc_bytes (tb_arcs t) ++ rest.

(** A file whose header tells the true numbers. *)
Definition graph_file (t : tables) (content rest : list Z) : Prop :=
  tables_fit t /\
  graph_layout (tb_start t) (Z.of_nat (length (tb_states t))) (Z.of_nat (length (tb_arcs t))) t content rest.

(** The transducer the tables stand for: a state has the arcs from its first one
    on. *)
Definition row_stands_for (l : list (arc Z)) (r : state_row) (st : Z * list (arc Z)) : Prop :=
  r_weight r = Datatypes.fst st /\
  exists before after, l = before ++ snd st ++ after /\
    (r_arcs r <> 0 -> Z.of_nat (length before) = r_first r) /\ Z.of_nat (length (snd st)) = r_arcs r.

Definition stands_for (t : tables) (g : transducer Z) : Prop :=
  t_start g = tb_start t /\ Forall2 (row_stands_for (tb_arcs t)) (tb_states t) (t_states g).

(** The graph of a transducer whose weights are 32-bit words. *)
Definition graph_meant {F} (of_word : Z -> F) (g : transducer Z) : graph F :=
  mk_graph (t_start g) (t_states (map_weights of_word g)).

(** There is memory for the tables. *)
Definition memory_for (room : Z -> bool) (states arcs : Z) : Prop :=
  (0 < states -> room (20 * states + 16) = true) /\ (0 < arcs -> room (16 * arcs + 16) = true) /\
  16 * arcs + 16 <= 9223372036854775807.

(** The numbers of a header that count for less than they say: the start state
    and the number of states are taken modulo 2^32, the number of arcs modulo
    2^60. *)
Definition reduced (start states arcs : Z) (t : tables) : Prop :=
  (exists k, start = tb_start t + k * 4294967296) /\
  (exists k, states = Z.of_nat (length (tb_states t)) + k * 4294967296) /\
  (exists k, arcs = Z.of_nat (length (tb_arcs t)) + k * 1152921504606846976).

(** The numbers in the header of a file, whatever follows. *)
Definition graph_header (start states arcs : Z) (content : list Z) : Prop :=
  exists t1 t2 version flags props rest,
    sized_text t1 (lit "const") /\ sized_text t2 (lit "standard") /\
    fits 4 version /\ 1 <= version /\ fits 4 flags /\ fits 8 props /\
    fits 8 start /\ fits 8 states /\ fits 8 arcs /\
    content = word 2125659606 ++ t1 ++ t2 ++ word version ++ word flags ++ encode 8 props ++
              encode 8 start ++ encode 8 states ++ encode 8 arcs ++ rest.

(** A row whose arcs are not all in the table. *)
Definition row_outside (t : tables) (r : state_row) : Prop :=
  0 < r_arcs r /\ Z.of_nat (length (tb_arcs t)) < r_first r + r_arcs r.

(** A number of states or arcs for which there is no memory. *)
Definition no_memory (room : Z -> bool) (states arcs : Z) : Prop :=
  let s := states mod 4294967296 in
  let a := arcs mod 1152921504606846976 in
  2147483648 <= s \/ 0 < s /\ room (20 * s + 16) = false \/
  0 < a /\ (16 * a + 16 <= 9223372036854775807 -> room (16 * a + 16) = false).

(** The file [p] holds the graph [g]. *)
Definition holds_graph (files : list Z -> option (list Z)) (room : Z -> bool) (p : list Z) (g : transducer Z) : Prop :=
  exists content t rest, files p = Some content /\ graph_file t content rest /\ stands_for t g /\
    memory_for room (Z.of_nat (length (tb_states t))) (Z.of_nat (length (tb_arcs t))).
