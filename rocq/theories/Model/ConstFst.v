(** Model of how OpenFst (src/openfst) reads the file of a decoding graph:
    [fst::ConstFst<StdArc>::Read] and what it calls, for a file that is read as
    a stream (src/openfst/lib/fst.cc:29, the default of [fst_read_mode]). *)
From Coq Require Import ZArith List Bool.
From Verif.Base Require Import Prelude.
From Verif.Model Require Import Util File Binary Fst Decoder.
Import ListNotations.
Open Scope Z_scope.

(** An [ifstream] opened for reading bytes: what follows the position, the
    position, and whether an operation failed. Errors of the medium are not
    modelled. *)
Record stream : Type := mk_stream {
  st_rest : bytes;
  st_pos : Z;
  st_failed : bool
}.

(** [istream::read] of [n] bytes: the bytes that were stored. A stream that has
    failed reads nothing; one that reads less than [n] bytes has failed. *)
Definition st_read (n : Z) (s : stream) : bytes * stream :=
  if st_failed s then ([], s)
  else
    let got := firstn (Z.to_nat n) (st_rest s) in
    (got, mk_stream (skipn (Z.to_nat n) (st_rest s)) (st_pos s + lenZ got) (lenZ got <? n)).

(** src/openfst/include/fst/util.h:52-59, [ReadType] of an integer of [n] bytes.
    Bytes that cannot be read stay as they are: here 0, although two of the
    variables have no value before; none is used after a failure. *)
Definition st_int (n : nat) (s : stream) : Z * stream :=
  let '(got, s) := st_read (Z.of_nat n) s in
  (le_signed (got ++ repeat 0 (n - length got)), s).

Section Read.
(** The character a string gets where the file has none: [ReadType] appends a
    variable without a value. *)
Variable junk : nat -> Z.
(** Whether so many bytes can be allocated. *)
Variable room : Z -> bool.

(** src/openfst/include/fst/util.h:61-69, [ReadType] of a string. *)
Fixpoint st_chars (n : nat) (s : stream) : bytes * stream :=
  match n with
  | O => ([], s)
  | S n' =>
      let '(got, s) := st_read 1 s in
      let '(text, s) := st_chars n' s in
      (match got with c :: _ => c | [] => junk n end :: text, s)
  end.
Definition st_string (s : stream) : bytes * stream :=
  let '(n, s) := st_int 4 s in st_chars (Z.to_nat n) s.

(** src/openfst/include/fst/fst.h:110-165, [FstHeader]. The properties are read
    but of no influence on the decoder. *)
Record header : Type := mk_header {
  h_type : bytes;
  h_arcs_type : bytes;
  h_version : Z;
  h_flags : Z;
  h_start : Z;
  h_num_states : Z;
  h_num_arcs : Z
}.

(** src/openfst/lib/fst.cc:40-82, [FstHeader::Read] without [rewind]. *)
Definition header_read (s : stream) : option header * stream :=
  let '(magic, s) := st_int 4 s in
  if negb (magic =? 2125659606) then (None, s)
  else
    let '(t, s) := st_string s in
    let '(a, s) := st_string s in
    let '(version, s) := st_int 4 s in
    let '(flags, s) := st_int 4 s in
    let '(_, s) := st_int 8 s in
    let '(start, s) := st_int 8 s in
    let '(states, s) := st_int 8 s in
    let '(arcs, s) := st_int 8 s in
    (if st_failed s then None else Some (mk_header t a version flags start states arcs), s).

(** src/openfst/lib/symbol-table.cc:228-259, [SymbolTableImpl::Read]: what it
    takes from the stream. The table itself is of no influence on the decoder
    and not modelled. *)
Fixpoint symbols_loop (fuel : nat) (left : Z) (s : stream) : res stream :=
  if left <=? 0 then Ok s
  else match fuel with
       | O => Fault Fuel
       | S fuel =>
           let '(_, s) := st_string s in
           let '(_, s) := st_int 8 s in
           if st_failed s then Ok s else symbols_loop fuel (left - 1) s
       end.
Definition symbols_read (s : stream) : res stream :=
  let '(_, s) := st_int 4 s in
  if st_failed s then Ok s
  else
    let '(_, s) := st_string s in
    let '(_, s) := st_int 8 s in
    let '(size, s) := st_int 8 s in
    if st_failed s then Ok s else symbols_loop (S (length (st_rest s))) size s.

(** "const" and "standard" (src/openfst/include/fst/const-fst.h:41-60 and
    arc.h:28-53). *)
Definition s_const : bytes := [99; 111; 110; 115; 116].
Definition s_standard : bytes := [115; 116; 97; 110; 100; 97; 114; 100].

(** src/openfst/include/fst/fst.h:812-859, [FstImpl::ReadHeader], with
    [kMinFileVersion] 1. Symbol tables that cannot be read count as absent. *)
Definition fst_header (s : stream) : res (option header * stream) :=
  let '(h, s) := header_read s in
  match h with
  | None => Ok (None, s)
  | Some h =>
      if negb (str_eqb (h_type h) s_const) || negb (str_eqb (h_arcs_type h) s_standard) ||
         (h_version h <? 1)
      then Ok (None, s)
      else
        s <- (if Z.testbit (h_flags h) 0 then symbols_read s else Ok s) ;;
        s <- (if Z.testbit (h_flags h) 1 then symbols_read s else Ok s) ;;
        Ok (Some h, s)
  end.

(** src/openfst/lib/util.cc:60-72, [AlignInput]: at most 16 bytes are passed
    over; [tellg] is -1 if the stream has failed. *)
Fixpoint align_input (n : nat) (s : stream) : bool * stream :=
  match n with
  | O => (true, s)
  | S n =>
      if st_failed s then (false, s)
      else if st_pos s mod 16 =? 0 then (true, s)
      else align_input n (snd (st_read 1 s))
  end.

(** src/openfst/lib/mapped-file.cc:66-82 and 120-133: the bytes are read in
    pieces of at most 256 MB; [None] if they are not all there. *)
Fixpoint region_loop (fuel : nat) (size : Z) (s : stream) : res (option bytes * stream) :=
  if size <=? 0 then Ok (Some [], s)
  else match fuel with
       | O => Fault Fuel
       | S fuel =>
           let n := Z.min size 268435456 in
           let '(got, s) := st_read n s in
           if st_failed s then Ok (None, s)
           else
             '(more, s) <- region_loop fuel (size - n) s ;;
             Ok (option_map (fun m => got ++ m) more, s)
       end.

(** src/openfst/lib/mapped-file.cc:37-98, [MappedFile::Map] without memory
    mapping and [Allocate]: [size] and [size + 16] are of type [size_t]. [new]
    throws if there is no room. If the sum wraps the buffer is too small for any
    byte of the file. *)
Definition map_region (size : Z) (s : stream) : res (option bytes * stream) :=
  let want := size_t (size + 16) in
  _ <- (if size =? 0 then Ok tt
        else check ((want <=? 9223372036854775807) && room want) Throw) ;;
  _ <- check ((size <=? want) || st_failed s || match st_rest s with [] => true | _ => false end) Undef ;;
  region_loop (S (length (st_rest s))) size s.

(** src/openfst/include/fst/const-fst.h:97-106, [ConstState]: the final weight,
    the position of the first arc, the number of arcs. The numbers of epsilons
    are not used. *)
Record const_state : Type := mk_state {
  cs_weight : Z;
  cs_pos : Z;
  cs_narcs : Z
}.

(** src/openfst/include/fst/const-fst.h:118-125, the members of [ConstFstImpl].
    Weights are 32-bit words. *)
Record const_fst : Type := mk_const {
  cf_start : Z;
  cf_states : list const_state;
  cf_arcs : list (arc Z)
}.

(** [n] records of [w] bytes each. *)
Fixpoint records (w n : nat) (b : bytes) : list bytes :=
  match n with
  | O => []
  | S n => firstn w b :: records w n (skipn w b)
  end.
Definition field (w i : nat) (b : bytes) : bytes := firstn w (skipn i b).

Definition state_of (b : bytes) : const_state :=
  mk_state (le_signed (field 4 0 b)) (le_unsigned (field 4 4 b)) (le_unsigned (field 4 8 b)).
(** src/openfst/include/fst/arc.h:28-53: input label, output label, weight, next
    state. *)
Definition arc_of (b : bytes) : arc Z :=
  mk_arc (le_signed (field 4 12 b)) (le_signed (field 4 0 b)) (le_signed (field 4 4 b)) (le_signed (field 4 8 b)).

(** src/openfst/include/fst/const-fst.h:191-232, [ConstFstImpl::Read], for a
    file opened by src/openfst/include/fst/expanded-fst.h:136-148. The start
    state and the number of states become [int], the number of arcs [size_t];
    sizes in bytes are computed in [size_t]. [None] is a null pointer. The stream
    is a result, too, to say what has been read. *)
Definition const_read (content : bytes) : res (option const_fst * stream) :=
  '(h, s) <- fst_header (mk_stream content 0 false) ;;
  match h with
  | None => Ok (None, s)
  | Some h =>
      let aligned := (h_version h =? 1) || Z.testbit (h_flags h) 2 in
      let '(ok, s) := if aligned then align_input 16 s else (true, s) in
      if negb ok then Ok (None, s)
      else
        let nstates := wrap32 (h_num_states h) in
        '(states, s) <- map_region (size_t (size_t nstates * 20)) s ;;
        match states with
        | None => Ok (None, s)
        | Some states =>
            if st_failed s then Ok (None, s)
            else
              let '(ok, s) := if aligned then align_input 16 s else (true, s) in
              if negb ok then Ok (None, s)
              else
                let size := size_t (size_t (h_num_arcs h) * 16) in
                '(arcs, s) <- map_region size s ;;
                match arcs with
                | None => Ok (None, s)
                | Some arcs =>
                    if st_failed s then Ok (None, s)
                    else Ok (Some (mk_const (wrap32 (h_start h))
                                     (map state_of (records 20 (Z.to_nat nstates) states))
                                     (map arc_of (records 16 (Z.to_nat (size / 16)) arcs))), s)
                end
        end
  end.
End Read.

(** src/openfst/include/fst/const-fst.h:62-91, [Final] and [InitArcIterator] of
    a state: arcs outside the array are undefined. *)
Fixpoint arcs_from (l : list (arc Z)) (pos : Z) (n : nat) : res (list (arc Z)) :=
  match n with
  | O => Ok []
  | S n =>
      a <- getZ l pos ;;
      r <- arcs_from l (pos + 1) n ;;
      Ok (a :: r)
  end.

(** The graph as the decoder sees it (Model/Decoder.v). The decoder asks for the
    arcs of a state when it comes to it; here all the states are asked at once,
    so that arcs outside the array count as undefined even if the decoder never
    comes to them. *)
Fixpoint states_of {F} (of_word : Z -> F) (l : list (arc Z)) (sts : list const_state) :
  res (list (F * list (arc F))) :=
  match sts with
  | [] => Ok []
  | st :: sts =>
      a <- arcs_from l (cs_pos st) (Z.to_nat (cs_narcs st)) ;;
      r <- states_of of_word l sts ;;
      Ok ((of_word (cs_weight st),
           map (fun a => mk_arc (next_state a) (input_label a) (output_label a) (of_word (weight a))) a) :: r)
  end.

(** src/openfst/include/fst/expanded-fst.h:136-148, [ConstFst::Read] of a file
    name: a null pointer if the file cannot be opened. Names are not empty
    (src/ce_stt.cc:119-123). *)
Definition graph_read {F} (junk : nat -> Z) (room : Z -> bool) (of_word : Z -> F)
  (files : bytes -> option bytes) (name : bytes) : res (option (graph F)) :=
  match files name with
  | None => Ok None
  | Some content =>
      '(c, _) <- const_read junk room content ;;
      match c with
      | None => Ok None
      | Some c => l <- states_of of_word (cf_arcs c) (cf_states c) ;; Ok (Some (mk_graph (cf_start c) l))
      end
  end.
