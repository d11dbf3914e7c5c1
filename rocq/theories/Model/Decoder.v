(** Model of src/decoder.h and src/decoder.cc. *)
From Coq Require Import ZArith List Bool.
From Verif.Base Require Import Prelude ZMap.
From Verif.Model Require Import Arith Vector HashTable Pool OLabel Fst.
Import ListNotations.
Open Scope Z_scope.

(** The operations of [double] the decoder uses besides those on [float]
    ([fops]). [F] are the [float] values, [D] the [double] values. *)
Record xops (F D : Type) : Type := mk_xops {
  x_wide : F -> D;                  (* conversion of float to double *)
  x_narrow : D -> F;                (* conversion of double to float *)
  x_add : D -> D -> D;
  x_sub : D -> D -> D;
  x_lt : D -> D -> bool;            (* x < y, false for NaN *)
  x_finite : D -> bool;             (* isfinite *)
  x_is_inf : D -> bool;             (* x == INFINITY *)
  x_inf : D;                        (* INFINITY *)
  x_nan : D;                        (* NAN *)
  x_neg : F -> F;                   (* - x on float *)
  x_half : F                        (* 0.5f *)
}.
Arguments mk_xops {F D}. Arguments x_wide {F D}. Arguments x_narrow {F D}. Arguments x_add {F D}.
Arguments x_sub {F D}. Arguments x_lt {F D}. Arguments x_finite {F D}. Arguments x_is_inf {F D}.
Arguments x_inf {F D}. Arguments x_nan {F D}. Arguments x_neg {F D}. Arguments x_half {F D}.

(** The decoding graph as the decoder sees it through OpenFst's
    [fst::Fst<StdArc>]: the start state, and for each state its final weight and
    its arcs in the order of the iterator. How OpenFst makes it of a file is in
    Model/ConstFst.v. *)
Record graph (F : Type) : Type := mk_graph {
  g_start : Z;
  g_states : list (F * list (arc F))
}.
Arguments mk_graph {F}. Arguments g_start {F}. Arguments g_states {F}.

(** src/fst.h:160-191, what the decoder calls of [CachedFst]; [C] is the type of
    its cache. *)
Record lm_face (F C : Type) : Type := mk_lm {
  lm_start : res Z;                                         (* StartState() *)
  lm_arc : C -> Z -> Z -> res (option (arc F) * C);         (* GetArc(state, ilabel, &arc) *)
  lm_end : Z -> res F                                       (* Final(state) *)
}.
Arguments mk_lm {F C}. Arguments lm_start {F C}. Arguments lm_arc {F C}. Arguments lm_end {F C}.

(** src/fst.cc:292-331, [CachedFst] over a [DeltaLmFst]. *)
Definition cached_lm {F} (O : fops F) (fuel : nat) (d : delta_lm F)
  : lm_face F (list (Z * option (arc F))) :=
  mk_lm (delta_start O fuel d) (cached_get_arc (delta_get_arc O fuel d)) (delta_final O fuel d).

(** src/decoder.h:172-187, [State]: graph state and language model state. *)
Notation state := (Z * Z)%type.
Definition state_eqb (a b : state) : bool :=
  (Datatypes.fst a =? Datatypes.fst b) && (snd a =? snd b).

(** src/decoder.h:190-196, [hash(State)]. *)
Definition state_hash (s : state) : Z := (19 * 31 + Datatypes.fst s) * 31 + snd s.

(** The same computation stays in the range of [int32_t]: otherwise it is
    undefined. *)
Definition hash_defined (s : state) : bool :=
  in_int32 (19 * 31 + Datatypes.fst s) && in_int32 ((19 * 31 + Datatypes.fst s) * 31) &&
  in_int32 (state_hash s).

(** src/decoder.h:54-59. *)
Definition kBeamSize : Z := 30000.
Definition kNotExist : Z := -1.
Definition kCutoffSamples : Z := 200.
Definition kCutoffRandSeed : Z := 802.

(** The default BLOCK_SIZE of [GCPool] (src/pool.h:160). *)
Definition label_block : Z := 4096.

Section Decoder.
Context {F D C : Type}.
Variable O : fops F.
Variable X : xops F D.

(** src/decoder.h:218-235, [Token]; a pointer to an [OLabel] is its slot. *)
Record token : Type := mk_token {
  k_state : state;
  k_cost : F;
  k_olabel : option Z
}.

(** What a decoder is constructed with (src/decoder.cc:49-64). *)
Record config : Type := mk_config {
  c_graph : graph F;
  c_pdf : list Z;
  c_scale : F;
  c_beam : F;
  c_lm : option (lm_face F C)
}.

(** src/decoder.h:130-168, the members that change. Tokens are values here:
    the pool of tokens is not modelled. A token is returned to it only in the
    loop of ProcessEmitting over [prev_toks_], where it is not used any more and
    which ends by clearing [prev_toks_]; tokens dropped otherwise stay
    allocated. The frame counter is unbounded; it is not initialised by the
    constructor (0 here), but nothing reads it before Initialize sets it. *)
Record decoder : Type := mk_decoder {
  d_toks : list token;
  d_prev : list token;
  d_idx : table state Z;
  d_labels : gcpool olabel;
  d_cache : C;
  d_frames : Z;
  d_eos : bool
}.

Definition with_toks (d : decoder) (toks : list token) : decoder :=
  mk_decoder toks (d_prev d) (d_idx d) (d_labels d) (d_cache d) (d_frames d) (d_eos d).
Definition with_idx (d : decoder) (idx : table state Z) : decoder :=
  mk_decoder (d_toks d) (d_prev d) idx (d_labels d) (d_cache d) (d_frames d) (d_eos d).
Definition with_labels (d : decoder) (g : gcpool olabel) : decoder :=
  mk_decoder (d_toks d) (d_prev d) (d_idx d) g (d_cache d) (d_frames d) (d_eos d).
Definition with_cache (d : decoder) (c : C) : decoder :=
  mk_decoder (d_toks d) (d_prev d) (d_idx d) (d_labels d) c (d_frames d) (d_eos d).
Definition with_frames (d : decoder) (n : Z) : decoder :=
  mk_decoder (d_toks d) (d_prev d) (d_idx d) (d_labels d) (d_cache d) n (d_eos d).

(** src/decoder.cc:49-64, the constructor; [cache] is the new cache of the
    language model (made with [new_cache 1000000]). *)
Definition new_decoder (cache : C) : res decoder :=
  idx <- create (kBeamSize * 4) ;;
  Ok (mk_decoder [] [] idx ginit cache 0 false).

(** src/decoder.cc:55: the beam is set to 16.0. *)
Definition new_config (g : graph F) (pdf : list Z) (scale : F) (lm : option (lm_face F C)) : config :=
  mk_config g pdf scale (f_int O 16) lm.

(** src/decoder.h:83, [EndOfStream]. *)
Definition end_of_stream (d : decoder) : decoder :=
  mk_decoder (d_toks d) (d_prev d) (d_idx d) (d_labels d) (d_cache d) (d_frames d) true.

Variable cfg : config.

(** What happens to the pool of labels when [olabels_pool_.GC(roots)] is called:
    [ogc label_block] in the program; other functions serve to state what a
    collection does not change. *)
Variable collect : gcpool olabel -> list Z -> res (gcpool olabel).

(** [ArcIterator] over the arcs of a state, and [Final]: for a number that is
    not a state OpenFst reads outside its arrays. *)
Definition graph_arcs (s : Z) : res (list (arc F)) :=
  st <- getZ (g_states (c_graph cfg)) s ;; Ok (snd st).
Definition graph_final (s : Z) : res F :=
  st <- getZ (g_states (c_graph cfg)) s ;; Ok (Datatypes.fst st).

(** src/decoder.cc:97-102, [LogLikelihood]. *)
Definition log_likelihood (logp : list F) (trans_id : Z) : res F :=
  pdf_id <- vget (c_pdf cfg) trans_id ;;
  logp <- vget logp pdf_id ;;
  Ok (f_mul O (c_scale cfg) logp).

(** src/decoder.cc:123-141, [PropogateLm]: the next state, the weight and the
    cache after the call. *)
Definition propogate_lm (m : lm_face F C) (c : C) (lm_state ilabel : Z) : res (Z * F * C) :=
  if ilabel =? 0 then Ok (lm_state, f_zero O, c)
  else
    '(r, c) <- lm_arc m c lm_state ilabel ;;
    Ok (match r with
        | Some a => (next_state a, weight a, c)
        | None => (lm_state, f_zero O, c)
        end).

(** [HashTable::Find] and [Insert] on [state_idx_], with the evaluation of
    [hash]. *)
Definition idx_find (t : table state Z) (s : state) : res Z :=
  _ <- check (hash_defined s) Undef ;; find state_eqb state_hash t s kNotExist.
Definition idx_insert (t : table state Z) (s : state) (i : Z) : res (table state Z) :=
  _ <- check (hash_defined s) Undef ;; insert state_eqb state_hash t s i.

(** src/decoder.cc:143-179, [InsertTok]. *)
Definition insert_tok (d : decoder) (next_state : state) (output_label : Z)
  (prev_olabel : option Z) (cost : F) : res (decoder * bool) :=
  tok_idx <- idx_find (d_idx d) next_state ;;
  '(g, next_olabel) <-
    (if output_label =? 0 then Ok (d_labels d, prev_olabel)
     else '(g, a) <- child label_block (d_labels d) prev_olabel output_label ;; Ok (g, Some a)) ;;
  let d := with_labels d g in
  let tok := mk_token next_state cost next_olabel in
  if tok_idx =? kNotExist then
    idx <- idx_insert (d_idx d) next_state (lenZ (d_toks d)) ;;
    Ok (with_idx (with_toks d (d_toks d ++ [tok])) idx, true)
  else
    old <- getZ (d_toks d) tok_idx ;;
    if f_lt O cost (k_cost old) then
      toks <- setZ (d_toks d) tok_idx tok ;;
      Ok (with_toks d toks, true)
    else Ok (d, false).

(** src/decoder.cc:189 and 194-196: the generator, and whether a cost is sampled from
    [n] tokens with the state [x] of the generator. *)
Definition next_random (x : Z) : Z := (x * 25214903917 + 11) mod 18446744073709551616.
Definition sampled (n x : Z) : bool :=
  f_lt O (f_div O (f_int O (x mod 65536)) (f_int O 65535))
         (f_div O (f_int O kCutoffSamples) (f_int O n)).

(** src/decoder.cc:191-204: one round of the loop; the costs sampled are in
    [costs]. *)
Definition cutoff_step (n : Z) (st : Z * list F * D * token) (tok : token)
  : Z * list F * D * token :=
  let '(x, costs, best_cost, best_tok) := st in
  let x := next_random x in
  let costs := if sampled n x then costs ++ [k_cost tok] else costs in
  if x_lt X (x_wide X (k_cost tok)) best_cost
  then (x, costs, x_wide X (k_cost tok), tok)
  else (x, costs, best_cost, best_tok).

(** src/decoder.cc:215: [std::nth_element], and the element then found at the
    position: that of the sorted array. For NaN costs, which have no order, the
    C++ library promises nothing; the model sorts with [<] all the same. *)
Fixpoint place (x : F) (l : list F) : list F :=
  match l with
  | [] => [x]
  | y :: l => if f_lt O x y then x :: y :: l else y :: place x l
  end.
Definition nth_element (l : list F) (i : Z) : res F := getZ (fold_right place [] l) i.

(** src/decoder.cc:181-236, [GetCutoff]: the cutoff, [*adaptive_beam] and
    [*best_tok]. *)
Definition get_cutoff (prev : list token) : res (D * F * token) :=
  first <- getZ prev 0 ;;
  let '(_, costs, best_cost, best_tok) :=
    fold_left (cutoff_step (lenZ prev)) prev (kCutoffRandSeed, [], x_inf X, first) in
  if negb (x_finite X best_cost) then Ok (x_inf X, f_inf O, best_tok)
  else
    let beam_cutoff := x_add X best_cost (x_wide X (c_beam cfg)) in
    max_active_cutoff <-
      (if kBeamSize <? lenZ prev then
         let cutoff_idx := lenZ costs * kBeamSize / lenZ prev in
         c <- nth_element costs cutoff_idx ;; Ok (x_wide X c)
       else Ok (x_nan X)) ;;
    if x_lt X max_active_cutoff beam_cutoff then
      Ok (max_active_cutoff,
          x_narrow X (x_add X (x_sub X max_active_cutoff best_cost) (x_wide X (x_half X))), best_tok)
    else Ok (beam_cutoff, c_beam cfg, best_tok).

(** src/decoder.cc:266-268, 328 and 351: cost of a token, weight of an arc and
    acoustic cost, added as [float]s. *)
Definition total_cost (tok : token) (a : arc F) (ac_cost : F) : D :=
  x_wide X (f_add O (f_add O (k_cost tok) (weight a)) ac_cost).

(** src/decoder.cc:270-277 and 359-365: composition with the language model. *)
Definition compose (d : decoder) (lm_state olabel : Z) (total : D) : res (decoder * Z * D) :=
  match c_lm cfg with
  | None => Ok (d, lm_state, total)
  | Some m =>
      '(lm_state, lm_weight, c) <- propogate_lm m (d_cache d) lm_state olabel ;;
      Ok (with_cache d c, lm_state, x_add X total (x_wide X lm_weight))
  end.

(** src/decoder.cc:262-289: one arc in ProcessNonemitting; [queue] has its back
    at the head. *)
Definition relax (cutoff : D) (tok_idx : Z) (st : decoder * list state) (a : arc F)
  : res (decoder * list state) :=
  let '(d, queue) := st in
  if negb (input_label a =? 0) then Ok (d, queue)
  else
    from_tok <- getZ (d_toks d) tok_idx ;;
    let total := total_cost from_tok a (f_zero O) in
    '(d, lm_state, total) <- compose d (snd (k_state from_tok)) (output_label a) total ;;
    if x_lt X cutoff total then Ok (d, queue)
    else
      '(d, inserted) <- insert_tok d (next_state a, lm_state) (output_label a)
                          (k_olabel from_tok) (x_narrow X total) ;;
      Ok (d, if inserted : bool then (next_state a, lm_state) :: queue else queue).

(** src/decoder.cc:250-291: the loop over the queue. *)
Fixpoint nonemitting_loop (fuel : nat) (cutoff : D) (d : decoder) (queue : list state) : res decoder :=
  match queue with
  | [] => Ok d
  | s :: queue =>
      match fuel with
      | Datatypes.O => Fault Fuel
      | S fuel =>
          tok_idx <- idx_find (d_idx d) s ;;
          _ <- check (negb (tok_idx =? kNotExist)) Assert ;;
          arcs <- graph_arcs (Datatypes.fst s) ;;
          '(d, queue) <- for_each arcs (relax cutoff tok_idx) (d, queue) ;;
          nonemitting_loop fuel cutoff d queue
      end
  end.

(** src/decoder.cc:240-292, [ProcessNonemitting]. *)
Definition process_nonemitting (fuel : nat) (d : decoder) (cutoff : D) : res decoder :=
  _ <- for_each (d_toks d) (fun _ t => check (0 <=? Datatypes.fst (k_state t)) Assert) tt ;;
  nonemitting_loop fuel cutoff d (rev (map k_state (d_toks d))).

(** src/decoder.cc:324-332: one arc of the best token. *)
Definition bound_step (logp : list F) (best_tok : token) (adaptive_beam : F) (next : D) (a : arc F) : res D :=
  if input_label a =? 0 then Ok next
  else
    l <- log_likelihood logp (input_label a) ;;
    let total := total_cost best_tok a (x_neg X l) in
    let bound := x_add X total (x_wide X adaptive_beam) in
    Ok (if x_lt X bound next then bound else next).

(** src/decoder.cc:347-373: one arc of a token; the state is the decoder and
    [next_weight_cutoff]. *)
Definition emit (logp : list F) (adaptive_beam : F) (from_tok : token) (st : decoder * D) (a : arc F)
  : res (decoder * D) :=
  let '(d, next) := st in
  if input_label a =? 0 then Ok (d, next)
  else
    l <- log_likelihood logp (input_label a) ;;
    let total := total_cost from_tok a (x_neg X l) in
    if x_lt X next total then Ok (d, next)
    else
      let bound := x_add X total (x_wide X adaptive_beam) in
      let next := if x_lt X bound next then bound else next in
      '(d, lm_state, total) <- compose d (snd (k_state from_tok)) (output_label a) total ;;
      _ <- check ((0 <=? next_state a) && (0 <=? lm_state)) Assert ;;
      '(d, _) <- insert_tok d (next_state a, lm_state) (output_label a)
                   (k_olabel from_tok) (x_narrow X total) ;;
      Ok (d, next).

(** src/decoder.cc:337-377: one token of [prev_toks_]. *)
Definition emit_tok (logp : list F) (weight_cutoff adaptive_beam : F) (st : decoder * D) (from_tok : token)
  : res (decoder * D) :=
  if f_lt O weight_cutoff (k_cost from_tok) then Ok st
  else
    arcs <- graph_arcs (Datatypes.fst (k_state from_tok)) ;;
    for_each arcs (emit logp adaptive_beam from_tok) st.

(** src/decoder.cc:295-383, [ProcessEmitting]. *)
Definition process_emitting (d : decoder) (logp : list F) : res (decoder * F) :=
  let d := mk_decoder (d_prev d) (d_toks d) (clear (d_idx d)) (d_labels d) (d_cache d)
             (d_frames d) (d_eos d) in
  '(cutoff, adaptive_beam, best_tok) <- get_cutoff (d_prev d) ;;
  let weight_cutoff := x_narrow X cutoff in
  if negb (f_finite O weight_cutoff) then Ok (d, f_inf O)
  else
    arcs <- graph_arcs (Datatypes.fst (k_state best_tok)) ;;
    next <- for_each arcs (bound_step logp best_tok adaptive_beam) (x_inf X) ;;
    '(d, next) <- for_each (d_prev d) (emit_tok logp weight_cutoff adaptive_beam) (d, next) ;;
    Ok (mk_decoder (d_toks d) [] (d_idx d) (d_labels d) (d_cache d) (d_frames d) (d_eos d),
        x_narrow X next).

(** src/decoder.cc:86-89: the roots of the collection. *)
Definition label_roots (toks : list token) : list Z :=
  flat_map (fun t => match k_olabel t with Some a => [a] | None => [] end) toks.

(** src/decoder.cc:70-95, [Process]. *)
Definition process (fuel : nat) (d : decoder) (logp : list F) : res (decoder * bool) :=
  '(d, cutoff) <- process_emitting d logp ;;
  if negb (x_finite X (x_wide X cutoff)) then Ok (d, false)
  else
    d <- process_nonemitting fuel d (x_wide X cutoff) ;;
    if lenZ (d_toks d) =? 0 then Ok (d, false)
    else
      d <- (if Z.rem (d_frames d) 20 =? 0
            then g <- collect (d_labels d) (label_roots (d_toks d)) ;; Ok (with_labels d g)
            else Ok d) ;;
      Ok (with_frames d (d_frames d + 1), true).

(** src/decoder.cc:104-121, [Initialize]. *)
Definition initialize (fuel : nat) (d : decoder) : res decoder :=
  let d := mk_decoder [] [] (d_idx d) (d_labels d) (d_cache d) (d_frames d) (d_eos d) in
  let start := g_start (c_graph cfg) in
  _ <- check (0 <=? start) Assert ;;
  lm <- match c_lm cfg with None => Ok 0 | Some m => lm_start m end ;;
  '(d, _) <- insert_tok d (start, lm) 0 None (f_zero O) ;;
  process_nonemitting fuel (with_frames d 0) (x_inf X).

(** src/decoder.cc:394-404: the cost BestPath compares. *)
Definition path_cost (d : decoder) (tok : token) : res D :=
  let cost := x_wide X (k_cost tok) in
  cost <- (if d_eos d
           then w <- graph_final (Datatypes.fst (k_state tok)) ;; Ok (x_add X cost (x_wide X w))
           else Ok cost) ;;
  match c_lm cfg with
  | Some m =>
      if d_eos d
      then w <- lm_end m (snd (k_state tok)) ;; Ok (x_add X cost (x_wide X w))
      else Ok cost
  | None => Ok cost
  end.

(** src/decoder.cc:406-409. *)
Definition best_step (d : decoder) (st : D * option token) (tok : token) : res (D * option token) :=
  let '(best_cost, best) := st in
  cost <- path_cost d tok ;;
  Ok (if negb (x_is_inf X cost) && x_lt X cost best_cost then (cost, Some tok) else (best_cost, best)).

(** src/decoder.cc:420-425: the labels along [previous()], the newest first, with
    the assertion that there are fewer than 100000; [n] is the number so far. A
    chain longer than the number of slots in use is a cycle and fails the
    assertion, too: [fuel]. *)
Fixpoint path_words (fuel : nat) (h : zmap onode) (n : Z) (a : option Z) : res (list Z) :=
  match a with
  | None => Ok []
  | Some a =>
      match fuel with
      | Datatypes.O => Fault Assert
      | S fuel =>
          node <- deref h a ;;
          _ <- check (n + 1 <? 100000) Assert ;;
          r <- path_words fuel h (n + 1) (n_prev node) ;;
          Ok (o_label (n_data node) :: r)
      end
  end.

(** src/decoder.cc:386-431, [BestPath]: [words()] and [weight()] of the
    hypothesis. *)
Definition best_path (d : decoder) : res (list Z * F) :=
  '(best_cost, best) <- for_each (d_toks d) (best_step d) (x_inf X, None) ;;
  match best with
  | None => Ok ([], f_zero O)
  | Some tok =>
      let p := g_pool (d_labels d) in
      words <- path_words (Z.to_nat (p_block p * label_block + p_pos p)) (g_heap (d_labels d)) 0
                 (k_olabel tok) ;;
      w <- graph_final (Datatypes.fst (k_state tok)) ;;
      Ok (words, f_add O (x_narrow X best_cost) w)
  end.

(** A run: the frames of [frames] processed one after the other, as long as
    [Process] returns true. *)
Fixpoint process_all (fuel : nat) (d : decoder) (frames : list (list F)) : res (decoder * bool) :=
  match frames with
  | [] => Ok (d, true)
  | logp :: frames =>
      '(d, ok) <- process fuel d logp ;;
      if ok : bool then process_all fuel d frames else Ok (d, false)
  end.

End Decoder.

Arguments token : clear implicits. Arguments config : clear implicits. Arguments decoder : clear implicits.
Arguments mk_token {F}. Arguments k_state {F}. Arguments k_cost {F}. Arguments k_olabel {F}.
Arguments mk_config {F C}. Arguments c_graph {F C}. Arguments c_pdf {F C}. Arguments c_scale {F C}.
Arguments c_beam {F C}. Arguments c_lm {F C}.
Arguments mk_decoder {F C}. Arguments d_toks {F C}. Arguments d_prev {F C}. Arguments d_idx {F C}.
Arguments d_labels {F C}. Arguments d_cache {F C}. Arguments d_frames {F C}. Arguments d_eos {F C}.
