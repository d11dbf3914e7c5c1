(** Specification of decoding: the paths of a graph composed with a language
    model, and their costs in the order and precision the program adds them.
    Independent of how the decoder stores tokens and words. *)
From Coq Require Import ZArith List Bool.
From Verif.Base Require Import Prelude ZMap.
From Verif.Spec Require Import GCSpec.
From Verif.Model Require Import Arith Pool OLabel Fst Decoder.
Import ListNotations.
Open Scope Z_scope.

(** A language model as the decoder should see it: where a word leads and at
    what weight, if the model has it; the weight of ending. *)
Record word_model (F : Type) : Type := mk_words {
  wm_start : Z;
  wm_next : Z -> Z -> option (Z * F);
  wm_end : Z -> F
}.
Arguments mk_words {F}. Arguments wm_start {F}. Arguments wm_next {F}. Arguments wm_end {F}.

Section Paths.
Context {F D : Type}.
Variable O : fops F.
Variable X : xops F D.
Variable g : graph F.
Variable pdf : list Z.                  (* transition id -> pdf id *)
Variable scale : F.                     (* acoustic scale *)
Variable wm : option (word_model F).

Definition arc_from (s : Z) (a : arc F) : Prop :=
  0 <= s /\ exists f l, nth_error (g_states g) (Z.to_nat s) = Some (f, l) /\ In a l.

(** The language model state after a word (0 is no word), and the weight to add,
    if there is a language model. *)
Definition lm_after (l word : Z) : Z * option F :=
  match wm with
  | None => (l, None)
  | Some w =>
      if word =? 0 then (l, Some (f_zero O))
      else match wm_next w l word with
           | Some (l', x) => (l', Some x)
           | None => (l, Some (f_zero O))
           end
  end.

Definition lm_first : Z := match wm with None => 0 | Some w => wm_start w end.

(** The acoustic cost of an arc in a frame with the log probabilities [logp]. *)
Definition acoustic (logp : list F) (a : arc F) (c : F) : Prop :=
  exists p x, 0 <= input_label a /\ nth_error pdf (Z.to_nat (input_label a)) = Some p /\
    0 <= p /\ nth_error logp (Z.to_nat p) = Some x /\ c = x_neg X (f_mul O scale x).

(** The cost of a path of cost [c] after one more arc of weight [w] with
    acoustic cost [ac], in [double]; it is kept as a [float]. *)
Definition cost_after (c w ac : F) (lw : option F) : D :=
  let total := x_wide X (f_add O (f_add O c w) ac) in
  match lw with None => total | Some x => x_add X total (x_wide X x) end.

Definition add_word (x : Z) (ws : list Z) : list Z := if x =? 0 then ws else ws ++ [x].

(** [path frames s c ws]: there is a path from the start to the state [s] that
    consumes the [frames] (newest first), one arc with an input label each, of
    cost [c], with the words [ws]. *)
Inductive path : list (list F) -> state -> F -> list Z -> Prop :=
| path_start : path [] (g_start g, lm_first) (f_zero O) []
| path_eps : forall fs s l c ws a l' lw,
    path fs (s, l) c ws -> arc_from s a -> input_label a = 0 ->
    lm_after l (output_label a) = (l', lw) ->
    path fs (next_state a, l') (x_narrow X (cost_after c (weight a) (f_zero O) lw))
         (add_word (output_label a) ws)
| path_emit : forall fs logp s l c ws a l' lw ac,
    path fs (s, l) c ws -> arc_from s a -> input_label a <> 0 ->
    acoustic logp a ac -> lm_after l (output_label a) = (l', lw) ->
    path (logp :: fs) (next_state a, l') (x_narrow X (cost_after c (weight a) ac lw))
         (add_word (output_label a) ws).

(** A beam: what is known of its tokens. *)
Notation beam := (list (state * F)).

(** The costs offered for a state in a frame: by an arc with an input label from
    a token of the beam [b] before the frame, or by an arc without one from a
    state after an offer. *)
Inductive frame_offer (b : beam) (logp : list F) : state -> F -> Prop :=
| offer_emit : forall s l c a l' lw ac,
    In ((s, l), c) b -> arc_from s a -> input_label a <> 0 -> acoustic logp a ac ->
    lm_after l (output_label a) = (l', lw) ->
    frame_offer b logp (next_state a, l') (x_narrow X (cost_after c (weight a) ac lw))
| offer_eps : forall s l c a l' lw,
    frame_offer b logp (s, l) c -> arc_from s a -> input_label a = 0 ->
    lm_after l (output_label a) = (l', lw) ->
    frame_offer b logp (next_state a, l') (x_narrow X (cost_after c (weight a) (f_zero O) lw)).

(** No arc without input label can still add a state to the beam or lower the
    cost of one, unless it leads above the cutoff. *)
Definition closed (cutoff : D) (b : beam) : Prop :=
  forall s l c a l' lw, In ((s, l), c) b -> arc_from s a -> input_label a = 0 ->
    lm_after l (output_label a) = (l', lw) ->
    let total := cost_after c (weight a) (f_zero O) lw in
    x_lt X cutoff total = true \/
    exists c', In ((next_state a, l'), c') b /\ f_lt O (x_narrow X total) c' = false.

End Paths.

(** [implements m w good]: whatever the functions of [m] return agrees with the
    language model [w], as long as the cache is [good], which it remains. *)
Definition implements {F C} (m : lm_face F C) (w : word_model F) (good : C -> Prop) : Prop :=
  (forall s, lm_start m = Ok s -> s = wm_start w) /\
  (forall c s x r c', good c -> lm_arc m c s x = Ok (r, c') ->
     good c' /\ wm_next w s x = match r with Some a => Some (next_state a, weight a) | None => None end) /\
  (forall s f, lm_end m s = Ok f -> f = wm_end w s).

Definition lm_implements {F C} (m : option (lm_face F C)) (w : option (word_model F)) (good : C -> Prop)
  : Prop :=
  match m, w with
  | None, None => True
  | Some m, Some w => implements m w good
  | _, _ => False
  end.

(** The language model the program uses: what its functions compute without the
    cache. *)
Definition delta_words {F} (O : fops F) (depth : nat) (m : delta_lm F) : word_model F :=
  mk_words
    (match delta_start O depth m with Ok s => s | Fault _ => 0 end)
    (fun s x => match delta_get_arc O depth m s x with
                | Ok (Some a) => Some (next_state a, weight a)
                | _ => None
                end)
    (fun s => match delta_final O depth m s with Ok f => f | Fault _ => f_zero O end).

(** A cache of answers of the language model, with room for one at least. *)
Definition true_cache {F} (O : fops F) (depth : nat) (m : delta_lm F) (c : list (Z * option (arc F))) : Prop :=
  0 < lenZ c <= 2147483647 /\
  Forall (fun e => e = (-1, None) \/
            exists s a, e = (s, Some a) /\ delta_get_arc O depth m s (input_label a) = Ok (Some a)) c.

(** The beam after offering the token [(s, c)] to it: one token per state, a
    new cost only if it is less. *)
Fixpoint offered {F} (lt : F -> F -> bool) (b : list (state * F)) (s : state) (c : F) : list (state * F) :=
  match b with
  | [] => [(s, c)]
  | (s', c') :: b =>
      if state_eqb s' s then (s', if lt c c' then c else c') :: b
      else (s', c') :: offered lt b s c
  end.

(** What the decoder knows of its beam. *)
Notation view toks := (map (fun t => (k_state t, k_cost t)) toks).

(** The beam holds a token of the state that is not worse than [c]. *)
Definition covered {F} (O : fops F) (b : list (state * F)) (s : state) (c : F) : Prop :=
  exists c', In (s, c') b /\ f_lt O c c' = false.

(** * Collections *)

(** A collector that collects nothing. *)
Definition keep_all (g : gcpool olabel) (roots : list Z) : res (gcpool olabel) := Ok g.

(** The program's collector. *)
Definition collector : gcpool olabel -> list Z -> res (gcpool olabel) := ogc label_block.

(** The collection does not free what is in use unless the highest slot holds a
    node that was marked by an earlier collection, has a predecessor and is in
    use. *)
Definition gc_safe (g : gcpool olabel) (roots : list Z) : Prop :=
  let last := p_block (g_pool g) * label_block + p_pos (g_pool g) - 1 in
  forall n b, zget (g_heap g) last = Some n -> n_state n = Marked -> n_prev n = Some b ->
    ~ reach (fun x y => exists m, zget (g_heap g) x = Some m /\ n_prev m = Some y) roots last.

(** Every collection made while the frames are processed is safe. *)
Fixpoint collections_safe {F D C} (O : fops F) (X : xops F D) (cfg : config F C) (fuel : nat)
  (d : decoder F C) (frames : list (list F)) : Prop :=
  match frames with
  | [] => True
  | logp :: rest =>
      (Z.rem (d_frames d) 20 = 0 -> forall d0, process O X cfg keep_all fuel d logp = Ok (d0, true) ->
         gc_safe (d_labels d0) (label_roots (d_toks d0))) /\
      (forall d1, process O X cfg collector fuel d logp = Ok (d1, true) ->
         collections_safe O X cfg fuel d1 rest)
  end.

(** * Runs and hypotheses *)

(** [d] is the state of a new decoder after [Initialize] and after [Process] of
    each of the frames, oldest first, each of which succeeded. *)
Definition decodes {F D C} (O : fops F) (X : xops F D) (cfg : config F C)
  (coll : gcpool olabel -> list Z -> res (gcpool olabel)) (fuel : nat) (cache : C)
  (frames : list (list F)) (d : decoder F C) : Prop :=
  exists d0 d1, new_decoder cache = Ok d0 /\ initialize O X cfg fuel d0 = Ok d1 /\
    process_all O X cfg coll fuel d1 frames = Ok (d, true).

(** The collections of that run are safe. *)
Definition run_safe {F D C} (O : fops F) (X : xops F D) (cfg : config F C) (fuel : nat) (cache : C)
  (frames : list (list F)) : Prop :=
  forall d0 d1, new_decoder cache = Ok d0 -> initialize O X cfg fuel d0 = Ok d1 ->
    collections_safe O X cfg fuel d1 frames.

(** The final weight of a state of the graph. *)
Definition final_of {F} (g : graph F) (s : Z) (w : F) : Prop :=
  0 <= s /\ exists arcs, nth_error (g_states g) (Z.to_nat s) = Some (w, arcs).

(** What a path to the state [(s, l)] of cost [c] costs as a hypothesis: at the
    end of the stream the final weights of the graph and of the language model
    are added. *)
Definition ending {F D} (X : xops F D) (g : graph F) (wm : option (word_model F)) (eos : bool)
  (s : state) (c : F) (total : D) : Prop :=
  if eos then
    exists w, final_of g (Datatypes.fst s) w /\
      total = let t := x_add X (x_wide X c) (x_wide X w) in
              match wm with None => t | Some m => x_add X t (x_wide X (wm_end m (snd s))) end
  else total = x_wide X c.

(** [<] is a strict order (also if there are NaNs). *)
Definition strict {T} (lt : T -> T -> bool) : Prop :=
  (forall x, lt x x = false) /\ (forall x y z, lt x y = true -> lt y z = true -> lt x z = true).

(** * Laws of arithmetic *)

(** [b] is a beam: added to a finite cost it gives a finite cost that is not
    less, also after rounding to [float]; added to plus infinity or NaN it
    gives nothing that is less than anything. *)
Definition slack {F D} (O : fops F) (X : xops F D) (b : F) : Prop :=
  forall a,
    (f_finite O a = true ->
       x_finite X (x_add X (x_wide X a) (x_wide X b)) = true /\
       f_finite O (x_narrow X (x_add X (x_wide X a) (x_wide X b))) = true /\
       x_lt X (x_add X (x_wide X a) (x_wide X b)) (x_wide X a) = false /\
       f_lt O (x_narrow X (x_add X (x_wide X a) (x_wide X b))) a = false) /\
    (f_finite O a = false -> f_lt O a (f_zero O) = false ->
       forall y, x_lt X (x_add X (x_wide X a) (x_wide X b)) y = false).

(** What the choice of the cutoffs relies on; [beam] is the beam of the
    decoder. *)
Record rounding {F D} (O : fops F) (X : xops F D) (beam : F) : Prop := mk_rounding {
  r_flt : strict (f_lt O);
  r_xlt : strict (x_lt X);
  r_wide_lt : forall a b, x_lt X (x_wide X a) (x_wide X b) = f_lt O a b;
  r_wide_finite : forall a, x_finite X (x_wide X a) = f_finite O a;
  r_narrow_wide : forall a, f_finite O a = true -> x_narrow X (x_wide X a) = a;
  r_inf : x_finite X (x_inf X) = false;
  r_below_inf : forall x, x_finite X x = true -> x_lt X x (x_inf X) = true;
  r_nan : forall y, x_lt X (x_nan X) y = false;
  r_total : forall a b c, f_finite O a = true -> f_finite O b = true -> f_finite O c = true ->
    f_lt O b a = false -> f_lt O c b = false -> f_lt O c a = false;
  r_equal : forall a m, x_finite X a = true -> x_lt X a m = false -> x_lt X m a = false ->
    x_lt X m (x_inf X) = true -> x_finite X m = true;
  r_between : forall a b m, x_finite X a = true -> x_finite X b = true ->
    x_lt X m a = false -> x_lt X m b = true -> x_finite X m = true;
  r_beam : slack O X beam;
  r_adaptive : forall a m, f_finite O a = true -> f_lt O m a = false ->
    x_lt X (x_wide X m) (x_add X (x_wide X a) (x_wide X beam)) = true ->
    slack O X (x_narrow X (x_add X (x_sub X (x_wide X m) (x_wide X a)) (x_wide X (x_half X))))
}.

(** A quotient of two counts is less than another if it is at most half of it. *)
Definition divides_well {F} (O : fops F) : Prop :=
  forall a b c d, 0 <= a <= 65535 -> 0 < b <= 65535 -> 0 < c <= 65535 -> 0 < d <= 18446744073709551615 ->
    2 * a * d <= b * c ->
    f_lt O (f_div O (f_int O a) (f_int O b)) (f_div O (f_int O c) (f_int O d)) = true.

(** Costs of a set [ok] (such as the finite numbers) are in a total order that
    the costs of arcs respect, rounding included. *)
Record ordered_costs {F D} (O : fops F) (X : xops F D) (ok : F -> Prop) : Prop := mk_ordered_costs {
  o_flt : strict (f_lt O);
  o_xlt : strict (x_lt X);
  o_total : forall a b c, ok a -> ok b -> ok c -> f_lt O b a = false -> f_lt O c b = false -> f_lt O c a = false;
  o_step : forall a b w ac lw, ok a -> ok b ->
    ok (x_narrow X (cost_after O X a w ac lw)) -> ok (x_narrow X (cost_after O X b w ac lw)) -> f_lt O b a = false ->
    f_lt O (x_narrow X (cost_after O X b w ac lw)) (x_narrow X (cost_after O X a w ac lw)) = false;
  o_inf : forall x, x_lt X (x_inf X) x = false
}.

(** Every path through the graph that consumes the first frames, however many,
    has a cost of the set [ok]. *)
Definition all_costs {F D C} (O : fops F) (X : xops F D) (cfg : config F C) (wm : option (word_model F))
  (frames : list (list F)) (ok : F -> Prop) : Prop :=
  forall later fs s c ws, rev frames = later ++ fs ->
    path O X (c_graph cfg) (c_pdf cfg) (c_scale cfg) wm fs s c ws -> ok c.

(** * Pruning *)

(** [Process] prunes nothing: no token of the beam is above the weight cutoff,
    no arc with an input label leads above the cutoff of the frame (before it is
    rounded, whatever it was), and no arc without one above the rounded one. *)
Definition frame_unpruned {F D C} (O : fops F) (X : xops F D) (cfg : config F C) (wm : option (word_model F))
  (fuel : nat) (d : decoder F C) (logp : list F) : Prop :=
  forall cutoff ab bt d1 cut d',
    get_cutoff O X cfg (d_toks d) = Ok (cutoff, ab, bt) ->
    process_emitting O X cfg d logp = Ok (d1, cut) ->
    process O X cfg collector fuel d logp = Ok (d', true) ->
    (forall t, In t (d_toks d) ->
       f_lt O (x_narrow X cutoff) (k_cost t) = false /\
       forall a ac, arc_from (c_graph cfg) (Datatypes.fst (k_state t)) a -> input_label a <> 0 ->
         acoustic O X (c_pdf cfg) (c_scale cfg) logp a ac ->
         forall next, x_narrow X next = cut ->
           x_lt X next (x_wide X (f_add O (f_add O (k_cost t) (weight a)) ac)) = false) /\
    (forall t a l' lw, In t (d_toks d') -> arc_from (c_graph cfg) (Datatypes.fst (k_state t)) a ->
       input_label a = 0 -> lm_after O wm (snd (k_state t)) (output_label a) = (l', lw) ->
       x_lt X (x_wide X cut) (cost_after O X (k_cost t) (weight a) (f_zero O) lw) = false).

Fixpoint nothing_pruned {F D C} (O : fops F) (X : xops F D) (cfg : config F C) (wm : option (word_model F))
  (fuel : nat) (d : decoder F C) (frames : list (list F)) : Prop :=
  match frames with
  | [] => True
  | logp :: rest =>
      frame_unpruned O X cfg wm fuel d logp /\
      (forall d1, process O X cfg collector fuel d logp = Ok (d1, true) ->
         nothing_pruned O X cfg wm fuel d1 rest)
  end.

Definition run_unpruned {F D C} (O : fops F) (X : xops F D) (cfg : config F C) (wm : option (word_model F))
  (fuel : nat) (cache : C) (frames : list (list F)) : Prop :=
  forall d0 d1, new_decoder cache = Ok d0 -> initialize O X cfg fuel d0 = Ok d1 ->
    nothing_pruned O X cfg wm fuel d1 frames.
