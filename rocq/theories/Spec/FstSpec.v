(** Transducers, the file the converter writes for one (tool/convert_fstfmt.py),
    back-off lookup, and scores along word sequences. *)
From Coq Require Import ZArith List Bool.
From Verif.Base Require Import Prelude.
From Verif.Model Require Import Arith Fst.
From Verif.Spec Require Import AudioSpec FormatSpec.
Import ListNotations.
Open Scope Z_scope.

(** A transducer: the start state and for each state, numbered from 0, its
    final weight (infinity if it is not final) and its arcs. *)
Record transducer (W : Type) : Type := mk_transducer {
  t_start : Z;
  t_states : list (W * list (arc W))
}.
Arguments mk_transducer {W}. Arguments t_start {W}. Arguments t_states {W}.

Definition arcs_at {W} (t : transducer W) (s : Z) : list (arc W) :=
  match nth_error (t_states t) (Z.to_nat s) with Some (_, l) => l | None => [] end.

Definition is_state {W} (t : transducer W) (s : Z) : Prop :=
  0 <= s < Z.of_nat (length (t_states t)).

(** tool/convert_fstfmt.py:30-43, the list [arcs] with the state of each. *)
Fixpoint tagged {W} (s : Z) (l : list (W * list (arc W))) : list (Z * arc W) :=
  match l with
  | [] => []
  | (_, a) :: l => map (pair s) a ++ tagged (s + 1) l
  end.

(** tool/convert_fstfmt.py:46, the stable sort by state and input label. *)
Definition key_le {W} (x y : Z * arc W) : bool :=
  (Datatypes.fst x <? Datatypes.fst y) ||
  ((Datatypes.fst x =? Datatypes.fst y) && (input_label (snd x) <=? input_label (snd y))).

Fixpoint insert {W} (x : Z * arc W) (l : list (Z * arc W)) : list (Z * arc W) :=
  match l with
  | [] => [x]
  | y :: l => if key_le x y then x :: y :: l else y :: insert x l
  end.

Definition sorted_arcs {W} (t : transducer W) : list (Z * arc W) :=
  fold_right insert [] (tagged 0 (t_states t)).

(** tool/convert_fstfmt.py:48-53, the position of a state's first arc, or -1. *)
Fixpoint first_index {W} (i s : Z) (l : list (Z * arc W)) : Z :=
  match l with
  | [] => -1
  | (s', _) :: l => if s' =? s then i else first_index (i + 1) s l
  end.

Fixpoint states_from (s : Z) (n : nat) : list Z :=
  match n with O => [] | S n => s :: states_from (s + 1) n end.

(** The tables of the file. *)
Definition laid_out {W} (t : transducer W) : fst W :=
  mk_fst (t_start t) (map Datatypes.fst (t_states t))
    (map (fun s => first_index 0 s (sorted_arcs t)) (states_from 0 (length (t_states t))))
    (map snd (sorted_arcs t)).

(** tool/convert_fstfmt.py:57-74; weights are 32-bit words. *)
Definition fst_file (t : transducer Z) : list Z :=
  let g := laid_out t in
  [112; 107; 58; 58; 102; 115; 116; 95; 48] ++ repeat 0 23 ++
  word (12 + 8 * Z.of_nat (length (final_ g)) + 16 * Z.of_nat (length (arcs_ g))) ++
  word (Z.of_nat (length (final_ g))) ++ word (Z.of_nat (length (arcs_ g))) ++ word (start_state g) ++
  flat_map word (final_ g) ++ flat_map word (state_idx g) ++
  flat_map (fun a => word (next_state a) ++ word (input_label a) ++ word (output_label a) ++ word (weight a))
    (arcs_ g).

(** What fits into such a file: a section below 2^31 bytes, at least one state
    and one arc. *)
Definition number_of_arcs {W} (t : transducer W) : Z :=
  Z.of_nat (length (flat_map snd (t_states t))).

Definition sized {W} (t : transducer W) : Prop :=
  12 + 8 * Z.of_nat (length (t_states t)) + 16 * number_of_arcs t <= 2147483647.

Definition fst_storable (t : transducer Z) : Prop :=
  sized t /\ 0 < number_of_arcs t /\ fits 4 (t_start t) /\
  Forall (fun st => fits 4 (Datatypes.fst st) /\
    Forall (fun a => fits 4 (next_state a) /\ fits 4 (input_label a) /\ fits 4 (output_label a) /\
                     fits 4 (weight a)) (snd st)) (t_states t).

(** The words of a file taken as weights. *)
Definition map_arc {A B} (f : A -> B) (a : arc A) : arc B :=
  mk_arc (next_state a) (input_label a) (output_label a) (f (weight a)).

Definition map_weights {A B} (f : A -> B) (t : transducer A) : transducer B :=
  mk_transducer (t_start t) (map (fun st => (f (Datatypes.fst st), map (map_arc f) (snd st))) (t_states t)).

Definition map_fst {A B} (f : A -> B) (g : fst A) : fst B :=
  mk_fst (start_state g) (map f (final_ g)) (state_idx g) (map (map_arc f) (arcs_ g)).

(** The arcs of [l] with input label [x], in order. *)
Definition labelled {W} (x : Z) (l : list (arc W)) : list (arc W) :=
  filter (fun a => input_label a =? x) l.

Fixpoint by_label {W} (l : list (arc W)) : Prop :=
  match l with
  | a :: (b :: _) as r => input_label a <= input_label b /\ by_label r
  | _ => True
  end.

(** * Back-off language models: back-off arcs are those with label 0. *)
Definition back_off_model {W} (t : transducer W) : Prop :=
  sized t /\ is_state t 0 /\ is_state t (t_start t) /\
  Forall (fun st => Forall (fun a => is_state t (next_state a) /\ 0 <= input_label a < 2147483647) (snd st))
    (t_states t).

(** Following the first back-off arcs never leads back. *)
Definition no_back_off_cycle {W} (t : transducer W) : Prop :=
  exists rank : Z -> nat, forall s b, is_state t s -> hd_error (labelled 0 (arcs_at t s)) = Some b ->
    (rank (next_state b) < rank s)%nat.

Section Scores.
Context {W : Type} (O : fops W) (t : transducer W).

(** The arc of a word in a state: its own, or that of the back-off state with
    the back-off weight added. *)
Inductive lookup_word (x : Z) : Z -> option (arc W) -> Prop :=
| own_arc : forall s a l, labelled x (arcs_at t s) = a :: l -> lookup_word x s (Some a)
| backed_off : forall s b l a, labelled x (arcs_at t s) = [] -> labelled 0 (arcs_at t s) = b :: l ->
    lookup_word x (next_state b) (Some a) ->
    lookup_word x s (Some (mk_arc (next_state a) (input_label a) (output_label a) (f_add O (weight a) (weight b))))
| backed_off_none : forall s b l, labelled x (arcs_at t s) = [] -> labelled 0 (arcs_at t s) = b :: l ->
    lookup_word x (next_state b) None -> lookup_word x s None
| no_arc : forall s, labelled x (arcs_at t s) = [] -> labelled 0 (arcs_at t s) = [] -> lookup_word x s None.

(** The final weight of a state, by back-off if it has none itself. *)
Inductive lookup_final : Z -> W -> Prop :=
| own_final : forall s f l, nth_error (t_states t) (Z.to_nat s) = Some (f, l) -> f_finite O f = true ->
    lookup_final s f
| final_backed_off : forall s f l b l' w, nth_error (t_states t) (Z.to_nat s) = Some (f, l) ->
    f_finite O f = false -> labelled 0 l = b :: l' -> lookup_final (next_state b) w ->
    f_finite O w = true -> lookup_final s (f_add O w (weight b))
| final_backed_off_none : forall s f l b l' w, nth_error (t_states t) (Z.to_nat s) = Some (f, l) ->
    f_finite O f = false -> labelled 0 l = b :: l' -> lookup_final (next_state b) w ->
    f_finite O w = false -> lookup_final s (f_inf O)
| no_final : forall s f l, nth_error (t_states t) (Z.to_nat s) = Some (f, l) ->
    f_finite O f = false -> labelled 0 l = [] -> lookup_final s (f_inf O).

(** The cost of a word sequence from a state on, and of a whole sentence. *)
Inductive words_cost : Z -> list Z -> Z -> W -> Prop :=
| no_words : forall s, words_cost s [] s (f_zero O)
| one_word : forall s x xs a s' c, lookup_word x s (Some a) -> words_cost (next_state a) xs s' c ->
    words_cost s (x :: xs) s' (f_add O (weight a) c).

Definition sentence_cost (eos s : Z) (xs : list Z) (c : W) : Prop :=
  exists s' c1 a f, words_cost s xs s' c1 /\ lookup_word eos s' (Some a) /\
    lookup_final (next_state a) f /\ c = f_add O c1 (f_add O (weight a) f).

End Scores.

(** Exact arithmetic: the laws of a commutative group. *)
Definition exact {W} (O : fops W) : Prop :=
  (forall x y z, f_add O x (f_add O y z) = f_add O (f_add O x y) z) /\
  (forall x y, f_add O x y = f_add O y x) /\
  (forall x, f_add O (f_zero O) x = x) /\
  (forall x y, f_add O (f_sub O x y) y = x) /\
  (forall x y, f_sub O (f_add O x y) y = x).

(** Walking along a word sequence with a lookup function, adding up weights. *)
Fixpoint walk {W} (O : fops W) (get : Z -> Z -> res (option (arc W))) (s : Z) (xs : list Z)
  : res (option (Z * W)) :=
  match xs with
  | [] => Ok (Some (s, f_zero O))
  | x :: xs =>
      match get s x with
      | Fault e => Fault e
      | Ok None => Ok None
      | Ok (Some a) =>
          match walk O get (next_state a) xs with
          | Ok (Some (s', c)) => Ok (Some (s', f_add O (weight a) c))
          | r => r
          end
      end
  end.

(** What the table for state 0 may hold: nothing, or what [InitBucket0] makes
    of a state 0 with at most one arc per word. *)
Definition one_arc_per_word {W} (t : transducer W) : Prop :=
  forall x, x <> 0 -> (length (labelled x (arcs_at t 0)) <= 1)%nat.

Definition table_for {W} (t : transducer W) (bucket : list (option (arc W))) : Prop :=
  bucket = [] \/ one_arc_per_word t /\ init_bucket (laid_out t) = Ok bucket.

(** The cost of words in the small model, which has one cost per word. *)
Fixpoint small_cost {W} (O : fops W) (small : list W) (xs : list Z) : W :=
  match xs with
  | [] => f_zero O
  | x :: xs => f_add O (nth (Z.to_nat x) small (f_zero O)) (small_cost O small xs)
  end.

(** The answers to a sequence of queries, by a function with a state and by one
    without. *)
Fixpoint answers {S R} (ask : S -> Z -> Z -> res (R * S)) (c : S) (qs : list (Z * Z)) : res (list R) :=
  match qs with
  | [] => Ok []
  | (s, x) :: qs => '(r, c) <- ask c s x ;; rs <- answers ask c qs ;; Ok (r :: rs)
  end.

Fixpoint plain_answers {R} (ask : Z -> Z -> res R) (qs : list (Z * Z)) : res (list R) :=
  match qs with
  | [] => Ok []
  | (s, x) :: qs => r <- ask s x ;; rs <- plain_answers ask qs ;; Ok (r :: rs)
  end.
