(** Model of tool/convert_fstfmt.py: a transducer of OpenFst becomes a file for
    the recognizer. The transducer is what pywrapfst returns for it: the start
    state, and for each state from 0 on its final weight and its arcs. The text
    output is in Model/ConvertFstText.v. What is left of a file when writing
    stops half-way is not modelled. *)
From Coq Require Import ZArith String List Bool.
From Verif.Base Require Import Prelude.
From Verif.Model Require Import Util File Vector Stt Fst Python Tools.
Import ListNotations.
Open Scope Z_scope.

(** tool/convert_fstfmt.py:38-43, an element of the list [arcs]: the state and
    what its arc says. *)
Definition arc_row (N : Type) : Type := Z * Z * Z * Z * N.
Definition row_state {N} (r : arc_row N) : Z := let '(s, _, _, _, _) := r in s.
Definition row_label {N} (r : arc_row N) : Z := let '(_, _, i, _, _) := r in i.

(** [l[i]]: negative indices count from the end. *)
Definition py_get {A} (l : list A) (i : Z) : res A :=
  let j := if i <? 0 then i + lenZ l else i in
  if 0 <=? j then match nth_error l (Z.to_nat j) with Some x => Ok x | None => Fault Throw end else Fault Throw.

Section Convert.
Context {N : Type}.
Variable P : py_float N.

(** tool/convert_fstfmt.py:26-43, the loop over the states: their number, the
    final weights and the arcs. A weight object counts as true in line 32
    whatever its value, so that line 35 is never reached; the weight of a state
    that is not final is infinite by itself. *)
Definition collect (states : list (N * list (arc N))) : res (Z * list N * list (arc_row N)) :=
  for_each states (fun '(number, finals, rows) '(final, arcs) =>
    rows <- for_each arcs (fun rows a =>
      Ok (rows ++ [(number, next_state a, input_label a, output_label a, weight a)])) rows ;;
    Ok (number + 1, finals ++ [final], rows)) (0, [], []).

(** tool/convert_fstfmt.py:46: [list.sort] is stable; here, every element is
    inserted behind those with the same or a smaller key. *)
Definition row_before (x y : arc_row N) : bool :=
  (row_state x <? row_state y) || ((row_state x =? row_state y) && (row_label x <? row_label y)).
Fixpoint insert_row (x : arc_row N) (l : list (arc_row N)) : list (arc_row N) :=
  match l with
  | [] => [x]
  | y :: l' => if row_before x y then x :: l else y :: insert_row x l'
  end.
Definition sort_rows (l : list (arc_row N)) : list (arc_row N) := fold_left (fun l x => insert_row x l) l [].

(** tool/convert_fstfmt.py:48-53. *)
Definition arc_indices (number : Z) (rows : list (arc_row N)) : res (list Z) :=
  '(_, idx) <- for_each rows (fun '(i, idx) r =>
    old <- py_get idx (row_state r) ;;
    idx <- (if old =? -1 then py_set idx (row_state r) i else Ok idx) ;;
    Ok (i + 1, idx)) (0, repeat (-1) (Z.to_nat number)) ;;
  Ok idx.

(** tool/convert_fstfmt.py:74. *)
Definition write_row (r : arc_row N) : res bytes :=
  let '(_, next, ilabel, olabel, w) := r in
  b1 <- pack_int next ;; b2 <- pack_int ilabel ;; b3 <- pack_int olabel ;; b4 <- pack_float P w ;;
  Ok (b1 ++ b2 ++ b3 ++ b4).

(** tool/convert_fstfmt.py:26-74. *)
Definition convert_fst (start : Z) (states : list (N * list (arc N))) : res bytes :=
  '(number, finals, rows) <- collect states ;;
  let rows := sort_rows rows in
  idx <- arc_indices number rows ;;
  _ <- check ((lenZ idx =? number) && (lenZ finals =? number)) Assert ;;
  size <- pack_int (12 + 8 * lenZ finals + 16 * lenZ rows) ;;
  states <- pack_int number ;;
  arcs <- pack_int (lenZ rows) ;;
  start <- pack_int start ;;
  finals <- write_all (pack_float P) finals ;;
  idx <- write_all pack_int idx ;;
  rows <- write_all write_row rows ;;
  Ok (lit "pk::fst_0" ++ repeat 0 23 ++ size ++ states ++ arcs ++ start ++ finals ++ idx ++ rows).
End Convert.
