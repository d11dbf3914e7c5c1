(** Model of the text output of tool/convert_fstfmt.py, which shows the tables of
    a transducer to people. *)
From Coq Require Import ZArith String List Bool.
From Verif.Base Require Import Prelude.
From Verif.Model Require Import Util File Vector Stt Fst Python Tools ConvertFst.
Import ListNotations.
Open Scope Z_scope.

Section Text.
Context {N : Type}.

(** [str.format] of a Python [float], a parameter. Of an [int] it is the decimal
    number, [to_string]. *)
Variable show : N -> bytes.

(** tool/convert_fstfmt.py:83-84 and 86-87, the loop over final weights or
    indices: [for idx, x in enumerate(l): fd.write("{} -> {}\n".format(idx, x))]. *)
Definition write_table {A} (str : A -> bytes) (l : list A) (out : bytes) : res bytes :=
  '(_, out) <- for_each l (fun '(idx, out) x =>
    Ok (idx + 1, out ++ to_string idx ++ lit " -> " ++ str x ++ [10])) (0, out) ;;
  Ok out.

(** tool/convert_fstfmt.py:90. *)
Definition show_row (idx : Z) (r : arc_row N) : bytes :=
  let '(_, next, ilabel, olabel, w) := r in
  to_string idx ++ lit " -> next_state(" ++ to_string next ++ lit "), input_label(" ++ to_string ilabel ++
  lit "), output_label(" ++ to_string olabel ++ lit "), weight(" ++ show w ++ lit ")" ++ [10].

(** tool/convert_fstfmt.py:89-90. *)
Definition write_rows (l : list (arc_row N)) (out : bytes) : res bytes :=
  '(_, out) <- for_each l (fun '(idx, out) r => Ok (idx + 1, out ++ show_row idx r)) (0, out) ;;
  Ok out.

(** tool/convert_fstfmt.py:26-54 and 75-90. *)
Definition convert_fst_text (start : Z) (states : list (N * list (arc N))) : res bytes :=
  '(number, finals, rows) <- collect states ;;
  let rows := sort_rows rows in
  idx <- arc_indices number rows ;;
  _ <- check ((lenZ idx =? number) && (lenZ finals =? number)) Assert ;;
  let out := lit "state_number = " ++ to_string number ++ [10] in
  let out := out ++ lit "arc_number = " ++ to_string (lenZ rows) ++ [10] in
  let out := out ++ lit "start_state = " ++ to_string start ++ [10] in
  let out := out ++ lit "============ final =============" ++ [10] in
  out <- write_table show finals out ;;
  let out := out ++ lit "============ state_arcidx =============" ++ [10] in
  out <- write_table to_string idx out ;;
  let out := out ++ lit "============ arcs =============" ++ [10] in
  write_rows rows out.
End Text.
