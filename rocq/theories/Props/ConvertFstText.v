(** The text output of the converter of transducers (C114). Weights are abstract:
    [show] says how they look. *)
From Coq Require Import ZArith String List.
From Verif.Base Require Import Prelude.
From Verif.Model Require Import Fst Stt ConvertFstText.
From Verif.Spec Require Import TextSpec FstSpec ConvertTextSpec.
From Verif.Proof Require ConvertFst ConvertFstText.
Import ListNotations.
Open Scope Z_scope.

(** The text shows the tables of the binary file (C88), whatever their numbers. *)
Theorem graph_text : forall N (show : N -> bytes) (t : transducer N),
  exists lines, tables_text (fun x s => s = show x) (laid_out t) lines /\
    convert_fst_text show (t_start t) (t_states t) = Ok (concat (map (fun l => l ++ [10]) lines)).
Proof. exact Proof.ConvertFstText.text_says. Qed.
Print Assumptions graph_text.

(** Transducers with the same text are the same but for the order of arcs with
    different labels. *)
Theorem graph_text_tells : forall N (show : N -> bytes) (t u : transducer N),
  (forall x y, show x = show y -> x = y) -> (forall x, ~ In 10 (show x)) ->
  convert_fst_text show (t_start t) (t_states t) = convert_fst_text show (t_start u) (t_states u) ->
  t_start t = t_start u /\ map Datatypes.fst (t_states t) = map Datatypes.fst (t_states u) /\
  forall s x, is_state t s -> labelled x (arcs_at t s) = labelled x (arcs_at u s).
Proof. exact Proof.ConvertFstText.text_tells. Qed.
Print Assumptions graph_text_tells.

Example graph_text_case :
  convert_fst_text to_string (t_start Proof.ConvertFst.graph2) (t_states Proof.ConvertFst.graph2)
  = Ok (concat (map (fun l => l ++ [10])
      [lit "state_number = 2"; lit "arc_number = 4"; lit "start_state = 1"; lit "============ final =============";
       lit "0 -> 9"; lit "1 -> 3"; lit "============ state_arcidx ============="; lit "0 -> 0"; lit "1 -> 1";
       lit "============ arcs =============";
       lit "0 -> next_state(1), input_label(4), output_label(5), weight(6)";
       lit "1 -> next_state(1), input_label(2), output_label(8), weight(-2)";
       lit "2 -> next_state(0), input_label(7), output_label(0), weight(1)";
       lit "3 -> next_state(0), input_label(7), output_label(3), weight(4)"])).
Proof. exact Proof.ConvertFstText.case_text. Qed.

Example graph_text_tells_case :
  (forall x y, to_string x = to_string y -> x = y) /\ (forall x, ~ In 10 (to_string x)).
Proof. exact Proof.ConvertFstText.show_number. Qed.

Example graph_text_same_case : Proof.ConvertFst.graph2 <> Proof.ConvertFstText.graph2_swapped /\
  convert_fst_text to_string (t_start Proof.ConvertFst.graph2) (t_states Proof.ConvertFst.graph2) =
  convert_fst_text to_string (t_start Proof.ConvertFstText.graph2_swapped) (t_states Proof.ConvertFstText.graph2_swapped).
Proof. exact Proof.ConvertFstText.case_same. Qed.
