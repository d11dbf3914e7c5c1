(** Properties of the converter of transducers (C88). Weights are abstract: [P]
    says how they are stored. *)
From Coq Require Import ZArith List.
From Verif.Base Require Import Prelude.
From Verif.Model Require Import File Fst Python Tools ConvertFst.
From Verif.Spec Require Import AudioSpec FormatSpec FstSpec ConvertFstSpec.
From Verif.Proof Require ConvertFst.
Import ListNotations.
Open Scope Z_scope.

(** The script writes a file exactly if all numbers fit into 32 bits, and then
    the file of the transducer with its weights as words. *)
Theorem graph_converted : forall N (P : py_float N) t t', packed (n_pack P) t t' -> fst_fits t' ->
  convert_fst P (t_start t) (t_states t) = Ok (fst_file t').
Proof. exact (fun N P => Proof.ConvertFst.converted P). Qed.
Print Assumptions graph_converted.

Theorem graph_converted_only : forall N (P : py_float N) t,
  (forall t', packed (n_pack P) t t' -> ~ fst_fits t') -> convert_fst P (t_start t) (t_states t) = Fault Throw.
Proof. exact (fun N P => Proof.ConvertFst.converted_only P). Qed.
Print Assumptions graph_converted_only.

(** The recognizer reads the same transducer, as long as it has an arc: the
    start state, the final weights, and the arcs of every state, ordered by
    label and otherwise as they were. *)
Theorem converted_graph_read_partial : forall N (P : py_float N) t file rest e,
  convert_fst P (t_start t) (t_states t) = Ok file -> 0 < number_of_arcs t ->
  exists g, fst_read (mk_file (file ++ rest) e) = Ok (Some g, mk_file rest e) /\
    start_state g = t_start t /\
    forall s f l, 0 <= s -> nth_error (t_states t) (Z.to_nat s) = Some (f, l) ->
      (exists w, n_pack P f = Some w /\ fst_final g s = Ok w) /\
      exists l', iterate_arcs g s = Ok l' /\ length l' = length l /\ by_label l' /\
        forall x, Forall2 (packed_arc (n_pack P)) (labelled x l) (labelled x l').
Proof. exact Proof.ConvertFst.converted_read. Qed.
Print Assumptions converted_graph_read_partial.

(** A transducer without arcs is converted and then refused. *)
Theorem converted_graph_read_refuted : exists t : transducer Z, forall P : py_float Z, n_pack P = Some ->
  exists file f, convert_fst P (t_start t) (t_states t) = Ok file /\ fst_read (open file) = Ok (None, f).
Proof. exact (ex_intro _ Proof.ConvertFst.no_arcs Proof.ConvertFst.no_arcs_fails). Qed.
Print Assumptions converted_graph_read_refuted.

Example graph_case : packed Some Proof.ConvertFst.graph2 Proof.ConvertFst.graph2 /\ fst_fits Proof.ConvertFst.graph2 /\
  0 < number_of_arcs Proof.ConvertFst.graph2.
Proof. exact (conj (Proof.ConvertFst.packed_same _) (conj Proof.ConvertFst.graph2_fits eq_refl)). Qed.
