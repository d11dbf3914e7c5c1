(** Properties of the converter of acoustic models. Numbers are abstract: [P]
    says how they are parsed and stored, [sc] and [off] how the scale and the
    offset of a batch normalisation are computed. *)
From Coq Require Import ZArith String List.
From Verif.Base Require Import Prelude.
From Verif.Model Require Import Arith File Vector Nnet Stt Python Tools ConvertAm Formats.
From Verif.Spec Require Import TextSpec AudioSpec AmSpec FormatSpec ToolSpec NnetSpec AmTextSpec.
From Verif.Proof Require AmVerify ConvertCases.
Import ListNotations.
Open Scope Z_scope.

(** * C83: what becomes of a model *)

(** Full statement: every model whose parts fit together is converted. Missing:
    nodes that are not named like their components, see below. *)
Theorem model_converted_partial : forall N (P : py_float N) sc off nodes comps prior s (layer_of : str -> layer N) ls' prior',
  model_text (fun s x => n_parse P s = Some x) (n_zero P) sc off nodes comps prior s -> ~ In 13 s ->
  same_names nodes -> assembled layer_of nodes comps ->
  let blocks := node_blocks layer_of nodes in
  let ls := flat_map block_layers blocks in
  columns_agree None ls -> Forall2 (stored_layer (fun x w => n_pack P x = Some w)) ls ls' -> Forall storable_layer ls' ->
  Forall2 (fun x w => n_pack P x = Some w) prior prior' -> storable prior' -> moderate blocks ->
  convert_am P sc off s =
  Ok (network_file (Z.of_nat (left_context blocks)) (Z.of_nat (right_context blocks)) ls', vector_file prior').
Proof. exact @Proof.ConvertCases.converted. Qed.
Print Assumptions model_converted_partial.

(** The recognizer reads from the files what the model says. *)
Theorem converted_model_read : forall N (P : py_float N) sc off nodes comps prior s (layer_of : str -> layer N) ls' prior'
    nnet_file prior_file old,
  model_text (fun s x => n_parse P s = Some x) (n_zero P) sc off nodes comps prior s -> ~ In 13 s ->
  same_names nodes -> assembled layer_of nodes comps ->
  let blocks := node_blocks layer_of nodes in
  let ls := flat_map block_layers blocks in
  columns_agree None ls -> Forall2 (stored_layer (fun x w => n_pack P x = Some w)) ls ls' -> Forall storable_layer ls' ->
  Forall2 (fun x w => n_pack P x = Some w) prior prior' -> storable prior' -> moderate blocks ->
  convert_am P sc off s = Ok (nnet_file, prior_file) ->
  (exists f, nnet_read (open nnet_file) =
     Ok (Some (Z.of_nat (left_context blocks), Z.of_nat (right_context blocks), map known_layer ls'), f)) /\
  (exists f, vec_read old (open prior_file) = Ok (true, map Some prior', f)).
Proof. exact @Proof.ConvertCases.converted_read. Qed.
Print Assumptions converted_model_read.

(** A node may have another name than its component; the next node then names
    its input as it must, and the script stops. *)
Theorem model_converted_refuted : forall (P : py_float Z) sc off,
  n_parse P = (fun s => match py_int s with Ok n => Some n | _ => None end) -> n_zero P = 0 -> n_pack P = Some ->
  exists s nodes comps layer_of ls,
    model_text (fun s x => n_parse P s = Some x) (n_zero P) sc off nodes comps [7; 8] s /\ ~ In 13 s /\
    assembled layer_of nodes comps /\
    let blocks := node_blocks layer_of nodes in
    flat_map block_layers blocks = ls /\ columns_agree None ls /\
    Forall2 (stored_layer (fun x w => n_pack P x = Some w)) ls ls /\ Forall storable_layer ls /\
    storable [7; 8] /\ moderate blocks /\
    convert_am P sc off s = Fault Assert.
Proof. exact Proof.ConvertCases.am_names. Qed.
Print Assumptions model_converted_refuted.

(** A network that puts the frame before and the current one together, with an
    affine and a rectifying layer. *)
Example model_case : forall (P : py_float Z) sc off,
  n_parse P = (fun s => match py_int s with Ok n => Some n | _ => None end) -> n_zero P = 0 -> n_pack P = Some ->
  let ls := [Splice [-1; 0]; Narrow 1 0; Linear [[1; 5]; [2; 6]; [3; 7]; [4; 8]] [9; 3]; ReLU] in
  exists s nodes comps layer_of,
    model_text (fun s x => n_parse P s = Some x) (n_zero P) sc off nodes comps [7; 8] s /\ ~ In 13 s /\
    same_names nodes /\ assembled layer_of nodes comps /\
    let blocks := node_blocks layer_of nodes in
    flat_map block_layers blocks = ls /\ columns_agree None ls /\
    Forall2 (stored_layer (fun x w => n_pack P x = Some w)) ls ls /\ Forall storable_layer ls /\
    storable [7; 8] /\ moderate blocks /\
    convert_am P sc off s = Ok (network_file 1 0 ls, vector_file [7; 8]).
Proof. exact Proof.ConvertCases.am_case. Qed.

(** * C84: the check of the converter *)

(** A network whose parts fit together passes the check and runs on all input of
    the right width. *)
Theorem fitting_network_runs : forall F (O : fops F) c ls c', runs_on c ls c' -> (0 < c)%nat ->
  verify ls = Ok tt /\
  forall x, x <> [] -> uniform (Z.of_nat c) x ->
  exists y, nnet_propagate O ls x = Ok y /\ y <> [] /\ uniform (Z.of_nat c') y.
Proof. exact (fun F O c ls c' R C => conj (Proof.AmVerify.runs_accepted O c ls c' R C) (Proof.AmVerify.runs_ok O c ls c' R C)). Qed.
Print Assumptions fitting_network_runs.

Example fitting_network_case :
  runs_on 2 [Splice [-1; 0]; Narrow 1 0; Linear [[1; 5]; [2; 6]; [3; 7]; [4; 8]] [9; 3]; ReLU] 2.
Proof. exact Proof.ConvertCases.first_runs. Qed.

(** Full statement: a network passes the check if and only if it runs on some
    input. Missing: networks that pass and do not run, see below. *)
Theorem running_network_passes_partial : forall F (O : fops F) ls x y c, uniform c x -> 0 < c -> x <> [] ->
  nnet_propagate O ls x = Ok y -> verify ls = Ok tt.
Proof. exact (fun F O => Proof.AmVerify.verify_runs O). Qed.
Print Assumptions running_network_passes_partial.

(** The length of the bias is not checked: this model is converted, and the
    recognizer stops on every input. *)
Theorem passing_network_runs_refuted : exists s (ls : forall F, (Z -> F) -> list (layer F)),
  (forall (P : py_float Z) sc off,
     n_parse P = (fun s => match py_int s with Ok n => Some n | _ => None end) -> n_zero P = 0 -> n_pack P = Some ->
     convert_am P sc off s = Ok (network_file 0 0 (ls Z (fun z => z)), vector_file [7])) /\
  (forall F (f : Z -> F), verify (ls F f) = Ok tt) /\
  forall F (O : fops F) (f : Z -> F) x c, uniform c x -> 0 < c -> x <> [] ->
    nnet_propagate O (ls F f) x = Fault Assert.
Proof. exact Proof.ConvertCases.short_refutes. Qed.
Print Assumptions passing_network_runs_refuted.
