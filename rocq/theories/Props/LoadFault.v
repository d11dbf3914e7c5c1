(** What makes loading crash (C74), and reading a network (C63). [crash_cause]
    in Spec/LoadFaultSpec.v lists the causes. *)
From Coq Require Import ZArith String List.
From Verif.Base Require Import Prelude.
From Verif.Model Require Import Util File Binary Arith Srfft FbankInit Formats Fst Decoder Stt SymbolTable Loading.
From Verif.Spec Require Import AudioSpec LoadFaultSpec.
From Verif.Proof Require LoadingCases LoadFault LoadFaultInit LoadFaultCases.
Import ListNotations.
Open Scope Z_scope.

(** * C74 *)

(** Full statement: [stt_init] is never a fault. Missing: what [crash_cause]
    lists, which makes it one (the theorems [load_..._refuted]). *)
Theorem load_faults_partial : forall F (O : fops F) T I junk junk_int of_word unknown files hclg why lm_fuel fn,
  (forall p c, files p = Some c -> byte_list c) ->
  forall f, stt_init O T I junk junk_int of_word unknown files hclg why lm_fuel fn = Fault f ->
    crash_cause O of_word files hclg (fbank_new O T I junk junk_int) fn f.
Proof. exact @Proof.LoadFaultInit.init_fault. Qed.
Print Assumptions load_faults_partial.

Theorem load_faults_partial_case : forall junk junk_int unknown why lm_fuel,
  (forall p c, Proof.LoadingCases.files9 (Proof.LoadingCases.changed "left_context=one") [7; 0] p = Some c -> byte_list c) /\
  Proof.LoadingCases.init9 junk junk_int unknown why lm_fuel (Proof.LoadingCases.changed "left_context=one") [7; 0]
  = Fault Throw.
Proof. exact Proof.LoadFaultCases.faults9. Qed.
Print Assumptions load_faults_partial_case.

(** * C63 *)

(** Full statement: reading a matrix or a network is never a fault. Missing:
    files with a section of the kinds in [odd_section]. *)
Theorem matrix_damage_partial : forall content f, byte_list content -> mat_read (open content) = Fault f ->
  odd_section content /\ (f = Assert \/ f = Undef).
Proof. exact Proof.LoadFaultCases.matrix_fault. Qed.
Print Assumptions matrix_damage_partial.

Theorem network_damage_partial : forall content f, byte_list content -> nnet_read (open content) = Fault f ->
  odd_section content /\ (f = Assert \/ f = Undef).
Proof. exact Proof.LoadFault.network_fault. Qed.
Print Assumptions network_damage_partial.

Theorem network_damage_partial_case :
  byte_list Proof.LoadFaultCases.bad_network /\ nnet_read (open Proof.LoadFaultCases.bad_network) = Fault Assert.
Proof. exact Proof.LoadFaultCases.bad_network_case. Qed.
Print Assumptions network_damage_partial_case.

(** * Words files *)

(** Full statement: reading words is never a fault. Missing: files with an id
    that is negative or too large. *)
Theorem words_damage_partial : forall content f, sym_read symtab_init content = Fault f ->
  odd_id content /\ (f = Throw \/ f = Undef).
Proof. exact Proof.LoadFault.words_fault. Qed.
Print Assumptions words_damage_partial.
