(** Properties of FST files, arc lookup and language models (C33-C38, FST part
    of C63). [laid_out t] are the tables of the file written for [t]. [fuel]
    bounds the depth of recursion; "[N <= fuel]" says that the recursion ends. *)
From Coq Require Import ZArith List Permutation.
From Verif.Base Require Import Prelude.
From Verif.Model Require Import File Arith Fst.
From Verif.Spec Require Import AudioSpec FormatSpec FstSpec.
From Verif.Proof Require Fst Lm ZOps.
Import ListNotations.
Open Scope Z_scope.

Theorem fst_round_trip : forall t rest e, fst_storable t ->
  exists g, fst_read (mk_file (fst_file t ++ rest) e) = Ok (Some g, mk_file rest e) /\
    start_state g = t_start t /\
    (forall s f l, 0 <= s -> nth_error (t_states t) (Z.to_nat s) = Some (f, l) -> fst_final g s = Ok f) /\
    (forall s, is_state t s -> exists l, iterate_arcs g s = Ok l /\ Permutation (arcs_at t s) l /\ by_label l /\
       forall x, labelled x l = labelled x (arcs_at t s)).
Proof. exact Proof.Fst.file_round_trip. Qed.
Print Assumptions fst_round_trip.

(** Interpreting the words of the file as weights gives the tables of the
    transducer with these weights, which the theorems below are about. *)
Theorem fst_file_as_weights : forall W (f : Z -> W) t rest e g f', fst_storable t ->
  fst_read (mk_file (fst_file t ++ rest) e) = Ok (Some g, f') -> map_fst f g = laid_out (map_weights f t).
Proof. exact Proof.Fst.file_as_weights. Qed.
Print Assumptions fst_file_as_weights.

Theorem fst_arc_lookup : forall W (t : transducer W) s x, is_state t s ->
  get_arc (laid_out t) s x = Ok (hd_error (labelled x (arcs_at t s))).
Proof. exact @Proof.Fst.laid_get. Qed.
Print Assumptions fst_arc_lookup.

(** Two arcs with the same label, a state without arcs, arcs out of order. *)
Example fst_case :
  let t := mk_transducer 1 [(0, []); (7, [mk_arc 0 5 50 500; mk_arc 1 2 20 200; mk_arc 2 5 51 501]); (8, [mk_arc 0 1 1 1])] in
  exists g, fst_read (open (fst_file t)) = Ok (Some g, mk_file [] false) /\
    iterate_arcs g 1 = Ok [mk_arc 1 2 20 200; mk_arc 0 5 50 500; mk_arc 2 5 51 501] /\
    iterate_arcs g 0 = Ok [] /\ get_arc g 1 5 = Ok (Some (mk_arc 0 5 50 500)) /\ get_arc g 1 3 = Ok None /\
    get_arc g 2 1 = Ok (Some (mk_arc 0 1 1 1)).
Proof. exact (ex_intro _ _ (conj eq_refl (conj eq_refl (conj eq_refl (conj eq_refl (conj eq_refl eq_refl)))))). Qed.

(** Full statement: as for vectors, no byte sequence makes the reader fail
    otherwise than with an error status. *)
Theorem fst_damage_partial : forall f x, byte_list (f_rest f) -> fst_read f = Fault x ->
  exists name size s a st rest, f_rest f = name ++ word size ++ word s ++ word a ++ word st ++ rest /\
    length name = 32%nat /\ fits 4 s /\ fits 4 a /\ (s < 0 \/ a < 0 \/ 536870912 <= s \/ 134217728 <= a).
Proof. exact Proof.Fst.fst_read_fault. Qed.
Print Assumptions fst_damage_partial.

Theorem fst_damage_refuted :
  fst_read (open ([112; 107; 58; 58; 102; 115; 116; 95; 48] ++ repeat 0 23 ++ word 4 ++ word 1 ++ word (-1) ++ word 0
                  ++ word 0 ++ word 0)) = Fault Throw.
Proof. exact Proof.Fst.fst_read_crash. Qed.
Print Assumptions fst_damage_refuted.

Theorem lm_back_off : forall W (O : fops W) t, back_off_model t -> no_back_off_cycle t ->
  forall bucket, table_for t bucket ->
  forall s x, is_state t s -> x <> 0 -> -2147483648 <= x <= 2147483647 ->
  exists r N, lookup_word O t x s r /\ forall fuel, (N <= fuel)%nat -> lm_get_arc O fuel (laid_out t) bucket s x = Ok r.
Proof. exact @Proof.Lm.lookup_with_table. Qed.
Print Assumptions lm_back_off.

Theorem lm_back_off_unique : forall W (O : fops W) t x s r1 r2,
  lookup_word O t x s r1 -> lookup_word O t x s r2 -> r1 = r2.
Proof. exact @Proof.Lm.lookup_unique. Qed.
Print Assumptions lm_back_off_unique.

Theorem lm_final_back_off : forall W (O : fops W) t, back_off_model t -> no_back_off_cycle t ->
  forall s, is_state t s ->
  exists w N, lookup_final O t s w /\ forall fuel, (N <= fuel)%nat -> lm_final O fuel (laid_out t) s = Ok w.
Proof. exact @Proof.Lm.back_off_final. Qed.
Print Assumptions lm_final_back_off.

Theorem lm_state0_table : forall W (O : fops W) t, back_off_model t -> one_arc_per_word t ->
  exists bucket, init_bucket (laid_out t) = Ok bucket /\
  forall fuel s x, -2147483648 <= x <= 2147483647 ->
  lm_get_arc O fuel (laid_out t) bucket s x = lm_get_arc O fuel (laid_out t) [] s x.
Proof. exact @Proof.Lm.bucket_transparent. Qed.
Print Assumptions lm_state0_table.

(** From state 2 the word 1 is found in state 0: 3 plus the back-off cost 7. *)
Example lm_case : back_off_model Proof.Lm.example_lm /\ no_back_off_cycle Proof.Lm.example_lm /\
  one_arc_per_word Proof.Lm.example_lm /\
  exists bucket, init_bucket (laid_out Proof.Lm.example_lm) = Ok bucket /\
    lm_get_arc Proof.ZOps.zops 2 (laid_out Proof.Lm.example_lm) bucket 2 1 = Ok (Some (mk_arc 1 1 1 10)) /\
    lm_get_arc Proof.ZOps.zops 1 (laid_out Proof.Lm.example_lm) bucket 1 2 = Ok (Some (mk_arc 2 2 2 2)) /\
    lm_final Proof.ZOps.zops 2 (laid_out Proof.Lm.example_lm) 2 = Ok 1000000.
Proof.
  exact (conj Proof.Lm.example_wf (conj Proof.Lm.example_acyclic (conj Proof.Lm.example_one
    (ex_intro _ _ (conj eq_refl (conj eq_refl (conj eq_refl eq_refl))))))).
Qed.

(** Full statement: for all histories of queries with non-negative states.
    Missing: states above about 69 million, whose hash overflows. *)
Theorem lm_cache_partial : forall W (O : fops W) (d : delta_lm W) depth n qs, 1 <= n <= 2147483647 ->
  Forall (fun q => 0 <= Datatypes.fst q /\ 0 <= snd q /\ (589 + Datatypes.fst q) * 31 + snd q <= 2147483647) qs ->
  exists c, new_cache n = Ok c /\
    answers (cached_get_arc (delta_get_arc O depth d)) c qs = plain_answers (delta_get_arc O depth d) qs.
Proof. exact (fun W O d depth => Proof.Lm.cache_transparent _ (Proof.Lm.delta_label O depth d)). Qed.
Print Assumptions lm_cache_partial.

Theorem lm_cache_refuted : forall W (query : Z -> Z -> res (option (arc W))) n x, 1 <= n ->
  exists c, new_cache n = Ok c /\ cached_get_arc query c 69274000 x = Fault Undef.
Proof. exact @Proof.Lm.cache_overflow. Qed.
Print Assumptions lm_cache_refuted.

Theorem delta_sentence_score : forall W (O : fops W) t, back_off_model t -> exact O ->
  forall d, big_lm d = laid_out t -> table_for t (big_bucket d) ->
  forall a xs c, lookup_word O t (bos_symbol d) (t_start t) (Some a) ->
  bos_symbol d <> 0 -> -2147483648 <= bos_symbol d <= 2147483647 ->
  sentence_cost O t (eos_symbol d) (next_state a) xs c ->
  Forall (fun x => 0 < x < lenZ (small_lm d) /\ x <= 2147483647) (xs ++ [eos_symbol d]) ->
  exists N s' e f, f_add O (f_add O e f) (small_cost O (small_lm d) (xs ++ [eos_symbol d])) = c /\
  forall fuel, (N <= fuel)%nat ->
    delta_start O fuel d = Ok (next_state a) /\
    walk O (delta_get_arc O fuel d) (next_state a) xs = Ok (Some (s', e)) /\ delta_final O fuel d s' = Ok f.
Proof. exact @Proof.Lm.sentence. Qed.
Print Assumptions delta_sentence_score.

Theorem delta_missing_word : forall W (O : fops W) t, back_off_model t ->
  forall d, big_lm d = laid_out t -> table_for t (big_bucket d) ->
  forall s x, is_state t s -> x <> 0 -> -2147483648 <= x <= 2147483647 -> lookup_word O t x s None ->
  exists N, forall fuel, (N <= fuel)%nat ->
    delta_get_arc O fuel d s x = Ok None /\ (x = eos_symbol d -> delta_final O fuel d s = Ok (f_inf O)).
Proof. exact @Proof.Lm.missing_word. Qed.
Print Assumptions delta_missing_word.

(** The sentence "2 1": costs 2, 7+3 and for its end 1+4+0 in the large model,
    and 10, 20, 30 in the small one. *)
Example delta_case :
  let d := mk_delta [0; 20; 10; 30] (laid_out Proof.Lm.example_lm) [] 4 3 in
  delta_start Proof.ZOps.zops 9 d = Ok 1 /\
  walk Proof.ZOps.zops (delta_get_arc Proof.ZOps.zops 9 d) 1 [2; 1] = Ok (Some (1, 2 - 10 + (7 + 3 - 20))) /\
  delta_final Proof.ZOps.zops 9 d 1 = Ok (1 + 4 + 0 - 30).
Proof. exact (conj eq_refl (conj eq_refl eq_refl)). Qed.
