(** C01-C03: the hash table. *)
From Coq Require Import ZArith List Bool Lia.
From Verif.Base Require Import Prelude.
From Verif.Spec Require Import MapSpec.
From Verif.Model Require Import HashTable.
From Verif.Proof Require Import HashTableTotal.
Import ListNotations.
Open Scope Z_scope.

(** C01. Whatever the history, a run either gives exactly the answers of a map
    or stops with undefined behaviour (the squares of the probe loop leave the
    range of int); no assertion fails and no loop is cut off. *)
Theorem hash_table_is_a_map :
  forall (K V : Type) (keq : K -> K -> bool),
  (forall a b, keq a b = true <-> a = b) ->
  forall (hash : K -> Z) (cap : Z) (h : list (op K V)),
  cap <= 2147483647 ->
  match run_from keq hash cap h with
  | Ok (_, outs) => outs = answers keq [] h
  | Fault f => f = Undef
  end.
Proof. exact run_from_map. Qed.
Print Assumptions hash_table_is_a_map.

Example hash_table_is_a_map_case :
  match int_run_from 5 [OInsert 3 30; OInsert 8 80; OInsert 13 130; OInsert 8 81;
                        OInsert 18 180; OFind 8 0; OFind 3 0; OFind 99 (-7); OClear;
                        OFind 8 0] with
  | Ok (t, outs) => outs = [81; 30; -7; 0] /\ t_bucket_size t = 11
  | Fault _ => False
  end.
Proof. vm_compute. auto. Qed.

(** C02. Insertion into a reachable table with an odd bucket count up to 46340
    completes. *)
Theorem hash_table_insert_completes :
  forall (K V : Type) (keq : K -> K -> bool),
  (forall a b, keq a b = true <-> a = b) ->
  forall (hash : K -> Z) (cap : Z) (h : list (op K V)) (t : table K V) (outs : list V) k v,
  run_from keq hash cap h = Ok (t, outs) ->
  t_bucket_size t <> 2 -> t_bucket_size t <= 46340 ->
  exists t', insert keq hash t k v = Ok t'.
Proof. exact insert_completes_small. Qed.
Print Assumptions hash_table_insert_completes.

Example hash_table_insert_completes_case :
  match int_run_from 5 [OInsert 5 1; OInsert 10 2; OInsert 15 3] with
  | Ok (t, _) => t_bucket_size t = 5
  | Fault _ => False
  end.
Proof. vm_compute. reflexivity. Qed.

(** Outside that range insertion does not always complete: with two buckets
    the third key (all even) makes the squares overflow. *)
Theorem hash_table_insert_two_buckets_refuted :
  exists cap h, int_run_from cap h = Fault Undef /\
    h = [OInsert 0 1; OInsert 2 2; OInsert 4 3] /\ cap = 2.
Proof. exact insert_two_buckets_refuted. Qed.
Print Assumptions hash_table_insert_two_buckets_refuted.

(** C03. The claim is that looking up an absent key completes in every
    reachable table. It is false: *)
Theorem hash_table_find_absent_refuted :
  exists cap h t outs k d,
    int_run_from cap h = Ok (t, outs) /\
    value_of Z.eqb (rev h) k = None /\
    find Z.eqb int_hash t k d = Fault Undef.
Proof. exact find_absent_refuted. Qed.
Print Assumptions hash_table_find_absent_refuted.

(** What holds: Find completes, with the right answer, on every reachable
    table with fewer than 32767 entries which is at most half full or has a
    bucket count of the form 4k+3 up to 46340 (the default capacity, 1024,
    starts with such a one). Missing: tables just over half full with another
    bucket count, and tables with 32767 entries or more. *)
Theorem hash_table_find_completes_partial :
  forall (K V : Type) (keq : K -> K -> bool),
  (forall a b, keq a b = true <-> a = b) ->
  forall (hash : K -> Z) (cap : Z) (h : list (op K V)) (t : table K V) (outs : list V) k d,
  run_from keq hash cap h = Ok (t, outs) ->
  t_bucket_size t <> 2 -> t_bucket_size t <= 1073741827 ->
  Z.of_nat (entries keq (rev h)) < 32767 ->
  (2 * Z.of_nat (entries keq (rev h)) <= t_bucket_size t \/
   t_bucket_size t <= 46340 /\ t_bucket_size t mod 4 = 3) ->
  find keq hash t k d =
    Ok (match value_of keq (rev h) k with Some v => v | None => d end).
Proof. exact find_completes. Qed.
Print Assumptions hash_table_find_completes_partial.

Example hash_table_find_completes_case :
  match int_run_from 1024 [OInsert 5 1; OInsert 1036 2; OInsert 2067 3] with
  | Ok (t, _) => t_bucket_size t = 1031 /\ t_bucket_size t mod 4 = 3
  | Fault _ => False
  end.
Proof. vm_compute. auto. Qed.

(** Total correctness of whole histories that stay within these bounds: every
    call completes and the answers are those of a map. *)
Theorem hash_table_total_partial :
  forall (K V : Type) (keq : K -> K -> bool),
  (forall a b, keq a b = true <-> a = b) ->
  forall (hash : K -> Z) (cap : Z) (h : list (op K V)),
  3 <= cap <= 1073741827 ->
  each (fun past o =>
          match o with
          | OInsert _ _ => Z.of_nat (entries keq past) < 32767
          | OFind k _ => value_of keq past k <> None \/
                         (Z.of_nat (entries keq past) < 32767 /\
                          2 * Z.of_nat (entries keq past) <= cap)
          | OClear => True
          end) [] h ->
  exists t, run_from keq hash cap h = Ok (t, answers keq [] h).
Proof. exact run_from_calm. Qed.
Print Assumptions hash_table_total_partial.

Example hash_table_total_case :
  each (fun past o =>
          match o with
          | OInsert _ _ => Z.of_nat (entries Z.eqb past) < 32767
          | OFind k _ => value_of Z.eqb past k <> None \/
                         (Z.of_nat (entries Z.eqb past) < 32767 /\
                          2 * Z.of_nat (entries Z.eqb past) <= 5)
          | OClear => True
          end) [] [OInsert 5 1; OInsert 10 2; OFind 15 0; OInsert 15 3; OInsert 20 4;
                   OFind 20 0; OClear; OFind 5 9].
Proof. cbn. repeat split; auto; try lia; try (left; discriminate); right; split; lia. Qed.
