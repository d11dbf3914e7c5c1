(** Model of src/hashtable.h and src/hashtable.cc. *)
From Coq Require Import ZArith List Bool Lia.
From Verif.Base Require Import Prelude ZMap.
From Verif.Spec Require Import MapSpec.
Import ListNotations.
Open Scope Z_scope.

(** src/hashtable.cc:8-41, [gPrimeNumbers]. *)
Definition primes : list Z :=
  [2; 2; 5; 11; 17; 37; 67; 131; 257; 521; 1031; 2053; 4099; 8209; 16411;
   32771; 65537; 131101; 262147; 524309; 1048583; 2097169; 4194319; 8388617;
   16777259; 33554467; 67108879; 134217757; 268435459; 536870923; 1073741827;
   2147483647].

Section HashTable.
  Variables K V : Type.
  Variable keq : K -> K -> bool.   (* K's operator== *)
  Variable hash : K -> Z.          (* the overload of hash(), hashtable.h:18, decoder.h:190 *)

  (** src/hashtable.h:96-108, the members. [buckets_] and [empty_] are one
      map: an index without entry is a slot with [empty_[i] == true]. The
      content of an empty slot is never read by the code, so it is not kept. *)
  Record table : Type := mk_table {
    t_slots : zmap (K * V);
    t_bucket_size : Z;
    t_prime_idx : Z;
    t_size : Z
  }.

  (** src/hashtable.h:113-124, [NearestPrimeIdx]. *)
  Fixpoint nearest_prime_from (idx : Z) (l : list Z) (num : Z) : res Z :=
    match l with
    | [] => Fault Assert
    | p :: r => if num <=? p then Ok idx else nearest_prime_from (idx + 1) r num
    end.
  Definition nearest_prime_idx (num : Z) : res Z :=
    _ <- check (num <=? 2147483647) Assert ;;
    nearest_prime_from 0 primes num.

  (** src/hashtable.h:34-40, the constructor (with [CreateBuckets],
      lines 127-133: all slots empty). *)
  Definition create (initial_cap : Z) : res table :=
    idx <- nearest_prime_idx initial_cap ;;
    p <- getZ primes idx ;;
    Ok (mk_table zempty p idx 0).

  (** src/hashtable.h:144-149: index probed for one sign. The additions are on
      [int]: leaving its range is undefined. *)
  Definition probe_index (hashval sq sign size : Z) : res Z :=
    let sum := hashval + (if sign =? -1 then - sq else sq) in
    _ <- check (in_int32 sum) Undef ;;
    let idx := Z.rem sum size in
    Ok (if idx <? 0 then idx + size else idx).

  (** src/hashtable.h:151-152: does the probe sequence stop at [idx]? *)
  Definition stops_at (slots : zmap (K * V)) (idx : Z) (key : K) : bool :=
    match zget slots idx with
    | None => true
    | Some (k, _) => keq k key
    end.

  (** src/hashtable.h:140-154: the probe loop from counter [i] on. *)
  Fixpoint probe (fuel : nat) (slots : zmap (K * V)) (size hashval : Z)
           (key : K) (i : Z) : res Z :=
    match fuel with
    | O => Fault Fuel
    | S fuel =>
        _ <- check (i <? 65536) Assert ;;
        let squared := i * i in
        _ <- check (in_int32 squared) Undef ;;
        idx1 <- probe_index hashval squared (-1) size ;;
        if stops_at slots idx1 key then Ok idx1 else
        idx2 <- probe_index hashval squared 1 size ;;
        if stops_at slots idx2 key then Ok idx2 else
        probe fuel slots size hashval key (i + 1)
    end.

  (** Iterations the loop of [Lookup] can make before the assertion on line 141
      stops it; never the reason for an outcome ([probe_undef] in Proof). *)
  Definition probe_fuel : nat := Z.to_nat 65537.

  (** src/hashtable.h:138-155, [Lookup]. *)
  Definition lookup (slots : zmap (K * V)) (size : Z) (key : K) : res Z :=
    probe probe_fuel slots size (Z.rem (hash key) size) key 1.

  (** src/hashtable.h:166-177: move the entries of the slots [idxs] into the
      new array. *)
  Fixpoint rehash (idxs : list Z) (old new : zmap (K * V)) (new_size : Z)
    : res (zmap (K * V)) :=
    match idxs with
    | [] => Ok new
    | i :: r =>
        match zget old i with
        | None => rehash r old new new_size
        | Some (k, v) =>
            idx <- lookup new new_size k ;;
            _ <- check (match zget new idx with None => true | Some _ => false end)
                       Assert ;;
            rehash r old (zset new idx (k, v)) new_size
        end
    end.

  (** src/hashtable.h:157-190, [ExtendBuckets]. *)
  Definition extend (t : table) : res table :=
    new_size <- getZ primes (t_prime_idx t + 1) ;;
    slots <- rehash (seqZ 0 (Z.to_nat (t_bucket_size t))) (t_slots t) zempty new_size ;;
    Ok (mk_table slots new_size (t_prime_idx t + 1) (t_size t)).

  (** src/hashtable.h:56-74, [Insert]. The comparison of the double quotient
      size_/bucket_size_ with 0.5 is exact for ints: written with integers. *)
  Definition insert (t : table) (key : K) (value : V) : res table :=
    t <- (if t_bucket_size t <? 2 * t_size t then extend t else Ok t) ;;
    idx <- lookup (t_slots t) (t_bucket_size t) key ;;
    match zget (t_slots t) idx with
    | None =>
        Ok (mk_table (zset (t_slots t) idx (key, value)) (t_bucket_size t)
                     (t_prime_idx t) (t_size t + 1))
    | Some (k, _) =>
        _ <- check (keq k key) Assert ;;
        Ok (mk_table (zset (t_slots t) idx (k, value)) (t_bucket_size t)
                     (t_prime_idx t) (t_size t))
    end.

  (** src/hashtable.h:78-86, [Find]. *)
  Definition find (t : table) (key : K) (default_val : V) : res V :=
    idx <- lookup (t_slots t) (t_bucket_size t) key ;;
    match zget (t_slots t) idx with
    | None => Ok default_val
    | Some (k, v) =>
        _ <- check (keq k key) Assert ;;
        Ok v
    end.

  (** src/hashtable.h:89-94, [Clear]. *)
  Definition clear (t : table) : table :=
    mk_table zempty (t_bucket_size t) (t_prime_idx t) 0.

  (** Running a history of calls; the answers of the finds are collected. *)
  Fixpoint run (t : table) (h : list (op K V)) : res (table * list V) :=
    match h with
    | [] => Ok (t, [])
    | OInsert k v :: r => t <- insert t k v ;; run t r
    | OFind k d :: r =>
        v <- find t k d ;;
        '(t, vs) <- run t r ;;
        Ok (t, v :: vs)
    | OClear :: r => run (clear t) r
    end.

  Definition run_from (cap : Z) (h : list (op K V)) : res (table * list V) :=
    t <- create cap ;; run t h.
End HashTable.

Arguments mk_table {K V}.
Arguments t_slots {K V}.
Arguments t_bucket_size {K V}.
Arguments t_prime_idx {K V}.
Arguments t_size {K V}.
Arguments create {K V} initial_cap.
Arguments stops_at {K V} keq slots idx key.
Arguments probe {K V} keq fuel slots size hashval key i.
Arguments lookup {K V} keq hash slots size key.
Arguments rehash {K V} keq hash idxs old new new_size.
Arguments extend {K V} keq hash t.
Arguments insert {K V} keq hash t key value.
Arguments find {K V} keq hash t key default_val.
Arguments clear {K V} t.
Arguments run {K V} keq hash t h.
Arguments run_from {K V} keq hash cap h.

(** src/hashtable.h:18-20, [hash] on [int32_t], with [==] on ints: the
    instance the tests and the API use. *)
Definition int_hash (x : Z) : Z := x.
Definition int_run_from (cap : Z) (h : list (op Z Z)) : res (table Z Z * list Z) :=
  run_from Z.eqb int_hash cap h.
