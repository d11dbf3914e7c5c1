(** Reading whole graph files. *)
From Coq Require Import ZArith String List Bool Lia.
From Verif.Base Require Import Prelude Lemmas.
From Verif.Model Require Import Util File Binary Fst Decoder Stt ConstFst.
From Verif.Spec Require Import AudioSpec FormatSpec FstSpec ConstFstSpec.
From Verif.Proof Require Import Binary ConstFst.
Import ListNotations.
Open Scope Z_scope.
Ltac Zify.zify_post_hook ::= Z.div_mod_to_equations.

(** ** Regions *)
Lemma region_fwd : forall fuel size s b rest, lenZ b = size -> st_failed s = false -> st_rest s = b ++ rest ->
  (length (st_rest s) < fuel)%nat -> region_loop fuel size s = Ok (Some b, behind b rest s).
Proof.
  induction fuel as [|fuel IH]; intros size s b rest L F E Hf; [lia|]. cbn [region_loop]. unfold lenZ in L.
  destruct (Z.leb_spec size 0).
  - destruct b as [|x b]; [|cbn [length] in L; lia]. destruct s as [r p f]. cbn in *. subst. unfold behind, lenZ. cbn.
    rewrite Z.add_0_r. reflexivity.
  - set (n := Z.min size 268435456). assert (N : 0 < n <= size) by (unfold n; lia). clearbody n.
    assert (E' : st_rest s = firstn (Z.to_nat n) b ++ (skipn (Z.to_nat n) b ++ rest))
      by (rewrite app_assoc, firstn_skipn; exact E).
    assert (Ln : lenZ (firstn (Z.to_nat n) b) = n) by (unfold lenZ; rewrite firstn_length; lia).
    rewrite (read_fwd _ s _ n F E' Ln). cbn [behind st_failed].
    rewrite (IH (size - n) _ (skipn (Z.to_nat n) b) rest); cbn [behind st_failed st_rest]; auto.
    + cbn [bind option_map]. rewrite firstn_skipn. unfold behind. cbn [st_pos]. do 3 f_equal.
      rewrite Ln. unfold lenZ. rewrite skipn_length. lia.
    + unfold lenZ. rewrite skipn_length. lia.
    + rewrite E in Hf. rewrite app_length in *. rewrite skipn_length. lia.
Qed.

Lemma region_inv : forall fuel size s b s', 0 <= size -> region_loop fuel size s = Ok (Some b, s') -> st_failed s' = false ->
  took s b s' /\ lenZ b = size.
Proof.
  induction fuel as [|fuel IH]; intros size s b s' P E F; cbn [region_loop] in E.
  - destruct (Z.leb_spec size 0); [|discriminate E]. injection E as <- <-. split; [apply took_nil; exact F|]. unfold lenZ. cbn. lia.
  - destruct (Z.leb_spec size 0).
    + injection E as <- <-. split; [apply took_nil; exact F|]. unfold lenZ. cbn. lia.
    + set (n := Z.min size 268435456) in *. assert (N : 0 < n <= size) by (unfold n; lia). clearbody n.
      destruct (st_read n s) as [got s1] eqn:R. destruct (st_failed s1) eqn:F1; [discriminate E|].
      destruct (region_loop fuel (size - n) s1) as [[more s2]|f] eqn:E2; cbn [bind] in E; [|discriminate E].
      destruct more as [more|]; cbn [option_map] in E; [|discriminate E]. injection E as <- <-.
      destruct (IH (size - n) s1 more s2 ltac:(lia) E2 F) as [T2 L2].
      destruct (read_inv n s got s1 ltac:(lia) R F1) as [T1 L1].
      split; [exact (took_app _ _ _ _ _ T1 T2)|]. rewrite lenZ_app. lia.
Qed.

Lemma region_ends : forall fuel size s, (length (st_rest s) < fuel)%nat -> exists r, region_loop fuel size s = Ok r.
Proof.
  induction fuel as [|fuel IH]; intros size s L; [lia|]. cbn [region_loop]. destruct (Z.leb_spec size 0); [eauto|].
  set (n := Z.min size 268435456) in *. assert (N : 0 < n <= size) by (unfold n; lia). clearbody n.
  destruct (st_read n s) as [got s1] eqn:R. destruct (st_failed s1) eqn:F1; [eauto|].
  destruct (read_inv n s got s1 ltac:(lia) R F1) as [T1 L1]. unfold lenZ in L1.
  pose proof (took_length _ _ _ T1). destruct (IH (size - n) s1) as [[more s2] ->]; [lia|]. cbn [bind]. eauto.
Qed.

Section Room.
Variable room : Z -> bool.

Lemma map_fwd : forall size s b rest, lenZ b = size -> st_failed s = false -> st_rest s = b ++ rest ->
  size + 16 <= 9223372036854775807 -> (0 < size -> room (size + 16) = true) ->
  map_region room size s = Ok (Some b, behind b rest s).
Proof.
  intros size s b rest L F E Hm Hr. unfold map_region, size_t. assert (0 <= size) by (unfold lenZ in L; lia).
  rewrite Z.mod_small by lia.
  assert (Hc : (if size =? 0 then Ok tt else check ((size + 16 <=? 9223372036854775807) && room (size + 16)) Throw) = Ok tt).
  { destruct (Z.eqb_spec size 0); [reflexivity|]. rewrite Hr by lia. destruct (Z.leb_spec (size + 16) 9223372036854775807); [reflexivity|lia]. }
  rewrite Hc. cbn [bind]. destruct (Z.leb_spec size (size + 16)); [|lia]. cbn [orb check bind].
  apply region_fwd; auto.
Qed.

Lemma map_inv : forall size s b s', 0 <= size < 18446744073709551616 -> map_region room size s = Ok (Some b, s') -> st_failed s' = false ->
  took s b s' /\ lenZ b = size /\ (0 < size -> size + 16 <= 9223372036854775807 /\ room (size + 16) = true).
Proof.
  intros size s b s' R E F. unfold map_region in E.
  apply bind_ok in E. destruct E as ([] & C1 & E). apply bind_ok in E. destruct E as ([] & C2 & E).
  destruct (region_inv _ _ _ _ _ (proj1 R) E F) as [T L]. split; [exact T|]. split; [exact L|]. intros P.
  destruct (Z.eqb_spec size 0); [lia|]. apply check_ok in C1, C2. apply andb_true_iff in C1. destruct C1 as [C1 C1'].
  apply Z.leb_le in C1. unfold size_t in *. destruct (Z_lt_dec (size + 16) 18446744073709551616) as [H|H].
  - rewrite Z.mod_small in C1, C1' by lia. auto.
  - exfalso. replace ((size + 16) mod 18446744073709551616) with (size + 16 - 18446744073709551616) in * by lia.
    destruct (Z.leb_spec size (size + 16 - 18446744073709551616)); [lia|]. destruct T as (F0 & _ & Er & _). rewrite F0 in C2. cbn [orb] in C2.
    destruct (st_rest s); [|discriminate C2]. symmetry in Er. apply app_eq_nil in Er. destruct Er as [-> _]. cbn in L. lia.
Qed.

Lemma map_ends : forall size s, 0 <= size < 18446744073709551616 ->
  (exists r, map_region room size s = Ok r) \/
  map_region room size s = Fault Throw /\ 0 < size /\
    (size + 16 <= 9223372036854775807 -> room (size + 16) = false) \/
  map_region room size s = Fault Undef /\ 18446744073709551600 <= size.
Proof.
  intros size s R. unfold map_region. unfold size_t.
  destruct (Z.eqb_spec size 0) as [->|].
  - left. cbn [bind]. change (0 <=? (0 + 16) mod 18446744073709551616) with true. cbn [orb check bind].
    apply region_ends. lia.
  - destruct (((size + 16) mod 18446744073709551616 <=? 9223372036854775807) && room ((size + 16) mod 18446744073709551616)) eqn:C.
    + cbn [check bind]. destruct (_ || _ || _) eqn:C2; cbn [check bind].
      * left. apply region_ends. lia.
      * right. right. split; [reflexivity|]. apply orb_false_iff in C2. destruct C2 as [C2 _]. apply orb_false_iff in C2. destruct C2 as [C2 _].
        apply Z.leb_gt in C2. lia.
    + right. left. cbn [check bind]. split; [reflexivity|]. split; [lia|]. intros H. rewrite Z.mod_small in C by lia.
      destruct (Z.leb_spec (size + 16) 9223372036854775807); [exact C|lia].
Qed.
End Room.

(** ** Records *)
Lemma records_fwd : forall A (f : A -> bytes) w, (forall x, length (f x) = w) -> forall l,
  records w (length l) (flat_map f l) = map f l.
Proof.
  intros A f w H l. induction l as [|x l IH]; [reflexivity|]. cbn [length records flat_map map].
  rewrite firstn_app, skipn_app, H, Nat.sub_diag, firstn_all2, skipn_all2 by (rewrite H; lia).
  cbn [firstn skipn]. rewrite app_nil_r. cbn [app]. rewrite IH. reflexivity.
Qed.

Lemma records_inv : forall A (f : A -> bytes) (P : A -> Prop) w,
  (forall c, length c = w -> byte_list c -> exists x, P x /\ c = f x) -> forall n b, length b = (n * w)%nat -> byte_list b ->
  exists l, length l = n /\ Forall P l /\ b = flat_map f l.
Proof.
  intros A f P w H. induction n as [|n IH]; intros b L B.
  - exists []. destruct b; [auto|cbn in L; lia].
  - assert (B' := B). rewrite <- (firstn_skipn w b) in B'. apply Forall_app in B'. destruct B' as [B1 B2].
    destruct (H (firstn w b)) as (x & Px & Ex); [rewrite firstn_length; lia|exact B1|].
    destruct (IH (skipn w b)) as (l & Ll & Pl & El); [rewrite skipn_length; lia|exact B2|].
    exists (x :: l). split; [cbn; lia|]. split; [constructor; auto|]. cbn [flat_map].
    rewrite <- Ex, <- El, firstn_skipn. reflexivity.
Qed.

Lemma field_app : forall a b c, field (length b) (length a) (a ++ b ++ c) = b.
Proof.
  intros. unfold field. rewrite skipn_app, skipn_all, Nat.sub_diag. cbn [skipn app].
  rewrite firstn_app, firstn_all, Nat.sub_diag. cbn [firstn]. apply app_nil_r.
Qed.

Lemma row_length : forall r, length (row_bytes r) = 20%nat.
Proof. intros r. unfold row_bytes, word. rewrite !app_length, !encode_length. reflexivity. Qed.
Lemma arc_length : forall a, length (arc_bytes a) = 16%nat.
Proof. intros r. unfold arc_bytes, word. rewrite !app_length, !encode_length. reflexivity. Qed.

Definition plain (r : state_row) : const_state := mk_state (r_weight r) (r_first r) (r_arcs r).

Lemma natural_word : forall z, natural z -> le_unsigned (word z) = z.
Proof. intros z H. unfold word. rewrite le_unsigned_encode. change (256 ^ Z.of_nat 4) with 4294967296. apply Z.mod_small. exact H. Qed.

Lemma state_of_row : forall r, row_fits r -> state_of (row_bytes r) = plain r.
Proof.
  intros [w p n i o] (F1 & F2 & F3 & _). unfold state_of, plain, row_bytes in *. cbn [r_weight r_first r_arcs r_in_eps r_out_eps] in *.
  assert (L : forall z, length (word z) = 4%nat) by (intros z; apply encode_length).
  pose proof (field_app [] (word w) (word p ++ word n ++ word i ++ word o)) as E1.
  pose proof (field_app (word w) (word p) (word n ++ word i ++ word o)) as E2.
  pose proof (field_app (word w ++ word p) (word n) (word i ++ word o)) as E3.
  rewrite <- !app_assoc in E3. repeat rewrite app_length in E3. repeat rewrite L in E3. repeat rewrite L in E2. rewrite L in E1. cbn [app length Nat.add] in E1, E2, E3.
  rewrite E1, E2, E3. unfold word at 1. rewrite le_signed_encode by (auto; lia). rewrite !natural_word by assumption. reflexivity.
Qed.

Lemma arc_of_bytes : forall a, arc_fits a -> arc_of (arc_bytes a) = a.
Proof.
  intros [n i o w] (F1 & F2 & F3 & F4). unfold arc_of, arc_bytes in *. cbn [next_state input_label output_label weight] in *.
  assert (L : forall z, length (word z) = 4%nat) by (intros z; apply encode_length).
  pose proof (field_app [] (word i) (word o ++ word w ++ word n)) as E1.
  pose proof (field_app (word i) (word o) (word w ++ word n)) as E2.
  pose proof (field_app (word i ++ word o) (word w) (word n)) as E3.
  pose proof (field_app (word i ++ word o ++ word w) (word n) []) as E4. rewrite app_nil_r in E4.
  repeat rewrite <- app_assoc in E3. repeat rewrite <- app_assoc in E4. repeat rewrite app_length in E3. repeat rewrite app_length in E4. repeat rewrite L in E3. repeat rewrite L in E4. repeat rewrite L in E2. rewrite L in E1. cbn [app length Nat.add] in E1, E2, E3, E4.
  rewrite E1, E2, E3, E4. unfold word. rewrite !le_signed_encode by (auto; lia). reflexivity.
Qed.

Lemma split4 : forall c, (4 <= length c)%nat -> byte_list c ->
  exists a r, c = a ++ r /\ length a = 4%nat /\ length r = (length c - 4)%nat /\ byte_list a /\ byte_list r.
Proof.
  intros c L B. exists (firstn 4 c), (skipn 4 c). rewrite firstn_skipn. split; [reflexivity|].
  rewrite firstn_length, skipn_length. assert (B' := B). rewrite <- (firstn_skipn 4 c) in B'. apply Forall_app in B'.
  destruct B'. repeat split; auto; lia.
Qed.

Lemma signed_word : forall b, length b = 4%nat -> byte_list b -> b = word (le_signed b) /\ fits 4 (le_signed b).
Proof.
  intros b L B. unfold word. rewrite <- L. rewrite encode_le_signed by assumption. split; [reflexivity|].
  apply le_signed_fits; [assumption|]. intros ->. discriminate L.
Qed.

Lemma unsigned_word : forall b, length b = 4%nat -> byte_list b -> b = word (le_unsigned b) /\ natural (le_unsigned b).
Proof.
  intros b L B. pose proof (le_unsigned_bound b B) as U. unfold lenZ in U. rewrite L in U. change (256 ^ Z.of_nat 4) with 4294967296 in U.
  split; [|exact U]. unfold word. symmetry. rewrite <- L. apply encode_le_unsigned; auto.
  unfold lenZ. rewrite L. change (256 ^ Z.of_nat 4) with 4294967296. apply Z.mod_small. exact U.
Qed.

Lemma row_inv : forall c, length c = 20%nat -> byte_list c -> exists r, row_fits r /\ c = row_bytes r.
Proof.
  intros c L B. destruct (split4 c) as (a1 & r1 & -> & L1 & M1 & B1 & C1); [lia|exact B|].
  destruct (split4 r1) as (a2 & r2 & -> & L2 & M2 & B2 & C2); [lia|exact C1|].
  destruct (split4 r2) as (a3 & r3 & -> & L3 & M3 & B3 & C3); [lia|exact C2|].
  destruct (split4 r3) as (a4 & a5 & -> & L4 & M4 & B4 & C4); [lia|exact C3|].
  assert (L5 : length a5 = 4%nat) by (rewrite !app_length in *; lia).
  destruct (signed_word a1 L1 B1) as [E1 F1]. destruct (unsigned_word a2 L2 B2) as [E2 F2]. destruct (unsigned_word a3 L3 B3) as [E3 F3].
  destruct (unsigned_word a4 L4 B4) as [E4 F4]. destruct (unsigned_word a5 L5 C4) as [E5 F5].
  exists (mk_row (le_signed a1) (le_unsigned a2) (le_unsigned a3) (le_unsigned a4) (le_unsigned a5)).
  split; [repeat split; assumption || apply F1 || apply F2 || apply F3 || apply F4 || apply F5|].
  unfold row_bytes. cbn [r_weight r_first r_arcs r_in_eps r_out_eps]. rewrite <- E1, <- E2, <- E3, <- E4, <- E5. reflexivity.
Qed.

Lemma arc_inv : forall c, length c = 16%nat -> byte_list c -> exists a, arc_fits a /\ c = arc_bytes a.
Proof.
  intros c L B. destruct (split4 c) as (a1 & r1 & -> & L1 & M1 & B1 & C1); [lia|exact B|].
  destruct (split4 r1) as (a2 & r2 & -> & L2 & M2 & B2 & C2); [lia|exact C1|].
  destruct (split4 r2) as (a3 & a4 & -> & L3 & M3 & B3 & C3); [lia|exact C2|].
  assert (L4 : length a4 = 4%nat) by (rewrite !app_length in *; lia).
  destruct (signed_word a1 L1 B1) as [E1 F1]. destruct (signed_word a2 L2 B2) as [E2 F2]. destruct (signed_word a3 L3 B3) as [E3 F3].
  destruct (signed_word a4 L4 C3) as [E4 F4].
  exists (mk_arc (le_signed a4) (le_signed a1) (le_signed a2) (le_signed a3)).
  split; [unfold arc_fits; cbn; auto|]. unfold arc_bytes. cbn [next_state input_label output_label weight].
  rewrite <- E1, <- E2, <- E3, <- E4. reflexivity.
Qed.

(** ** Numbers *)
Lemma wrap32_reduced : forall z x, fits 4 x -> (exists k, z = x + k * 4294967296) -> wrap32 z = x.
Proof.
  intros z x F (k & ->). unfold fits in F. change (2 ^ (8 * Z.of_nat 4 - 1)) with 2147483648 in F.
  unfold wrap32, int_max. rewrite Z_mod_plus_full. destruct (Z.leb_spec (x mod 4294967296) 2147483647); lia.
Qed.

Lemma wrap32_spec : forall z, fits 4 (wrap32 z) /\ exists k, z = wrap32 z + k * 4294967296.
Proof.
  intros z. unfold fits. change (2 ^ (8 * Z.of_nat 4 - 1)) with 2147483648. unfold wrap32, int_max.
  destruct (Z.leb_spec (z mod 4294967296) 2147483647); (split; [lia|]).
  - exists (z / 4294967296). lia.
  - exists (z / 4294967296 + 1). lia.
Qed.

Lemma arcs_size : forall z, size_t (size_t z * 16) = 16 * (z mod 1152921504606846976).
Proof. intros z. unfold size_t. lia. Qed.

Lemma states_size : forall z, 0 <= z <= 2147483647 -> size_t (size_t z * 20) = 20 * z.
Proof. intros z H. unfold size_t. rewrite (Z.mod_small z) by lia. rewrite Z.mod_small; lia. Qed.

Lemma states_size_neg : forall z, -2147483648 <= z < 0 -> size_t (size_t z * 20) = 18446744073709551616 + 20 * z.
Proof. intros z H. unfold size_t. lia. Qed.
