(** The recursion of the Fourier transform as a function on sequences, in any
    arithmetic. *)
From Coq Require Import ZArith List Bool Lia.
From Verif.Base Require Import Prelude Lemmas.
From Verif.Model Require Import Arith Vector Matrix Srfft.
From Verif.Proof Require Import Loop Matrix.
Import ListNotations.
Open Scope Z_scope.

Section Cells.
Context {A : Type}.
Variable d : A.

Definition nz (l : list A) (i : Z) : A := nth (Z.to_nat i) l d.

Lemma getZ_nz : forall l i, 0 <= i < lenZ l -> getZ l i = Ok (nz l i).
Proof.
  intros l i H. unfold getZ, nz. destruct (Z.ltb_spec i 0); [lia|].
  rewrite (nth_error_nth' l d) by (unfold lenZ in H; lia). reflexivity.
Qed.

Lemma nz_upd : forall l i j x, 0 <= i < lenZ l -> 0 <= j ->
  nz (upd l (Z.to_nat i) x) j = if i =? j then x else nz l j.
Proof.
  intros l i j x H J. unfold nz. rewrite nth_upd by (unfold lenZ in H; lia).
  destruct (Z.eqb_spec i j) as [->|N]; [now rewrite Nat.eqb_refl|].
  destruct (Nat.eqb_spec (Z.to_nat i) (Z.to_nat j)); [lia|reflexivity].
Qed.

Lemma nz_ext : forall l l', lenZ l = lenZ l' -> (forall i, 0 <= i < lenZ l -> nz l i = nz l' i) -> l = l'.
Proof.
  intros l l' L H. unfold lenZ in *. apply (nth_ext _ _ d d); [lia|]. intros n N.
  specialize (H (Z.of_nat n) ltac:(lia)). unfold nz in H. now rewrite Nat2Z.id in H.
Qed.

(** Swapping. *)
Lemma swap_ok : forall l i j, 0 <= i < lenZ l -> 0 <= j < lenZ l ->
  exists l', swap l i j = Ok l' /\ lenZ l' = lenZ l /\
    forall k, 0 <= k -> nz l' k = if k =? i then nz l j else if k =? j then nz l i else nz l k.
Proof.
  intros l i j I J. unfold swap. rewrite !getZ_nz by assumption. cbn [bind]. rewrite setZ_ok by assumption. cbn [bind].
  rewrite setZ_ok by (rewrite lenZ_upd; assumption). eexists. split; [reflexivity|]. split; [now rewrite !lenZ_upd|].
  intros k K. rewrite !nz_upd by (rewrite ?lenZ_upd; lia).
  destruct (Z.eqb_spec j k), (Z.eqb_spec k i), (Z.eqb_spec i k), (Z.eqb_spec k j); subst; try lia; reflexivity.
Qed.
End Cells.

Lemma pow2_pos : forall l, 0 < 2 ^ Z.of_nat l.
Proof. intros l. apply Z.pow_pos_nonneg; lia. Qed.

Lemma pow2_S : forall l, 2 ^ Z.of_nat (S l) = 2 * 2 ^ Z.of_nat l.
Proof. intros l. rewrite Nat2Z.inj_succ, Z.pow_succ_r by lia. reflexivity. Qed.

Section Steps.
Context {F : Type}.
Variable O : fops F.
Variable T : trig_ops F.

Notation cells := (list F * list F)%type.
Notation complex := (F * F)%type.

Definition dft0 : F := f_zero O.
Definition place_of (s : cells) (i : Z) : complex := (nz dft0 (fst s) i, nz dft0 (snd s) i).
Definition sized (n : Z) (s : cells) : Prop := lenZ (fst s) = n /\ lenZ (snd s) = n.

(** [s'] is [s] with the places [p] and [q] replaced. *)
Definition paired (s s' : cells) (p q : Z) (r : complex * complex) : Prop :=
  place_of s' p = fst r /\ place_of s' q = snd r /\
  forall i, 0 <= i -> i <> p -> i <> q -> place_of s' i = place_of s i.

Lemma pair_step_ok : forall n s p q g, sized n s -> 0 <= p < n -> 0 <= q < n -> p <> q ->
  exists s', pair_step s p q g = Ok s' /\ sized n s' /\ paired s s' p q (g (place_of s p) (place_of s q)).
Proof.
  intros n [re im] p q g [Lr Li] P Q N. cbn [fst snd] in *. unfold pair_step.
  rewrite !(getZ_nz dft0) by lia. cbn [bind].
  change (nz dft0 re p, nz dft0 im p) with (place_of (re, im) p).
  change (nz dft0 re q, nz dft0 im q) with (place_of (re, im) q).
  destruct (g (place_of (re, im) p) (place_of (re, im) q)) as [[ar ai] [br bi]].
  repeat (rewrite setZ_ok by (rewrite ?lenZ_upd; lia); cbn [bind]).
  eexists. split; [reflexivity|]. split; [split; cbn [fst snd]; now rewrite !lenZ_upd|].
  unfold paired, place_of. cbn [fst snd]. split; [|split].
  - rewrite !nz_upd by (rewrite ?lenZ_upd; lia). destruct (Z.eqb_spec q p); [lia|]. now rewrite Z.eqb_refl.
  - rewrite !nz_upd by (rewrite ?lenZ_upd; lia). now rewrite Z.eqb_refl.
  - intros i I Ip Iq. rewrite !nz_upd by (rewrite ?lenZ_upd; lia).
    destruct (Z.eqb_spec q i); [lia|]. destruct (Z.eqb_spec p i); [lia|]. reflexivity.
Qed.

(** Steps on the pairs [p + n] and [q + n]. [emb] adds what else the loop keeps. *)
Lemma butterflies : forall St (emb : Z -> cells -> St) (body : St -> Z -> res St)
    (g : Z -> complex -> complex -> complex * complex) size p q a b s0,
  sized size s0 -> a <= b -> 0 <= p + a -> p + b <= q + a -> q + b <= size ->
  (forall s n, a <= n < b -> sized size s ->
     exists s', body (emb n s) n = Ok (emb (n + 1) s') /\ sized size s' /\
       paired s s' (p + n) (q + n) (g n (place_of s (p + n)) (place_of s (q + n)))) ->
  exists s', for_up a b body (emb a s0) = Ok (emb b s') /\ sized size s' /\
    (forall n, a <= n < b -> place_of s' (p + n) = fst (g n (place_of s0 (p + n)) (place_of s0 (q + n))) /\
                             place_of s' (q + n) = snd (g n (place_of s0 (p + n)) (place_of s0 (q + n)))) /\
    (forall i, 0 <= i -> ~ p + a <= i < p + b -> ~ q + a <= i < q + b -> place_of s' i = place_of s0 i).
Proof.
  intros St emb body g size p q a b s0 W L P PQ Q H.
  destruct (for_up_inv St (fun k st => exists s, st = emb k s /\ sized size s /\
      (forall n, a <= n < k -> place_of s (p + n) = fst (g n (place_of s0 (p + n)) (place_of s0 (q + n))) /\
                               place_of s (q + n) = snd (g n (place_of s0 (p + n)) (place_of s0 (q + n)))) /\
      (forall i, 0 <= i -> ~ p + a <= i < p + k -> ~ q + a <= i < q + k -> place_of s i = place_of s0 i))
    body a b (emb a s0) L) as [st [E [s (-> & Ws & V & Fr)]]].
  - exists s0. split; [reflexivity|]. split; [exact W|]. split; [intros n N; lia|reflexivity].
  - intros k st K [s (-> & Ws & V & Fr)]. destruct (H s k K Ws) as [s' (E & Ws' & P1 & P2 & P3)].
    exists (emb (k + 1) s'). split; [exact E|]. exists s'. split; [reflexivity|]. split; [exact Ws'|]. split.
    + intros n N. destruct (Z.eq_dec n k) as [->|Nk].
      * rewrite P1, P2. rewrite (Fr (p + k)) by lia. rewrite (Fr (q + k)) by lia. split; reflexivity.
      * rewrite !P3 by lia. apply V. lia.
    + intros i I Ip Iq. rewrite P3 by lia. apply Fr; lia.
  - exists s. auto.
Qed.

(** * The function computed *)

(** Multiplication by the entries of the table. *)
Definition spin (n m : Z) (a : complex) : complex :=
  let c := t_cos T (t_angle T n m) in let s := t_sin T (t_angle T n m) in
  turn O c (t_neg T (f_add O s c)) (f_sub O s c) a.

Definition twist (m8 m n : Z) (a b : complex) : complex * complex :=
  if n =? m8 then eighth_turn O T a b else (spin n m a, spin (3 * n) m b).

(** The places [0 .. 2 ^ l) after the recursion. *)
Fixpoint fast (l : nat) (x : Z -> complex) : Z -> complex :=
  match l with
  | 0%nat => x
  | S k =>
      match k with
      | 0%nat => fun p => if p =? 0 then fst (sum_diff O (x 0) (x 1)) else snd (sum_diff O (x 0) (x 1))
      | S j =>
          let m := 2 ^ Z.of_nat l in let m2 := 2 ^ Z.of_nat k in let m4 := 2 ^ Z.of_nat j in let m8 := m4 / 2 in
          let y n := fst (sum_diff O (x n) (x (m2 + n))) in
          let u n := snd (sum_diff O (x n) (x (m2 + n))) in
          let v n := quarter_turn O (u n) (u (m4 + n)) in
          let z n := if n =? 0 then v n else twist m8 m n (fst (v n)) (snd (v n)) in
          fun p => if p <? m2 then fast k y p
                   else if p <? m2 + m4 then fast j (fun n => fst (z n)) (p - m2)
                   else fast j (fun n => snd (z n)) (p - m2 - m4)
      end
  end.

Lemma fast_SS : forall j x p, let l := S (S j) in
  let m := 2 ^ Z.of_nat l in let m2 := 2 ^ Z.of_nat (S j) in let m4 := 2 ^ Z.of_nat j in let m8 := m4 / 2 in
  let y n := fst (sum_diff O (x n) (x (m2 + n))) in
  let u n := snd (sum_diff O (x n) (x (m2 + n))) in
  let v n := quarter_turn O (u n) (u (m4 + n)) in
  let z n := if n =? 0 then v n else twist m8 m n (fst (v n)) (snd (v n)) in
  fast l x p = if p <? m2 then fast (S j) y p
               else if p <? m2 + m4 then fast j (fun n => fst (z n)) (p - m2)
               else fast j (fun n => snd (z n)) (p - m2 - m4).
Proof. reflexivity. Qed.

Lemma fast_ext : forall l x x', (forall n, 0 <= n < 2 ^ Z.of_nat l -> x n = x' n) ->
  forall p, 0 <= p < 2 ^ Z.of_nat l -> fast l x p = fast l x' p.
Proof.
  induction l as [l IH] using (well_founded_induction lt_wf). intros x x' H p P.
  destruct l as [|[|j]].
  - apply H, P.
  - change (2 ^ Z.of_nat 1) with 2 in *. cbn [fast]. rewrite (H 0), (H 1) by lia. reflexivity.
  - rewrite !fast_SS. pose proof (pow2_S (S j)) as E1. pose proof (pow2_S j) as E2. pose proof (pow2_pos j) as P0.
    set (m := 2 ^ Z.of_nat (S (S j))) in *. set (m2 := 2 ^ Z.of_nat (S j)) in *. set (m4 := 2 ^ Z.of_nat j) in *.
    cbv zeta. destruct (Z.ltb_spec p m2); [|destruct (Z.ltb_spec p (m2 + m4))].
    + apply IH; [lia| |fold m2; lia]. intros n N. fold m2 in N. rewrite (H n), (H (m2 + n)) by lia. reflexivity.
    + apply IH; [lia| |fold m4; lia]. intros n N. fold m4 in N.
      rewrite (H n), (H (m2 + n)), (H (m4 + n)), (H (m2 + (m4 + n))) by lia. reflexivity.
    + apply IH; [lia| |fold m4; lia]. intros n N. fold m4 in N.
      rewrite (H n), (H (m2 + n)), (H (m4 + n)), (H (m2 + (m4 + n))) by lia. reflexivity.
Qed.

(** * Tables *)

Definition slot (m8 n : Z) : Z := if n <? m8 then n - 1 else n - 2.

Definition table_for (l : Z) (t : list F) : Prop :=
  let m := 2 ^ l in let m4 := m / 4 in let m8 := m / 8 in let nel := m4 - 2 in
  lenZ t = 6 * nel /\
  forall n, 1 <= n < m4 -> n <> m8 ->
    let c := t_cos T (t_angle T n m) in let s := t_sin T (t_angle T n m) in
    let c3 := t_cos T (t_angle T (3 * n) m) in let s3 := t_sin T (t_angle T (3 * n) m) in
    getZ t (slot m8 n) = Ok c /\
    getZ t (nel + slot m8 n) = Ok (t_neg T (f_add O s c)) /\
    getZ t (2 * nel + slot m8 n) = Ok (f_sub O s c) /\
    getZ t (3 * nel + slot m8 n) = Ok c3 /\
    getZ t (4 * nel + slot m8 n) = Ok (t_neg T (f_add O s3 c3)) /\
    getZ t (5 * nel + slot m8 n) = Ok (f_sub O s3 c3).

Definition tables_for (l : Z) (tab : list (list F)) : Prop :=
  forall i, 4 <= i <= l -> exists t, getZ tab (i - 4) = Ok t /\ table_for i t.

(** * The recursion *)

Lemma base2 : forall size o s, sized size s -> 0 <= o -> o + 4 <= size ->
  exists s', (s <- pair_step s o (o + 2) (sum_diff O) ;;
              s <- pair_step s (o + 1) (o + 3) (sum_diff O) ;;
              s <- pair_step s o (o + 1) (sum_diff O) ;;
              pair_step s (o + 2) (o + 3) (quarter_turn O)) = Ok s' /\ sized size s' /\
    (forall p, 0 <= p < 4 -> place_of s' (o + p) = fast 2 (fun n => place_of s (o + n)) p) /\
    (forall i, 0 <= i -> ~ o <= i < o + 4 -> place_of s' i = place_of s i).
Proof.
  intros size o s W P L.
  destruct (pair_step_ok size s o (o + 2) (sum_diff O) W ltac:(lia) ltac:(lia) ltac:(lia)) as [s1 (-> & W1 & A1 & B1 & F1)].
  cbn [bind].
  destruct (pair_step_ok size s1 (o + 1) (o + 3) (sum_diff O) W1 ltac:(lia) ltac:(lia) ltac:(lia)) as [s2 (-> & W2 & A2 & B2 & F2)].
  cbn [bind].
  destruct (pair_step_ok size s2 o (o + 1) (sum_diff O) W2 ltac:(lia) ltac:(lia) ltac:(lia)) as [s3 (-> & W3 & A3 & B3 & F3)].
  cbn [bind].
  destruct (pair_step_ok size s3 (o + 2) (o + 3) (quarter_turn O) W3 ltac:(lia) ltac:(lia) ltac:(lia)) as [s4 (-> & W4 & A4 & B4 & F4)].
  exists s4. split; [reflexivity|]. split; [exact W4|]. split.
  - intros p Hp. rewrite fast_SS. change (2 ^ Z.of_nat 1) with 2. change (2 ^ Z.of_nat 0) with 1. cbv zeta.
    assert (p = 0 \/ p = 1 \/ p = 2 \/ p = 3) as [->|[->|[->| ->]]] by lia; cbn [Z.ltb Z.compare Pos.compare Pos.compare_cont Z.add Pos.add Pos.succ Z.eqb fast Z.sub Z.opp Z.pos_sub Pos.pred_double Pos.eqb].
    + rewrite !Z.add_0_r. rewrite (F4 o) by lia. rewrite A3. rewrite (F2 o) by lia. rewrite A1. rewrite A2.
      rewrite (F1 (o + 1)), (F1 (o + 3)) by lia. reflexivity.
    + rewrite !Z.add_0_r. rewrite (F4 (o + 1)) by lia. rewrite B3. rewrite (F2 o) by lia. rewrite A1. rewrite A2.
      rewrite (F1 (o + 1)), (F1 (o + 3)) by lia. reflexivity.
    + rewrite !Z.add_0_r. rewrite A4. rewrite (F3 (o + 2)), (F3 (o + 3)) by lia. rewrite (F2 (o + 2)) by lia. rewrite B1, B2.
      rewrite (F1 (o + 1)), (F1 (o + 3)) by lia. reflexivity.
    + rewrite !Z.add_0_r. rewrite B4. rewrite (F3 (o + 2)), (F3 (o + 3)) by lia. rewrite (F2 (o + 2)) by lia. rewrite B1, B2.
      rewrite (F1 (o + 1)), (F1 (o + 3)) by lia. reflexivity.
  - intros i I N. rewrite (F4 i), (F3 i), (F2 i), (F1 i) by lia. reflexivity.
Qed.

Lemma recursive_ok : forall l fuel tab size o s, (l < fuel)%nat -> tables_for (Z.of_nat l) tab ->
  sized size s -> 0 <= o -> o + 2 ^ Z.of_nat l <= size ->
  exists s', recursive O T fuel tab o (Z.of_nat l) s = Ok s' /\ sized size s' /\
    (forall p, 0 <= p < 2 ^ Z.of_nat l -> place_of s' (o + p) = fast l (fun n => place_of s (o + n)) p) /\
    (forall i, 0 <= i -> ~ o <= i < o + 2 ^ Z.of_nat l -> place_of s' i = place_of s i).
Proof.
  induction l as [l IH] using (well_founded_induction lt_wf). intros fuel tab size o s Fu Tb W P L.
  destruct fuel as [|fuel]; [lia|]. cbn [recursive].
  destruct (Z.leb_spec 0 (Z.of_nat l)); [|lia]. cbn [check bind].
  destruct (Z.eqb_spec (Z.of_nat l) 2) as [E|N2].
  { assert (l = 2)%nat as -> by lia. now apply base2. }
  destruct (Z.eqb_spec (Z.of_nat l) 1) as [E|N1].
  { assert (l = 1)%nat as -> by lia. change (2 ^ Z.of_nat 1) with 2 in *.
    destruct (pair_step_ok size s o (o + 1) (sum_diff O) W ltac:(lia) ltac:(lia) ltac:(lia)) as [s1 (-> & W1 & A1 & B1 & F1)].
    exists s1. split; [reflexivity|]. split; [exact W1|]. split.
    - intros p Hp. assert (p = 0 \/ p = 1) as [->| ->] by lia; cbn [fast Z.eqb]; rewrite !Z.add_0_r; assumption.
    - intros i I Ni. apply F1; lia. }
  destruct (Z.eqb_spec (Z.of_nat l) 0) as [E|N0].
  { assert (l = 0)%nat as -> by lia. exists s. split; [reflexivity|]. split; [exact W|]. split; [reflexivity|reflexivity]. }
  destruct l as [|[|[|i]]]; try lia. clear N0 N1 N2. set (j := S i) in *.
  assert (E8 : exists m8, 2 ^ Z.of_nat j = 2 * m8 /\ 0 < m8) by (exists (2 ^ Z.of_nat i); split; [apply pow2_S|apply pow2_pos]).
  destruct E8 as [m8 [E8 P8]].
  pose proof (pow2_S (S j)) as E1. pose proof (pow2_S j) as E2. pose proof (pow2_pos j) as P0.
  set (m := 2 ^ Z.of_nat (S (S j))) in *. set (m2 := 2 ^ Z.of_nat (S j)) in *. set (m4 := 2 ^ Z.of_nat j) in *.
  cbv zeta. replace (m / 2) with m2 by (rewrite E1, Z.mul_comm, Z.div_mul; lia).
  replace (m2 / 2) with m4 by (rewrite E2, Z.mul_comm, Z.div_mul; lia).
  replace (m4 / 2) with m8 by (rewrite E8, Z.mul_comm, Z.div_mul; lia).
  replace (m / 4) with m4 by (rewrite E1, E2; replace (2 * (2 * m4)) with (m4 * 4) by lia; rewrite Z.div_mul; lia).
  (* Step 1. *)
  unfold step1.
  destruct (butterflies cells (fun _ s => s) (fun s n => pair_step s (o + n) (o + m2 + n) (sum_diff O))
              (fun _ => sum_diff O) size o (o + m2) 0 m2 s W ltac:(lia) ltac:(lia) ltac:(lia) ltac:(lia)) as [s1 (-> & W1 & V1 & F1)].
  { intros t n Hn Wt. apply pair_step_ok; try assumption; lia. }
  cbn [bind].
  (* Step 2. *)
  unfold step2.
  destruct (butterflies cells (fun _ s => s) (fun s n => pair_step s (o + m2 + n) (o + m2 + m4 + n) (quarter_turn O))
              (fun _ => quarter_turn O) size (o + m2) (o + m2 + m4) 0 m4 s1 W1 ltac:(lia) ltac:(lia) ltac:(lia) ltac:(lia))
    as [s2 (-> & W2 & V2 & F2)].
  { intros t n Hn Wt. apply pair_step_ok; try assumption; lia. }
  cbn [bind].
  (* Steps 3 and 4. *)
  assert (Et : exists t, (if 4 <=? Z.of_nat (S (S j)) then getZ tab (Z.of_nat (S (S j)) - 4) else Ok []) = Ok t /\
             (m8 <> 1 -> table_for (Z.of_nat (S (S j))) t)).
  { destruct (Z.leb_spec 4 (Z.of_nat (S (S j)))) as [H4|H4].
    - destruct (Tb (Z.of_nat (S (S j))) ltac:(lia)) as [t [Eg Ht]]. exists t. auto.
    - exists []. split; [reflexivity|]. intros N. unfold j in *. assert (i = 0)%nat as -> by lia.
      exfalso. apply N. assert (m4 = 2) by reflexivity. lia. }
  destruct Et as [t [-> Ht]]. cbn [bind]. unfold step34.
  assert (S34 : exists s3, for_up 1 m4 (fun '(s, k) n =>
      if n =? m8 then s <- pair_step s (o + m2 + n) (o + m2 + m4 + n) (eighth_turn O T) ;; Ok (s, k)
      else c <- getZ t k ;; spc <- getZ t (m4 - 2 + k) ;; smc <- getZ t (2 * (m4 - 2) + k) ;;
           c3 <- getZ t (3 * (m4 - 2) + k) ;; spc3 <- getZ t (4 * (m4 - 2) + k) ;; smc3 <- getZ t (5 * (m4 - 2) + k) ;;
           s <- pair_step s (o + m2 + n) (o + m2 + m4 + n) (fun a b => (turn O c spc smc a, turn O c3 spc3 smc3 b)) ;;
           Ok (s, k + 1)) (s2, 0) = Ok (s3, if m4 <=? m8 then m4 - 1 else m4 - 2) /\ sized size s3 /\
    (forall n, 1 <= n < m4 ->
       place_of s3 (o + m2 + n) = fst (twist m8 m n (place_of s2 (o + m2 + n)) (place_of s2 (o + m2 + m4 + n))) /\
       place_of s3 (o + m2 + m4 + n) = snd (twist m8 m n (place_of s2 (o + m2 + n)) (place_of s2 (o + m2 + m4 + n)))) /\
    (forall i, 0 <= i -> ~ o + m2 + 1 <= i < o + m2 + m4 -> ~ o + m2 + m4 + 1 <= i < o + m2 + m4 + m4 ->
       place_of s3 i = place_of s2 i)).
  { replace (s2, 0) with (s2, if 1 <=? m8 then 1 - 1 else 1 - 2) by (destruct (Z.leb_spec 1 m8); [reflexivity|lia]).
    apply (butterflies (cells * Z) (fun n s => (s, if n <=? m8 then n - 1 else n - 2))
             _ (twist m8 m) size (o + m2) (o + m2 + m4) 1 m4 s2 W2 ltac:(lia) ltac:(lia) ltac:(lia) ltac:(lia)).
    intros u n Hn Wu. unfold twist at 1. destruct (Z.eqb_spec n m8) as [En|Nn].
    - destruct (pair_step_ok size u (o + m2 + n) (o + m2 + m4 + n) (eighth_turn O T) Wu ltac:(lia) ltac:(lia) ltac:(lia))
        as [u' (-> & Wu' & Pu)].
      cbn [bind]. exists u'. split; [|split; assumption].
      destruct (Z.leb_spec n m8); [|lia]. destruct (Z.leb_spec (n + 1) m8); [lia|]. do 2 f_equal. lia.
    - destruct (Ht ltac:(lia)) as [_ Ht']. fold m in Ht'.
      replace (m / 4) with m4 in Ht' by (rewrite E1, E2; replace (2 * (2 * m4)) with (m4 * 4) by lia; rewrite Z.div_mul; lia).
      replace (m / 8) with m8 in Ht' by (rewrite E1, E2, E8; replace (2 * (2 * (2 * m8))) with (m8 * 8) by lia; rewrite Z.div_mul; lia).
      specialize (Ht' n ltac:(lia) Nn). cbv zeta in Ht'.
      replace (slot m8 n) with (if n <=? m8 then n - 1 else n - 2) in Ht'
        by (unfold slot; destruct (Z.leb_spec n m8), (Z.ltb_spec n m8); lia).
      destruct Ht' as (-> & -> & -> & -> & -> & ->). cbn [bind].
      match goal with |- context [pair_step u _ _ ?g] =>
        destruct (pair_step_ok size u (o + m2 + n) (o + m2 + m4 + n) g Wu ltac:(lia) ltac:(lia) ltac:(lia))
          as [u' (-> & Wu' & Pu)] end.
      cbn [bind]. exists u'. split; [|split; assumption].
      do 2 f_equal. destruct (Z.leb_spec n m8), (Z.leb_spec (n + 1) m8); lia. }
  destruct S34 as [s3 (-> & W3 & V3 & F3)]. cbn [bind].
  (* What is in the places now. *)
  pose (x n := place_of s (o + n)).
  assert (Y : forall n, 0 <= n < m2 -> place_of s3 (o + n) = fst (sum_diff O (x n) (x (m2 + n)))).
  { intros n Hn. rewrite F3, F2 by lia. rewrite (proj1 (V1 n ltac:(lia))). unfold x. now rewrite Z.add_assoc. }
  assert (U : forall n, 0 <= n < m2 -> place_of s1 (o + m2 + n) = snd (sum_diff O (x n) (x (m2 + n)))).
  { intros n Hn. rewrite (proj2 (V1 n ltac:(lia))). unfold x. now rewrite Z.add_assoc. }
  pose (v n := quarter_turn O (snd (sum_diff O (x n) (x (m2 + n)))) (snd (sum_diff O (x (m4 + n)) (x (m2 + (m4 + n)))))).
  assert (V : forall n, 0 <= n < m4 -> place_of s2 (o + m2 + n) = fst (v n) /\ place_of s2 (o + m2 + m4 + n) = snd (v n)).
  { intros n Hn. destruct (V2 n Hn) as [-> ->]. rewrite (U n) by lia.
    replace (o + m2 + m4 + n) with (o + m2 + (m4 + n)) by lia. rewrite (U (m4 + n)) by lia. split; reflexivity. }
  pose (z n := if n =? 0 then v n else twist m8 m n (fst (v n)) (snd (v n))).
  assert (Zv : forall n, 0 <= n < m4 -> place_of s3 (o + m2 + n) = fst (z n) /\ place_of s3 (o + m2 + m4 + n) = snd (z n)).
  { intros n Hn. unfold z. destruct (Z.eqb_spec n 0) as [->|N].
    - rewrite !F3 by lia. apply V. lia.
    - destruct (V3 n ltac:(lia)) as [-> ->]. destruct (V n Hn) as [-> ->]. split; reflexivity. }
  (* The three calls. *)
  replace (Z.of_nat (S (S j)) - 1) with (Z.of_nat (S j)) by lia.
  destruct (IH (S j) ltac:(lia) fuel tab size o s3 ltac:(lia) ltac:(intros a Ha; apply Tb; lia) W3 ltac:(lia) ltac:(fold m2; lia))
    as [s4 (-> & W4 & V4 & F4)]. fold m2 in V4, F4. cbn [bind].
  replace (Z.of_nat (S (S j)) - 2) with (Z.of_nat j) by lia.
  destruct (IH j ltac:(lia) fuel tab size (o + m2) s4 ltac:(lia) ltac:(intros a Ha; apply Tb; lia) W4 ltac:(lia) ltac:(fold m4; lia))
    as [s5 (-> & W5 & V5 & F5)]. fold m4 in V5, F5. cbn [bind].
  destruct (IH j ltac:(lia) fuel tab size (o + 3 * m4) s5 ltac:(lia) ltac:(intros a Ha; apply Tb; lia) W5 ltac:(lia) ltac:(fold m4; lia))
    as [s6 (-> & W6 & V6 & F6)]. fold m4 in V6, F6.
  exists s6. split; [reflexivity|]. split; [exact W6|]. split.
  - intros p Hp. rewrite fast_SS. fold m m2 m4. cbv zeta.
    replace (m4 / 2) with m8 by (rewrite E8, Z.mul_comm, Z.div_mul; lia).
    destruct (Z.ltb_spec p m2); [|destruct (Z.ltb_spec p (m2 + m4))].
    + rewrite F6, F5 by lia. rewrite V4 by lia. apply fast_ext; [|fold m2; lia]. exact Y.
    + rewrite F6 by lia. replace (o + p) with (o + m2 + (p - m2)) by lia. rewrite V5 by lia.
      apply fast_ext; [|fold m4; lia]. fold m4. intros n Hn. rewrite F4 by lia. apply (Zv n Hn).
    + replace (o + p) with (o + 3 * m4 + (p - m2 - m4)) by lia. rewrite V6 by lia.
      apply fast_ext; [|fold m4; lia]. fold m4. intros n Hn. rewrite F5, F4 by lia.
      replace (o + 3 * m4 + n) with (o + m2 + m4 + n) by lia. apply (Zv n Hn).
  - intros a Ha Na. rewrite F6, F5, F4, F3, F2, F1 by lia. reflexivity.
Qed.
End Steps.
