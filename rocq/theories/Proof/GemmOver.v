(** Products of 8-bit matrices that do not fit into 32 bits. *)
From Coq Require Import ZArith List Bool Lia.
From Verif.Base Require Import Prelude Lemmas.
From Verif.Model Require Import Arith Vector Matrix Quantize Gemm.
From Verif.Spec Require Import MatrixSpec.
From Verif.Proof Require Import Loop Matrix Gemm.
Import ListNotations.
Open Scope Z_scope.

(** Faults that can only be undefined behaviour. *)
Definition mild {A} (r : res A) : Prop := forall f, r = Fault f -> f = Undef.

Lemma mild_ok A (x : A) : mild (Ok x).
Proof. intros f H. discriminate. Qed.
Lemma mild_bind A B (m : res A) (k : A -> res B) : mild m -> (forall x, mild (k x)) -> mild (x <- m ;; k x).
Proof. intros M K f. destruct m as [x|g]; cbn [bind]; intros H; [exact (K x f H)|]. injection H as ->. now apply M. Qed.
Lemma mild_int z : mild (int z).
Proof. intros f. unfold int, check. destruct (in_int32 z); cbn [bind]; congruence. Qed.
Lemma mild_get A (l : list A) i : mild (getZ l i).
Proof. intros f. unfold getZ. destruct (i <? 0); [congruence|]. destruct (nth_error l _); congruence. Qed.
Lemma mild_set A (l : list A) i x : mild (setZ l i x).
Proof. intros f. unfold setZ. destruct (_ || _); congruence. Qed.
Lemma mild_each S I (body : S -> I -> res S) : (forall s i, mild (body s i)) -> forall l s, mild (for_each l body s).
Proof. intros H. induction l as [|i l IH]; intros s; cbn [for_each]; [apply mild_ok|]. apply mild_bind; auto. Qed.

Ltac mild := repeat first [apply mild_ok | apply mild_int | apply mild_get | apply mild_set
  | apply mild_bind; [|intros] | apply mild_each; intros | progress unfold for_up ].

Lemma mild_entry lhs rhs depth p q i j : (forall i l, mild (lhs i l)) -> (forall l j, mild (rhs l j)) ->
  mild (gemm_entry lhs rhs depth p q i j).
Proof.
  intros L R. unfold gemm_entry. apply mild_bind.
  - apply mild_each. intros [[ab sa] sb] l. apply mild_bind; [apply L|intros]. apply mild_bind; [apply R|intros]. mild.
  - intros [[ab sa] sb]. mild.
Qed.
Lemma mild_mapped b off ld i j : mild (mapped b off ld i j).
Proof. unfold mapped. mild. Qed.
Lemma mild_dispatch a oa la b ob lb m n k p q i j : mild (dispatch (mapped a oa la) (mapped b ob lb) m n k p q i j).
Proof. unfold dispatch. destruct (m <? n); apply mild_entry; intros; apply mild_mapped. Qed.

(** What a loop that ended has gone through. *)
Lemma each_done S I (body : S -> I -> res S) : forall l s t i, for_each l body s = Ok t -> In i l ->
  exists s1 s2, body s1 i = Ok s2.
Proof.
  induction l as [|k l IH]; intros s t i E H; [destruct H|]. cbn [for_each] in E.
  apply bind_ok in E as (s1 & E1 & E2). destruct H as [->|H]; [eauto|]. exact (IH _ _ _ E2 H).
Qed.
Lemma up_done S (body : S -> Z -> res S) a b s t i : for_up a b body s = Ok t -> a <= i < b -> exists s1 s2, body s1 i = Ok s2.
Proof. intros E H. apply (each_done _ _ _ _ _ _ i E). apply in_seqZ. lia. Qed.
Lemma up_keeps S (I : Z -> S -> Prop) (body : S -> Z -> res S) a b s t : a <= b -> I a s ->
  (forall k s s', a <= k < b -> I k s -> body s k = Ok s' -> I (k + 1) s') -> for_up a b body s = Ok t -> I b t.
Proof.
  intros L H0 Hs. unfold for_up. remember (Z.to_nat (b - a)) as n eqn:E.
  revert a s L H0 Hs E. induction n as [|n IH]; intros a s L H0 Hs E D.
  - injection D as <-. replace b with a by lia. exact H0.
  - cbn [seqZ for_each] in D. apply bind_ok in D as (s1 & E1 & E2).
    apply (IH (a + 1) s1); try lia; [apply (Hs a s); try assumption; lia| |exact E2].
    intros k u u' Hk. apply Hs. lia.
Qed.

Lemma int_inv z x : int z = Ok x -> x = z /\ in_int32 z = true.
Proof. unfold int, check. destruct (in_int32 z); cbn [bind]; intros H; [|discriminate]. injection H as <-. auto. Qed.

Lemma entry_exact (lhs rhs : Z -> Z -> res Z) depth p q i j (f g : Z -> Z) x : 0 < depth ->
  (forall l, 0 <= l < depth -> lhs i l = Ok (f l)) -> (forall l, 0 <= l < depth -> rhs l j = Ok (g l)) ->
  gemm_entry lhs rhs depth p q i j = Ok x ->
  x = sum_of Z.add (fun l => (f l + p) * (g l + q)) 0 (Z.to_nat depth) /\ in_int32 x = true.
Proof.
  intros D A B E. unfold gemm_entry in E. apply bind_ok in E as ([[ab sa] sb] & E1 & E).
  apply (up_keeps _ (fun k '(ab, sa, sb) =>
    ab = sum_of Z.add (fun l => f l * g l) 0 (Z.to_nat k) /\ sa = sum_of Z.add f 0 (Z.to_nat k) /\
    sb = sum_of Z.add g 0 (Z.to_nat k))) in E1; [|lia|cbn; auto|].
  - destruct E1 as (-> & -> & ->).
    apply bind_ok in E as (t1 & [-> _]%int_inv & E). apply bind_ok in E as (t2 & [-> _]%int_inv & E).
    apply bind_ok in E as (t3 & [-> _]%int_inv & E). apply bind_ok in E as (t4 & [-> _]%int_inv & E).
    apply bind_ok in E as (t5 & [-> _]%int_inv & E). apply int_inv in E as [-> I]. split; [|exact I].
    rewrite <- expand. rewrite Z2Nat.id by lia. reflexivity.
  - intros k [[ab1 sa1] sb1] s' K (-> & -> & ->) E2. rewrite A, B in E2 by exact K. cbn [bind] in E2.
    apply bind_ok in E2 as (t1 & [-> _]%int_inv & E2). apply bind_ok in E2 as (t2 & [-> _]%int_inv & E2).
    apply bind_ok in E2 as (t3 & [-> _]%int_inv & E2). injection E2 as <-.
    replace (Z.to_nat (k + 1)) with (S (Z.to_nat k)) by lia. cbn [sum_of]. rewrite Z2Nat.id by lia. auto.
Qed.

Lemma dispatch_exact (lhs rhs : Z -> Z -> res Z) m n depth p q i j (f g : Z -> Z) x : 0 < depth ->
  (forall l, 0 <= l < depth -> lhs i l = Ok (f l)) -> (forall l, 0 <= l < depth -> rhs l j = Ok (g l)) ->
  dispatch lhs rhs m n depth p q i j = Ok x ->
  x = sum_of Z.add (fun l => (f l + p) * (g l + q)) 0 (Z.to_nat depth) /\ in_int32 x = true.
Proof.
  intros D A B. unfold dispatch. destruct (m <? n); intros E.
  - apply (entry_exact (fun j l => rhs l j) (fun l i => lhs i l) depth q p j i g f x D B A) in E as [-> I].
    split; [|exact I]. apply sum_ext. intros. lia.
  - now apply (entry_exact lhs rhs depth p q i j).
Qed.

Section Product.
Context {F : Type}.
Variable O : fops F.
Variable junk : nat -> Z.

Lemma product_overflow scratch a va pa b vb pb c vc (fa fb : Z -> Z -> Z) :
  inside va (lenZ a) -> inside vb (lenZ b) ->
  v_stride va = v_cols va -> v_stride vb = v_cols vb ->
  v_cols va = v_rows vb -> v_rows va = v_rows vc -> v_cols vb = v_cols vc ->
  1 < v_rows va * v_cols va -> 1 < v_rows vb * v_cols vb ->
  (forall r k, index va r k -> mget a va r k = Ok (fa r k)) ->
  (forall k r, index vb k r -> mget b vb k r = Ok (fb k r)) ->
  forall i j, index vc i j ->
  in_int32 (sum_of Z.add (fun k => (fa i k - p_zero pa) * (fb k j - p_zero pb)) 0 (Z.to_nat (v_cols va))) = false ->
  mat_mat_u8 O junk scratch a va pa b vb pb c vc = Fault Undef.
Proof.
  intros Ia Ib Sa Sb D1 D2 D3 Na Nb Fa Fb i j I No.
  assert (Ja := Ia). assert (Jb := Ib). unfold inside in Ja, Jb. unfold int_max in *.
  unfold mat_mat_u8. rewrite D1, D2, D3, !Z.eqb_refl. cbn [andb check bind].
  rewrite int_ok by (rewrite <- D1, <- D2; rewrite Sa in Ja; nia). cbn [bind].
  destruct (Z.ltb_spec 1 (v_rows vb * v_rows vc)); [|rewrite <- D1, <- D2 in *; lia]. cbn [check bind].
  rewrite int_ok by (rewrite <- D3; rewrite Sb in Jb; nia). cbn [bind].
  destruct (Z.ltb_spec 1 (v_cols vc * v_rows vb)); [|rewrite <- D3 in *; lia]. cbn [check bind].
  match goal with |- ?r = _ => assert (M : mild r); [|destruct r as [[s c1]|f] eqn:E; [exfalso|now rewrite (M f eq_refl)]] end.
  - unfold eight_bit_gemm, assure_size. do 3 (apply mild_bind; [apply mild_int|intros]).
    apply mild_bind; [destruct (_ <=? _); mild|intros].
    apply mild_bind; [|intros; mild].
    apply mild_each. intros. apply mild_each. intros. apply mild_bind; [apply mild_dispatch|intros]. mild.
  - apply bind_ok in E as (oa & [-> _]%int_inv & E). apply bind_ok in E as (ob & [-> _]%int_inv & E).
    unfold eight_bit_gemm in E. apply bind_ok in E as (cells & _ & E). apply bind_ok in E as (t & _ & E).
    apply bind_ok in E as (t1 & E & _). unfold index in I.
    destruct (up_done _ _ _ _ _ _ i E ltac:(lia)) as (s1 & s2 & E1).
    destruct (up_done _ _ _ _ _ _ j E1 ltac:(lia)) as (s3 & s4 & E2).
    apply bind_ok in E2 as (x & E2 & _).
    apply (dispatch_exact _ _ _ _ _ _ _ _ _ (fun k => fa i k) (fun k => fb k j)) in E2 as [-> T].
    + rewrite <- D1 in T. assert (true = false) by (rewrite <- T; exact No). discriminate.
    + lia.
    + intros l K. rewrite <- D1. apply (mapped_ok a va i l); [assumption|assumption|unfold index; lia|apply Fa; unfold index; lia].
    + intros l K. rewrite <- D3. apply (mapped_ok b vb l j); [assumption|assumption|unfold index; lia|apply Fb; unfold index; lia].
Qed.

(** A factor that is a single number. *)
Lemma product_single scratch a va pa b vb pb c vc :
  v_rows va * v_cols va = 1 \/ (v_rows vb * v_cols vb = 1 /\ -2147483648 <= v_cols va * v_rows va <= int_max) ->
  mat_mat_u8 O junk scratch a va pa b vb pb c vc = Fault Assert.
Proof.
  intros H. unfold int_max in H. unfold mat_mat_u8. destruct (_ && _); [|reflexivity]. cbn [check bind].
  rewrite !(Z.mul_comm (v_cols _)) in *. destruct H as [-> | [-> R]].
  - reflexivity.
  - rewrite int_ok by lia. cbn [bind]. destruct (1 <? _); reflexivity.
Qed.
End Product.
