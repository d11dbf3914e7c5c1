(** Parts of vectors: whole programs and examples. *)
From Coq Require Import ZArith List Bool Lia.
From Verif.Base Require Import Prelude Lemmas.
From Verif.Model Require Import Arith Vector Fbank Nnet Views.
From Verif.Spec Require Import ViewSpec.
From Verif.Proof Require Loop Loading LoadFaultInit FbankFrame FbankTotal ZOps.
From Verif.Proof Require Import Views ViewsStep.
Import ListNotations.
Open Scope Z_scope.

Section Runs.
Context {F : Type}.
Variable O : fops F.
Variable f_pow : F -> F -> F.
Variable f_one : F -> bool.
Implicit Types m : list (list F).
Notation vstep := (vstep O f_pow f_one).
Notation vrun := (vrun O f_pow f_one).
Notation does := (does O f_pow f_one).
Notation does_all := (does_all O f_pow f_one).
Notation all_fair := (all_fair O f_pow f_one).

Lemma whole_inside m : Forall (inside m) (whole m).
Proof.
  apply Forall_forall. intros p J. unfold whole in J. apply in_map_iff in J. destruct J as ((n & b) & <- & J).
  assert (E : forall (l : list (list F)) a n b, In (n, b) (combine (seq a (length l)) l) -> (a <= n)%nat /\ nth_error l (n - a) = Some b).
  { clear. induction l as [|x l IH]; intros a n b J; cbn in J; [destruct J|]. destruct J as [[= <- <-]|J].
    - rewrite Nat.sub_diag. auto.
    - apply IH in J. destruct J as (A & B). split; [lia|]. replace (n - a)%nat with (S (n - S a)) by lia. exact B. }
  apply E in J. rewrite Nat.sub_0_r in J. destruct J as (_ & J). cbn [fst snd]. repeat split; cbn; try (unfold lenZ; lia).
  - apply nth_error_Some. congruence.
  - apply nth_error_nth with (d := []) in J. rewrite J. lia.
Qed.

Lemma runs cs : forall m ps, Forall (inside m) ps -> all_fair (m, ps) cs ->
  vrun (m, ps) cs = does_all (m, ps) cs /\ forall m' ps' l, vrun (m, ps) cs = Ok ((m', ps'), l) -> Forall (inside m') ps'.
Proof.
  induction cs as [|c cs IH]; intros m ps I Fr; cbn [Views.vrun ViewSpec.does_all].
  - split; [reflexivity|]. intros m' ps' l [= <- <- <-]. exact I.
  - cbn [ViewSpec.all_fair snd] in Fr. destruct Fr as (Fc & Fs). destruct (step_fair O f_pow f_one m ps c I Fc) as (E & K). rewrite E.
    destruct (does (m, ps) c) as [[[m1 ps1] a]|f] eqn:D; cbn [bind]; [|split; [reflexivity|discriminate]].
    destruct (IH m1 ps1 (K _ _ _ eq_refl) (Fs _ _ eq_refl)) as (E1 & K1). rewrite E1 in *.
    destruct (does_all (m1, ps1) cs) as [[[m2 ps2] l]|f]; cbn [bind]; [|split; [reflexivity|discriminate]].
    split; [reflexivity|]. intros m' ps' l' [= <- <- <-]. now apply (K1 _ _ l).
Qed.

Theorem programs m cs : all_fair (m, whole m) cs -> vrun (m, whole m) cs = does_all (m, whole m) cs.
Proof. intros A. exact (proj1 (runs cs m (whole m) (whole_inside m) A)). Qed.

(** The memory a step leaves. *)
Lemma step_target m ps c m' ps' a : Forall (inside m) ps -> fair ps c -> vstep (m, ps) c = Ok ((m', ps'), a) ->
  match target c with
  | None => m' = m
  | Some i => exists p l, nth_error ps i = Some p /\ m' = replaced m p l /\ lenZ l = p_dim p
  end.
Proof.
  intros I Fr E. destruct (step_fair O f_pow f_one m ps c I Fr) as (E1 & _). rewrite E1 in E. clear E1.
  assert (At : forall i p, nth_error ps i = Some p -> inside m p).
  { intros i p J. apply nth_error_In in J. now apply (proj1 (Forall_forall _ _) I). }
  assert (One : forall i, match nth_error ps i with None => Fault Undef | Some p =>
       match changed O f_pow (contents m p) c with Fault e => Fault e | Ok (l, a) => Ok ((replaced m p l, ps), a) end end = Ok ((m', ps'), a) ->
     exists p l, nth_error ps i = Some p /\ m' = replaced m p l /\ changed O f_pow (contents m p) c = Ok (l, a)).
  { intros i X. destruct (nth_error ps i) as [p|]; [|discriminate]. destruct (changed O f_pow (contents m p) c) as [[l b]|] eqn:C; [|discriminate].
    injection X as <- <- <-. now exists p, l. }
  assert (Two : forall i j, match nth_error ps i, nth_error ps j with Some p, Some q =>
       match changed2 O f_one (contents m p) (contents m q) c with Fault e => Fault e | Ok (l, a) => Ok ((replaced m p l, ps), a) end | _, _ => Fault Undef end = Ok ((m', ps'), a) ->
     exists p q l, nth_error ps i = Some p /\ nth_error ps j = Some q /\ m' = replaced m p l /\ changed2 O f_one (contents m p) (contents m q) c = Ok (l, a)).
  { intros i j X. destruct (nth_error ps i) as [p|]; [|discriminate]. destruct (nth_error ps j) as [q|]; [|discriminate].
    destruct (changed2 O f_one (contents m p) (contents m q) c) as [[l b]|] eqn:C; [|discriminate].
    injection X as <- <- <-. now exists p, q, l. }
  assert (Fin1 : forall i, (exists p l, nth_error ps i = Some p /\ m' = replaced m p l /\ changed O f_pow (contents m p) c = Ok (l, a)) ->
     (forall l0 l b, changed O f_pow l0 c = Ok (l, b) -> length l = length l0) ->
     exists p l, nth_error ps i = Some p /\ m' = replaced m p l /\ lenZ l = p_dim p).
  { intros i (p & l & N & M & C) H. exists p, l. split; [exact N|]. split; [exact M|]. unfold lenZ. rewrite (H _ _ _ C). apply contents_len. now apply (At i). }
  assert (Fin2 : forall i j, (exists p q l, nth_error ps i = Some p /\ nth_error ps j = Some q /\ m' = replaced m p l /\ changed2 O f_one (contents m p) (contents m q) c = Ok (l, a)) ->
     (forall l0 l1 l b, changed2 O f_one l0 l1 c = Ok (l, b) -> length l = length l0) ->
     exists p l, nth_error ps i = Some p /\ m' = replaced m p l /\ lenZ l = p_dim p).
  { intros i j (p & q & l & N & _ & M & C) H. exists p, l. split; [exact N|]. split; [exact M|]. unfold lenZ. rewrite (H _ _ _ _ C). apply contents_len. now apply (At i). }
  destruct c as [i o l|i k|i k x|i x|i|i x|i x|i x|i|i x|i|i|i j|i j|i j|i x j]; cbn [ViewSpec.does target] in *.
  - destruct (nth_error ps i); [|discriminate]. destruct (_ <=? _); [|discriminate]. now injection E as <- _ _.
  - destruct (nth_error ps i) as [p|] eqn:N; [|discriminate]. cbn [changed] in E. destruct (nth_error (contents m p) (Z.to_nat k)); [|discriminate].
    injection E as <- _ _. apply replaced_contents. now apply (At i).
  - apply (Fin1 i (One i E)). intros l0 l b. cbn. destruct (nth_error l0 (Z.to_nat k)); [|discriminate]. intros [= <- _]. apply upd_length.
  - apply (Fin1 i (One i E)). intros l0 l b [= <- _]. apply repeat_length.
  - apply (Fin1 i (One i E)). intros l0 l b [= <- _]. apply repeat_length.
  - apply (Fin1 i (One i E)). intros l0 l b [= <- _]. apply map_length.
  - apply (Fin1 i (One i E)). intros l0 l b [= <- _]. apply map_length.
  - apply (Fin1 i (One i E)). intros l0 l b [= <- _]. apply map_length.
  - apply (Fin1 i (One i E)). intros l0 l b. cbn. destruct (forallb _ l0); [|discriminate]. intros [= <- _]. apply map_length.
  - apply (Fin1 i (One i E)). intros l0 l b [= <- _]. apply map_length.
  - apply (Fin1 i (One i E)). intros l0 l b [= <- _]. now rewrite !map_length.
  - apply (Fin1 i (One i E)). intros l0 l b [= <- _]. apply map_length.
  - apply (Fin2 i j (Two i j E)). intros l0 l1 l b. unfold changed2. destruct (Nat.eqb_spec (length l0) (length l1)); [|discriminate]. intros [= <- _]. congruence.
  - destruct (nth_error ps i) as [p|] eqn:N; [|discriminate]. destruct (nth_error ps j) as [q|]; [|discriminate].
    unfold changed2 in E. destruct (Nat.eqb_spec (length (contents m p)) (length (contents m q))); [|discriminate]. cbn [negb] in E.
    injection E as <- _ _. apply replaced_contents. now apply (At i).
  - apply (Fin2 i j (Two i j E)). intros l0 l1 l b. unfold changed2. destruct (Nat.eqb_spec (length l0) (length l1)); [|discriminate]. intros [= <- _]. now apply pair_len.
  - apply (Fin2 i j (Two i j E)). intros l0 l1 l b. unfold changed2. destruct (Nat.eqb_spec (length l0) (length l1)); [|discriminate]. intros [= <- _]. now apply pair_len.
Qed.

Theorem nothing_else m0 cs m ps l c m' ps' a : all_fair (m0, whole m0) cs -> vrun (m0, whole m0) cs = Ok ((m, ps), l) ->
  fair ps c -> vstep (m, ps) c = Ok ((m', ps'), a) ->
  forall q, inside m q -> (forall i p, target c = Some i -> nth_error ps i = Some p -> apart p q) -> contents m' q = contents m q.
Proof.
  intros A R Fr E q Hq Ap. destruct (runs cs m0 (whole m0) (whole_inside m0) A) as (_ & K). specialize (K _ _ _ R).
  pose proof (step_target m ps c m' ps' a K Fr E) as T. destruct (target c) as [i|]; [|now subst].
  destruct T as (p & v & N & -> & L). apply contents_apart; auto; [|now apply (Ap i)].
  apply nth_error_In in N. now apply (proj1 (Forall_forall _ _) K).
Qed.

(** ** Calls on parts that lie apart can change places *)

Lemma replaced_swap m p q l l' : inside m p -> inside m q -> lenZ l = p_dim p -> lenZ l' = p_dim q -> apart p q ->
  replaced (replaced m p l) q l' = replaced (replaced m q l') p l.
Proof.
  intros H Hq L L' A. apply list_ext. intros n. destruct (Nat.lt_ge_cases n (length m)) as [G|G].
  2: { rewrite !(proj2 (nth_error_None _ _)); rewrite ?replaced_length; auto. }
  assert (E : forall X : list (list F), length X = length m -> nth_error X n = Some (nth n X [])) by (intros; apply nth_error_nth'; lia).
  rewrite !E by (rewrite ?replaced_length; reflexivity). f_equal. clear E.
  assert (Hp' := inside_replaced m q l' p Hq ltac:(lia) H). assert (Hq' := inside_replaced m p l q H ltac:(lia) Hq).
  assert (Nx : forall M x v i, (x < length M)%nat -> nth i (upd M x v) [] = if Nat.eqb x i then v else nth i M ([] : list F)).
  { clear. intros M x v i Lx. destruct (Nat.eqb_spec x i) as [<-|N]; [now apply nth_upd|].
    assert (Y : nth_error (upd M x v) i = nth_error M i) by (rewrite nth_error_upd; now apply Nat.eqb_neq in N as ->).
    destruct (nth_error M i) as [b|] eqn:B.
    - apply nth_error_nth with (d := []) in Y, B. congruence.
    - apply nth_error_None in Y, B. now rewrite !nth_overflow. }
  rewrite !replaced_block. rewrite !Nx by (rewrite ?upd_length; first [apply H|apply Hq]).
  destruct (Nat.eqb_spec (p_block q) n) as [Bq|Bq], (Nat.eqb_spec (p_block p) n) as [Bp|Bp]; try reflexivity.
  - subst n. destruct (Nat.eqb_spec (p_block p) (p_block q)) as [B|]; [|congruence]. destruct (Nat.eqb_spec (p_block q) (p_block p)); [|congruence].
    apply list_ext. intros k. pose proof (fits m p l H ltac:(lia)) as Fp. pose proof (fits m q l' Hq ltac:(lia)) as Fq. rewrite B in Fp. rewrite !B.
    rewrite !splice_nth by (rewrite ?splice_len; lia). destruct A as [A|A]; [congruence|]. unfold lenZ in L, L'. destruct H as (_ & P1 & P2 & _), Hq as (_ & Q1 & Q2 & _).
    destruct (Nat.leb_spec (Z.to_nat (p_off q)) k), (Nat.ltb_spec k (Z.to_nat (p_off q) + length l')),
      (Nat.leb_spec (Z.to_nat (p_off p)) k), (Nat.ltb_spec k (Z.to_nat (p_off p) + length l)); cbn [andb]; try reflexivity; lia.
  - subst n. destruct (Nat.eqb_spec (p_block p) (p_block q)); [congruence|reflexivity].
  - subst n. destruct (Nat.eqb_spec (p_block q) (p_block p)); [congruence|reflexivity].
Qed.

Lemma single_does c i m ps p : single c i -> nth_error ps i = Some p ->
  fair ps c /\ does (m, ps) c = match changed O f_pow (contents m p) c with Fault e => Fault e | Ok (l, a) => Ok ((replaced m p l, ps), a) end.
Proof. intros S N. destruct c; cbn in S; try contradiction; try (destruct S as (-> & S)); try subst; cbn [fair ViewSpec.does]; rewrite ?N; auto. Qed.

Lemma single_len c i l0 l b : single c i -> changed O f_pow l0 c = Ok (l, b) -> length l = length l0.
Proof.
  intros S. destruct c; cbn in S; try contradiction; cbn [changed];
    try (destruct (nth_error l0 (Z.to_nat k)); [|discriminate]); try (destruct (forallb _ l0); [|discriminate]); intros [= <- _];
    rewrite ?upd_length, ?repeat_length, ?map_length; reflexivity.
Qed.

Theorem order_free m0 cs m ps l0 c1 c2 i1 i2 p1 p2 m1 ps1 a1 a2 :
  all_fair (m0, whole m0) cs -> vrun (m0, whole m0) cs = Ok ((m, ps), l0) ->
  single c1 i1 -> single c2 i2 -> nth_error ps i1 = Some p1 -> nth_error ps i2 = Some p2 -> apart p1 p2 ->
  vrun (m, ps) [c1; c2] = Ok ((m1, ps1), [a1; a2]) -> vrun (m, ps) [c2; c1] = Ok ((m1, ps1), [a2; a1]).
Proof.
  intros A R S1 S2 N1 N2 Ap E. destruct (runs cs m0 (whole m0) (whole_inside m0) A) as (_ & K). specialize (K _ _ _ R).
  assert (H1 : inside m p1) by (apply nth_error_In in N1; now apply (proj1 (Forall_forall _ _) K)).
  assert (H2 : inside m p2) by (apply nth_error_In in N2; now apply (proj1 (Forall_forall _ _) K)).
  assert (Ap' : apart p2 p1) by (unfold apart in *; destruct Ap as [X|[X|X]]; [left; congruence|right; right; exact X|right; left; exact X]).
  cbn [Views.vrun] in *.
  destruct (single_does c1 i1 m ps p1 S1 N1) as (F1 & D1). destruct (single_does c2 i2 m ps p2 S2 N2) as (F2 & D2).
  destruct (step_fair O f_pow f_one m ps c1 K F1) as (T1 & K1). destruct (step_fair O f_pow f_one m ps c2 K F2) as (T2 & K2).
  rewrite T1, D1 in E. rewrite T2, D2. rewrite D1 in K1. rewrite D2 in K2.
  destruct (changed O f_pow (contents m p1) c1) as [[v1 b1]|] eqn:C1; [|discriminate]. cbn [bind] in E.
  specialize (K1 _ _ _ eq_refl). assert (L1 : lenZ v1 = p_dim p1) by (unfold lenZ; rewrite (single_len _ _ _ _ _ S1 C1); now apply contents_len).
  destruct (single_does c2 i2 (replaced m p1 v1) ps p2 S2 N2) as (_ & D2').
  destruct (step_fair O f_pow f_one (replaced m p1 v1) ps c2 K1 F2) as (T2' & _). rewrite T2', D2' in E.
  rewrite contents_apart in E by assumption.
  destruct (changed O f_pow (contents m p2) c2) as [[v2 b2]|] eqn:C2; [|discriminate]. cbn [bind] in *.
  specialize (K2 _ _ _ eq_refl). assert (L2 : lenZ v2 = p_dim p2) by (unfold lenZ; rewrite (single_len _ _ _ _ _ S2 C2); now apply contents_len).
  destruct (single_does c1 i1 (replaced m p2 v2) ps p1 S1 N1) as (_ & D1').
  destruct (step_fair O f_pow f_one (replaced m p2 v2) ps c1 K2 F1) as (T1' & _). rewrite T1', D1'.
  rewrite contents_apart, C1 by assumption. cbn [bind]. rewrite <- (replaced_swap m p1 p2 v1 v2) by assumption.
  injection E as <- <- <- <-. reflexivity.
Qed.

(** ** Overlapping operands *)

Lemma overlap_true p q : p_dim p = p_dim q -> ~ apart p q -> overlap p q = true.
Proof.
  intros D A. unfold overlap, apart in *. destruct (Nat.eqb_spec (p_block p) (p_block q)); [|tauto].
  destruct (Z.ltb_spec (p_off p) (p_off q + p_dim q)); [|lia]. destruct (Z.ltb_spec (p_off q) (p_off p + p_dim p)); [|lia].
  destruct (Z.ltb_spec 0 (p_dim p)); [reflexivity|lia].
Qed.

Theorem overlapping m ps i j p q : nth_error ps i = Some p -> nth_error ps j = Some q -> p_dim p = p_dim q -> ~ apart p q ->
  (p_off p <> p_off q -> vstep (m, ps) (VCopy i j) = Fault Undef) /\
  (forall alpha, vstep (m, ps) (VAddVec i alpha j) = Fault Undef).
Proof.
  intros Ni Nj D A. cbn [Views.vstep]. unfold the_part. rewrite Ni, Nj. cbn [bind]. unfold part_copy, part_add_vec. rewrite D, Z.eqb_refl. cbn [check bind].
  rewrite (overlap_true p q D A). cbn [negb check bind vdone]. split; [|reflexivity]. intros N.
  assert (X : p_off p =? p_off q = false) by now apply Z.eqb_neq. rewrite X, andb_false_r. destruct (0 <=? p_dim q); reflexivity.
Qed.

End Runs.

(** ** The functions of lists used elsewhere *)

Section Lists.
Context {F : Type}.
Variable O : fops F.
Variable f_one : F -> bool.
Implicit Types m : list (list F).

Lemma map2_pairwise (g : F -> F -> F) l l' : map2 g l l' = pairwise g l l'.
Proof. revert l'. induction l as [|a l IH]; intros [|b l']; cbn; auto. now rewrite IH. Qed.

Lemma fold_map {A B C} (f : A -> B -> A) (g : C -> B) l : forall z, fold_left f (map g l) z = fold_left (fun s x => f s (g x)) l z.
Proof. induction l as [|a l IH]; intros z; [reflexivity|]. apply IH. Qed.

Theorem lists_suffice m p : inside m p ->
  (forall x, bind (part_floor O m p x) (fun r => Ok (fst r)) = Ok (replaced m p (apply_floor O x (contents m p)))) /\
  part_log O m p = bind (apply_log O (contents m p)) (fun l => Ok (replaced m p l)) /\
  part_softmax O m p = Ok (replaced m p (apply_softmax O (contents m p))) /\
  part_log_softmax O m p = Ok (replaced m p (apply_log_softmax O (contents m p))) /\
  (forall q, inside m q -> part_dot O m p q = vec_vec O (contents m p) (contents m q)) /\
  (forall q, inside m q -> apart p q \/ p_off p <= p_off q ->
     part_mul O m p q = bind (mul_elements O (contents m p) (contents m q)) (fun l => Ok (replaced m p l))) /\
  (forall q alpha, inside m q -> apart p q -> part_add_vec O f_one m p alpha q =
     bind (if f_one alpha then add_vec O (contents m p) (contents m q) else add_vec_scaled O alpha (contents m p) (contents m q)) (fun l => Ok (replaced m p l))).
Proof.
  intros H. split; [intros x; now rewrite floor_ok by exact H|]. split.
  { destruct (forallb (f_nonneg O) (contents m p)) eqn:A.
    - rewrite log_ok, Loading.apply_log_ok by (auto; apply Forall_forall; now apply forallb_forall). reflexivity.
    - rewrite log_fails by auto. destruct (apply_log O (contents m p)) as [v|f] eqn:E.
      + exfalso. rewrite Loading.apply_log_bad in E; [discriminate|].
        destruct (find_first _ _ _ A) as (k & x & N & T & _). apply Exists_exists. exists x. split; [now apply nth_error_In in N|exact T].
      + apply LoadFaultInit.apply_log_fault in E. destruct E as (_ & ->). reflexivity. }
  split; [rewrite softmax_ok by exact H; reflexivity|]. split.
  { rewrite log_softmax_ok by exact H. unfold apply_log_softmax, sum. now rewrite fold_map. }
  split.
  { intros q Hq. pose proof (contents_len m p H) as L. pose proof (contents_len m q Hq) as Lq. unfold part_dot. rewrite <- L, <- Lq.
    destruct (Z.eqb_spec (lenZ (contents m q)) (lenZ (contents m p))) as [D|D]; cbn [check bind].
    - rewrite D, L, (read_fold m p q (fun s x y => f_add O s (f_mul O x y))); auto; [|congruence|intros s k x y K R R'; now rewrite R, R'].
      destruct (FbankTotal.vec_vec_ok O (contents m p) (contents m q) (eq_sym D)) as (s & E). rewrite E.
      apply FbankFrame.vec_vec_fold in E. destruct E as (_ & ->). reflexivity.
    - unfold vec_vec. destruct (Z.eqb_spec (lenZ (contents m q)) (lenZ (contents m p))); [contradiction|reflexivity]. }
  split.
  - intros q Hq A. pose proof (contents_len m p H) as L. pose proof (contents_len m q Hq) as Lq. unfold part_mul, mul_elements. rewrite L, Lq.
    destruct (Z.eqb_spec (p_dim q) (p_dim p)) as [D|D]; cbn [check bind]; [|reflexivity]. rewrite map2_pairwise.
    apply pairs_ok; auto. intros s k x y K R R'. rewrite R. cbn [bind]. rewrite get_rd, R' by lia. reflexivity.
  - intros q alpha Hq A. pose proof (contents_len m p H) as L. pose proof (contents_len m q Hq) as Lq. unfold part_add_vec, add_vec, add_vec_scaled. rewrite L, Lq.
    destruct (Z.eqb_spec (p_dim p) (p_dim q)) as [D|D]; cbn [check bind]; [|now destruct (f_one alpha)].
    rewrite (overlap_apart p q D A). cbn [negb check bind].
    destruct (f_one alpha); cbn [check bind]; rewrite map2_pairwise; apply pairs_ok; auto; intros s k u y K R R'; now rewrite R, R'.
Qed.
End Lists.

(** ** Examples *)

Definition z_pow (x y : Z) : Z := Z.pow x y.

(** Two vectors, parts of parts, all kinds of calls. *)
Definition vectors : list (list Z) := [[1; 2; 3; 4]; [5; 6; 8]].
Definition program : list (vcall Z) :=
  [VRange 0 1 3; VRange 2 1 2; VSet 3 7; VCopy 2 1; VMul 3 3; VRange 0 0 2; VRange 0 2 2; VAddVec 4 3 5; VMul 4 5; VGet 0 2; VDot 2 1;
   VScale 3 2; VFloor 0 100; VSoftmax 1; VLogSoftmax 4; VPow 3 2; VAdd 1 1; VPut 2 1 9; VZero 4; VLog 1].

Lemma program_fair : all_fair ZOps.zops z_pow (Z.eqb 1) (vectors, whole vectors) program.
Proof.
  unfold program. repeat (match goal with |- all_fair _ _ _ _ (_ :: _) => idtac end; split; [|let s := fresh in let E := fresh in intros s ? E; vm_compute in E; injection E as <- _]);
    cbn; try exact I; try (unfold int_max; lia);
    intros p q Ep Eq; injection Ep as <-; injection Eq as <-; unfold apart; cbn; try (right; split; [reflexivity|]); lia.
Qed.

Lemma program_result : exists ps l, vrun ZOps.zops z_pow (Z.eqb 1) (vectors, whole vectors) program = Ok ([[0; 0; 9; 16384]; [1; 1; 1]], ps, l) /\
  length ps = 6%nat /\ nth_error l 9 = Some (VValue 36) /\ nth_error l 12 = Some (VCount 1).
Proof. do 2 eexists. split; [vm_compute; reflexivity|]. auto. Qed.

(** A part multiplied by one that begins one element earlier. *)
Lemma mul_behind : exists ps l, let cs := [VRange 0 1 2; VRange 0 0 2; VMul 1 2] in
  vrun ZOps.zops z_pow (Z.eqb 1) ([[2; 3; 5]], whole [[2; 3; 5]]) cs = Ok ([[2; 6; 30]], ps, l) /\
  does_all ZOps.zops z_pow (Z.eqb 1) ([[2; 3; 5]], whole [[2; 3; 5]]) cs = Ok ([[2; 6; 15]], ps, l).
Proof. do 2 eexists. split; vm_compute; reflexivity. Qed.

(** The element before the part. *)
Lemma escapes : exists ps l, let cs := [VRange 0 1 2; VRange 1 (-1) 1; VSet 2 9] in
  vrun ZOps.zops z_pow (Z.eqb 1) ([[1; 2; 3; 4]], whole [[1; 2; 3; 4]]) cs = Ok ([[9; 2; 3; 4]], ps, l) /\
  nth_error ps 1 = Some (mk_part 0 1 2).
Proof. do 2 eexists. split; [vm_compute; reflexivity|reflexivity]. Qed.

Lemma escapes_read : vrun ZOps.zops z_pow (Z.eqb 1) ([[1; 2; 3; 4]], whole [[1; 2; 3; 4]]) [VRange 0 2 2; VGet 1 (-1)] =
  Ok ([[1; 2; 3; 4]], [mk_part 0 0 4; mk_part 0 2 2], [VDone; VValue 2]).
Proof. vm_compute. reflexivity. Qed.

(** A part of negative length is accepted. *)
Lemma negative_length : vrun ZOps.zops z_pow (Z.eqb 1) ([[1; 2; 3; 4]], whole [[1; 2; 3; 4]]) [VRange 0 0 (-1); VSet 1 9] =
    Ok ([[1; 2; 3; 4]], [mk_part 0 0 4; mk_part 0 0 (-1)], [VDone; VDone]) /\
  vrun ZOps.zops z_pow (Z.eqb 1) ([[1; 2; 3; 4]], whole [[1; 2; 3; 4]]) [VRange 0 0 (-1); VZero 1] = Fault Undef.
Proof. split; vm_compute; reflexivity. Qed.
