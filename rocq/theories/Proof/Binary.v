(** Binary readers: what they accept and what they consume. *)
From Coq Require Import ZArith List Bool Lia.
From Verif.Base Require Import Prelude Lemmas.
From Verif.Model Require Import Util File Binary.
From Verif.Spec Require Import AudioSpec.
Import ListNotations.
Open Scope Z_scope.
Ltac Zify.zify_post_hook ::= Z.div_mod_to_equations.

(** * Little-endian integers *)

Lemma encode_length : forall n z, length (encode n z) = n.
Proof. induction n; intros; cbn [encode length]; auto. Qed.

Lemma encode_bytes : forall n z, byte_list (encode n z).
Proof.
  unfold byte_list. induction n; intros; cbn [encode]; constructor; auto.
  apply Z.mod_pos_bound. lia.
Qed.

Lemma pow256 : forall n, 256 ^ Z.of_nat (S n) = 256 * 256 ^ Z.of_nat n.
Proof. intros. rewrite Nat2Z.inj_succ, Z.pow_succ_r by lia. reflexivity. Qed.

Lemma pow256_pos : forall n, 0 < 256 ^ Z.of_nat n.
Proof. intros. apply Z.pow_pos_nonneg; lia. Qed.

Lemma le_unsigned_encode : forall n z, le_unsigned (encode n z) = z mod 256 ^ Z.of_nat n.
Proof.
  induction n; intros.
  - cbn. rewrite Z.mod_1_r. reflexivity.
  - cbn [encode le_unsigned]. rewrite IHn, pow256.
    pose proof (pow256_pos n).
    rewrite Z.rem_mul_r by lia. reflexivity.
Qed.

Lemma le_unsigned_bound : forall b, byte_list b -> 0 <= le_unsigned b < 256 ^ lenZ b.
Proof.
  unfold byte_list. induction 1 as [|c b H Hb IH].
  - cbn. lia.
  - unfold lenZ in *. cbn [length le_unsigned]. rewrite pow256. lia.
Qed.

Lemma encode_le_unsigned : forall b z, byte_list b ->
  z mod 256 ^ lenZ b = le_unsigned b -> encode (length b) z = b.
Proof.
  unfold byte_list. intros b z H. revert z. induction H as [|c b H Hb IH]; intros z E.
  - reflexivity.
  - unfold lenZ in *. cbn [length le_unsigned encode] in *. rewrite pow256 in E.
    pose proof (pow256_pos (length b)).
    rewrite Z.rem_mul_r in E by lia.
    pose proof (Z.mod_pos_bound z 256). 
    assert (z mod 256 = c /\ z / 256 mod 256 ^ Z.of_nat (length b) = le_unsigned b) as [E1 E2] by lia.
    f_equal; auto.
Qed.

Lemma half256 : forall n, (0 < n)%nat ->
  256 ^ Z.of_nat n = 2 * 2 ^ (8 * Z.of_nat n - 1) /\ 0 < 2 ^ (8 * Z.of_nat n - 1).
Proof.
  intros. split.
  - rewrite <- Z.pow_succ_r by lia. replace 256 with (2 ^ 8) by reflexivity.
    rewrite <- Z.pow_mul_r by lia. f_equal. lia.
  - apply Z.pow_pos_nonneg; lia.
Qed.

Lemma le_signed_encode : forall n z, (0 < n)%nat -> fits n z -> le_signed (encode n z) = z.
Proof.
  intros n z P F. unfold le_signed, lenZ. rewrite encode_length, le_unsigned_encode.
  unfold fits in F. destruct (half256 n P) as [E Q]. rewrite E.
  set (h := 2 ^ (8 * Z.of_nat n - 1)) in *.
  replace (2 * h / 2) with h by (rewrite Z.mul_comm, Z.div_mul; lia).
  destruct (Z.ltb_spec (z mod (2 * h)) h) as [L|L].
  - destruct (Z_lt_le_dec z 0).
    + rewrite <- (Z.mod_unique z (2 * h) (-1) (z + 2 * h)) in L by lia. lia.
    + apply Z.mod_small. lia.
  - destruct (Z_lt_le_dec z 0).
    + rewrite <- (Z.mod_unique z (2 * h) (-1) (z + 2 * h)) by lia. lia.
    + rewrite Z.mod_small in L by lia. lia.
Qed.

Lemma le_signed_fits : forall b, byte_list b -> b <> [] -> fits (length b) (le_signed b).
Proof.
  intros b B N. unfold fits, le_signed. pose proof (le_unsigned_bound b B) as U.
  unfold lenZ in *.
  destruct (half256 (length b)) as [E Q]; [destruct b; [congruence | cbn; lia]|].
  rewrite E in *. set (h := 2 ^ (8 * Z.of_nat (length b) - 1)) in *.
  replace (2 * h / 2) with h by (rewrite Z.mul_comm, Z.div_mul; lia).
  destruct (Z.ltb_spec (le_unsigned b) h); lia.
Qed.

Lemma encode_le_signed : forall b, byte_list b -> encode (length b) (le_signed b) = b.
Proof.
  intros b B. apply encode_le_unsigned; auto.
  pose proof (le_unsigned_bound b B) as U. unfold le_signed.
  destruct (le_unsigned b <? 256 ^ lenZ b / 2).
  - apply Z.mod_small; lia.
  - replace (le_unsigned b - 256 ^ lenZ b) with (le_unsigned b + (-1) * 256 ^ lenZ b) by lia.
    rewrite Z_mod_plus_full. apply Z.mod_small; lia.
Qed.

(** * Readers that accept *)

Definition reads {A} (m : io A) (c : bytes) (a : A) : Prop :=
  forall rest e, m (mk_file (c ++ rest) e) = Ok (Some a, mk_file rest e).

Lemma reads_ret : forall A (a : A), reads (io_ret a) [] a.
Proof. intros A a rest e. reflexivity. Qed.

Lemma reads_bind : forall A B (m : io A) (k : A -> io B) c1 c2 a b,
  reads m c1 a -> reads (k a) c2 b -> reads (io_bind m k) (c1 ++ c2) b.
Proof.
  intros A B m k c1 c2 a b H1 H2 rest e. unfold io_bind.
  rewrite <- app_assoc, H1. cbn [bind]. apply H2.
Qed.

Lemma reads_check : forall b, b = true -> reads (io_check b) [] tt.
Proof. intros b -> rest e. reflexivity. Qed.

Lemma reads_assert : forall b x, b = true -> reads (io_assert b x) [] tt.
Proof. intros b x -> rest e. reflexivity. Qed.

Lemma read_app : forall c rest e, c <> [] ->
  read (mk_file (c ++ rest) e) (lenZ c) = Ok (Some c, mk_file rest e).
Proof.
  intros. unfold read, lenZ. cbn [f_rest f_eof].
  destruct c as [|x c]; [congruence|]. 
  destruct (Z.ltb_spec (Z.of_nat (length (x :: c))) 0); [lia|].
  destruct (Z.eqb_spec (Z.of_nat (length (x :: c))) 0); [cbn [length] in *; lia|].
  rewrite app_length. destruct (Z.leb_spec (Z.of_nat (length (x :: c))) (Z.of_nat (length (x :: c) + length rest))); [|lia].
  rewrite Nat2Z.id, firstn_app, firstn_all, skipn_app, skipn_all, Nat.sub_diag.
  cbn [firstn skipn app]. rewrite app_nil_r. reflexivity.
Qed.

Lemma reads_read : forall n c, lenZ c = n -> 0 < n -> reads (io_read n) c c.
Proof.
  intros n c L P rest e. unfold io_read. subst n. apply read_app.
  intros ->. cbn in P. lia.
Qed.

Lemma reads_int : forall n z, (0 < n)%nat -> fits n z ->
  reads (io_int (Z.of_nat n)) (encode n z) z.
Proof.
  intros n z P F. unfold io_int.
  rewrite <- (app_nil_r (encode n z)). 
  eapply reads_bind.
  - apply reads_read; [unfold lenZ; rewrite encode_length; reflexivity | lia].
  - rewrite le_signed_encode by assumption. apply reads_ret.
Qed.

Lemma str_eqb_eq : forall a b, str_eqb a b = true <-> a = b.
Proof.
  induction a as [|x a IH]; destruct b as [|y b]; cbn [str_eqb]; split; intros H; try discriminate; auto.
  - apply andb_true_iff in H. destruct H as [H1 H2]. apply Z.eqb_eq in H1. apply IH in H2. congruence.
  - inversion H; subst. rewrite Z.eqb_refl. apply IH. reflexivity.
Qed.

Lemma cstr_id : forall s, ~ In 0 s -> cstr s = s.
Proof.
  induction s as [|c s IH]; intros N; auto.
  cbn [cstr]. destruct (Z.eqb_spec c 0) as [->|]; [exfalso; apply N; now left|].
  f_equal. apply IH. intros H; apply N; now right.
Qed.

Lemma reads_verify : forall s, s <> [] -> ~ In 0 s -> reads (io_verify s) s tt.
Proof.
  intros s N Z rest e. unfold io_verify, read_and_verify.
  rewrite read_app by assumption. cbn [bind].
  rewrite cstr_id by assumption.
  replace (str_eqb s s) with true by (symmetry; apply str_eqb_eq; reflexivity).
  reflexivity.
Qed.

(** * What an accepted input looks like *)

(** [accepts m P]: if [m] succeeds it consumed some [c] with [P c a]. *)
Definition accepts {A} (m : io A) (P : bytes -> A -> Prop) : Prop :=
  forall f a f', byte_list (f_rest f) -> m f = Ok (Some a, f') ->
    exists c, f_rest f = c ++ f_rest f' /\ f_eof f' = f_eof f /\ P c a.

Lemma accepts_ret : forall A (a : A), accepts (io_ret a) (fun c x => c = [] /\ x = a).
Proof.
  intros A a f x f' _ H. inversion H; subst. exists []. repeat split; reflexivity.
Qed.

Lemma accepts_bind : forall A B (m : io A) (k : A -> io B) P Q,
  accepts m P -> (forall a, accepts (k a) (Q a)) ->
  accepts (io_bind m k) (fun c b => exists c1 c2 a, c = c1 ++ c2 /\ P c1 a /\ Q a c2 b).
Proof.
  intros A B m k P Q Hm Hk f b f' By H. unfold io_bind in H.
  destruct (m f) as [[[a|] f1]|] eqn:E; cbn [bind] in H; try discriminate.
  destruct (Hm _ _ _ By E) as [c1 [R1 [F1 P1]]].
  assert (By1 : byte_list (f_rest f1)) by (unfold byte_list in *; rewrite R1 in By; apply Forall_app in By; tauto).
  destruct (Hk a _ _ _ By1 H) as [c2 [R2 [F2 P2]]].
  exists (c1 ++ c2). split; [|split].
  - rewrite <- app_assoc. congruence.
  - congruence.
  - exists c1, c2, a. auto.
Qed.

Lemma accepts_check : forall b, accepts (io_check b) (fun c _ => c = [] /\ b = true).
Proof.
  intros [|] f a f' _ H; inversion H; subst. exists []. repeat split; reflexivity.
Qed.

Lemma accepts_assert : forall b x, accepts (io_assert b x) (fun c _ => c = [] /\ b = true).
Proof.
  intros [|] x f a f' _ H; inversion H; subst. exists []. repeat split; reflexivity.
Qed.

Lemma read_some : forall f n b f', read f n = Ok (Some b, f') ->
  0 < n /\ f_rest f = b ++ f_rest f' /\ f_eof f' = f_eof f /\ lenZ b = n.
Proof.
  intros f n b f' H. unfold read in H.
  destruct (Z.ltb_spec n 0). { destruct (f_rest f); discriminate. }
  destruct (Z.eqb_spec n 0); [discriminate|].
  destruct (Z.leb_spec n (lenZ (f_rest f))); [|discriminate].
  inversion H; subst. cbn [f_rest f_eof]. split; [lia|]. split; [|split].
  - symmetry. apply firstn_skipn.
  - reflexivity.
  - unfold lenZ in *. rewrite firstn_length. lia.
Qed.

Lemma accepts_read : forall n, accepts (io_read n) (fun c b => c = b /\ byte_list b /\ lenZ b = n /\ 0 < n).
Proof.
  intros n f b f' By H. apply read_some in H. destruct H as [P [R [E L]]].
  exists b. split; [exact R|]. split; [exact E|]. repeat split; auto.
  unfold byte_list in *. rewrite R in By. apply Forall_app in By. tauto.
Qed.

Lemma accepts_int : forall n, (0 < n)%nat ->
  accepts (io_int (Z.of_nat n)) (fun c z => c = encode n z /\ fits n z).
Proof.
  intros n P f z f' By H. unfold io_int in H.
  destruct (accepts_bind _ _ _ _ _ _ (accepts_read (Z.of_nat n)) (fun b => accepts_ret _ (le_signed b))
              _ _ _ By H) as [c [R [E [c1 [c2 [b [-> [[-> [Bb [L _]]] [-> ->]]]]]]]]].
  rewrite app_nil_r in *.
  assert (L' : length b = n) by (unfold lenZ in L; lia).
  exists b. split; [exact R|]. split; [exact E|]. subst n. split.
  - symmetry. apply encode_le_signed. assumption.
  - apply le_signed_fits; auto. intros ->. cbn in P. lia.
Qed.

Lemma accepts_verify : forall s, ~ In 0 s -> accepts (io_verify s) (fun c _ => c = s).
Proof.
  intros s N f u f' By H. unfold io_verify, read_and_verify in H.
  destruct (read f (lenZ s)) as [[[b|] f1]|] eqn:E; cbn [bind] in H; try discriminate.
  destruct (str_eqb s (cstr b)) eqn:Q; [|discriminate]. injection H as _ <-.
  apply read_some in E. destruct E as [P [R [E L]]].
  apply str_eqb_eq in Q.
  exists b. split; [exact R|]. split; [exact E|].
  assert (forall x, length (cstr x) = length x -> cstr x = x) as X.
  { induction x as [|c x IH]; auto. cbn [cstr]. destruct (c =? 0); cbn [length]; intros; [discriminate|].
    f_equal. apply IH. lia. }
  rewrite Q. symmetry. apply X. rewrite <- Q. unfold lenZ in L. lia.
Qed.

(** * Readers that never fault *)

Definition safe {A} (m : io A) : Prop := forall f, exists r, m f = Ok r.

Lemma safe_bind : forall A B (m : io A) (k : A -> io B),
  safe m -> (forall a, safe (k a)) -> safe (io_bind m k).
Proof.
  intros A B m k Hm Hk f. unfold io_bind. destruct (Hm f) as [[[a|] f1] E]; rewrite E; cbn [bind].
  - apply Hk.
  - eexists; reflexivity.
Qed.

Lemma safe_ret : forall A (a : A), safe (io_ret a).
Proof. intros A a f. eexists; reflexivity. Qed.

Lemma safe_fail : forall A, safe (@io_fail A).
Proof. intros A f. eexists; reflexivity. Qed.

Lemma safe_check : forall b, safe (io_check b).
Proof. intros [|] f; eexists; reflexivity. Qed.

Lemma safe_read : forall n, 0 <= n -> safe (io_read n).
Proof.
  intros n P f. unfold io_read, read. destruct (Z.ltb_spec n 0); [lia|].
  destruct (n =? 0); [eexists; reflexivity|]. destruct (n <=? _); eexists; reflexivity.
Qed.

Lemma safe_int : forall n, 0 <= n -> safe (io_int n).
Proof.
  intros. unfold io_int. apply safe_bind; [apply safe_read; assumption | intros; apply safe_ret].
Qed.

Lemma safe_verify : forall s, safe (io_verify s).
Proof.
  intros s f. unfold io_verify, read_and_verify.
  destruct (safe_read (lenZ s) (Zle_0_nat _) f) as [[[b|] f1] E]; unfold io_read in E; rewrite E; cbn [bind];
    eexists; reflexivity.
Qed.
