(** Squares modulo a prime: what the probe loop of the hash table relies on. *)
From Coq Require Import ZArith List Bool Lia Znumtheory Zpow_facts Permutation.
From Verif.Base Require Import Prelude Lemmas.
Import ListNotations.
Open Scope Z_scope.

(** ** Primality by trial division with odd numbers *)

Fixpoint no_odd_divisor (n : nat) (d p : Z) : bool :=
  match n with
  | O => true
  | S n => if p mod d =? 0 then false else no_odd_divisor n (d + 2) p
  end.

Lemma no_odd_divisor_sound : forall n d p e,
  no_odd_divisor n d p = true ->
  d <= e < d + 2 * Z.of_nat n -> (e - d) mod 2 = 0 -> p mod e <> 0.
Proof.
  induction n; intros d p e H Hr Hp; [lia|].
  cbn [no_odd_divisor] in H. destruct (Z.eqb_spec (p mod d) 0); [discriminate|].
  destruct (Z.eq_dec e d) as [->|Hne]; auto.
  apply (IHn (d + 2) p e H).
  - pose proof (Z.div_mod (e - d) 2 ltac:(lia)). lia.
  - replace (e - (d + 2)) with ((e - d) + (-1) * 2) by lia. now rewrite Z_mod_plus_full.
Qed.

Definition prime_test (r : nat) (p : Z) : bool :=
  negb (p mod 2 =? 0) && no_odd_divisor r 3 p &&
  (p <? (2 * Z.of_nat r + 3) * (2 * Z.of_nat r + 3)).

Lemma prime_test_sound : forall r p, 2 < p -> prime_test r p = true -> prime p.
Proof.
  intros r p Hp H. unfold prime_test in H.
  apply andb_true_iff in H. destruct H as [H Hs]. apply andb_true_iff in H. destruct H as [H2 Hd].
  apply negb_true_iff, Z.eqb_neq in H2. apply Z.ltb_lt in Hs.
  apply prime_alt. split; [lia|]. intros n Hn [q Hq].
  assert (Hodd : forall x, 1 < x -> (x | p) -> 2 * Z.of_nat r + 3 <= x).
  { intros x Hx [y Hy]. destruct (Z_le_gt_dec (2 * Z.of_nat r + 3) x); auto. exfalso.
    destruct (Z.eq_dec (x mod 2) 0) as [Ex|Ex].
    - apply H2. rewrite Hy. rewrite Zmult_mod, Ex, Z.mul_0_r. reflexivity.
    - assert (x mod 2 = 1) by (pose proof (Z.mod_pos_bound x 2); lia).
      apply (no_odd_divisor_sound _ _ _ x Hd).
      + pose proof (Z.div_mod x 2 ltac:(lia)). lia.
      + rewrite Zminus_mod, H. reflexivity.
      + rewrite Hy. apply Z_mod_mult. }
  assert (1 < q) by nia.
  pose proof (Hodd n ltac:(lia) ltac:(exists q; auto)).
  pose proof (Hodd q ltac:(lia) ltac:(exists n; lia)).
  nia.
Qed.

(** ** Fermat's little theorem *)

Definition product (l : list Z) : Z := fold_right Z.mul 1 l.

Lemma product_perm : forall l l', Permutation l l' -> product l = product l'.
Proof. induction 1; unfold product in *; simpl; try lia; congruence. Qed.

Section Prime.
  Variable p : Z.
  Hypothesis Hp : prime p.

  Lemma p_gt1 : 1 < p.
  Proof. destruct Hp; auto. Qed.

  Lemma small_not_divided : forall x, 0 < x < p -> ~ (p | x).
  Proof. intros x Hx [q Hq]. pose proof p_gt1. assert (0 < q) by nia. nia. Qed.

  Lemma product_not_divided : forall l, (forall x, In x l -> ~ (p | x)) -> ~ (p | product l).
  Proof.
    induction l; intros H Hd; unfold product in *; simpl in *.
    - destruct Hd as [q Hq]. pose proof p_gt1.
      assert (0 < q) by nia. nia.
    - apply prime_mult in Hd; auto. destruct Hd as [Hd|Hd].
      + eapply H; eauto.
      + apply IHl; auto.
  Qed.

  Lemma product_scaled : forall a l,
    (product (map (fun x => (a * x) mod p) l)) mod p =
    (a ^ Z.of_nat (length l) * product l) mod p.
  Proof.
    induction l; [reflexivity|].
    cbn [map length]. unfold product in *. cbn [fold_right].
    rewrite Zmult_mod, IHl, <- Zmult_mod.
    rewrite Zmult_mod_idemp_l.
    rewrite Nat2Z.inj_succ, Z.pow_succ_r by lia. f_equal. ring.
  Qed.

  Lemma fermat : forall a, ~ (p | a) -> (a ^ (p - 1)) mod p = 1.
  Proof.
    intros a Ha. pose proof p_gt1 as Hp1.
    set (l := seqZ 1 (Z.to_nat (p - 1))).
    assert (Hl : forall x, In x l <-> 0 < x < p).
    { intros x. unfold l. rewrite in_seqZ. lia. }
    assert (Hlen : Z.of_nat (length l) = p - 1).
    { unfold l. rewrite seqZ_length. lia. }
    assert (Hperm : Permutation (map (fun x => (a * x) mod p) l) l).
    { apply NoDup_Permutation_bis.
      - assert (Hinj : forall x y, In x l -> In y l ->
                  (a * x) mod p = (a * y) mod p -> x = y).
        { intros x y Hx Hy E. apply Hl in Hx. apply Hl in Hy.
          assert (D : (p | a * (x - y))).
          { apply Z.mod_divide; [lia|].
            replace (a * (x - y)) with (a * x - a * y) by ring.
            rewrite Zminus_mod, E, Z.sub_diag. apply Z.mod_0_l. lia. }
          apply prime_mult in D; auto. destruct D as [D|D]; [contradiction|].
          destruct D as [q Hq]. assert (q < 1) by nia. assert (-1 < q) by nia.
          assert (q = 0) by lia. subst q. lia. }
        assert (Hn : NoDup l) by apply NoDup_seqZ.
        clear Hl Hlen. induction l as [|x r]; simpl; constructor.
        + rewrite in_map_iff. intros [y [E Hy]]. inversion Hn; subst.
          assert (y = x) by (apply Hinj; simpl; auto). subst. contradiction.
        + inversion Hn; subst. apply IHr; auto.
          intros; apply Hinj; simpl; auto.
      - rewrite map_length. lia.
      - intros y Hy. apply in_map_iff in Hy. destruct Hy as [x [<- Hx]].
        apply Hl. apply Hl in Hx. pose proof (Z.mod_pos_bound (a * x) p ltac:(lia)).
        assert ((a * x) mod p <> 0); [|lia]. intro E. apply Z.mod_divide in E; [|lia].
        apply prime_mult in E; auto. destruct E as [E|E]; [contradiction|].
        apply (small_not_divided x); auto. }
    apply product_perm in Hperm.
    pose proof (product_scaled a l) as Hs. rewrite Hperm, Hlen in Hs.
    assert (D : (p | (a ^ (p - 1) - 1) * product l)).
    { apply Z.mod_divide; [lia|].
      replace ((a ^ (p - 1) - 1) * product l) with (a ^ (p - 1) * product l - product l) by ring.
      rewrite Zminus_mod, <- Hs, Z.sub_diag. apply Z.mod_0_l. lia. }
    apply prime_mult in D; auto. destruct D as [D|D].
    - apply Z.mod_divide in D; [|lia].
      replace (a ^ (p - 1)) with ((a ^ (p - 1) - 1) + 1) by ring.
      rewrite Zplus_mod, D. rewrite Z.add_0_l, Z.mod_mod by lia. apply Z.mod_1_l. lia.
    - exfalso. revert D. apply product_not_divided. intros x Hx. apply Hl in Hx.
      now apply small_not_divided.
  Qed.

  (** Minus one is not a square modulo a prime of the form 4k+3. *)
  Lemma sum_of_squares : p mod 4 = 3 -> forall i j, ~ (p | i) -> ~ (p | j) ->
    ~ (p | i * i + j * j).
  Proof.
    intros H4 i j Hi Hj [q Hq]. pose proof p_gt1.
    pose proof (fermat i Hi) as Fi. pose proof (fermat j Hj) as Fj.
    set (m := (p - 1) / 2).
    assert (Hm : p - 1 = 2 * m).
    { unfold m. pose proof (Z.div_mod (p - 1) 2 ltac:(lia)) as E.
      assert ((p - 1) mod 2 = 0); [|lia].
      pose proof (Z.div_mod p 4 ltac:(lia)) as E4. rewrite H4 in E4.
      replace (p - 1) with ((2 * (p / 4) + 1) * 2) by lia. apply Z_mod_mult. }
    assert (Hodd : exists n, m = 2 * n + 1 /\ 0 <= n).
    { exists (p / 4). pose proof (Z.div_mod p 4 ltac:(lia)) as E4. rewrite H4 in E4.
      pose proof (Z.div_pos p 4 ltac:(lia) ltac:(lia)). lia. }
    destruct Hodd as [n [Hn Hn0]].
    rewrite Hm, Z.pow_mul_r in Fi by lia. rewrite Hm, Z.pow_mul_r in Fj by lia.
    rewrite Z.pow_2_r in Fi, Fj.
    assert (E : ((i * i) ^ m) mod p = (- (j * j) ^ m) mod p).
    { replace (i * i) with (- (j * j) + q * p) by lia.
      rewrite Zpower_mod, Z_mod_plus_full, <- Zpower_mod by lia.
      f_equal. rewrite Hn.
      rewrite !Z.pow_add_r, !Z.pow_mul_r by lia. rewrite !Z.pow_1_r, !Z.pow_2_r.
      replace (- (j * j) * - (j * j)) with (j * j * (j * j)) by ring. ring. }
    rewrite Fi in E.
    assert (E2 : (- (j * j) ^ m) mod p = (-1) mod p).
    { rewrite <- (Z.sub_0_l ((j * j) ^ m)). rewrite Zminus_mod, Fj.
      rewrite Z.mod_0_l by lia. reflexivity. }
    rewrite E2 in E.
    assert (p <> 3 -> False).
    { intros. rewrite <- (Z_mod_plus_full (-1) 1 p) in E.
      rewrite Z.mod_small in E by lia. lia. }
    assert (p = 3) by lia. subst p. vm_compute in E. discriminate.
  Qed.

  Definition half : nat := Z.to_nat ((p - 1) / 2).

  Lemma squares_differ : forall i j, 0 < i -> 0 < j -> i + j < p -> i <> j ->
    ~ (p | i * i - j * j).
  Proof.
    intros i j Hi Hj Hs Hne D. replace (i * i - j * j) with ((i - j) * (i + j)) in D by ring.
    apply prime_mult in D; auto. destruct D as [[q Hq]|D].
    - assert (q < 1) by nia. assert (-1 < q) by nia. assert (q = 0) by lia. subst q. lia.
    - revert D. apply small_not_divided. lia.
  Qed.
End Prime.

(** ** The slots visited by a probe sequence *)

(** Offsets from the home slot visited with the counter in 1..lim. *)
Definition minus_squares (p : Z) (lim : nat) : list Z :=
  map (fun i => (- (i * i)) mod p) (seqZ 1 lim).
Definition plus_squares (p : Z) (lim : nat) : list Z :=
  map (fun i => (i * i) mod p) (seqZ 1 lim).

Lemma minus_squares_length : forall p n, length (minus_squares p n) = n.
Proof. intros. unfold minus_squares. now rewrite map_length, seqZ_length. Qed.
Lemma plus_squares_length : forall p n, length (plus_squares p n) = n.
Proof. intros. unfold plus_squares. now rewrite map_length, seqZ_length. Qed.

Lemma same_residue : forall a b p, 0 < p -> a mod p = b mod p -> (p | a - b).
Proof.
  intros. apply Z.mod_divide; [lia|]. rewrite Zminus_mod, H0, Z.sub_diag. apply Z.mod_0_l. lia.
Qed.

Lemma NoDup_map_inj : forall A B (f : A -> B) l,
  (forall x y, In x l -> In y l -> f x = f y -> x = y) -> NoDup l -> NoDup (map f l).
Proof.
  induction l; intros Hi Hn; simpl; constructor; inversion Hn; subst.
  - rewrite in_map_iff. intros [y [E Hy]]. assert (y = a) by (apply Hi; simpl; auto).
    subst; contradiction.
  - apply IHl; auto. intros; apply Hi; simpl; auto.
Qed.

Lemma minus_squares_nodup : forall p n, prime p -> 2 * Z.of_nat n < p ->
  NoDup (minus_squares p n).
Proof.
  intros p n Hp Hn. pose proof (p_gt1 p Hp). apply NoDup_map_inj; [|apply NoDup_seqZ].
  intros i j Hi Hj E. rewrite in_seqZ in Hi, Hj.
  destruct (Z.eq_dec i j) as [?|Hne]; auto. exfalso.
  apply same_residue in E; [|lia].
  apply (squares_differ p Hp j i); try lia.
  replace (j * j - i * i) with (- (i * i) - - (j * j)) by ring. exact E.
Qed.

Lemma plus_squares_nodup : forall p n, prime p -> 2 * Z.of_nat n < p ->
  NoDup (plus_squares p n).
Proof.
  intros p n Hp Hn. pose proof (p_gt1 p Hp). apply NoDup_map_inj; [|apply NoDup_seqZ].
  intros i j Hi Hj E. rewrite in_seqZ in Hi, Hj.
  destruct (Z.eq_dec i j) as [?|Hne]; auto. exfalso.
  apply same_residue in E; [|lia].
  apply (squares_differ p Hp i j); try lia. exact E.
Qed.

Lemma home_not_minus : forall p n, prime p -> 2 * Z.of_nat n < p ->
  ~ In 0 (minus_squares p n).
Proof.
  intros p n Hp Hn H. pose proof (p_gt1 p Hp). apply in_map_iff in H.
  destruct H as [i [E Hi]]. rewrite in_seqZ in Hi.
  apply Z.mod_divide in E; [|lia]. apply Z.divide_opp_r in E. rewrite Z.opp_involutive in E.
  apply prime_mult in E; auto. destruct E as [E|E]; revert E; apply (small_not_divided p Hp); lia.
Qed.

Lemma home_not_plus : forall p n, prime p -> 2 * Z.of_nat n < p ->
  ~ In 0 (plus_squares p n).
Proof.
  intros p n Hp Hn H. pose proof (p_gt1 p Hp). apply in_map_iff in H.
  destruct H as [i [E Hi]]. rewrite in_seqZ in Hi.
  apply Z.mod_divide in E; [|lia].
  apply prime_mult in E; auto. destruct E as [E|E]; revert E; apply (small_not_divided p Hp); lia.
Qed.

Lemma minus_plus_disjoint : forall p n o, prime p -> p mod 4 = 3 -> 2 * Z.of_nat n < p ->
  In o (minus_squares p n) -> In o (plus_squares p n) -> False.
Proof.
  intros p n o Hp H4 Hn H1 H2. pose proof (p_gt1 p Hp).
  apply in_map_iff in H1. destruct H1 as [i [<- Hi]].
  apply in_map_iff in H2. destruct H2 as [j [E Hj]]. rewrite in_seqZ in Hi, Hj.
  apply same_residue in E; [|lia].
  apply (sum_of_squares p Hp H4 i j).
  - apply (small_not_divided p Hp); lia.
  - apply (small_not_divided p Hp); lia.
  - replace (i * i + j * j) with (j * j - - (i * i)) by ring. exact E.
Qed.

Lemma NoDup_app_intro : forall A (l1 l2 : list A),
  NoDup l1 -> NoDup l2 -> (forall x, In x l1 -> In x l2 -> False) -> NoDup (l1 ++ l2).
Proof.
  induction l1; intros l2 H1 H2 Hd; simpl; auto. inversion H1; subst. constructor.
  - rewrite in_app_iff. intros [H|H]; auto. eapply Hd; [left; reflexivity|exact H].
  - apply IHl1; auto. intros x Hx Hx2. eapply Hd; [right|]; eauto.
Qed.

(** ** The bucket counts *)

Definition small_primes : list Z :=
  [5; 11; 17; 37; 67; 131; 257; 521; 1031; 2053; 4099; 8209; 16411; 32771].
Definition large_primes : list Z :=
  [65537; 131101; 262147; 524309; 1048583; 2097169; 4194319; 8388617;
   16777259; 33554467; 67108879; 134217757; 268435459; 536870923; 1073741827].

Lemma primes_tested :
  forallb (fun p => prime_test (Z.to_nat (Z.sqrt p / 2)) p) (small_primes ++ large_primes) = true.
Proof. vm_compute. reflexivity. Qed.

Lemma small_bounds : forall p, In p small_primes -> 5 <= p <= 32771 /\ p mod 2 = 1.
Proof.
  intros p H. unfold small_primes in H.
  cbn [In] in H. repeat (destruct H as [H|H]; [subst p; split; [lia | reflexivity]|]). destruct H.
Qed.

Lemma large_bounds : forall p, In p large_primes -> 65537 <= p <= 1073741827 /\ p mod 2 = 1.
Proof.
  intros p H. unfold large_primes in H.
  cbn [In] in H. repeat (destruct H as [H|H]; [subst p; split; [lia | reflexivity]|]). destruct H.
Qed.

Lemma small_prime : forall p, In p small_primes -> prime p.
Proof.
  intros p H. pose proof (small_bounds p H). pose proof primes_tested as T.
  rewrite forallb_forall in T. specialize (T p (in_or_app _ _ _ (or_introl H))).
  apply prime_test_sound in T; [exact T|lia].
Qed.

Lemma large_prime : forall p, In p large_primes -> prime p.
Proof.
  intros p H. pose proof (large_bounds p H). pose proof primes_tested as T.
  rewrite forallb_forall in T. specialize (T p (in_or_app _ _ _ (or_intror H))).
  apply prime_test_sound in T; [exact T|lia].
Qed.
