(** Bounded copying and number parsing. *)
From Coq Require Import ZArith List Bool Lia.
From Verif.Base Require Import Prelude Lemmas.
From Verif.Model Require Import Util File.
From Verif.Spec Require Import TextSpec.
From Verif.Proof Require Import Text.
Import ListNotations.
Open Scope Z_scope.

(** * strlcpy *)

Ltac tuple := repeat match goal with
  | |- Ok _ = Ok _ => apply f_equal
  | |- (_, _) = (_, _) => apply f_equal2
  end; try reflexivity; try lia.

Lemma copy_loop_fits : forall s n a old rest k,
  ~ In 0 s -> (length s < n)%nat -> (n <= length old)%nat ->
  copy_loop n (a ++ old) (lenZ a) (s ++ 0 :: rest) k
  = Ok (a ++ s ++ 0 :: skipn (S (length s)) old, lenZ a + lenZ s + 1, rest, k + lenZ s + 1,
        (n - length s)%nat).
Proof.
  induction s as [|c s IH]; intros n a old rest k N L O.
  - destruct n as [|n]; [cbn [length] in L; lia|].
    destruct old as [|x old]; [cbn [length] in O; lia|].
    cbn [copy_loop app]. rewrite setZ_app by reflexivity. cbn [bind Z.eqb skipn length lenZ].
    unfold lenZ. cbn [length]. tuple.
  - destruct n as [|n]; [cbn [length] in L; lia|].
    destruct old as [|x old]; [cbn [length] in O; lia|].
    cbn [copy_loop app]. rewrite setZ_app by reflexivity. cbn [bind].
    destruct (Z.eqb_spec c 0) as [->|]; [exfalso; apply N; now left|].
    specialize (IH n (a ++ [c]) old rest (k + 1)).
    cbn [length] in *. rewrite <- !app_assoc in IH. cbn [app] in IH.
    replace (lenZ a + 1) with (lenZ (a ++ [c])) by (unfold lenZ; rewrite app_length; cbn [length]; lia).
    rewrite IH; [|intros H; apply N; now right|lia|lia].
    unfold lenZ. rewrite app_length. cbn [length]. tuple.
Qed.

Lemma copy_loop_full : forall n s a old rest k,
  ~ In 0 s -> (n <= length s)%nat -> (n <= length old)%nat ->
  copy_loop n (a ++ old) (lenZ a) (s ++ 0 :: rest) k
  = Ok (a ++ firstn n s ++ skipn n old, lenZ a + Z.of_nat n, skipn n s ++ 0 :: rest,
        k + Z.of_nat n, O).
Proof.
  induction n as [|n IH]; intros s a old rest k N L O.
  - cbn [copy_loop firstn skipn app Z.of_nat]. tuple.
  - destruct s as [|c s]; [cbn [length] in L; lia|].
    destruct old as [|x old]; [cbn [length] in O; lia|].
    cbn [copy_loop app]. rewrite setZ_app by reflexivity. cbn [bind].
    destruct (Z.eqb_spec c 0) as [->|]; [exfalso; apply N; now left|].
    specialize (IH s (a ++ [c]) old rest (k + 1)).
    cbn [length firstn skipn] in *. rewrite <- !app_assoc in IH. cbn [app] in *.
    replace (lenZ a + 1) with (lenZ (a ++ [c])) by (unfold lenZ; rewrite app_length; cbn [length]; lia).
    rewrite IH; [|intros H; apply N; now right|lia|lia].
    unfold lenZ. rewrite app_length. cbn [length]. tuple.
Qed.

Lemma skipn_next {A} : forall n (l : list A) x r, skipn n l = x :: r -> skipn (S n) l = r.
Proof.
  induction n as [|n IH]; intros [|y l] x r E; cbn [skipn] in *; try discriminate.
  - now injection E.
  - now apply IH with x.
Qed.

Lemma strlcpy_ok dst s rest siz :
  ~ In 0 s -> (siz <= length dst)%nat ->
  strlcpy dst (s ++ 0 :: rest) siz
  = Ok (match siz with
        | O => dst
        | S n => firstn n s ++ 0 :: skipn (S (Nat.min n (length s))) dst
        end, lenZ s).
Proof.
  intros N L. unfold strlcpy. destruct siz as [|n].
  - cbn [bind]. rewrite run_to_nul_ok by exact N. cbn [bind]. tuple.
  - destruct (Nat.le_gt_cases n (length s)) as [H|H].
    + rewrite (copy_loop_full n s [] dst) by (auto; lia). cbn [bind app].
      change (lenZ (@nil Z)) with 0.
      destruct (skipn n dst) as [|x old] eqn:E.
      { apply (f_equal (@length Z)) in E. rewrite skipn_length in E. cbn [length] in E. lia. }
      rewrite setZ_app by (unfold lenZ; rewrite firstn_length; lia). cbn [bind].
      rewrite run_to_nul_ok.
      2:{ intros Q. apply N. rewrite <- (firstn_skipn n s). apply in_or_app. now right. }
      cbn [bind]. rewrite Nat.min_l by exact H.
      tuple.
      * now rewrite (skipn_next _ _ _ _ E).
      * unfold lenZ. rewrite skipn_length. lia.
    + rewrite (copy_loop_fits s n [] dst) by (auto; lia). cbn [bind app].
      destruct (n - length s)%nat as [|m] eqn:E; [lia|].
      rewrite Nat.min_r by lia. rewrite firstn_all2 by lia.
      change (lenZ (@nil Z)) with 0. tuple.
Qed.

(** * Decimal numbers *)

Lemma decimal_digits_chars n s : decimal_digits n s -> Forall (fun c => 48 <= c <= 57) s.
Proof.
  induction 1 as [d H|n s d P H IH D].
  - constructor; [lia|constructor].
  - apply Forall_app. split; [exact IH|]. constructor; [lia|constructor].
Qed.

Lemma decimal_digits_head n s :
  decimal_digits n s ->
  0 <= n /\ exists c r, s = c :: r /\ 48 <= c <= 57 /\ (c = 48 -> n = 0) /\ (n = 0 -> s = [48]).
Proof.
  induction 1 as [d H|n s d P H (N & c & r & -> & C & Z0 & Z1) D].
  - split; [lia|]. exists (48 + d), []. repeat split; try lia. intros ->. reflexivity.
  - split; [lia|]. exists c, (r ++ [48 + d]). repeat split; try lia.
Qed.

Lemma digit10 c : 48 <= c <= 57 -> digit 10 c = Some (c - 48).
Proof.
  intros H. unfold digit.
  destruct (Z.leb_spec 48 c); [|lia]. destruct (Z.leb_spec c 57); [|lia]. cbn [andb].
  destruct (Z.ltb_spec (c - 48) 10); [reflexivity|lia].
Qed.

Lemma digit10_none c : ~ 48 <= c <= 57 -> digit 10 c = None.
Proof.
  intros H. unfold digit.
  destruct (Z.leb_spec 48 c); destruct (Z.leb_spec c 57); cbn [andb]; try lia;
    destruct (Z.leb_spec 97 c); destruct (Z.leb_spec c 102); cbn [andb];
    try (destruct (Z.leb_spec 65 c); destruct (Z.leb_spec c 70); cbn [andb]);
    match goal with |- (if ?b then _ else _) = _ => destruct b eqn:E; [apply Z.ltb_lt in E; lia|reflexivity] end.
Qed.

Lemma digit8_none c : ~ 48 <= c <= 57 -> digit 8 c = None.
Proof.
  intros H. pose proof (digit10_none c H) as D. unfold digit in *.
  match goal with |- (if ?v <? 8 then _ else _) = _ =>
    destruct (Z.ltb_spec v 10); [discriminate|]; destruct (Z.ltb_spec v 8); [lia|reflexivity] end.
Qed.

Lemma digits_decimal n s : decimal_digits n s -> forall t acc,
  digits 10 acc (s ++ t) = digits 10 (acc * 10 ^ lenZ s + n) t.
Proof.
  induction 1 as [d H|n s d P H IH D]; intros t acc.
  - cbn [app digits]. rewrite digit10 by lia. f_equal. unfold lenZ. cbn [length Z.of_nat].
    change (10 ^ Z.pos (Pos.of_succ_nat 0)) with 10. lia.
  - rewrite <- app_assoc, IH. cbn [app digits]. rewrite digit10 by lia. f_equal.
    unfold lenZ. rewrite app_length. cbn [length].
    replace (Z.of_nat (length s + 1)) with (Z.of_nat (length s) + 1) by lia.
    rewrite Z.pow_add_r by lia. change (10 ^ 1) with 10. lia.
Qed.

Lemma digits_stop base t acc :
  (forall c r, t = c :: r -> digit base c = None) -> digits base acc t = (acc, t).
Proof.
  intros H. destruct t as [|c r]; [reflexivity|]. cbn [digits]. now rewrite (H c r eq_refl).
Qed.

(** What may follow a number without being part of it. *)
Definition stops (z : Z) (t : str) : Prop :=
  forall c r, t = c :: r -> ~ 48 <= c <= 57 /\ (z = 0 -> c <> 120 /\ c <> 88).

Lemma not_space c : 43 <= c <= 57 -> isspace c = false.
Proof. intros H. apply isspace_not. unfold white. lia. Qed.

Lemma strtol0_unsigned n s t : decimal_digits n s -> stops n t ->
  (forall (neg : bool),
    let out '(v, rest) := (clamp_long (if neg then - v else v), rest) in
    match s ++ t with
    | [] => (0, s ++ t)
    | c :: r =>
        if c =? 48 then
          match r with
          | x :: h :: r' =>
              if ((x =? 120) || (x =? 88)) && match digit 16 h with Some _ => true | None => false end
              then out (digits 16 0 (h :: r'))
              else out (digits 8 0 (s ++ t))
          | _ => out (digits 8 0 (s ++ t))
          end
        else match digit 10 c with
             | Some _ => out (digits 10 0 (s ++ t))
             | None => (0, s ++ t)
             end
    end = (clamp_long (if neg then - n else n), t)).
Proof.
  intros D S neg. cbn zeta.
  destruct (decimal_digits_head _ _ D) as (N0 & c & r & E & C & Z0 & Z1).
  pose proof (digits_decimal _ _ D t 0) as Q.
  rewrite E in *. cbn [app] in *.
  destruct (Z.eqb_spec c 48) as [->|N].
  - specialize (Z0 eq_refl). subst n. specialize (Z1 eq_refl). injection Z1 as ->. cbn [app].
    assert (O : digits 8 0 (48 :: t) = (0, t)).
    { cbn [digits]. change (digit 8 48) with (Some 0). cbn [Z.mul Z.add].
      apply digits_stop. intros c r ->. apply digit8_none. now apply (S c r). }
    rewrite O.
    destruct t as [|x [|h t]]; [destruct neg; reflexivity|destruct neg; reflexivity|].
    destruct (S x (h :: t) eq_refl) as (_ & X). destruct (X eq_refl).
    destruct (Z.eqb_spec x 120); [congruence|]. destruct (Z.eqb_spec x 88); [congruence|].
    cbn [orb andb]. destruct neg; reflexivity.
  - rewrite digit10 by exact C. rewrite Q.
    rewrite digits_stop; [now rewrite Z.mul_0_l|].
    intros c' r' ->. apply digit10_none. now apply (S c' r').
Qed.

Lemma strtol0_decimal z s t : decimal z s -> stops z t ->
  strtol0 (s ++ t) = (clamp_long z, t).
Proof.
  intros D S. unfold strtol0.
  destruct D as [n s D|n s P D].
  - pose proof (strtol0_unsigned n s t D S false) as U. cbn zeta in U.
    destruct (decimal_digits_head _ _ D) as (N0 & c & r & E & C & Z0 & Z1).
    rewrite E in *. cbn [app skip_space] in *. rewrite not_space by lia.
    destruct (Z.eqb_spec c 45); [lia|]. destruct (Z.eqb_spec c 43); [lia|].
    destruct (c =? 48); [exact U|]. rewrite digit10 in * by exact C. exact U.
  - assert (S' : stops n t).
    { intros c r E. destruct (S c r E) as (A & B). split; [exact A|]. intros ->. lia. }
    pose proof (strtol0_unsigned n s t D S' true) as U. cbn zeta in U.
    cbn [app skip_space]. rewrite not_space by lia. cbn [Z.eqb Pos.eqb].
    destruct (decimal_digits_head _ _ D) as (N0 & c & r & E & C & Z0 & Z1).
    rewrite E in *. cbn [app] in *.
    destruct (c =? 48); [exact U|]. rewrite digit10 in * by exact C. exact U.
Qed.

Lemma decimal_ends z s : decimal z s ->
  s <> [] /\ Forall (fun c => c = 45 \/ 48 <= c <= 57) s.
Proof.
  intros [n t D|n t P D]; pose proof (decimal_digits_chars _ _ D) as F;
    destruct (decimal_digits_head _ _ D) as (_ & c & r & E & _).
  - split; [now rewrite E|]. eapply Forall_impl; [|exact F]. cbn beta. intros; lia.
  - split; [discriminate|]. constructor; [now left|].
    eapply Forall_impl; [|exact F]. cbn beta. intros; lia.
Qed.

Lemma trim_eq s t : trimmed s t -> trim s = t.
Proof. intros H. eapply trimmed_unique; [apply trim_trimmed|exact H]. Qed.

Lemma decimal_trimmed z s u v : decimal z s -> all_white u -> all_white v -> trimmed (u ++ s ++ v) s.
Proof.
  intros D U V. destruct (decimal_ends _ _ D) as (_ & F).
  rewrite Forall_forall in F.
  split; [now exists u, v|]. split; intros c r ->; unfold white.
  - destruct (F c); [now left|lia|lia].
  - destruct (F c); [apply in_or_app; right; now left|lia|lia].
Qed.

Lemma decimal_no_nul z s : decimal z s -> ~ In 0 s.
Proof.
  intros D H. destruct (decimal_ends _ _ D) as (_ & F). rewrite Forall_forall in F.
  specialize (F _ H). lia.
Qed.

Lemma string_to_long_exact z s u v : decimal z s -> all_white u -> all_white v ->
  string_to_long (u ++ s ++ v) = Some (clamp_long z).
Proof.
  intros D U V. unfold string_to_long.
  rewrite (trim_eq _ _ (decimal_trimmed _ _ _ _ D U V)).
  rewrite cstr_id by (eapply decimal_no_nul; eassumption).
  rewrite <- (app_nil_r s), (strtol0_decimal z s []); [reflexivity|exact D|].
  intros c r E. discriminate.
Qed.

Lemma clamp_long_id z : long_min <= z <= long_max -> clamp_long z = z.
Proof. unfold clamp_long. lia. Qed.

Lemma white_suffix (g : str) : ~ all_white g ->
  exists g' v, g = g' ++ v /\ all_white v /\ exists r c, g' = r ++ [c] /\ ~ white c.
Proof.
  induction g as [|c g IH] using rev_ind; intros N.
  - exfalso. apply N. constructor.
  - destruct (isspace c) eqn:E.
    + apply isspace_iff in E. destruct IH as (g' & v & -> & V & R).
      { intros W. apply N. apply Forall_app. split; [exact W|]. constructor; [exact E|constructor]. }
      exists g', (v ++ [c]). rewrite app_assoc. split; [reflexivity|]. split; [|exact R].
      apply Forall_app. split; [exact V|]. constructor; [exact E|constructor].
    + apply isspace_not in E. exists (g ++ [c]), []. rewrite app_nil_r.
      split; [reflexivity|]. split; [constructor|]. now exists g, c.
Qed.

Lemma string_to_long_garbage z s u c g :
  decimal z s -> all_white u -> c <> 0 -> ~ all_white (c :: g) ->
  ~ 48 <= c <= 57 -> (z = 0 -> c <> 120 /\ c <> 88) ->
  string_to_long (u ++ s ++ c :: g) = None.
Proof.
  intros D U N0 W C X. unfold string_to_long.
  destruct (white_suffix _ W) as (g' & v & E & V & r & l & Eg & Nl).
  destruct (decimal_ends _ _ D) as (Ns & F). rewrite Forall_forall in F.
  assert (T : trimmed (u ++ s ++ c :: g) (s ++ g')).
  { split; [exists u, v; rewrite E, <- !app_assoc; auto|]. split.
    - intros x q Q. destruct s as [|y s]; [congruence|]. cbn [app] in Q. injection Q as <- _.
      unfold white. destruct (F y); [now left|lia|lia].
    - intros x q Q. rewrite Eg, app_assoc in Q. apply app_inj_tail in Q. destruct Q as (_ & <-).
      exact Nl. }
  rewrite (trim_eq _ _ T).
  rewrite cstr_app by (eapply decimal_no_nul; eassumption).
  assert (H : exists h, g' = c :: h).
  { destruct g' as [|x h]; [destruct r; discriminate|]. cbn [app] in E. injection E as <- _. eauto. }
  destruct H as (h & ->). cbn [cstr].
  destruct (Z.eqb_spec c 0); [congruence|].
  rewrite (strtol0_decimal z s); [reflexivity|exact D|].
  intros x q [= <- <-]. auto.
Qed.
