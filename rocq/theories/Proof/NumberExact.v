(** What [StringToLong] accepts. *)
From Coq Require Import ZArith List Bool Lia.
From Verif.Base Require Import Prelude Lemmas.
From Verif.Model Require Import Util File.
From Verif.Spec Require Import TextSpec.
From Verif.Proof Require Import Text Lines LinesExact Number.
Import ListNotations.
Open Scope Z_scope.

Lemma digit_iff base c d : base <= 16 -> digit base c = Some d <-> digit_value base c d.
Proof.
  intros B. unfold digit, digit_value.
  destruct (Z.leb_spec 48 c), (Z.leb_spec c 57); cbn [andb];
  try (destruct (Z.leb_spec 97 c), (Z.leb_spec c 102); cbn [andb]);
  try (destruct (Z.leb_spec 65 c), (Z.leb_spec c 70); cbn [andb]);
  match goal with |- (if ?v <? base then _ else _) = _ <-> _ => destruct (Z.ltb_spec v base) end;
  split; intros X; try discriminate; try (injection X as <-); try lia; f_equal; lia.
Qed.

Lemma digits_all base : base <= 16 -> forall s acc v,
  digits base acc s = (v, []) <->
  exists ds, Forall2 (digit_value base) s ds /\ v = fold_left (fun a d => a * base + d) ds acc.
Proof.
  intros B. induction s as [|c s IH]; intros acc v; cbn [digits].
  - split; [intros [= <-]; exists []; split; [constructor|reflexivity]|]. intros (ds & H & ->). now inversion H.
  - destruct (digit base c) as [d|] eqn:D.
    + rewrite IH. apply digit_iff in D; [|exact B]. split; intros (ds & H & E).
      * exists (d :: ds). split; [now constructor|exact E].
      * inversion H as [|? d' ? ds' D' H']; subst. exists ds'. split; [exact H'|]. cbn [fold_left].
        apply digit_iff in D; [|exact B]. apply digit_iff in D'; [|exact B]. rewrite D in D'. injection D' as <-. reflexivity.
    + split; [discriminate|]. intros (ds & H & E). inversion H as [|? d' ? ds' D' H']; subst.
      apply digit_iff in D'; [|exact B]. congruence.
Qed.

(** The text behind the sign. *)
Definition body (s t : bytes) (neg : bool) : Z * bytes :=
  let out '(v, rest) := (clamp_long (if neg then - v else v), rest) in
  match t with
  | [] => (0, s)
  | c :: r =>
      if c =? 48 then
        match r with
        | x :: h :: r' =>
            if ((x =? 120) || (x =? 88)) && match digit 16 h with Some _ => true | None => false end
            then out (digits 16 0 (h :: r'))
            else out (digits 8 0 t)
        | _ => out (digits 8 0 t)
        end
      else match digit 10 c with
           | Some _ => out (digits 10 0 t)
           | None => (0, s)
           end
  end.

Lemma out_all base t (neg : bool) z : base <= 16 ->
  (let '(v, rest) := digits base 0 t in (clamp_long (if neg then - v else v), rest)) = (z, []) <->
  exists n, in_base base t n /\ z = clamp_long (if neg then - n else n).
Proof.
  intros B. destruct (digits base 0 t) as (v & rest) eqn:D. split.
  - intros E. injection E as <- ->. exists v. split; [|reflexivity]. now apply digits_all in D.
  - intros (n & (ds & H & ->) & ->). pose proof (proj2 (digits_all base B t 0 _) (ex_intro _ ds (conj H eq_refl))) as E.
    rewrite D in E. injection E as -> ->. reflexivity.
Qed.

Lemma body_exact s t neg z : s <> [] -> body s t neg = (z, []) <-> exists n, literal t n /\ z = clamp_long (if neg then - n else n).
Proof.
  intros Ns. unfold body. destruct t as [|c r].
  { split; [intros E; injection E as _ ->; congruence|].
    intros (n & [(c & r & X & _)|[(r & X & _)|(x & r & X & _)]] & _); discriminate. }
  destruct (Z.eqb_spec c 48) as [->|N].
  - assert (Oct : (let '(v, rest) := digits 8 0 (48 :: r) in (clamp_long (if neg then - v else v), rest)) = (z, []) ->
      exists n, literal (48 :: r) n /\ z = clamp_long (if neg then - n else n)).
    { intros E. apply out_all in E; [|lia]. destruct E as (n & I & ->). exists n. split; [right; left; now exists r|reflexivity]. }
    assert (Hex : forall x h r' n, r = x :: h :: r' -> literal (48 :: r) n ->
       (((x =? 120) || (x =? 88)) && match digit 16 h with Some _ => true | None => false end = true /\ in_base 16 (h :: r') n) \/
       (((x =? 120) || (x =? 88)) && match digit 16 h with Some _ => true | None => false end = false /\ in_base 8 (48 :: r) n)).
    { intros x h r' n -> [(c & q & X & Nc & _)|[(q & X & I)|(y & q & X & Y & Nq & I)]].
      - injection X as <- _. congruence.
      - right. split; [|exact I]. destruct I as (ds & H & _). inversion H as [|? ? ? ? _ H1]; subst. inversion H1 as [|? d ? ? (D1 & D2) _]; subst.
        destruct (Z.eqb_spec x 120), (Z.eqb_spec x 88); try reflexivity; lia.
      - injection X as <- <-. left. split; [|exact I]. destruct I as (ds & H & _). inversion H as [|? d ? ? D _]; subst.
        apply digit_iff in D; [|lia]. rewrite D, andb_true_r. destruct Y as [-> | ->]; reflexivity. }
    assert (Short : forall n, (length r < 2)%nat -> literal (48 :: r) n -> in_base 8 (48 :: r) n).
    { intros n L [(c & q & X & Nc & _)|[(q & X & I)|(y & q & X & Y & Nq & I)]].
      - injection X as <- _. congruence.
      - exact I.
      - injection X as ->. destruct q; [congruence|cbn in L; lia]. }
    destruct r as [|x [|h r']].
    + split; [exact Oct|]. intros (n & L & ->). apply out_all; [lia|]. exists n. split; [apply Short; [cbn; lia|exact L]|reflexivity].
    + split; [exact Oct|]. intros (n & L & ->). apply out_all; [lia|]. exists n. split; [apply Short; [cbn; lia|exact L]|reflexivity].
    + destruct (((x =? 120) || (x =? 88)) && match digit 16 h with Some _ => true | None => false end) eqn:Q.
      * rewrite out_all by lia. split; intros (n & L & ->); exists n; (split; [|reflexivity]).
        -- right. right. exists x, (h :: r'). split; [reflexivity|]. split; [|split; [discriminate|exact L]].
           apply andb_true_iff in Q. destruct Q as (Q & _). apply orb_true_iff in Q. rewrite !Z.eqb_eq in Q. exact Q.
        -- destruct (Hex _ _ _ _ eq_refl L) as [(_ & I)|(F & _)]; [exact I|congruence].
      * split; [exact Oct|]. intros (n & L & ->). apply out_all; [lia|]. exists n. split; [|reflexivity].
        destruct (Hex _ _ _ _ eq_refl L) as [(F & _)|(_ & I)]; [congruence|exact I].
  - split.
    + destruct (digit 10 c) eqn:D; [|intros E; injection E as _ ->; congruence].
      intros E. apply out_all in E; [|lia]. destruct E as (n & I & ->). exists n. split; [left; now exists c, r|reflexivity].
    + intros (n & [(c' & q & X & Nc & I)|[(q & X & I)|(y & q & X & Y & Nq & I)]] & ->); try (injection X as -> _; congruence).
      assert (exists d, digit 10 c = Some d) as (d & ->).
      { destruct I as (ds & H & _). inversion H as [|? d ? ? D _]; subst. exists d. apply digit_iff; [lia|exact D]. }
      apply out_all; [lia|]. exists n. now split.
Qed.

Lemma fold_nonneg base ds : 0 <= base -> Forall (fun d => 0 <= d) ds -> forall a, 0 <= a -> 0 <= fold_left (fun a d => a * base + d) ds a.
Proof. intros B. induction 1 as [|d ds D _ IH]; intros a A; cbn [fold_left]; [exact A|]. apply IH. nia. Qed.
Lemma in_base_nonneg base s n : 0 <= base -> in_base base s n -> 0 <= n.
Proof.
  intros B (ds & H & ->). apply fold_nonneg; [exact B| |lia]. induction H as [|c d s ds (_ & D) _ IH]; constructor; [lia|exact IH].
Qed.
Lemma literal_nonneg s n : literal s n -> 0 <= n.
Proof.
  intros [(c & r & _ & _ & I)|[(r & _ & I)|(x & r & _ & _ & _ & I)]]; eapply in_base_nonneg; try eassumption; lia.
Qed.
Lemma literal_head s n : literal s n -> exists c r, s = c :: r /\ 48 <= c.
Proof.
  intros [(c & r & -> & _ & (ds & H & _))|[(r & -> & _)|(x & r & -> & _)]]; [|exists 48, r; split; [reflexivity|lia]|exists 48, (x :: r); split; [reflexivity|lia]].
  exists c, r. split; [reflexivity|]. inversion H as [|? d ? ? (_ & D) _]; subst. lia.
Qed.

Lemma before_nul_unique t c c' : before_nul t c -> before_nul t c' -> c = c'.
Proof.
  revert c c'. induction t as [|x t IH]; intros c c' (N & H) (N' & H').
  - assert (E : forall c : str, ([] = c \/ exists r, [] = c ++ 0 :: r) -> c = []).
    { intros d [<-|(r & X)]; [reflexivity|destruct d; discriminate]. }
    rewrite (E c H), (E c' H'). reflexivity.
  - assert (E : forall c : str, ~ In 0 c -> (x :: t = c \/ exists r, x :: t = c ++ 0 :: r) -> (x = 0 /\ c = []) \/ (x <> 0 /\ exists d, c = x :: d /\ before_nul t d)).
    { intros d Nd [<-|(r & X)].
      - right. split; [intros ->; apply Nd; now left|]. exists t. split; [reflexivity|]. split; [|now left]. intros I. apply Nd. now right.
      - destruct d as [|y d]; [injection X as -> _; now left|]. injection X as <- ->. right.
        split; [intros ->; apply Nd; now left|]. exists d. split; [reflexivity|]. split; [|right; now exists r]. intros I. apply Nd. now right. }
    destruct (E c N H) as [(A & ->)|(A & d & -> & B)], (E c' N' H') as [(A' & ->)|(A' & d' & -> & B')]; try congruence; try reflexivity.
    f_equal. exact (IH _ _ B B').
Qed.

Lemma strtol0_body c : (forall x r, c = x :: r -> ~ white x) ->
  strtol0 c = match c with
              | [] => (0, [])
              | x :: r => if x =? 45 then body c r true else if x =? 43 then body c r false else body c c false
              end.
Proof.
  intros W. unfold strtol0. destruct c as [|x r]; [reflexivity|].
  assert (S : skip_space (x :: r) = x :: r).
  { cbn [skip_space]. rewrite (proj2 (isspace_not x)); [reflexivity|]. exact (W x r eq_refl). }
  rewrite S. destruct (x =? 45); [reflexivity|]. destruct (x =? 43); reflexivity.
Qed.

Lemma sign_cases c z : (forall x r, c = x :: r -> ~ white x) ->
  strtol0 c = (z, []) <->
  (c = [] /\ z = 0) \/
  exists sign body n, c = sign ++ body /\ literal body n /\
    ((sign = [] \/ sign = [43]) /\ z = Z.min 9223372036854775807 n \/ sign = [45] /\ z = Z.max (-9223372036854775808) (- n)).
Proof.
  intros W. rewrite strtol0_body by exact W.
  assert (Cp : forall n, 0 <= n -> clamp_long n = Z.min 9223372036854775807 n) by (intros; unfold clamp_long, long_max, long_min; lia).
  assert (Cn : forall n, 0 <= n -> clamp_long (- n) = Z.max (-9223372036854775808) (- n)) by (intros; unfold clamp_long, long_max, long_min; lia).
  destruct c as [|x r].
  { split; [intros [= <-]; now left|]. intros [(_ & ->)|(sign & b & n & E & L & _)]; [reflexivity|].
    symmetry in E. apply app_eq_nil in E. destruct E as (_ & ->). destruct (literal_head _ _ L) as (? & ? & X & _). discriminate. }
  destruct (Z.eqb_spec x 45) as [->|N45]; [|destruct (Z.eqb_spec x 43) as [->|N43]].
  - rewrite body_exact by discriminate. split.
    + intros (n & L & ->). right. exists [45], r, n. split; [reflexivity|]. split; [exact L|]. right. split; [reflexivity|]. apply Cn. exact (literal_nonneg _ _ L).
    + intros [(X & _)|(sign & b & n & E & L & H)]; [discriminate|]. exists n.
      destruct H as [([->| ->] & ->)|(-> & ->)]; cbn [app] in E.
      * destruct (literal_head _ _ L) as (y & q & -> & Y). injection E as <- _. lia.
      * injection E as E _. discriminate.
      * injection E as ->. split; [exact L|]. symmetry. apply Cn. exact (literal_nonneg _ _ L).
  - rewrite body_exact by discriminate. split.
    + intros (n & L & ->). right. exists [43], r, n. split; [reflexivity|]. split; [exact L|]. left. split; [now right|]. apply Cp. exact (literal_nonneg _ _ L).
    + intros [(X & _)|(sign & b & n & E & L & H)]; [discriminate|]. exists n.
      destruct H as [([->| ->] & ->)|(-> & ->)]; cbn [app] in E.
      * destruct (literal_head _ _ L) as (y & q & -> & Y). injection E as <- _. lia.
      * injection E as ->. split; [exact L|]. symmetry. apply Cp. exact (literal_nonneg _ _ L).
      * injection E as E _. discriminate.
  - rewrite body_exact by discriminate. split.
    + intros (n & L & ->). right. exists [], (x :: r), n. split; [reflexivity|]. split; [exact L|]. left. split; [now left|]. apply Cp. exact (literal_nonneg _ _ L).
    + intros [(X & _)|(sign & b & n & E & L & H)]; [discriminate|]. exists n.
      destruct H as [([->| ->] & ->)|(-> & ->)]; cbn [app] in E.
      * subst b. split; [exact L|]. symmetry. apply Cp. exact (literal_nonneg _ _ L).
      * injection E as -> _. congruence.
      * injection E as -> _. congruence.
Qed.

Lemma number_exact s z : string_to_long s = Some z <-> long_number s z.
Proof.
  unfold string_to_long, long_number.
  pose proof (trim_trimmed s) as T. pose proof (cstr_shown (trim s)) as B.
  assert (W : forall x r, cstr (trim s) = x :: r -> ~ white x).
  { intros x r E. destruct B as (_ & [H|(q & H)]); rewrite E in H; destruct T as (_ & A & _); eapply A; exact H. }
  pose proof (sign_cases (cstr (trim s))) as C. split.
  - destruct (strtol0 (cstr (trim s))) as (v & rest) eqn:E. destruct rest; [|discriminate]. intros [= ->].
    exists (trim s), (cstr (trim s)). split; [exact T|]. split; [exact B|]. now apply C.
  - intros (t & c & T' & B' & H). rewrite (trimmed_unique _ _ _ T' T) in B'. rewrite (before_nul_unique _ _ _ B' B) in H.
    apply C in H; [|exact W]. now rewrite H.
Qed.
