(** Lemmas on the parts of Python that the scripts use. *)
From Coq Require Import ZArith String List Bool Lia.
From Verif.Base Require Import Prelude Lemmas.
From Verif.Model Require Import Util File Vector Stt Python.
From Verif.Spec Require Import TextSpec AudioSpec FormatSpec ToolSpec.
From Verif.Proof Require Import Text Lines Number.
Import ListNotations.
Open Scope Z_scope.
Ltac Zify.zify_post_hook ::= Z.div_mod_to_equations.

Lemma space_iff c : py_space c = true <-> blank c.
Proof.
  unfold py_space, blank. rewrite orb_true_iff, !andb_true_iff, !Z.leb_le. lia.
Qed.
Lemma space_not c : py_space c = false <-> ~ blank c.
Proof. rewrite <- space_iff. destruct (py_space c); intuition congruence. Qed.

(** * Stripping *)

Lemma lstrip_blank : forall u s, all_blank u -> lstrip (u ++ s) = lstrip s.
Proof.
  induction u as [|c u IH]; intros s H; [reflexivity|]. inversion H; subst.
  cbn [app lstrip]. rewrite (proj2 (space_iff c)) by assumption. now apply IH.
Qed.

Lemma lstrip_stop s : (forall c r, s = c :: r -> ~ blank c) -> lstrip s = s.
Proof.
  destruct s as [|c r]; intros H; [reflexivity|]. cbn [lstrip].
  now rewrite (proj2 (space_not c)) by (eapply H; reflexivity).
Qed.

Lemma lstrip_all u : all_blank u -> lstrip u = [].
Proof. intros H. rewrite <- (app_nil_r u), lstrip_blank by exact H. reflexivity. Qed.

Lemma all_blank_rev u : all_blank u -> all_blank (rev u).
Proof. intros H. apply Forall_forall. intros c I. apply in_rev in I. revert c I. now apply Forall_forall. Qed.

Lemma strip_shows l t : shows l t -> strip l = t.
Proof.
  intros ((u & v & -> & U & V) & B & E). unfold strip. rewrite lstrip_blank by exact U.
  destruct t as [|c t].
  - cbn [app]. rewrite (lstrip_all v) by exact V. reflexivity.
  - rewrite (lstrip_stop ((c :: t) ++ v)).
    + rewrite rev_app_distr, lstrip_blank by now apply all_blank_rev.
      rewrite lstrip_stop, rev_involutive; [reflexivity|].
      intros d r Q. apply (f_equal (@rev Z)) in Q. rewrite rev_involutive in Q. cbn [rev] in Q. eapply E, Q.
    + intros d r [= <- <-]. eapply B. reflexivity.
Qed.

Lemma strip_blank l : all_blank l -> strip l = [].
Proof. intros H. unfold strip. rewrite (lstrip_all l) by exact H. reflexivity. Qed.

Lemma lstrip_spec s : exists u, s = u ++ lstrip s /\ all_blank u /\ forall c r, lstrip s = c :: r -> ~ blank c.
Proof.
  induction s as [|c s (u & Q & U & B)].
  - exists []. repeat split; [constructor|discriminate].
  - cbn [lstrip]. destruct (py_space c) eqn:E.
    + exists (c :: u). cbn [app]. rewrite <- Q. repeat split; [|exact B].
      constructor; [now apply space_iff|exact U].
    + exists []. repeat split; [constructor|]. intros d r [= <- <-]. now apply space_not.
Qed.

Lemma strip_spec s : shows s (strip s).
Proof.
  unfold strip. destruct (lstrip_spec s) as (u & Q & U & B).
  destruct (lstrip_spec (rev (lstrip s))) as (v & Q' & V & B').
  assert (Q2 : lstrip s = rev (lstrip (rev (lstrip s))) ++ rev v).
  { rewrite <- rev_app_distr, <- Q', rev_involutive. reflexivity. }
  repeat split.
  - exists u, (rev v). rewrite <- Q2. repeat split; [exact Q|exact U|now apply all_blank_rev].
  - intros c r Q3. rewrite Q3 in Q2. cbn [app] in Q2. eapply B, Q2.
  - intros c r Q3. apply (f_equal (@rev Z)) in Q3. rewrite rev_involutive, rev_app_distr in Q3. cbn [rev app] in Q3.
    eapply B', Q3.
Qed.

Lemma strip_nil l : strip l = [] <-> all_blank l.
Proof.
  split; [|apply strip_blank]. intros Q. destruct (strip_spec l) as ((u & v & E & U & V) & _).
  rewrite Q in E. rewrite E. now apply Forall_app.
Qed.

Lemma shows_iff l t : shows l t <-> strip l = t /\ shows t t.
Proof.
  split.
  - intros H. split; [now apply strip_shows|]. destruct H as (_ & B & E). repeat split; auto.
    exists [], []. rewrite app_nil_r. repeat split; constructor.
  - intros (<- & _). apply strip_spec.
Qed.

Lemma shows_fun l t t' : shows l t -> shows l t' -> t = t'.
Proof. intros A B. apply strip_shows in A, B. congruence. Qed.

(** * Fields *)

Lemma fields_blank : forall w s, all_blank w -> fields_from [] (w ++ s) = fields_from [] s.
Proof.
  induction w as [|c w IH]; intros s H; [reflexivity|]. inversion H; subst.
  cbn [app fields_from]. rewrite (proj2 (space_iff c)) by assumption. now apply IH.
Qed.

Lemma fields_solid : forall f cur s, Forall (fun c => ~ blank c) f -> fields_from cur (f ++ s) = fields_from (cur ++ f) s.
Proof.
  induction f as [|c f IH]; intros cur s H; [now rewrite app_nil_r|]. inversion H; subst.
  cbn [app fields_from]. rewrite (proj2 (space_not c)) by assumption. rewrite IH by assumption.
  now rewrite <- app_assoc.
Qed.

Lemma fields_row l fs : row l fs -> py_fields l = fs.
Proof.
  unfold py_fields. induction 1 as [w W|w f l fs W (N & S) R IH G].
  - rewrite <- (app_nil_r w), fields_blank by exact W. reflexivity.
  - rewrite fields_blank, fields_solid by assumption. cbn [app].
    destruct f as [|c0 f]; [now destruct N|]. destruct l as [|c r].
    + inversion R as [|w' f' l' fs' W' S' R' G' Q]; subst; [reflexivity|].
      apply (f_equal (@length Z)) in Q. rewrite !app_length in Q. destruct S' as (N' & _).
      destruct f'; [now destruct N'|cbn [length] in Q; lia].
    + cbn [fields_from] in *. rewrite (proj2 (space_iff c)) in * by (eapply G; reflexivity).
      f_equal. exact IH.
Qed.

(** A row without the white space around it. *)
Lemma row_app_blank l fs : row l fs -> forall v, all_blank v -> row (l ++ v) fs.
Proof.
  induction 1 as [w W|w f l fs W S R IH G]; intros v V.
  - constructor. now apply Forall_app.
  - rewrite <- !app_assoc. constructor; auto. destruct l as [|c r]; cbn [app].
    + intros c r ->. now inversion V.
    + intros c' r' [= <- <-]. eapply G. reflexivity.
Qed.

Lemma app_split {A} : forall a b c d : list A, a ++ b = c ++ d ->
  (exists e, b = e ++ d /\ c = a ++ e) \/ (exists e, e <> [] /\ d = e ++ b /\ a = c ++ e).
Proof.
  induction a as [|x a IH]; intros b c d Q.
  - left. exists c. now split.
  - destruct c as [|y c].
    + right. exists (x :: a). now repeat split.
    + cbn [app] in Q. injection Q as <- Q. destruct (IH _ _ _ Q) as [(e & -> & ->)|(e & N & -> & ->)].
      * left. now exists e.
      * right. now exists e.
Qed.

Lemma row_cut l fs : row l fs -> forall s v, l = s ++ v -> all_blank v -> row s fs.
Proof.
  induction 1 as [w W|w f l fs W (N & S) R IH G]; intros s v Q V.
  - constructor. subst. now apply Forall_app in W.
  - (* the blanks at the end lie within l *)
    rewrite app_assoc in Q. destruct (app_split _ _ _ _ Q) as [(l' & -> & ->)|(e & NE & -> & Q2)].
    + rewrite <- app_assoc. constructor; auto.
      * split; assumption.
      * eapply IH; [reflexivity|exact V].
      * intros c r Q2. eapply G. rewrite Q2. reflexivity.
    + exfalso. destruct (exists_last N) as (f' & c & ->). destruct (exists_last NE) as (e' & d & ->).
      rewrite !app_assoc in Q2. apply app_inj_tail in Q2. destruct Q2 as (_ & <-).
      apply Forall_app in S. destruct S as (_ & S). inversion S; subst.
      apply Forall_app in V. destruct V as (V & _). apply Forall_app in V. destruct V as (_ & V). inversion V; contradiction.
Qed.

Lemma row_blank_app l fs : row l fs -> forall w s, l = w ++ s -> all_blank w -> row s fs.
Proof.
  intros R. inversion R as [w0 W0|w0 f l0 fs0 W0 S R0 G]; subst; intros w s Q W.
  - constructor. rewrite Q in W0. now apply Forall_app in W0.
  - assert (HS : exists w', w0 = w ++ w').
    { clear - Q W W0 S. revert w0 W0 Q. induction W as [|c w C W IH]; intros w0 W0 Q; [now exists w0|].
      destruct w0 as [|c0 w0].
      - exfalso. destruct S as (N & S). destruct f as [|d f]; [now destruct N|].
        cbn [app] in Q. injection Q as <- _. inversion S; contradiction.
      - cbn [app] in Q. injection Q as <- Q. inversion W0; subst. destruct (IH w0 H2 Q) as (w' & ->). now exists w'. }
    destruct HS as (w' & ->). rewrite <- app_assoc in Q. apply app_inv_head in Q. subst s.
    constructor; auto. now apply Forall_app in W0.
Qed.

Lemma row_strip l fs : row l fs -> row (strip l) fs.
Proof.
  intros R. destruct (strip_spec l) as ((u & v & Q & U & V) & _).
  eapply row_cut; [|reflexivity|exact V]. eapply row_blank_app; [exact R|exact Q|exact U].
Qed.

Lemma row_one f : solid f -> row f [f].
Proof.
  intros S. rewrite <- (app_nil_r f) at 1. change (row ([] ++ f ++ []) [f]).
  constructor; [constructor|exact S|constructor; constructor|discriminate].
Qed.

Lemma solid_shows f : solid f -> shows f f.
Proof.
  intros (N & S). split; [|split].
  - exists [], []. rewrite app_nil_r. repeat split; constructor.
  - intros c r ->. now inversion S.
  - intros c r ->. apply Forall_app in S. destruct S as (_ & S). now inversion S.
Qed.

Lemma row_single l f : row l [f] -> strip l = f.
Proof.
  intros R. inversion R as [|w f' l' fs W S R' G]; subst. apply strip_shows.
  inversion R' as [w' W'|]; subst.
  destruct (solid_shows f S) as (_ & B & E). repeat split; auto. now exists w, l'.
Qed.

Lemma row_head l f fs : row l (f :: fs) -> exists r, strip l = f ++ r.
Proof.
  intros R. pose proof (row_strip l _ R) as R'.
  destruct (strip_spec l) as (_ & B & _).
  inversion R' as [|w f' l' fs' W S R2 G Q]; subst.
  destruct w as [|c w]; [exists l'; now cbn [app] in Q|].
  exfalso. eapply B; [rewrite <- Q; reflexivity|]. now inversion W.
Qed.

Lemma row_not_blank l f fs : row l (f :: fs) -> strip l <> [].
Proof.
  intros R Q. destruct (row_head _ _ _ R) as (r & E). rewrite Q in E. symmetry in E. apply app_eq_nil in E.
  destruct E as (-> & _). inversion R as [|? ? ? ? ? (N & _)]. now destruct N.
Qed.

(** * Lines *)

Lemma pieces_skip d : forall a cur s, ~ In d a -> pieces_from d cur (a ++ s) = pieces_from d (cur ++ a) s.
Proof.
  induction a as [|c a IH]; intros cur s N; [now rewrite app_nil_r|].
  cbn [app pieces_from]. destruct (Z.eqb_spec c d) as [->|_]; [exfalso; apply N; now left|].
  rewrite IH by (intros I; apply N; now right). now rewrite <- app_assoc.
Qed.

Lemma pieces_two d a b : ~ In d a -> ~ In d b -> py_pieces d (a ++ [d] ++ b) = [a; b].
Proof.
  intros A B. unfold py_pieces. rewrite pieces_skip by exact A. cbn [app pieces_from]. rewrite Z.eqb_refl.
  rewrite <- (app_nil_r b), pieces_skip by exact B. cbn [app pieces_from]. now rewrite app_nil_r.
Qed.

Lemma pieces_none d a : ~ In d a -> py_pieces d a = [a].
Proof. intros A. unfold py_pieces. rewrite <- (app_nil_r a), pieces_skip by exact A. cbn [app pieces_from]. now rewrite app_nil_r. Qed.

Lemma pieces_of_text : forall ls last, Forall (fun l => ~ In 10 l) (ls ++ [last]) ->
  py_pieces 10 (concat (map (fun l => l ++ [10]) ls) ++ last) = ls ++ [last].
Proof.
  intros ls last. induction ls as [|l ls IH]; cbn [map concat app]; intros H.
  - inversion H; subst. now apply pieces_none.
  - inversion H as [|? ? A B]; subst. unfold py_pieces. rewrite <- !app_assoc. rewrite pieces_skip by exact A.
    cbn [app pieces_from]. rewrite Z.eqb_refl. f_equal. now apply IH.
Qed.

Lemma universal_line : forall l s, ~ In 13 l -> universal (l ++ s) = l ++ universal s.
Proof.
  induction l as [|c l IH]; intros s N; [reflexivity|]. cbn [app universal].
  destruct (Z.eqb_spec c 13) as [->|_]; [exfalso; apply N; now left|]. f_equal. apply IH. intros I. apply N. now right.
Qed.

Lemma lines_skip : forall a cur s, ~ In 10 a -> lines_from cur (a ++ s) = lines_from (cur ++ a) s.
Proof.
  induction a as [|c a IH]; intros cur s N; [now rewrite app_nil_r|].
  cbn [app lines_from]. destruct (Z.eqb_spec c 10) as [->|_]; [exfalso; apply N; now left|].
  rewrite IH by (intros I; apply N; now right). now rewrite <- app_assoc.
Qed.

Lemma lines_of ls s : text_file ls s -> py_lines s = ls.
Proof.
  unfold py_lines. induction 1 as [|l (A & B) N|l ls s (A & B) H IH|l ls s (A & B) H IH].
  - reflexivity.
  - rewrite <- (app_nil_r l), universal_line by exact B. cbn [universal]. rewrite lines_skip by exact A.
    cbn [app lines_from]. rewrite app_nil_r. destruct l; [now destruct N|reflexivity].
  - rewrite universal_line by exact B. cbn [app universal].
    change (10 =? 13) with false. cbn iota. rewrite lines_skip by exact A. cbn [app lines_from].
    rewrite Z.eqb_refl. now f_equal.
  - rewrite universal_line by exact B. cbn [app universal].
    change (13 =? 13) with true. change (10 =? 10) with true. cbn iota. rewrite lines_skip by exact A. cbn [app lines_from].
    rewrite Z.eqb_refl. now f_equal.
Qed.

Lemma lines_text ls : Forall one_line ls -> text_file ls (text ls).
Proof.
  induction ls as [|l ls IH]; intros H; [constructor|]. inversion H; subst.
  unfold text. cbn [map concat]. rewrite <- app_assoc. constructor; [assumption|]. now apply IH.
Qed.

(** * Numbers *)

Lemma int_digits_app : forall s acc n, decimal_digits n s -> int_digits acc s = Some (acc * 10 ^ lenZ s + n).
Proof.
  assert (G : forall n s, decimal_digits n s -> forall acc t,
            int_digits acc (s ++ t) = int_digits (acc * 10 ^ lenZ s + n) t).
  { induction 1 as [d H|n s d P H IH D]; intros acc t.
    - cbn [app int_digits]. unfold py_digit. destruct (Z.leb_spec 48 (48 + d)); [|lia].
      destruct (Z.leb_spec (48 + d) 57); [|lia]. cbn [andb]. f_equal. unfold lenZ. cbn [length Z.of_nat].
      change (10 ^ Z.pos (Pos.of_succ_nat 0)) with 10. lia.
    - rewrite <- app_assoc, IH. cbn [app int_digits]. unfold py_digit. destruct (Z.leb_spec 48 (48 + d)); [|lia].
      destruct (Z.leb_spec (48 + d) 57); [|lia]. cbn [andb]. f_equal. unfold lenZ. rewrite app_length. cbn [length].
      replace (Z.of_nat (length s + 1)) with (Z.of_nat (length s) + 1) by lia.
      rewrite Z.pow_add_r by lia. change (10 ^ 1) with 10. lia. }
  intros s acc n H. rewrite <- (app_nil_r s) at 1. now rewrite (G n s H).
Qed.

Lemma decimal_solid z s : decimal z s -> solid s.
Proof.
  intros H. destruct H as [n s H|n s P H]; pose proof (decimal_digits_chars _ _ H) as C;
    destruct (decimal_digits_head _ _ H) as (_ & c & r & Q & _); split.
  - rewrite Q. discriminate.
  - eapply Forall_impl; [|exact C]. unfold blank. intros. cbv beta in *. lia.
  - discriminate.
  - constructor; [unfold blank; lia|]. eapply Forall_impl; [|exact C]. unfold blank. intros. cbv beta in *. lia.
Qed.

Lemma int_decimal z s : decimal z s -> py_int s = Ok z.
Proof.
  intros H. pose proof (strip_shows _ _ (solid_shows _ (decimal_solid _ _ H))) as S.
  unfold py_int. rewrite S. destruct H as [n s H|n s P H];
    destruct (decimal_digits_head _ _ H) as (N & c & r & Q & R & _).
  - rewrite Q. destruct (Z.eqb_spec c 45); [lia|]. destruct (Z.eqb_spec c 43); [lia|]. cbn iota beta.
    unfold py_digit at 1. destruct (Z.leb_spec 48 c); [|lia]. destruct (Z.leb_spec c 57); [|lia]. cbn [andb].
    rewrite <- Q, (int_digits_app _ _ _ H). f_equal.
  - change (45 =? 45) with true. cbn iota beta. rewrite Q.
    unfold py_digit at 1. destruct (Z.leb_spec 48 c); [|lia]. destruct (Z.leb_spec c 57); [|lia]. cbn [andb].
    rewrite <- Q, (int_digits_app _ _ _ H). f_equal.
Qed.

Lemma show_digits_decimal : forall fuel n rest, 0 <= n < 2 ^ Z.of_nat fuel -> (0 < fuel)%nat ->
  exists s, show_digits fuel n rest = s ++ rest /\ decimal_digits n s.
Proof.
  induction fuel as [|fuel IH]; intros n rest H P; [lia|]. cbn [show_digits].
  destruct (Z.ltb_spec n 10) as [L|L].
  - exists [48 + n]. split; [reflexivity|]. constructor. lia.
  - rewrite Nat2Z.inj_succ, Z.pow_succ_r in H by lia.
    assert (F : (0 < fuel)%nat) by (destruct fuel; [change (2 ^ Z.of_nat 0) with 1 in H; lia|lia]).
    destruct (IH (n / 10) (48 + n mod 10 :: rest)) as (s & Q & S); [lia|exact F|].
    exists (s ++ [48 + n mod 10]). rewrite Q, <- app_assoc. split; [reflexivity|].
    replace n with (10 * (n / 10) + n mod 10) at 1 by lia. constructor; [lia|exact S|lia].
Qed.

Lemma to_string_decimal z : decimal z (to_string z).
Proof.
  unfold to_string.
  destruct (show_digits_decimal (S (Z.to_nat (Z.log2 (Z.abs z)))) (Z.abs z) []) as (s & Q & S); [|lia|].
  - split; [lia|]. rewrite Nat2Z.inj_succ, Z2Nat.id by apply Z.log2_nonneg.
    destruct (Z.eq_dec (Z.abs z) 0) as [E|E]; [rewrite E; reflexivity|]. apply Z.log2_spec. lia.
  - cbv zeta. rewrite Q, app_nil_r. destruct (Z.ltb_spec z 0) as [L|L].
    + rewrite <- (Z.opp_involutive z) at 1. constructor; [lia|]. now replace (- z) with (Z.abs z) by lia.
    + constructor. now replace z with (Z.abs z) at 1 by lia.
Qed.

(** * Lists and dictionaries *)

Lemma py_set_ok {A} (l : list A) i x : 0 <= i < lenZ l -> py_set l i x = Ok (upd l (Z.to_nat i) x).
Proof.
  intros H. unfold py_set. destruct (Z.ltb_spec i 0); [lia|].
  destruct (Z.leb_spec 0 i); [|lia]. destruct (Z.ltb_spec i (lenZ l)); [|lia]. reflexivity.
Qed.

Lemma dict_get_set {A} k k' (v : A) d :
  dict_get k (dict_set k' v d) = if str_eqb k k' then Some v else dict_get k d.
Proof.
  induction d as [|(a, b) d IH]; cbn [dict_set dict_get]; [reflexivity|].
  destruct (str_eqb k' a) eqn:E; cbn [dict_get].
  - apply str_eqb_eq in E. subst a. destruct (str_eqb k k'); reflexivity.
  - destruct (str_eqb k a) eqn:E2; [|exact IH].
    apply str_eqb_eq in E2. subst a. destruct (str_eqb k k') eqn:E3; [|reflexivity].
    apply str_eqb_eq in E3. subst k'. rewrite str_eqb_refl in E. discriminate.
Qed.

Lemma dict_set_keys {A} k (v : A) d : NoDup (map Datatypes.fst d) ->
  NoDup (map Datatypes.fst (dict_set k v d)) /\
  forall x, In x (map Datatypes.fst (dict_set k v d)) <-> x = k \/ In x (map Datatypes.fst d).
Proof.
  induction d as [|(a, b) d IH]; cbn [dict_set map Datatypes.fst]; intros N.
  - split; [constructor; [easy|constructor]|]. cbn [In]. intuition congruence.
  - inversion N as [|? ? NI N']; subst. destruct (IH N') as (N2 & I2).
    destruct (str_eqb k a) eqn:E; cbn [map Datatypes.fst].
    + apply str_eqb_eq in E. subst a. split; [exact N|]. cbn [In]. intuition congruence.
    + split.
      * constructor; [|exact N2]. rewrite I2. intros [->|I]; [|contradiction]. rewrite str_eqb_refl in E. discriminate.
      * cbn [In]. intros x. rewrite I2. intuition congruence.
Qed.

Lemma dict_get_in {A} (d : list (bytes * A)) : NoDup (map Datatypes.fst d) ->
  forall k v, In (k, v) d <-> dict_get k d = Some v.
Proof.
  induction d as [|(a, b) d IH]; cbn [map Datatypes.fst dict_get]; intros N k v.
  - split; [easy|discriminate].
  - inversion N as [|? ? NI N']; subst. cbn [In]. destruct (str_eqb k a) eqn:E.
    + apply str_eqb_eq in E. subst a. split.
      * intros [[= ->]|I]; [reflexivity|]. exfalso. apply NI. now apply (in_map Datatypes.fst) in I.
      * intros [= ->]. now left.
    + rewrite <- (IH N' k v). split.
      * intros [[= <- <-]|I]; [rewrite str_eqb_refl in E; discriminate|exact I].
      * now right.
Qed.

Lemma dict_get_none {A} (d : list (bytes * A)) k : dict_get k d = None <-> ~ In k (map Datatypes.fst d).
Proof.
  induction d as [|(a, b) d IH]; cbn [map Datatypes.fst dict_get In]; [intuition|].
  destruct (str_eqb k a) eqn:E.
  - apply str_eqb_eq in E. subst a. intuition congruence.
  - rewrite IH. split; [|intuition]. intros N [->|I]; [rewrite str_eqb_refl in E; discriminate|contradiction].
Qed.

(** * Writing *)

Lemma pack_int_word v : fits 4 v -> pack_int v = Ok (word v).
Proof.
  unfold fits. change (2 ^ (8 * Z.of_nat 4 - 1)) with 2147483648. intros F. unfold pack_int.
  assert (I : in_int32 v = true).
  { unfold in_int32, int_min, int_max. apply andb_true_iff. rewrite !Z.leb_le. lia. }
  rewrite I. unfold word. cbn [encode]. rewrite !Zdiv.Zdiv_Zdiv by lia. reflexivity.
Qed.

Lemma write_all_flat {A B} (f : A -> res bytes) (g : B -> list Z) l l' :
  Forall2 (fun a b => f a = Ok (g b)) l l' -> write_all f l = Ok (flat_map g l').
Proof.
  induction 1 as [|a b l l' Q H IH]; cbn [write_all flat_map]; [reflexivity|].
  rewrite Q. cbn [bind]. rewrite IH. reflexivity.
Qed.
