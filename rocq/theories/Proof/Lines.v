(** Reading lines. *)
From Coq Require Import ZArith List Bool Lia.
From Verif.Base Require Import Prelude Lemmas.
From Verif.Model Require Import Util File.
From Verif.Spec Require Import TextSpec.
From Verif.Proof Require Import Text.
Import ListNotations.
Open Scope Z_scope.

Lemma str_eqb_eq a : forall b, str_eqb a b = true <-> a = b.
Proof.
  induction a as [|x a IH]; intros [|y b]; cbn [str_eqb]; try (split; congruence).
  rewrite andb_true_iff, Z.eqb_eq, IH. split; [now intros (-> & ->)|now intros [= -> ->]].
Qed.

Lemma str_eqb_refl a : str_eqb a a = true.
Proof. now apply str_eqb_eq. Qed.

Lemma str_eqb_neq a b : a <> b -> str_eqb a b = false.
Proof.
  intros N. destruct (str_eqb a b) eqn:E; [|reflexivity]. apply str_eqb_eq in E. contradiction.
Qed.

Lemma drop_while_spec p s :
  exists u, s = u ++ drop_while p s /\ Forall (fun c => p c = true) u /\
    forall c r, drop_while p s = c :: r -> p c = false.
Proof.
  induction s as [|c s (u & E & F & N)]; cbn [drop_while].
  - exists []. repeat split; [constructor|discriminate].
  - destruct (p c) eqn:P.
    + exists (c :: u). cbn [app]. rewrite <- E. repeat split; [now constructor|exact N].
    + exists []. repeat split; [constructor|]. now intros ? ? [= <- <-].
Qed.

Lemma is_crlf_iff c : is_crlf c = true <-> c = 13 \/ c = 10.
Proof. unfold is_crlf. rewrite orb_true_iff, !Z.eqb_eq. reflexivity. Qed.

Lemma drop_trailing_chomped s : chomped s (drop_trailing is_crlf s).
Proof.
  unfold drop_trailing.
  destruct (drop_while_spec is_crlf (rev s)) as (u & E & F & N).
  split.
  - exists (rev u). rewrite <- rev_app_distr, <- E, rev_involutive. split; [reflexivity|].
    apply Forall_rev. eapply Forall_impl; [|exact F]. cbn beta. intros c. apply is_crlf_iff.
  - intros c r Q. apply (f_equal (@rev Z)) in Q. rewrite rev_involutive, rev_app_distr in Q.
    cbn [rev app] in Q. apply N in Q.
    split; intros ->; discriminate.
Qed.

Lemma chomped_unique l t t' : chomped l t -> chomped l t' -> t = t'.
Proof.
  intros ((v & E & V) & N) ((v' & E' & V') & N').
  assert (G : forall (t t' v v' : str), t ++ v = t' ++ v' -> Forall (fun c => c = 13 \/ c = 10) v ->
             (forall c r, t' = r ++ [c] -> c <> 13 /\ c <> 10) -> (length t' <= length t)%nat).
  { clear. intros t t' v v' E V N.
    destruct (Nat.le_gt_cases (length t') (length t)) as [|H]; [assumption|].
    exfalso. destruct (last_cases t') as [->|(r & c & ->)]; [cbn [length] in H; lia|].
    destruct (N c r eq_refl).
    assert (In c v).
    { rewrite app_length in H. cbn [length] in H.
      assert (X : nth (length r) (t ++ v) 0 = c).
      { rewrite E, <- app_assoc, app_nth2, Nat.sub_diag by lia. reflexivity. }
      rewrite app_nth2 in X by lia.
      assert (length (t ++ v) = length ((r ++ [c]) ++ v')) by now rewrite E.
      rewrite !app_length in *. cbn [length] in *.
      rewrite <- X. apply nth_In. lia. }
    rewrite Forall_forall in V. destruct (V c); auto. }
  rewrite E in E'.
  pose proof (G _ _ _ _ E' V N'). pose proof (G _ _ _ _ (eq_sym E') V' N).
  apply app_len_inj in E'; [now destruct E'|]. unfold lenZ. lia.
Qed.

Lemma chomped_newline l t : chomped l t -> chomped (l ++ [10]) t.
Proof.
  intros ((v & -> & V) & N). split; [|exact N]. exists (v ++ [10]). rewrite <- app_assoc.
  split; [reflexivity|]. apply Forall_app. split; [exact V|]. constructor; [now right|constructor].
Qed.

Lemma fgets_line : forall n l r, ~ In 10 l -> (length l < n)%nat ->
  fgets_bytes n (l ++ 10 :: r) = (l ++ [10], r, false).
Proof.
  induction n as [|n IH]; intros l r N L; [lia|].
  destruct l as [|c l]; cbn [fgets_bytes app].
  - reflexivity.
  - destruct (Z.eqb_spec c 10) as [->|]; [exfalso; apply N; now left|].
    cbn [length] in L. rewrite IH; [reflexivity| |lia]. intros H. apply N. now right.
Qed.

Lemma fgets_last : forall n l, ~ In 10 l -> (length l < n)%nat ->
  fgets_bytes n l = (l, [], true).
Proof.
  induction n as [|n IH]; intros l N L; [lia|].
  destruct l as [|c l]; cbn [fgets_bytes]; [reflexivity|].
  destruct (Z.eqb_spec c 10) as [->|]; [exfalso; apply N; now left|].
  cbn [length] in L. rewrite IH; [reflexivity| |lia]. intros H. apply N. now right.
Qed.

(** Every byte read comes off the file, and a non-empty file gives progress. *)
Lemma fgets_bytes_split : forall n s l rest e,
  fgets_bytes n s = (l, rest, e) -> s = l ++ rest /\ (n <> O -> s <> [] -> l <> []).
Proof.
  induction n as [|n IH]; intros s l rest e E; cbn [fgets_bytes] in E.
  - injection E as <- <- <-. split; [reflexivity|congruence].
  - destruct s as [|c s]; [injection E as <- <- <-; split; [reflexivity|congruence]|].
    destruct (c =? 10).
    + injection E as <- <- <-. split; [reflexivity|discriminate].
    + destruct (fgets_bytes n s) as [[l' rest'] e'] eqn:F. injection E as <- <- <-.
      apply IH in F. destruct F as (-> & _). split; [reflexivity|discriminate].
Qed.

Lemma read_line_line l r : plain_line l ->
  read_line (mk_file (l ++ 10 :: r) false)
  = (Line (drop_trailing is_crlf (l ++ [10])), mk_file r false).
Proof.
  intros (N & Z0 & L). unfold read_line. cbn [f_eof]. unfold fgets. cbn [f_rest f_eof].
  rewrite fgets_line; [|exact N|unfold chunk; lia]. cbn [orb].
  destruct (l ++ [10]) as [|c t] eqn:E; [destruct l; discriminate|].
  rewrite cstr_id; [reflexivity|].
  rewrite <- E. intros H. apply in_app_or in H. destruct H as [H|[H|[]]]; [contradiction|discriminate].
Qed.

Lemma read_line_last l : plain_line l -> l <> [] ->
  read_line (mk_file l false) = (Line (drop_trailing is_crlf l), mk_file [] true).
Proof.
  intros (N & Z0 & L) Nl. unfold read_line. cbn [f_eof]. unfold fgets. cbn [f_rest f_eof].
  rewrite fgets_last; [|exact N|unfold chunk; lia]. cbn [orb].
  destruct l; [congruence|]. now rewrite cstr_id.
Qed.

Lemma read_line_end : read_line (mk_file [] false) = (NoLine, mk_file [] true).
Proof. reflexivity. Qed.

Lemma read_line_eof s : read_line (mk_file s true) = (LineError, mk_file s true).
Proof. reflexivity. Qed.

(** The line [ReadLine] makes of a line. *)
Definition chomp (l : str) : str := drop_trailing is_crlf l.

Lemma chomp_newline l : drop_trailing is_crlf (l ++ [10]) = chomp l.
Proof.
  eapply chomped_unique; [apply drop_trailing_chomped|]. apply chomped_newline.
  apply drop_trailing_chomped.
Qed.

Lemma text_cons l ls : text (l :: ls) = l ++ 10 :: text ls.
Proof. unfold text. cbn [map concat]. now rewrite <- app_assoc. Qed.

Lemma text_length ls : (length ls <= length (text ls))%nat.
Proof.
  induction ls as [|l ls IH]; [reflexivity|]. rewrite text_cons, app_length. cbn [length]. lia.
Qed.

Lemma read_lines_text : forall ls fuel,
  Forall plain_line ls -> (length ls < fuel)%nat ->
  read_lines fuel (mk_file (text ls) false) = Ok (map chomp ls, true).
Proof.
  induction ls as [|l ls IH]; intros fuel F L; (destruct fuel as [|fuel]; [cbn [length] in L; lia|]).
  - reflexivity.
  - inversion F; subst. cbn [length] in L.
    cbn [read_lines map]. rewrite text_cons, read_line_line by assumption.
    rewrite IH by (auto; lia). cbn [bind]. now rewrite chomp_newline.
Qed.

Lemma read_lines_text_last : forall ls fuel l,
  Forall plain_line ls -> plain_line l -> l <> [] -> (S (length ls) < fuel)%nat ->
  read_lines fuel (mk_file (text ls ++ l) false) = Ok (map chomp (ls ++ [l]), false).
Proof.
  induction ls as [|x ls IH]; intros fuel l F P N L; (destruct fuel as [|fuel]; [lia|]).
  - cbn [length] in L. destruct fuel as [|fuel]; [lia|].
    cbn [text map concat app read_lines]. rewrite read_line_last by assumption.
    rewrite read_line_eof. reflexivity.
  - inversion F; subst. cbn [length] in L.
    cbn [read_lines app map]. rewrite text_cons, <- app_assoc. cbn [app].
    rewrite read_line_line by assumption.
    rewrite IH by (auto; lia). cbn [bind]. now rewrite chomp_newline.
Qed.

Lemma read_lines_eof_text : forall ls fuel,
  Forall plain_line ls -> (length ls < fuel)%nat ->
  read_lines_eof fuel (mk_file (text ls) false) = Ok (map chomp ls, true).
Proof.
  induction ls as [|l ls IH]; intros fuel F L; (destruct fuel as [|fuel]; [cbn [length] in L; lia|]).
  - reflexivity.
  - inversion F; subst. cbn [length] in L.
    cbn [read_lines_eof map f_eof]. rewrite text_cons, read_line_line by assumption.
    rewrite IH by (auto; lia). cbn [bind]. now rewrite chomp_newline.
Qed.

Lemma read_lines_eof_text_last : forall ls fuel l,
  Forall plain_line ls -> plain_line l -> l <> [] -> (S (length ls) < fuel)%nat ->
  read_lines_eof fuel (mk_file (text ls ++ l) false) = Ok (map chomp (ls ++ [l]), true).
Proof.
  induction ls as [|x ls IH]; intros fuel l F P N L; (destruct fuel as [|fuel]; [lia|]).
  - cbn [length] in L. destruct fuel as [|fuel]; [lia|].
    cbn [text map concat app read_lines_eof f_eof]. rewrite read_line_last by assumption.
    reflexivity.
  - inversion F; subst. cbn [length] in L.
    cbn [read_lines_eof app map f_eof]. rewrite text_cons, <- app_assoc. cbn [app].
    rewrite read_line_line by assumption.
    rewrite IH by (auto; lia). cbn [bind]. now rewrite chomp_newline.
Qed.

Lemma chomp_all ls : Forall2 chomped ls (map chomp ls).
Proof.
  induction ls as [|l ls IH]; constructor; [apply drop_trailing_chomped|exact IH].
Qed.

Lemma all_lines_ok ls : Forall plain_line ls ->
  exists rs, all_lines (text ls) = Ok (rs, true) /\ Forall2 chomped ls rs.
Proof.
  intros F. exists (map chomp ls). split; [|apply chomp_all].
  apply read_lines_text; [exact F|]. pose proof (text_length ls). lia.
Qed.

Lemma all_lines_unfinished ls l : Forall plain_line ls -> plain_line l -> l <> [] ->
  exists rs, all_lines (text ls ++ l) = Ok (rs, false) /\ Forall2 chomped (ls ++ [l]) rs.
Proof.
  intros F P N. exists (map chomp (ls ++ [l])). split; [|apply chomp_all].
  apply read_lines_text_last; auto. pose proof (text_length ls). rewrite app_length.
  destruct l; [congruence|cbn [length]; lia].
Qed.

Lemma all_lines_eof_ok ls l : Forall plain_line ls -> plain_line l ->
  exists rs, all_lines_eof (text ls ++ l) = Ok (rs, true) /\
    Forall2 chomped (if l then ls else ls ++ [l]) rs.
Proof.
  intros F P. destruct l as [|c l].
  - exists (map chomp ls). split; [|apply chomp_all]. rewrite app_nil_r.
    apply read_lines_eof_text; [exact F|]. pose proof (text_length ls). lia.
  - exists (map chomp (ls ++ [c :: l])). split; [|apply chomp_all].
    apply read_lines_eof_text_last; auto; [discriminate|]. pose proof (text_length ls).
    rewrite app_length. cbn [length]. lia.
Qed.
