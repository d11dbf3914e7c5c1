(** Reading files of any bytes line by line. *)
From Coq Require Import ZArith List Bool Lia.
From Verif.Base Require Import Prelude Lemmas.
From Verif.Model Require Import Util File.
From Verif.Spec Require Import TextSpec.
From Verif.Proof Require Import Text Lines.
Import ListNotations.
Open Scope Z_scope.

Lemma fgets_full : forall n l r, ~ In 10 l -> length l = n -> fgets_bytes n (l ++ r) = (l, r, false).
Proof.
  induction n as [|n IH]; intros [|c l] r N L; try discriminate; [reflexivity|]. cbn [fgets_bytes app].
  destruct (Z.eqb_spec c 10) as [->|]; [exfalso; apply N; now left|].
  cbn [length] in L. rewrite IH; [reflexivity| |lia]. intros H. apply N. now right.
Qed.

Lemma next_piece : forall n (s : str),
  (exists l r, s = l ++ 10 :: r /\ ~ In 10 l /\ (length l < n)%nat) \/ (~ In 10 s /\ (length s < n)%nat) \/
  exists l r, s = l ++ r /\ ~ In 10 l /\ length l = n.
Proof.
  induction n as [|n IH]; intros s.
  - right. right. now exists [], s.
  - destruct s as [|c s]; [right; left; split; [intros []|cbn; lia]|].
    destruct (Z.eq_dec c 10) as [->|N].
    + left. exists [], s. split; [reflexivity|]. split; [intros []|cbn; lia].
    + destruct (IH s) as [(l & r & -> & A & B)|[(A & B)|(l & r & -> & A & B)]].
      * left. exists (c :: l), r. split; [reflexivity|]. split; [intros [H|H]; [congruence|contradiction]|cbn; lia].
      * right. left. split; [intros [H|H]; [congruence|contradiction]|cbn; lia].
      * right. right. exists (c :: l), r. split; [reflexivity|]. split; [intros [H|H]; [congruence|contradiction]|cbn; lia].
Qed.

Lemma pieces_exist s : exists ps e, pieces s ps e.
Proof.
  remember (length s) as n eqn:E. revert s E. induction n as [n IH] using (well_founded_induction Wf_nat.lt_wf). intros s ->.
  destruct s as [|x s0] eqn:Es; [exists [], false; constructor|]. rewrite <- Es in *.
  destruct (next_piece chunk s) as [(l & r & X & A & B)|[(A & B)|(l & r & X & A & B)]].
  - destruct (IH (length r)) with (s := r) as (ps & e & P); [rewrite X, app_length; cbn; lia|reflexivity|].
    exists ((l ++ [10]) :: ps), e. rewrite X. apply P_line; [exact A|unfold chunk in B; lia|exact P].
  - exists [s], true. apply P_rest; [rewrite Es; discriminate|exact A|unfold chunk in B; lia].
  - assert (L : Z.of_nat (length l) = 4095) by (rewrite B; unfold chunk; apply Z2Nat.id; lia).
    destruct (IH (length r)) with (s := r) as (ps & e & P); [rewrite X, app_length; lia|reflexivity|].
    exists (l :: ps), e. rewrite X. now apply P_full.
Qed.

Lemma cstr_shown : forall p, before_nul p (cstr p).
Proof.
  unfold before_nul. induction p as [|c p (N & H)]; cbn [cstr]; [split; [intros []|now left]|].
  destruct (Z.eqb_spec c 0) as [->|E].
  - split; [intros []|right; now exists p].
  - split; [intros [X|X]; [congruence|contradiction]|]. destruct H as [H|(r & H)].
    + left. now rewrite <- H.
    + right. exists r. cbn [app]. now rewrite <- H.
Qed.
Definition show (p : str) : str := drop_trailing is_crlf (cstr p).
Lemma show_shown p : shown p (show p).
Proof.
  exists (cstr p). split; [apply cstr_shown|]. apply drop_trailing_chomped.
Qed.

Lemma read_piece p r e : p <> [] -> fgets_bytes chunk (p ++ r) = (p, r, e) ->
  read_line (mk_file (p ++ r) false) = (Line (show p), mk_file r e).
Proof.
  intros N E. unfold read_line. cbn [f_eof]. unfold fgets. cbn [f_rest f_eof]. rewrite E. cbn [orb]. destruct p; [congruence|reflexivity].
Qed.

Lemma read_pieces s ps e : pieces s ps e ->
  (length ps <= length s)%nat /\
  forall fuel, (S (length ps) < fuel)%nat ->
    read_lines fuel (mk_file s false) = Ok (map show ps, negb e) /\
    read_lines_eof fuel (mk_file s false) = Ok (map show ps, true).
Proof.
  induction 1 as [|l Nl N L|l r ps e N L P (IL & IH)|l r ps e N L P (IL & IH)].
  - split; [reflexivity|]. intros [|fuel] H; [lia|]. split; reflexivity.
  - split; [destruct l; [congruence|cbn; lia]|]. intros [|fuel] H; [lia|]. cbn [length] in H. destruct fuel as [|fuel]; [lia|].
    assert (E : read_line (mk_file l false) = (Line (show l), mk_file [] true)).
    { rewrite <- (app_nil_r l) at 1. apply read_piece; [exact Nl|]. rewrite app_nil_r. apply fgets_last; [exact N|unfold chunk; lia]. }
    cbn [read_lines read_lines_eof f_eof]. rewrite E. cbn [read_line f_eof bind map].
    now split.
  - split; [rewrite app_length; cbn [length]; lia|]. intros [|fuel] H; [lia|]. cbn [length] in H.
    assert (E : read_line (mk_file (l ++ 10 :: r) false) = (Line (show (l ++ [10])), mk_file r false)).
    { change (10 :: r) with ([10] ++ r). rewrite app_assoc. apply read_piece; [destruct l; discriminate|].
      rewrite <- app_assoc. apply fgets_line; [exact N|unfold chunk; lia]. }
    destruct (IH fuel ltac:(lia)) as (I1 & I2).
    cbn [read_lines read_lines_eof f_eof]. rewrite E, I1, I2. cbn [bind map].
    now split.
  - assert (Lc : length l = chunk) by (unfold chunk; lia).
    assert (Nl : l <> []) by (intros ->; cbn in L; lia).
    split; [rewrite app_length; cbn [length]; lia|]. intros [|fuel] H; [lia|]. cbn [length] in H.
    assert (E : read_line (mk_file (l ++ r) false) = (Line (show l), mk_file r false)).
    { apply read_piece; [exact Nl|]. now apply fgets_full. }
    destruct (IH fuel ltac:(lia)) as (I1 & I2).
    cbn [read_lines read_lines_eof f_eof]. rewrite E, I1, I2. cbn [bind map].
    now split.
Qed.

Lemma lines_exact content :
  (exists ps e, pieces content ps e) /\
  forall ps e, pieces content ps e -> exists rs,
    all_lines content = Ok (rs, negb e) /\ all_lines_eof content = Ok (rs, true) /\ Forall2 shown ps rs.
Proof.
  split; [apply pieces_exist|]. intros ps e P. exists (map show ps).
  destruct (read_pieces content ps e P) as (L & R). destruct (R (length content + 2)%nat ltac:(lia)) as (R1 & R2).
  unfold all_lines, all_lines_eof, open. rewrite R1, R2. split; [|split; [reflexivity|]].
  - reflexivity.
  - clear. induction ps as [|p ps IH]; cbn [map]; constructor; [apply show_shown|exact IH].
Qed.

(** A line of 4095 bytes, then a line with a NUL byte. *)
Lemma long_line_case : forall l, ~ In 10 l -> ~ In 0 l -> ~ In 13 l -> Z.of_nat (length l) = 4095 ->
  all_lines (text [l; [98]]) = Ok ([l; []; [98]], true) /\ all_lines (text [[98; 0; 99]]) = Ok ([[98]], true).
Proof.
  intros l N N0 N13 L. split; [|reflexivity].
  assert (P : pieces (text [l; [98]]) [l; [10]; [98; 10]] false).
  { replace (text [l; [98]]) with (l ++ ([] ++ 10 :: ([98] ++ 10 :: []))).
    2: { unfold text. cbn [map concat app]. now rewrite <- app_assoc. }
    apply P_full; [exact N|exact L|]. apply (P_line [] _ [[98; 10]]); [intros []|reflexivity|].
    apply (P_line [98] [] []); [intros [H|[]]; discriminate|reflexivity|constructor]. }
  destruct (lines_exact (text [l; [98]])) as (_ & X). destruct (X _ _ P) as (rs & -> & _ & F).
  inversion F as [|? t1 ? ts1 S1 F1]; subst. inversion F1 as [|? t2 ? ts2 S2 F2]; subst. inversion F2 as [|? t3 ? ts3 S3 F3]; subst.
  inversion F3; subst. f_equal. f_equal.
  assert (U : forall p t c, shown p t -> ~ In 0 p -> chomped p c -> t = c).
  { intros p t c (c0 & (A & B) & C) Np Ch. destruct B as [->|(r & ->)]; [exact (chomped_unique _ _ _ C Ch)|].
    destruct Np. apply in_or_app. right. now left. }
  f_equal; [|f_equal; [|f_equal]].
  - apply (U l); [exact S1|exact N0|]. split; [exists []; rewrite app_nil_r; split; [reflexivity|constructor]|].
    intros c r E. split; intros ->; [apply N13|apply N]; rewrite E; apply in_or_app; right; now left.
  - apply (U [10]); [exact S2|intros [H|[]]; discriminate|]. split; [exists [10]; split; [reflexivity|constructor; [now right|constructor]]|].
    intros c r E. destruct r; discriminate.
  - apply (U [98; 10]); [exact S3|intros [H|[H|[]]]; discriminate|]. split; [exists [10]; split; [reflexivity|constructor; [now right|constructor]]|].
    intros c [|y [|z r]] E; cbn in E; try discriminate; injection E as <-; split; discriminate.
Qed.

Lemma long_line : let l := repeat 97 (Z.to_nat 4095) in ~ In 10 l /\ ~ In 0 l /\ ~ In 13 l /\ Z.of_nat (length l) = 4095.
Proof.
  intros l. assert (H : forall x, In x l -> x = 97) by (intros x X; exact (repeat_spec _ _ _ X)).
  split; [intros X; apply H in X; discriminate|]. split; [intros X; apply H in X; discriminate|].
  split; [intros X; apply H in X; discriminate|]. unfold l. rewrite repeat_length. apply Z2Nat.id. lia.
Qed.
