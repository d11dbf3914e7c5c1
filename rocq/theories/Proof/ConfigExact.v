(** Configuration files of any bytes. *)
From Coq Require Import ZArith List Bool Lia.
From Verif.Base Require Import Prelude Lemmas.
From Verif.Model Require Import Util File Configuration.
From Verif.Spec Require Import TextSpec.
From Verif.Proof Require Import Text Number Lines LinesExact NumberExact Config SymbolsExact TextCases.
Import ListNotations.
Open Scope Z_scope.

Lemma entry_plus_loose l e k v : trimmed l (e ++ [61]) -> entry e k v -> loose_entry l k v.
Proof.
  intros T (t & a & b & k' & Te & E & Na & Nb & NC & Ta & Lk & Tb & Nv).
  assert (X : exists ws, e = t ++ ws /\ all_white ws).
  { destruct Te as ((u & w & X & U & W) & _). exists w. split; [|exact W]. destruct u as [|c u]; [exact X|].
    exfalso. inversion U as [|? ? Wc _]; subst. destruct T as (_ & T & _). eapply T; [|exact Wc]. reflexivity. }
  destruct X as (ws & -> & W). subst t. exists ((a ++ [61] ++ b ++ ws) ++ [61]), a, (b ++ ws), k'.
  split; [now rewrite <- !app_assoc in *|]. split; [now rewrite <- !app_assoc|]. split; [exact Na|].
  split.
  { intros J. apply in_app_or in J. destruct J as [J|J]; [contradiction|]. unfold all_white in W. rewrite Forall_forall in W. specialize (W _ J). unfold white in W. lia. }
  split.
  { intros r Q. destruct a as [|x a]; [discriminate|]. cbn [app] in Q. injection Q as -> _. eapply NC. reflexivity. }
  split; [exact Ta|]. split; [exact Lk|]. split; [now apply trimmed_suffix|exact Nv].
Qed.

Lemma taken_iff l k v : taken l k v <-> entry l k v \/ loose_entry l k v.
Proof.
  split.
  - intros [H|(e & T & H)]; [now left|right]. eapply entry_plus_loose; eassumption.
  - intros [H|H]; [now left|right]. now apply loose_is_entry_plus.
Qed.

Lemma conf_line_loose t l k v : loose_entry l k v -> conf_line t l = Ok (Some ((k, v) :: t)).
Proof.
  intros (x & a & b & k' & T & E & Na & Nb & NC & Ta & Lk & Tb & Nv).
  unfold conf_line. rewrite (trim_eq _ _ T).
  assert (S : split x [61] = Ok [a; b]) by (apply two_fields; split; [exact Na|split; [exact Nb|right; exact E]]).
  destruct x as [|c x]; [now destruct a|].
  destruct (Z.eqb_spec c 35) as [->|]; [exfalso; now apply (NC x)|].
  rewrite S. cbn [bind]. rewrite (trim_eq _ _ Ta), (trim_eq _ _ Tb), <- (lower_case_eq _ _ Lk).
  destruct v; [congruence|reflexivity].
Qed.

Lemma conf_line_taken t l k v : taken l k v -> conf_line t l = Ok (Some ((k, v) :: t)).
Proof. intros H. apply taken_iff in H. destruct H; [now apply conf_line_entry|now apply conf_line_loose]. Qed.

Lemma conf_line_exact t l :
  (no_effect l /\ conf_line t l = Ok (Some t)) \/
  (exists k v, taken l k v /\ conf_line t l = Ok (Some ((k, v) :: t))) \/
  (~ no_effect l /\ (forall k v, ~ taken l k v) /\ conf_line t l = Ok None).
Proof.
  destruct (conf_line_total t l) as ([r|] & E).
  - pose proof (conf_line_inv _ _ _ E) as [(N & ->)|(k & v & H & ->)]; [left; now split|].
    right. left. exists k, v. split; [now apply taken_iff|exact E].
  - right. right. split; [|split; [|exact E]].
    + intros H. rewrite (conf_line_no_effect t l H) in E. discriminate.
    + intros k v H. rewrite (conf_line_taken t l k v H) in E. discriminate.
Qed.

Lemma conf_loop_lines : forall fuel f t rs, read_lines_eof fuel f = Ok (rs, true) -> conf_loop fuel f t = Ok (conf_fold t rs).
Proof.
  induction fuel as [|fuel IH]; intros f t rs R; [discriminate|]. cbn [read_lines_eof conf_loop] in *.
  destruct (f_eof f); [now injection R as <-|].
  destruct (read_line f) as [[s| |] f']; [|now injection R as <-|discriminate].
  destruct (read_lines_eof fuel f') as [(rs', b')|] eqn:E; [|discriminate]. cbn [bind] in R. injection R as <- ->.
  cbn [conf_fold]. destruct (conf_line_total t s) as (r & ->). cbn [bind]. destruct r as [t'|]; [|reflexivity]. now apply IH.
Qed.

Lemma fold_ok_iff : forall rs t, snd (conf_fold t rs) = true <-> Forall (fun l => no_effect l \/ exists k v, taken l k v) rs.
Proof.
  induction rs as [|l rs IH]; intros t; cbn [conf_fold].
  - split; [constructor|reflexivity].
  - destruct (conf_line_exact t l) as [(N & ->)|[(k & v & H & ->)|(N & H & ->)]].
    + rewrite IH. split; [intros F; constructor; [now left|exact F]|now inversion 1].
    + rewrite IH. split; [intros F; constructor; [right; now exists k, v|exact F]|now inversion 1].
    + split; [discriminate|]. intros F. inversion F as [|? ? [X|(k & v & X)] _]; subst; [contradiction|now apply H in X].
Qed.

Lemma taken_fun l k v k' v' : taken l k v -> taken l k' v' -> k = k' /\ v = v'.
Proof.
  intros H H'. pose proof (conf_line_taken [] _ _ _ H) as E. rewrite (conf_line_taken [] _ _ _ H') in E. injection E as -> ->. now split.
Qed.
Lemma taken_effect l k v : taken l k v -> ~ no_effect l.
Proof. intros H N. pose proof (conf_line_taken [] _ _ _ H) as E. rewrite (conf_line_no_effect [] _ N) in E. discriminate. Qed.

(** The value behind a key: the last line with that key. *)
Lemma fold_lookup k : forall rs t, snd (conf_fold t rs) = true ->
  (exists l v, last_such (fun l => exists v, taken l k v) rs l /\ taken l k v /\ assoc k (fst (conf_fold t rs)) = Some v) \/
  (Forall (fun l => forall v, ~ taken l k v) rs /\ assoc k (fst (conf_fold t rs)) = assoc k t).
Proof.
  induction rs as [|l rs IH] using rev_ind; intros t S.
  - right. split; [constructor|reflexivity].
  - rewrite conf_fold_app in *. destruct (snd (conf_fold t rs)) eqn:Q; [|congruence].
    specialize (IH t Q). set (t1 := fst (conf_fold t rs)) in *. cbn [conf_fold] in *.
    assert (Skip : (forall v, ~ taken l k v) ->
      (exists l0 v, last_such (fun l => exists v, taken l k v) (rs ++ [l]) l0 /\ taken l0 k v /\ assoc k t1 = Some v) \/
      (Forall (fun l => forall v, ~ taken l k v) (rs ++ [l]) /\ assoc k t1 = assoc k t)).
    { intros N. destruct IH as [(l0 & v & L & T & A)|(F & A)].
      - left. exists l0, v. split; [apply last_such_before; [exact L|]|now split]. intros (v' & X). now apply N in X.
      - right. split; [|exact A]. apply Forall_app. split; [exact F|now constructor]. }
    destruct (conf_line_exact t1 l) as [(N & E)|[(k' & v & H & E)|(N & H & E)]]; rewrite E in *; cbn [fst snd] in *; [| |discriminate].
    + apply Skip. intros v H. now apply taken_effect in H.
    + cbn [assoc]. destruct (str_eqb k k') eqn:K.
      * apply str_eqb_eq in K. subst k'. left. exists l, v. split; [apply last_such_here; now exists v|now split].
      * apply Skip. intros v' H'. destruct (taken_fun _ _ _ _ _ H H') as (<- & _). now rewrite str_eqb_refl in K.
Qed.

Lemma config_exact fn content ps e rs : pieces content ps e -> Forall2 shown ps rs ->
  exists c ok, conf_read conf_empty fn content = Ok (c, ok) /\
    (ok = true <-> Forall (fun l => no_effect l \/ exists k v, taken l k v) rs) /\
    (ok = true -> forall key k, lower_case key k ->
      (exists l v, last_such (fun l => exists v, taken l k v) rs l /\ taken l k v /\ forall d, get_string c key d = v) \/
      (Forall (fun l => forall v, ~ taken l k v) rs /\ forall d, get_string c key d = d)).
Proof.
  intros P S. rewrite (shown_all _ _ S). destruct (read_pieces _ _ _ P) as (L & R).
  destruct (R (length content + 2)%nat ltac:(lia)) as (_ & R2). unfold conf_read, open.
  rewrite (conf_loop_lines _ _ _ _ R2). cbn [bind c_table conf_empty].
  change (@nil (bytes * bytes)) with (@nil (str * str)).
  destruct (conf_fold [] (map show ps)) as (t & ok) eqn:Q. eexists _, ok. split; [reflexivity|].
  pose proof (fold_ok_iff (map show ps) []) as F. rewrite Q in F. cbn [snd] in F. split; [exact F|].
  intros Ok key k Lk. apply lower_case_eq in Lk. subst k.
  pose proof (fold_lookup (lower key) (map show ps) []) as G. rewrite Q in G. cbn [fst snd] in G. specialize (G Ok).
  unfold get_string. cbn [c_table]. destruct G as [(l & v & A & B & C)|(A & C)]; rewrite C; [left|right]; eauto.
Qed.

Lemma config_exact_case : let content := [97; 61; 98; 61; 10; 97; 61; 99; 0; 61; 10] in
  pieces content [[97; 61; 98; 61; 10]; [97; 61; 99; 0; 61; 10]] false /\
  exists c, conf_read conf_empty [102] content = Ok (c, true) /\ get_string c [65] [] = [99].
Proof.
  intros content. split.
  - apply (P_line [97; 61; 98; 61] [97; 61; 99; 0; 61; 10] [[97; 61; 99; 0; 61; 10]] false); [cbn; lia|reflexivity|].
    apply (P_line [97; 61; 99; 0; 61] [] [] false); [cbn; lia|reflexivity|constructor].
  - eexists. split; [vm_compute; reflexivity|]. reflexivity.
Qed.
