(** The symbol table. *)
From Coq Require Import ZArith List Bool Lia.
From Verif.Base Require Import Prelude ZMap Lemmas.
From Verif.Model Require Import Util File SymbolTable.
From Verif.Spec Require Import TextSpec.
From Verif.Proof Require Import Text Number Lines.
Import ListNotations.
Open Scope Z_scope.

(** A line of a words file. *)
Definition word_line (w : str) (id : Z) (l : str) : Prop :=
  exists s, decimal id s /\ l = w ++ [32] ++ s.

Definition good_word (w : str) : Prop := ~ In 32 w /\ ~ In 0 w.

Lemma decimal_no c id s : decimal id s -> c <> 45 -> ~ 48 <= c <= 57 -> ~ In c s.
Proof.
  intros D N1 N2 H. destruct (decimal_ends _ _ D) as (_ & F). rewrite Forall_forall in F.
  specialize (F _ H). lia.
Qed.

Lemma word_line_chomp w id l : word_line w id l -> chomp l = l.
Proof.
  intros (s & D & ->). eapply chomped_unique; [apply drop_trailing_chomped|].
  split; [exists []; rewrite app_nil_r; split; [reflexivity|constructor]|].
  intros c r E. destruct (decimal_ends _ _ D) as (N & F).
  destruct (last_cases s) as [->|(q & x & ->)]; [congruence|].
  rewrite !app_assoc in E. apply app_inj_tail in E. destruct E as (_ & <-).
  rewrite Forall_forall in F. specialize (F x ltac:(apply in_or_app; right; now left)). lia.
Qed.

Lemma word_line_sym t w id l : word_line w id l -> good_word w -> 0 <= id <= int_max ->
  sym_line t l = (t' <- add_word t w id ;; Ok (Some t')).
Proof.
  intros (s & D & ->) (N & _) R. unfold sym_line.
  change (w ++ [32] ++ s) with (join [32] [w; s]). rewrite (split_join 32 [w; s]).
  - cbn [bind]. replace s with ([] ++ s ++ []) by (cbn [app]; now rewrite app_nil_r).
    rewrite (string_to_long_exact id) by (try exact D; constructor).
    rewrite clamp_long_id; [reflexivity|]. unfold int_max in R. unfold long_min, long_max. lia.
  - repeat constructor; [exact N|]. eapply decimal_no; [exact D| |]; lia.
  - intros r f Q. destruct r as [|? [|? [|]]]; try discriminate. injection Q as _ <-.
    now apply (decimal_ends _ _ D).
Qed.

Lemma size_t_id z : 0 <= z < 2 ^ 64 -> size_t z = z.
Proof. intros H. unfold size_t. now apply Z.mod_small. Qed.

Lemma add_word_ok t w id : 0 <= id <= int_max -> 0 <= s_size t <= int_max + 1 ->
  add_word t w id
  = Ok (mk_symtab (Z.max (s_size t) (id + 1)) (zset (s_words t) id w) ((w, id) :: s_ids t)
          (s_bos t) (s_eos t)).
Proof.
  intros R S. unfold add_word.
  assert (W : wrap32 id = id).
  { unfold int_max in R. unfold wrap32. rewrite Z.mod_small by lia.
    destruct (Z.leb_spec id int_max); [reflexivity|unfold int_max in *; lia]. }
  rewrite W. rewrite size_t_id by (unfold int_max in R; lia).
  destruct (Z.ltb_spec id (s_size t)) as [H|H].
  - cbn [bind]. destruct (Z.leb_spec 0 id); [|lia]. destruct (Z.ltb_spec id (s_size t)); [|lia].
    cbn [andb]. now rewrite Z.max_l by lia.
  - destruct (Z.eqb_spec id long_max); [unfold long_max, int_max in *; lia|].
    rewrite size_t_id by (unfold int_max in R; lia).
    destruct (Z.ltb_spec max_strings (id + 1)); [unfold max_strings, int_max in *; lia|].
    destruct (Z.ltb_spec (id + 1) (s_size t)); [lia|].
    cbn [bind]. destruct (Z.leb_spec 0 id); [|lia]. destruct (Z.ltb_spec id (id + 1)); [|lia].
    cbn [andb]. now rewrite Z.max_r by lia.
Qed.

(** What the table must say after the words [es]. *)
Record says (t : symtab) (es : list (str * Z)) : Prop := mk_says {
  sy_size : 0 <= s_size t <= int_max + 1;
  sy_get : forall w i, In (w, i) es -> i < s_size t /\ zget (s_words t) i = Some w;
  sy_id : forall w i, In (w, i) es -> id_of w (s_ids t) = Some i;
  sy_none : forall w, ~ In w (map fst es) -> id_of w (s_ids t) = None
}.

Lemma says_init : says symtab_init [].
Proof.
  split; cbn; [unfold int_max; lia|tauto|tauto|reflexivity].
Qed.

Lemma says_add t es w i t' :
  says t es -> 0 <= i <= int_max -> ~ In w (map fst es) -> ~ In i (map snd es) ->
  add_word t w i = Ok t' -> says t' (es ++ [(w, i)]).
Proof.
  intros [S G I N] R Nw Ni E. rewrite add_word_ok in E by assumption. injection E as <-.
  split; cbn [s_size s_words s_ids].
  - lia.
  - intros w' i' H. apply in_app_or in H. destruct H as [H|[H|[]]].
    + destruct (G _ _ H) as (A & B). split; [lia|].
      rewrite zget_zset_other; [exact B|]. intros ->. apply Ni. now apply (in_map snd) in H.
    + injection H as <- <-. split; [lia|]. apply zget_zset_same.
  - intros w' i' H. cbn [id_of]. apply in_app_or in H. destruct H as [H|[H|[]]].
    + rewrite str_eqb_neq; [now apply I|]. intros ->. apply Nw. now apply (in_map fst) in H.
    + injection H as <- <-. now rewrite str_eqb_refl.
  - intros w' H. cbn [id_of]. rewrite map_app in H. rewrite str_eqb_neq.
    + apply N. intros Q. apply H. apply in_or_app. now left.
    + intros ->. apply H. apply in_or_app. right. now left.
Qed.

Lemma sym_loop_says : forall es ls t done fuel,
  Forall2 (fun e l => word_line (fst e) (snd e) l) es ls ->
  Forall plain_line ls ->
  Forall (fun e => good_word (fst e) /\ 0 <= snd e <= int_max) es ->
  NoDup (map fst (done ++ es)) -> NoDup (map snd (done ++ es)) ->
  says t done -> (length ls < fuel)%nat ->
  exists t', sym_loop fuel (mk_file (text ls) false) t = Ok (t', true) /\ says t' (done ++ es).
Proof.
  induction es as [|(w, i) es IH]; intros ls t done fuel F P G N1 N2 S L;
    inversion F as [|? l ? ls' H F']; subst; (destruct fuel as [|fuel]; [cbn [length] in L; lia|]).
  - exists t. rewrite app_nil_r. split; [reflexivity|exact S].
  - inversion P; subst. inversion G as [|? ? (Gw & Gi) G']; subst. cbn [fst snd] in *.
    cbn [length] in L. cbn [sym_loop]. rewrite text_cons, read_line_line by assumption.
    rewrite chomp_newline, (word_line_chomp _ _ _ H), (word_line_sym t _ _ _ H) by assumption.
    pose proof (add_word_ok t w i Gi (sy_size _ _ S)) as E.
    rewrite E. cbn [bind].
    assert (X : In w (map fst ((w, i) :: es))) by now left.
    rewrite map_app in N1, N2. cbn [map fst snd] in N1, N2.
    apply (says_add t done w i _ S Gi) in E.
    + assert (A : forall X, done ++ (w, i) :: X = (done ++ [(w, i)]) ++ X)
        by (intros; now rewrite <- app_assoc).
      rewrite A. eapply IH; auto; try lia; rewrite <- A, map_app; assumption.
    + intros Q. apply NoDup_remove_2 in N1. apply N1. apply in_or_app. now left.
    + intros Q. apply NoDup_remove_2 in N2. apply N2. apply in_or_app. now left.
Qed.

Lemma sym_read_says es ls b e :
  Forall2 (fun e l => word_line (fst e) (snd e) l) es ls ->
  Forall plain_line ls ->
  Forall (fun e => good_word (fst e) /\ 0 <= snd e <= int_max) es ->
  NoDup (map fst es) -> NoDup (map snd es) ->
  In (bos_symbol, b) es -> In (eos_symbol, e) es ->
  exists t, sym_read symtab_init (text ls) = Ok (t, true) /\ says t es /\ s_bos t = b /\ s_eos t = e.
Proof.
  intros F P G N1 N2 B E.
  destruct (sym_loop_says es ls symtab_init [] (length (text ls) + 2) F P G N1 N2 says_init)
    as (t & Q & S).
  { pose proof (text_length ls). lia. }
  exists (mk_symtab (s_size t) (s_words t) (s_ids t) b e).
  unfold sym_read. fold (open (text ls)) in Q. rewrite Q. cbn [bind].
  rewrite (sy_id _ _ S _ _ B), (sy_id _ _ S _ _ E).
  split; [reflexivity|]. split; [|now split].
  destruct S as [S1 S2 S3 S4]. split; assumption.
Qed.

Lemma says_get t es w i :
  says t es -> good_word w -> 0 <= i <= int_max -> In (w, i) es -> sym_get t i = Ok w.
Proof.
  intros [S G I N] (_ & Z0) R H. unfold sym_get. destruct (G _ _ H) as (A & B).
  rewrite size_t_id by (unfold int_max in R; lia).
  destruct (Z.ltb_spec i (s_size t)); [|lia]. cbn [check bind]. rewrite B.
  now rewrite cstr_id.
Qed.

Lemma says_id t es w i : says t es -> In (w, i) es -> sym_id t w = i.
Proof. intros S H. unfold sym_id. now rewrite (sy_id _ _ S _ _ H). Qed.

Lemma says_no_id t es w : says t es -> ~ In w (map fst es) -> sym_id t w = -1.
Proof. intros S H. unfold sym_id. now rewrite (sy_none _ _ S _ H). Qed.

(** * Robustness *)

Lemma add_word_safe t w id : 0 <= id < max_strings -> 0 <= s_size t <= max_strings ->
  exists t', add_word t w id = Ok t' /\ 0 <= s_size t' <= max_strings.
Proof.
  intros R S. unfold add_word. unfold max_strings in *.
  rewrite size_t_id by lia.
  destruct (Z.ltb_spec id (s_size t)) as [H|H].
  - cbn [bind]. destruct (Z.leb_spec 0 id); [|lia]. destruct (Z.ltb_spec id (s_size t)); [|lia].
    cbn [andb]. eexists. split; [reflexivity|exact S].
  - destruct (Z.eqb_spec id long_max); [unfold long_max in *; lia|].
    rewrite size_t_id by lia.
    destruct (Z.ltb_spec 288230376151711743 (id + 1)); [lia|].
    destruct (Z.ltb_spec (id + 1) (s_size t)); [lia|].
    cbn [bind]. destruct (Z.leb_spec 0 id); [|lia]. destruct (Z.ltb_spec id (id + 1)); [|lia].
    cbn [andb]. eexists. split; [reflexivity|]. cbn [s_size]. lia.
Qed.

(** The ids of a words file as the parser reads them. *)
Definition line_id (l : str) (id : Z) : Prop :=
  exists w num, split l [32] = Ok [w; num] /\ string_to_long num = Some id.

Lemma read_line_progress f s f' : read_line f = (Line s, f') ->
  (length (f_rest f') < length (f_rest f))%nat.
Proof.
  unfold read_line, fgets. destruct (f_eof f); [discriminate|].
  destruct (fgets_bytes chunk (f_rest f)) as [[l rest] e] eqn:E.
  apply fgets_bytes_split in E. destruct E as (E & _).
  destruct l as [|c l].
  - destruct (f_eof _); discriminate.
  - intros [= _ <-]. cbn [f_rest]. rewrite E, app_length. cbn [length]. lia.
Qed.

Lemma sym_loop_safe : forall fuel f t rs b,
  read_lines fuel f = Ok (rs, b) ->
  (forall l id, In l rs -> line_id l id -> 0 <= id < max_strings) ->
  0 <= s_size t <= max_strings ->
  exists t' b', sym_loop fuel f t = Ok (t', b').
Proof.
  induction fuel as [|fuel IH]; intros f t rs b R H S; [discriminate|].
  cbn [read_lines sym_loop] in *. destruct (read_line f) as [[s| |] f'].
  - destruct (read_lines fuel f') as [(rs', b')|] eqn:E; [|discriminate]. cbn [bind] in R.
    injection R as <- <-.
    unfold sym_line. destruct (split_fields s [32] ltac:(discriminate)) as (fs & Es & _).
    rewrite Es. cbn [bind].
    destruct fs as [|w [|num [|]]]; cbn [bind]; eauto.
    destruct (string_to_long num) as [id|] eqn:En; cbn [bind]; eauto.
    destruct (add_word_safe t w id) as (t' & -> & S'); [|exact S|].
    { apply (H s); [now left|]. now exists w, num. }
    cbn [bind]. eapply IH; [exact E| |exact S']. intros l i Hl. apply H. now right.
  - eauto.
  - eauto.
Qed.

Lemma read_lines_total : forall fuel f, (S (length (f_rest f)) < fuel)%nat ->
  exists rs b, read_lines fuel f = Ok (rs, b).
Proof.
  induction fuel as [|fuel IH]; intros f L; [lia|]. cbn [read_lines].
  destruct (read_line f) as [[s| |] f'] eqn:E; eauto.
  apply read_line_progress in E.
  destruct (IH f') as (rs & b & Q); [lia|]. rewrite Q. cbn [bind]. eauto.
Qed.

Lemma sym_read_safe content rs b :
  all_lines content = Ok (rs, b) ->
  (forall l id, In l rs -> line_id l id -> 0 <= id < max_strings) ->
  exists t ok, sym_read symtab_init content = Ok (t, ok).
Proof.
  intros R H. unfold sym_read.
  destruct (sym_loop_safe _ _ symtab_init _ _ R H) as (t & b' & ->).
  { unfold max_strings. cbn. lia. }
  cbn [bind]. destruct b'; [|eauto].
  destruct (id_of bos_symbol (s_ids t)); [|eauto]. destruct (id_of eos_symbol (s_ids t)); eauto.
Qed.
