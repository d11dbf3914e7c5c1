(** Words files of any bytes. *)
From Coq Require Import ZArith List Bool Lia.
From Verif.Base Require Import Prelude ZMap Lemmas.
From Verif.Model Require Import Util File SymbolTable.
From Verif.Spec Require Import TextSpec.
From Verif.Proof Require Import Text Number Lines LinesExact NumberExact Symbols.
Import ListNotations.
Open Scope Z_scope.

(** * Lines *)

Lemma two_fields c l w num : split l [c] = Ok [w; num] <->
  ~ In c w /\ ~ In c num /\ (l = w ++ c :: num /\ num <> [] \/ l = w ++ c :: num ++ [c]).
Proof.
  split.
  - intros E. destruct (split_fields l [c] ltac:(discriminate)) as (fs & E' & F). rewrite E in E'. injection E' as <-.
    pose proof (fields_clean [c] _ _ ltac:(discriminate) F) as C.
    inversion C as [|? ? Ca C']; subst. inversion C' as [|? ? Cb _]; subst.
    rewrite contains_one in Ca, Cb. split; [exact Ca|]. split; [exact Cb|].
    inversion F as [| |? s ? M F1]; subst. inversion F1 as [|? Nn Cn|? s' ? M' F2]; subst.
    + left. split; [reflexivity|exact Nn].
    + inversion F2; subst. right. reflexivity.
  - intros (Nw & Nn & [(-> & N)| ->]).
    + change (w ++ c :: num) with (join [c] [w; num]). apply split_join; [now repeat constructor|].
      intros r f Q. destruct r as [|? [|? [|]]]; try discriminate. injection Q as _ <-. exact N.
    + apply split_eq; [discriminate|]. change (w ++ c :: num ++ [c]) with (w ++ [c] ++ (num ++ [c] ++ [])).
      constructor; [now apply leftmost_one|]. constructor; [now apply leftmost_one|]. constructor.
Qed.

Lemma sym_line_exact t l r : sym_line t l = r <->
  (exists w id, word_entry l w id /\ r = (t' <- add_word t w id ;; Ok (Some t'))) \/
  ((forall w id, ~ word_entry l w id) /\ r = Ok None).
Proof.
  assert (X : (exists w id, word_entry l w id /\ sym_line t l = (t' <- add_word t w id ;; Ok (Some t'))) \/
              ((forall w id, ~ word_entry l w id) /\ sym_line t l = Ok None)).
  { unfold sym_line. destruct (split_fields l [32] ltac:(discriminate)) as (fs & E & _). rewrite E. cbn [bind].
    assert (Y : forall w id, word_entry l w id -> exists num, fs = [w; num] /\ string_to_long num = Some id).
    { intros w id (num & A & B & N & D). assert (Q : split l [32] = Ok [w; num]) by now apply two_fields.
      rewrite E in Q. injection Q as ->. exists num. split; [reflexivity|]. now apply number_exact. }
    destruct fs as [|w [|num [|x fs]]]; try (right; split; [|reflexivity]; intros w0 id0 H; destruct (Y _ _ H) as (? & Q & _); discriminate).
    destruct (string_to_long num) as [id|] eqn:N.
    - left. exists w, id. split; [|reflexivity]. apply two_fields in E. destruct E as (A & B & D).
      exists num. split; [exact A|]. split; [exact B|]. split; [now apply number_exact|exact D].
    - right. split; [|reflexivity]. intros w0 id0 H. destruct (Y _ _ H) as (num' & Q & R). injection Q as <- <-. congruence. }
  assert (U : forall w id w' id', word_entry l w id -> word_entry l w' id' -> w = w' /\ id = id').
  { intros w id w' id' (num & A & B & N & D) (num' & A' & B' & N' & D').
    assert (Q : split l [32] = Ok [w; num]) by now apply two_fields.
    assert (Q' : split l [32] = Ok [w'; num']) by now apply two_fields.
    rewrite Q in Q'. injection Q' as <- <-. split; [reflexivity|]. apply number_exact in N, N'. congruence. }
  split.
  - intros <-. exact X.
  - intros [(w & id & H & ->)|(H & ->)]; destruct X as [(w' & id' & H' & ->)|(H' & ->)].
    + destruct (U _ _ _ _ H H') as (-> & ->). reflexivity.
    + now apply H' in H.
    + now apply H in H'.
    + reflexivity.
Qed.

Lemma number_range s z : long_number s z -> -9223372036854775808 <= z <= 9223372036854775807.
Proof.
  intros (t & c & _ & _ & [(_ & ->)|(sign & b & n & _ & L & [(_ & ->)|(_ & ->)])]); [lia| |]; apply literal_nonneg in L; lia.
Qed.

Lemma entry_range l w id : word_entry l w id -> -9223372036854775808 <= id <= 9223372036854775807.
Proof. intros (num & _ & _ & N & _). exact (number_range _ _ N). Qed.

(** * Entries *)

Lemma add_word_exact t w id t' : -9223372036854775808 <= id <= 9223372036854775807 -> 0 <= s_size t <= max_strings ->
  add_word t w id = Ok t' <->
  0 <= id < max_strings /\
  t' = mk_symtab (Z.max (s_size t) (id + 1)) (zset (s_words t) id w) ((w, wrap32 id) :: s_ids t) (s_bos t) (s_eos t).
Proof.
  intros R S. unfold add_word, max_strings in *. destruct (Z.leb_spec 0 id) as [P|P]; cbn [andb].
  - rewrite (size_t_id id) by lia. destruct (Z.ltb_spec id (s_size t)) as [H|H]; cbn [bind].
    + destruct (Z.ltb_spec id (s_size t)); [|lia]. rewrite Z.max_l by lia. split; [intros E; injection E as <-; split; [lia|reflexivity]|]. intros (_ & ->). reflexivity.
    + destruct (Z.eqb_spec id long_max) as [->|N]; [cbn [bind]; unfold long_max; split; [discriminate|lia]|].
      unfold long_max in N. rewrite size_t_id by lia. destruct (Z.ltb_spec 288230376151711743 (id + 1)); cbn [bind]; [split; [discriminate|lia]|].
      destruct (Z.ltb_spec (id + 1) (s_size t)); [lia|]. cbn [bind]. destruct (Z.ltb_spec id (id + 1)); [|lia].
      rewrite Z.max_r by lia. split; [intros E; injection E as <-; split; [lia|reflexivity]|]. intros (_ & ->). reflexivity.
  - split; [|lia]. assert (B : forall m : res (Z * zmap bytes), (x <- m ;; (let '(size, words) := x in Fault Undef)) <> Ok t').
    { intros [(a & b)|e]; discriminate. }
    intros E. exfalso. eapply B. exact E.
Qed.

Record holds (t : symtab) (es : list (str * Z)) : Prop := mk_holds {
  h_range : 0 <= s_size t <= max_strings;
  h_in : Forall (fun e => 0 <= snd e < s_size t) es;
  h_top : s_size t = 0 \/ exists e, In e es /\ s_size t = snd e + 1;
  h_get : forall i, (exists e, last_such (fun e => snd e = i) es e /\ zget (s_words t) i = Some (fst e)) \/
                    (Forall (fun e => snd e <> i) es /\ zget (s_words t) i = None);
  h_id : forall w, (exists e, last_such (fun e => fst e = w) es e /\ id_of w (s_ids t) = Some (wrap32 (snd e))) \/
                   (Forall (fun e => fst e <> w) es /\ id_of w (s_ids t) = None)
}.

Lemma holds_init : holds symtab_init [].
Proof.
  split; cbn; [unfold max_strings; lia|constructor|now left| |]; intros x; right; (split; [constructor|]); [apply zget_empty|reflexivity].
Qed.

Lemma last_such_here {A} (P : A -> Prop) l a : P a -> last_such P (l ++ [a]) a.
Proof. intros H. exists l, []. split; [reflexivity|]. split; [exact H|constructor]. Qed.
Lemma last_such_before {A} (P : A -> Prop) l a b : last_such P l a -> ~ P b -> last_such P (l ++ [b]) a.
Proof.
  intros (u & v & -> & H & F) N. exists u, (v ++ [b]). split; [now rewrite <- app_assoc|]. split; [exact H|].
  apply Forall_app. split; [exact F|now constructor].
Qed.

Lemma holds_add t es w id t' : holds t es -> -9223372036854775808 <= id <= 9223372036854775807 -> add_word t w id = Ok t' ->
  holds t' (es ++ [(w, id)]) /\ 0 <= id < max_strings.
Proof.
  intros [R I T G D] L E. apply add_word_exact in E; [|exact L|exact R]. destruct E as (B & ->). split; [|exact B].
  split; cbn [s_size s_words s_ids].
  - lia.
  - apply Forall_app. split; [|constructor; [cbn; lia|constructor]]. eapply Forall_impl; [|exact I]. cbn beta. intros; lia.
  - right. destruct (Z.max_spec (s_size t) (id + 1)) as [(Q & ->)|(Q & ->)].
    + exists (w, id). split; [apply in_or_app; right; now left|reflexivity].
    + destruct T as [T|(e & J & T)]; [lia|]. exists e. split; [apply in_or_app; now left|exact T].
  - intros i. rewrite zget_zset. destruct (Z.eqb_spec id i) as [->|N].
    + left. exists (w, i). split; [now apply last_such_here|reflexivity].
    + destruct (G i) as [(e & J & K)|(J & K)].
      * left. exists e. split; [now apply last_such_before|exact K].
      * right. split; [|exact K]. apply Forall_app. split; [exact J|now constructor].
  - intros x. cbn [id_of]. destruct (str_eqb x w) eqn:Q.
    + apply str_eqb_eq in Q. subst. left. exists (w, id). split; [now apply last_such_here|reflexivity].
    + assert (N : w <> x) by (intros ->; now rewrite str_eqb_refl in Q). destruct (D x) as [(e & J & K)|(J & K)].
      * left. exists e. split; [now apply last_such_before|exact K].
      * right. split; [|exact K]. apply Forall_app. split; [exact J|now constructor].
Qed.

(** * The loop *)

Fixpoint sym_fold (t : symtab) (rs : list str) (b : bool) : res (symtab * bool) :=
  match rs with
  | [] => Ok (t, b)
  | s :: rs => r <- sym_line t s ;; match r with None => Ok (t, false) | Some t => sym_fold t rs b end
  end.

Lemma sym_loop_fold : forall fuel f t rs b, read_lines fuel f = Ok (rs, b) -> sym_loop fuel f t = sym_fold t rs b.
Proof.
  induction fuel as [|fuel IH]; intros f t rs b R; [discriminate|]. cbn [read_lines sym_loop] in *.
  destruct (read_line f) as [[s| |] f']; [|now injection R as <- <-|now injection R as <- <-].
  destruct (read_lines fuel f') as [(rs', b')|] eqn:E; [|discriminate]. cbn [bind] in R. injection R as <- <-.
  cbn [sym_fold]. destruct (sym_line t s) as [[t'|]|]; try reflexivity. cbn [bind]. now apply IH.
Qed.

Lemma fold_ok : forall rs t done t', holds t done -> sym_fold t rs true = Ok (t', true) ->
  exists es, Forall2 (fun l e => word_entry l (fst e) (snd e)) rs es /\ Forall (fun e => 0 <= snd e < max_strings) es /\ holds t' (done ++ es).
Proof.
  induction rs as [|l rs IH]; intros t done t' H E; cbn [sym_fold] in E.
  - injection E as <-. exists []. rewrite app_nil_r. split; [constructor|]. split; [constructor|exact H].
  - destruct (sym_line t l) as [[t1|]|] eqn:Q; try discriminate. cbn [bind] in E.
    apply sym_line_exact in Q. destruct Q as [(w & id & W & Q)|(_ & Q)]; [|discriminate].
    destruct (add_word t w id) as [t2|] eqn:A; [|discriminate]. cbn [bind] in Q. injection Q as <-.
    destruct (holds_add _ _ _ _ _ H (entry_range _ _ _ W) A) as (H' & B).
    destruct (IH _ _ _ H' E) as (es & F & R & K). exists ((w, id) :: es). rewrite <- app_assoc in K.
    split; [now constructor|]. split; [now constructor|exact K].
Qed.

Lemma fold_takes : forall rs es t done, Forall2 (fun l e => word_entry l (fst e) (snd e)) rs es ->
  Forall (fun e => 0 <= snd e < max_strings) es -> holds t done ->
  exists t', sym_fold t rs true = Ok (t', true) /\ holds t' (done ++ es).
Proof.
  intros rs es t done F. revert t done. induction F as [|l (w & id) rs es W F IH]; intros t done R H.
  - exists t. rewrite app_nil_r. now split.
  - inversion R as [|? ? B R']; subst. cbn [fst snd] in *. cbn [sym_fold].
    rewrite (proj2 (sym_line_exact t l (t' <- add_word t w id ;; Ok (Some t')))) by (left; exists w, id; now split).
    destruct (add_word t w id) as [t2|e] eqn:A.
    + cbn [bind]. destruct (holds_add _ _ _ _ _ H (entry_range _ _ _ W) A) as (H' & _).
      destruct (IH t2 (done ++ [(w, id)]) R' H') as (t' & E & K). exists t'. split; [exact E|]. now rewrite <- app_assoc in K.
    + exfalso. pose proof (proj2 (add_word_exact t w id _ (entry_range _ _ _ W) (h_range _ _ H)) (conj B eq_refl)) as X. congruence.
Qed.

Lemma fold_fails : forall rs b t done, holds t done ->
  (forall l w id, In l rs -> word_entry l w id -> 0 <= id < max_strings) ->
  (exists l, In l rs /\ forall w id, ~ word_entry l w id) \/ b = false ->
  exists t', sym_fold t rs b = Ok (t', false).
Proof.
  induction rs as [|l rs IH]; intros b t done H R B; cbn [sym_fold].
  - destruct B as [(l & [] & _)| ->]. eauto.
  - pose proof (proj1 (sym_line_exact t l _) eq_refl) as [(w & id & W & Q)|(N & Q)]; rewrite Q; [|cbn [bind]; eauto].
    destruct (add_word t w id) as [t2|e] eqn:A.
    + cbn [bind]. destruct (holds_add _ _ _ _ _ H (entry_range _ _ _ W) A) as (H' & _).
      apply (IH b t2 _ H'); [intros l' w' id' J; apply R; now right|].
      destruct B as [(l' & [<-|J] & N)|B]; [now apply N in W|left; now exists l'|now right].
    + exfalso. pose proof (proj2 (add_word_exact t w id _ (entry_range _ _ _ W) (h_range _ _ H)) (conj (R l w id (or_introl eq_refl) W) eq_refl)) as X. congruence.
Qed.

Lemma id_known t es w : holds t es -> (In w (map fst es) <-> exists i, id_of w (s_ids t) = Some i).
Proof.
  intros [_ _ _ _ D]. destruct (D w) as [(e & (u & v & -> & <- & _) & K)|(J & K)]; rewrite K.
  - split; [eauto|]. intros _. rewrite map_app. apply in_or_app. right. now left.
  - split; [|intros (i & X); discriminate]. intros X. apply in_map_iff in X. destruct X as (e & <- & X).
    rewrite Forall_forall in J. now apply J in X.
Qed.

Lemma chomped_fun p t t' : shown p t -> shown p t' -> t = t'.
Proof. intros (c & B & C) (c' & B' & C'). rewrite (before_nul_unique _ _ _ B' B) in C'. eapply chomped_unique; eassumption. Qed.

Lemma shown_show p t : shown p t -> t = show p.
Proof. intros H. exact (chomped_fun _ _ _ H (show_shown p)). Qed.

Lemma shown_all ps rs : Forall2 shown ps rs -> rs = map show ps.
Proof. induction 1 as [|p r ps rs H _ IH]; [reflexivity|]. cbn [map]. rewrite <- IH. f_equal. exact (shown_show _ _ H). Qed.

Lemma read_fold content ps e rs t : pieces content ps e -> Forall2 shown ps rs ->
  sym_loop (length content + 2) (open content) t = sym_fold t rs (negb e).
Proof.
  intros P S. rewrite (shown_all _ _ S). destruct (read_pieces _ _ _ P) as (L & R).
  apply sym_loop_fold. apply (R (length content + 2)%nat). lia.
Qed.

(** What the table tells. *)
Definition tells (t : symtab) (es : list (str * Z)) : Prop :=
  (forall i, 0 <= i -> (exists e, In e es /\ i <= snd e) ->
     (exists e, last_such (fun e => snd e = i) es e /\ sym_get t i = Ok (fst e)) \/
     (Forall (fun e => snd e <> i) es /\ sym_get t i = Ok [])) /\
  (forall i, -2147483648 <= i <= 2147483647 -> i < 0 \/ Forall (fun e => snd e < i) es -> sym_get t i = Fault Assert) /\
  (forall w, (exists e, last_such (fun e => fst e = w) es e /\ sym_id t w = (snd e + 2147483648) mod 4294967296 - 2147483648) \/
             (Forall (fun e => fst e <> w) es /\ sym_id t w = -1)) /\
  s_bos t = sym_id t [60; 115; 62] /\ s_eos t = sym_id t [60; 47; 115; 62].

Lemma wrap32_shift z : wrap32 z = (z + 2147483648) mod 4294967296 - 2147483648.
Proof.
  unfold wrap32, int_max. destruct (Z.leb_spec (z mod 4294967296) 2147483647); Z.div_mod_to_equations; lia.
Qed.

Lemma holds_tells t es b e : holds t es -> Forall (fun e => ~ In 0 (fst e)) es ->
  id_of bos_symbol (s_ids t) = Some b -> id_of eos_symbol (s_ids t) = Some e ->
  tells (mk_symtab (s_size t) (s_words t) (s_ids t) b e) es.
Proof.
  intros [R I T G D] Z0 B E. unfold tells, sym_get, sym_id. cbn [s_size s_words s_ids s_bos s_eos].
  fold bos_symbol eos_symbol. rewrite B, E. split; [|split; [|split; [|now split]]].
  - intros i P (x & J & L). rewrite Forall_forall in I. specialize (I _ J). cbn beta in I.
    unfold max_strings in R. rewrite size_t_id by lia. destruct (Z.ltb_spec i (s_size t)); [|lia]. cbn [check bind].
    destruct (G i) as [(y & Y & K)|(Y & K)]; rewrite K; [left; exists y|right]; (split; [exact Y|]); [|reflexivity].
    rewrite cstr_id; [reflexivity|]. destruct Y as (u & v & -> & _). apply Forall_app in Z0. destruct Z0 as (_ & Z0). now inversion Z0.
  - intros i P C. assert (s_size t <= size_t i).
    { unfold max_strings in R. destruct (Z.ltb_spec i 0) as [N|N].
      - unfold size_t. Z.div_mod_to_equations. lia.
      - destruct C as [C|C]; [lia|]. rewrite size_t_id by lia. destruct T as [->|(x & J & ->)]; [lia|].
        rewrite Forall_forall in C. specialize (C _ J). cbn beta in C. lia. }
    destruct (Z.ltb_spec (size_t i) (s_size t)); [lia|]. reflexivity.
  - intros w. destruct (D w) as [(x & X & K)|(X & K)]; rewrite K; [left; exists x|right]; (split; [exact X|]); [apply wrap32_shift|reflexivity].
Qed.

Lemma entry_no_nul p l w id : shown p l -> word_entry l w id -> ~ In 0 w.
Proof.
  intros (c & (N & _) & ((v & E & _) & _)) (num & _ & _ & _ & D) J. apply N. rewrite E. apply in_or_app. left.
  destruct D as [(-> & _)| ->]; apply in_or_app; now left.
Qed.

Lemma no_nuls ps rs es : Forall2 shown ps rs -> Forall2 (fun l e => word_entry l (fst e) (snd e)) rs es -> Forall (fun e => ~ In 0 (fst e)) es.
Proof.
  intros S. revert es. induction S as [|p l ps rs H S IH]; intros es F; inversion F; subst; constructor; [|now apply IH].
  eapply entry_no_nul; eassumption.
Qed.

(** Accepted exactly the words files with entries, with this table. *)
Lemma words_accepted content t : sym_read symtab_init content = Ok (t, true) ->
  exists es, words_entries content es /\ tells t es.
Proof.
  intros E. destruct (pieces_exist content) as (ps & e & P).
  assert (S : Forall2 shown ps (map show ps)) by (clear; induction ps; constructor; [apply show_shown|assumption]).
  unfold sym_read in E. rewrite (read_fold _ _ _ _ _ P S) in E.
  destruct (sym_fold symtab_init (map show ps) (negb e)) as [(t1 & ok)|] eqn:Q; [|discriminate]. cbn [bind] in E.
  destruct ok; [|discriminate].
  assert (Ee : e = false).
  { destruct e; [|reflexivity]. exfalso. clear -Q. cbn [negb] in Q. revert Q. generalize symtab_init.
    induction (map show ps) as [|l rs IH]; intros t Q; cbn [sym_fold] in Q; [discriminate|].
    destruct (sym_line t l) as [[t'|]|]; try discriminate. cbn [bind] in Q. exact (IH _ Q). }
  subst e. cbn [negb] in Q. destruct (fold_ok _ _ _ _ holds_init Q) as (es & F & R & H). cbn [app] in H. exists es.
  destruct (id_of bos_symbol (s_ids t1)) as [b|] eqn:B; [|discriminate]. destruct (id_of eos_symbol (s_ids t1)) as [x|] eqn:X; [|discriminate].
  injection E as <-. split.
  - exists ps, (map show ps). split; [exact P|]. split; [exact S|]. split; [exact F|]. split; [exact R|].
    split; apply (id_known _ _ _ H); [now exists b|now exists x].
  - apply holds_tells; try assumption. eapply no_nuls; eassumption.
Qed.

Lemma words_taken content es : words_entries content es ->
  exists t, sym_read symtab_init content = Ok (t, true) /\ tells t es.
Proof.
  intros (ps & rs & P & S & F & R & B & E). unfold sym_read. rewrite (read_fold _ _ _ _ _ P S). cbn [negb].
  destruct (fold_takes rs es symtab_init [] F R holds_init) as (t & -> & H). cbn [app] in H. cbn [bind].
  apply (id_known _ _ _ H) in B, E. destruct B as (b & B), E as (e & E). fold bos_symbol in B. fold eos_symbol in E. rewrite B, E.
  eexists. split; [reflexivity|]. apply holds_tells; try assumption. eapply no_nuls; eassumption.
Qed.

(** Everything else is rejected unless an id is out of range. *)
Lemma words_rejected content ps e rs : pieces content ps e -> Forall2 shown ps rs ->
  (forall l w id, In l rs -> word_entry l w id -> 0 <= id < 288230376151711743) ->
  (forall es, ~ words_entries content es) -> exists t, sym_read symtab_init content = Ok (t, false).
Proof.
  intros P S R N. assert (exists t ok, sym_read symtab_init content = Ok (t, ok)) as (t & ok & E).
  { pose proof (read_fold content ps e rs symtab_init P S) as Q. destruct (read_pieces _ _ _ P) as (L & K).
    destruct (K (length content + 2)%nat ltac:(lia)) as (K1 & _). apply (sym_read_safe content rs (negb e)).
    - rewrite (shown_all _ _ S). exact K1.
    - intros l id J (w & num & A & B). apply (R l w id J). apply two_fields in A. destruct A as (A1 & A2 & A3).
      exists num. split; [exact A1|]. split; [exact A2|]. split; [now apply number_exact|exact A3]. }
  destruct ok; [|eauto]. destruct (words_accepted _ _ E) as (es & H & _). now apply N in H.
Qed.

Lemma table_exact content :
  (forall t, sym_read symtab_init content = Ok (t, true) -> exists es, words_entries content es) /\
  forall es, words_entries content es -> exists t, sym_read symtab_init content = Ok (t, true) /\
    (forall i, 0 <= i -> (exists e, In e es /\ i <= snd e) ->
       (exists e, last_such (fun e => snd e = i) es e /\ sym_get t i = Ok (fst e)) \/
       (Forall (fun e => snd e <> i) es /\ sym_get t i = Ok [])) /\
    (forall i, -2147483648 <= i <= 2147483647 -> i < 0 \/ Forall (fun e => snd e < i) es -> sym_get t i = Fault Assert) /\
    (forall w, (exists e, last_such (fun e => fst e = w) es e /\ sym_id t w = (snd e + 2147483648) mod 4294967296 - 2147483648) \/
               (Forall (fun e => fst e <> w) es /\ sym_id t w = -1)) /\
    s_bos t = sym_id t [60; 115; 62] /\ s_eos t = sym_id t [60; 47; 115; 62].
Proof.
  split; [|exact (words_taken content)]. intros t E. destruct (words_accepted _ _ E) as (es & H & _). now exists es.
Qed.

Lemma number_of num id : string_to_long num = Some id -> long_number num id.
Proof. apply number_exact. Qed.

Lemma table_exact_case :
  let content := [60; 115; 62; 32; 50; 10; 60; 47; 115; 62; 32; 48; 120; 48; 32; 10; 97; 32; 48; 10; 97; 32; 52; 10] in
  words_entries content [([60; 115; 62], 2); ([60; 47; 115; 62], 0); ([97], 0); ([97], 4)] /\
  exists t, sym_read symtab_init content = Ok (t, true) /\ sym_get t 0 = Ok [97] /\ sym_get t 3 = Ok [] /\
    sym_get t 5 = Fault Assert /\ sym_id t [97] = 4 /\ s_eos t = 0.
Proof.
  intros content. split.
  - exists [[60; 115; 62; 32; 50; 10]; [60; 47; 115; 62; 32; 48; 120; 48; 32; 10]; [97; 32; 48; 10]; [97; 32; 52; 10]],
      [[60; 115; 62; 32; 50]; [60; 47; 115; 62; 32; 48; 120; 48; 32]; [97; 32; 48]; [97; 32; 52]].
    split; [|split; [|split; [|split; [|split]]]].
    + apply (P_line [60; 115; 62; 32; 50] [60; 47; 115; 62; 32; 48; 120; 48; 32; 10; 97; 32; 48; 10; 97; 32; 52; 10]); [cbn; lia|reflexivity|].
      apply (P_line [60; 47; 115; 62; 32; 48; 120; 48; 32] [97; 32; 48; 10; 97; 32; 52; 10]); [cbn; lia|reflexivity|].
      apply (P_line [97; 32; 48] [97; 32; 52; 10]); [cbn; lia|reflexivity|].
      apply (P_line [97; 32; 52] []); [cbn; lia|reflexivity|constructor].
    + repeat constructor; apply show_shown.
    + constructor; [exists [50]; split; [cbn; lia|]; split; [cbn; lia|]; split; [apply number_of; reflexivity|left; split; [reflexivity|discriminate]]|].
      constructor; [exists [48; 120; 48]; split; [cbn; lia|]; split; [cbn; lia|]; split; [apply number_of; reflexivity|right; reflexivity]|].
      constructor; [exists [48]; split; [cbn; lia|]; split; [cbn; lia|]; split; [apply number_of; reflexivity|left; split; [reflexivity|discriminate]]|].
      constructor; [exists [52]; split; [cbn; lia|]; split; [cbn; lia|]; split; [apply number_of; reflexivity|left; split; [reflexivity|discriminate]]|].
      constructor.
    + repeat constructor; cbn; lia.
    + now left.
    + right. now left.
  - eexists. split; [vm_compute; reflexivity|]. repeat split; reflexivity.
Qed.
