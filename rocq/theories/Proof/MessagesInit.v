(** What the errors of loading say. *)
From Coq Require Import ZArith String List Bool Lia.
From Verif.Base Require Import Prelude Lemmas.
From Verif.Model Require Import Util File Binary Arith Vector Pcm Fbank Srfft FbankInit Nnet Formats Am Configuration
  SymbolTable Fst Decoder Stt Loading Messages.
From Verif.Spec Require Import AudioSpec FormatSpec TextSpec FstSpec LoadingSpec LoadFaultSpec MessageSpec.
From Verif.Proof Require Import Text Lines LinesExact Config ConfigExact SymbolsExact Loading LoadFault LoadFaultInit Messages MessagesText.
From Verif.Proof Require Fst.
Import ListNotations.
Open Scope Z_scope.

(** * Steps *)

Lemma load_error A B (m : load A) (k : A -> load B) ps msg ps' : load_bind m k ps = Ok (inr msg, ps') ->
  (exists q, m ps = Ok (inr msg, q)) \/ exists a q, m ps = Ok (inl a, q) /\ k a q = Ok (inr msg, ps').
Proof.
  unfold load_bind. intros H. destruct (m ps) as [[[a|w] q]|y]; cbn [bind] in H; [right; eauto|left; injection H as <- <-; eauto|discriminate].
Qed.
Lemma res_error A (m : res A) ps msg ps' : load_res m ps = Ok (inr msg, ps') -> False.
Proof. unfold load_res. destruct m; discriminate. Qed.
Lemma fail_error A w ps msg ps' : @load_fail A w ps = Ok (inr msg, ps') -> msg = w.
Proof. unfold load_fail. congruence. Qed.

Lemma pieces_lines content ps e ps' e' rs rs' : pieces content ps e -> Forall2 shown ps rs -> pieces content ps' e' -> Forall2 shown ps' rs' -> rs = rs'.
Proof.
  intros P S P' S'. rewrite (shown_all _ _ S), (shown_all _ _ S'). destruct (read_pieces _ _ _ P) as (L & R). destruct (read_pieces _ _ _ P') as (L' & R').
  destruct (R (length content + 2)%nat ltac:(lia)) as (_ & E). destruct (R' (length content + 2)%nat ltac:(lia)) as (_ & E').
  rewrite E in E'. now injection E'.
Qed.

Lemma last_such_fun A (P : A -> Prop) : forall l a b, last_such P l a -> last_such P l b -> a = b.
Proof.
  intros l a b (u & v & -> & Pa & Fv) (u' & v' & E & Pb & Fv'). revert u' E. induction u as [|x u IH]; intros [|y u'] E; cbn [app] in E.
  - now injection E.
  - injection E as <- E. exfalso. subst v. apply Forall_app in Fv. destruct Fv as (_ & Fv). inversion Fv; subst. contradiction.
  - injection E as <- E. exfalso. subst v'. apply Forall_app in Fv'. destruct Fv' as (_ & Fv'). inversion Fv'; subst. contradiction.
  - injection E as _ E. exact (IH u' E).
Qed.

Lemma located_some fn v p : v <> [] -> located fn v p -> p <> [].
Proof.
  intros N [(_ & ->)|(_ & [(d & b & _ & _ & ->)|(_ & ->)])]; [exact N|destruct d; discriminate|exact N].
Qed.
Lemma located_reserved fn v : located fn v reserved -> v = reserved.
Proof.
  intros [(_ & E)|(_ & [(d & b & _ & _ & E)|(_ & E)])]; [congruence| |congruence].
  exfalso. assert (In 47 reserved) by (rewrite E; apply in_or_app; right; now left). vm_compute in H. intuition discriminate.
Qed.

Section Says.
Context {F : Type}.
Variable O : fops F.
Variable T : trig_ops F.
Variable I : init_ops F.
Variable junk : nat -> F.
Variable junk_int : nat -> Z.
Variable of_word : Z -> F.
Variable unknown : F.
Variable files : bytes -> option bytes.
Variable hclg : bytes -> res (option (graph F)).
Variable lm_fuel : nat.
Variable fn : bytes.
Hypothesis Plain : ~ contains fn (lit "{}").

Notation value := (config_value files fn).
Notation says := (error_text files hclg fn).

(** What the configuration knows. *)
Definition knows (c : conf) : Prop :=
  c_filename c = fn /\
  forall key, lower key = key ->
    (exists v, value key v /\ v <> [] /\ (forall d, get_string c key d = v) /\ forall v', value key v' -> v' = v) \/
    (forall v, ~ value key v) /\ forall d, get_string c key d = d.

Lemma conf_knows content c : files fn = Some content -> conf_read conf_empty fn content = Ok (c, true) -> knows c.
Proof.
  intros Fn E. destruct (pieces_exist content) as (ps & e & P). pose proof (shown_map ps) as S.
  destruct (config_exact fn content ps e _ P S) as (c' & ok & E' & _ & K). rewrite E in E'. injection E' as <- <-.
  split.
  - unfold conf_read in E. destruct (conf_loop _ _ _) as [[t ok]|]; [|discriminate]. cbn [bind] in E. now injection E as <- _.
  - intros key L. destruct (K eq_refl key key) as [(l & v & A & B & G)|(A & G)].
    + rewrite <- L at 2. apply lower_lower_case.
    + left. exists v. split; [exists content, ps, e, (map show ps), l; now split|]. split; [|split; [exact G|]].
      * apply taken_iff in B. destruct B as [(t & a & b & k' & _ & _ & _ & _ & _ & _ & _ & _ & N)|(t & a & b & k' & _ & _ & _ & _ & _ & _ & _ & _ & N)]; exact N.
      * intros v' (content' & ps' & e' & rs' & l' & Fn' & P' & S' & A' & B'). rewrite Fn in Fn'. injection Fn' as <-.
        rewrite <- (pieces_lines _ _ _ _ _ _ _ P S P' S') in A'. rewrite (last_such_fun _ _ _ _ _ A' A) in B'.
        now destruct (taken_fun _ _ _ _ _ B' B).
    + right. split; [|exact G]. intros v (content' & ps' & e' & rs' & l' & Fn' & P' & S' & A' & B'). rewrite Fn in Fn'. injection Fn' as <-.
      rewrite <- (pieces_lines _ _ _ _ _ _ _ P S P' S') in A'. destruct A' as (u & w & Eq & _). eapply Forall_forall in A; [|rewrite Eq; apply in_or_app; right; now left].
      exact (A v B').
Qed.

Lemma path_known c key d : knows c -> lower key = key ->
  get_path c key d = Ok d /\ unset files fn key \/ exists p, get_path c key d = Ok p /\ named files fn key p /\ p <> [] /\ p <> reserved.
Proof.
  intros (Kf & K) L. destruct (K key L) as [(v & V & Nv & G & U)|(U & G)].
  - destruct (list_eq_dec Z.eq_dec v reserved) as [->|N].
    + left. split; [|exact U]. unfold get_path. rewrite G. now rewrite str_eqb_refl.
    + right. destruct (located_total fn v) as (p & P). exists p. split; [|split; [now exists v|]].
      * change reserved with default_string in N. destruct (get_path_cases c key d v G N) as (A & B). rewrite Kf in B.
        destruct P as [((r & E) & ->)|(NS & [(dir & base & E & Nb & ->)|(Nf & ->)])].
        -- exact (A r E).
        -- exact (proj1 (B Nv NS) dir base E Nb).
        -- exact (proj2 (B Nv NS) Nf).
      * split; [exact (located_some _ _ _ Nv P)|]. intros ->. apply N. exact (located_reserved _ _ P).
  - left. split; [now apply get_path_missing|]. intros v V. now apply U in V.
Qed.

Lemma found_path c key ps p ps' : knows c -> lower key = key -> load_res (get_path c key []) ps = Ok (inl p, ps') ->
  p = [] /\ unset files fn key \/ p <> [] /\ named files fn key p.
Proof.
  intros K L H. apply res_value in H. destruct (path_known c key [] K L) as [(E & U)|(q & E & N & Q & _)]; rewrite E in H; injection H as <-; auto.
Qed.

Lemma key_says c key A ps msg ps' : knows c -> key <> [] -> no_brace key -> @key_not_found A c key ps = Ok (inr msg, ps') -> msg = no_key_text fn key.
Proof.
  intros K N B H. unfold key_not_found in H. apply fail_error in H. rewrite H, (proj1 K).
  rewrite format_substitute by (constructor; [now split|constructor]). unfold no_key_text.
  change (substitute (lit "Unable to find key '{}' in '{}'") [key; fn]) with (lit "Unable to find key '" ++ key ++ lit "' in '" ++ fn ++ lit "'").
  reflexivity.
Qed.

Lemma path_says c key ps msg ps' : knows c -> lower key = key -> key <> [] -> no_brace key ->
  load_path c key ps = Ok (inr msg, ps') -> unset files fn key /\ msg = no_key_text fn key.
Proof.
  intros K L N B H. unfold load_path in H. apply load_error in H. destruct H as [(q & H)|(o & q & Ho & H)]; [now apply res_error in H|].
  apply res_value in Ho. unfold get_path_status in Ho.
  destruct (path_known c key default_string K L) as [(E & U)|(p & E & _ & _ & Q)]; rewrite E in Ho; cbn [bind] in Ho.
  - rewrite str_eqb_refl in Ho. injection Ho as <-. split; [exact U|]. eapply key_says; eassumption.
  - destruct (str_eqb p default_string) eqn:X; [apply str_eqb_eq in X; contradiction|]. injection Ho as <-. discriminate.
Qed.

Lemma path_found c key ps p ps' : knows c -> lower key = key -> load_path c key ps = Ok (inl p, ps') -> named files fn key p.
Proof.
  intros K L H. unfold load_path, load_bind, load_res, get_path_status in H.
  destruct (path_known c key default_string K L) as [(E & U)|(q & E & N & _ & Q)]; rewrite E in H; cbn [bind] in H.
  - rewrite str_eqb_refl in H. discriminate.
  - destruct (str_eqb q default_string); [discriminate|]. cbn in H. now injection H as <- _.
Qed.

Lemma int_says c key ps msg ps' : knows c -> lower key = key -> key <> [] -> no_brace key ->
  load_int c key ps = Ok (inr msg, ps') -> unset_number files fn key /\ msg = no_key_text fn key.
Proof.
  intros K L N B H. unfold load_int in H. apply load_error in H. destruct H as [(q & H)|(o & q & Ho & H)]; [now apply res_error in H|].
  apply res_value in Ho. destruct o as [z|]; [discriminate|]. split; [|eapply key_says; eassumption].
  unfold get_integer, get_integer_or_else in Ho. destruct (proj2 K key L) as [(v & _ & _ & G & U)|(U & _)]; intros v' V; [|now apply U in V].
  rewrite (U v' V). clear V U v'. rewrite G in Ho. destruct (str_eqb v default_string) eqn:X; [left; now apply str_eqb_eq|right].
  intros z D R. rewrite <- (app_nil_r v), (stoi_decimal z v [] D) in Ho by discriminate.
  unfold in_int32, int_min, int_max in Ho. destruct (Z.leb_spec (-2147483648) z); [|lia]. destruct (Z.leb_spec z 2147483647); [|lia]. cbn [andb bind] in Ho.
  destruct (Z.eqb_spec z (-2147483648)); [lia|discriminate].
Qed.

Lemma open_says name ps msg ps' : open_file files name ps = Ok (inr msg, ps') -> files name = None /\ msg = no_file_text name.
Proof.
  unfold open_file. destruct (files name); intros H; [discriminate|]. apply fail_error in H. split; [reflexivity|].
  rewrite H, one_text. change (substitute (lit "Unable to open {}") [name]) with (lit "Unable to open " ++ name ++ []). now rewrite app_nil_r.
Qed.

Lemma with_says A (P : bytes -> Prop) (m : bytes -> mio A) name c ps msg ps' : texts P (m name) ->
  m_with m name c ps = Ok (inr msg, ps') -> P msg /\ exists f, m name (open c) = Ok (inr msg, f).
Proof.
  intros H E. unfold m_with in E. destruct (m name (open c)) as [[[a|w] f]|e] eqn:Q; cbn [bind] in E; [discriminate| |discriminate].
  injection E as <- _. split; [exact (H _ _ _ Q)|eauto].
Qed.

Lemma not_read A (m : mio A) (r : io A) c msg f (a : A) f' : drops m r -> m (open c) = Ok (inr msg, f) -> r (open c) = Ok (Some a, f') -> False.
Proof. intros D E R. rewrite D, E in R. discriminate. Qed.

Lemma vector_says name c ps msg ps' : m_with m_vector name c ps = Ok (inr msg, ps') -> contains msg name /\ ~ vector_content c.
Proof.
  intros H. destruct (with_says _ _ _ _ _ _ _ _ (says_vector name) H) as (S & f & E). split; [exact S|]. intros (v & V).
  destruct (read_vector v c V) as (a & f' & R & _). exact (not_read _ _ _ _ _ _ _ _ (drops_vector name) E R).
Qed.
Lemma network_says name c ps msg ps' : m_with m_nnet name c ps = Ok (inr msg, ps') ->
  (contains msg name \/ msg = splice_text) /\ ~ network_content c.
Proof.
  intros H. destruct (with_says _ _ _ _ _ _ _ _ (says_nnet name) H) as (S & f & E). split; [exact S|]. intros (v & V).
  destruct (read_network (F := Z) (fun z => z) 0 v c V) as (a & f' & R & _). exact (not_read _ _ _ _ _ _ _ _ (drops_nnet name) E R).
Qed.
Lemma fst_says name c ps msg ps' : m_with m_fst name c ps = Ok (inr msg, ps') -> (contains msg name \/ section_text msg) /\ ~ lm_content c.
Proof.
  intros H. destruct (with_says _ _ _ _ _ _ _ _ (says_lm name) H) as (S & f & E). split; [exact S|]. intros (t & rest & -> & V).
  pose proof (Fst.fst_read_file t rest false V) as R. exact (not_read _ _ _ _ _ _ _ _ (drops_fst name) E R).
Qed.

Ltac easy_key := first [reflexivity | discriminate | (split; cbn; intuition discriminate)].
Ltac step H a q E := apply load_error in H; destruct H as [(q & H)|(a & q & E & H)].

Lemma conf_says ps msg ps' : ml_conf files fn ps = Ok (inr msg, ps') -> says msg.
Proof.
  intros H. unfold ml_conf in H. step H content q E.
  - apply open_says in H. destruct H as (H & ->). now apply E_config.
  - apply open_content in E. step H r q2 E2; [now apply res_error in H|]. apply res_value in E2. destruct r as (c & [w|]); [|discriminate].
    apply fail_error in H. subst w. eapply E_line; [exact E|]. eapply config_says; eassumption.
Qed.
Lemma conf_ok ps c ps' : ml_conf files fn ps = Ok (inl c, ps') -> knows c.
Proof.
  unfold ml_conf, load_bind, open_file. destruct (files fn) as [content|] eqn:E; intros H; [|discriminate]. cbn [bind load_ret] in H.
  unfold load_res in H. pose proof (same_conf fn conf_empty content) as S.
  destruct (m_conf_read fn conf_empty content) as [[c' [w|]]|e]; cbn [bind snd Datatypes.fst fine_status] in *; [discriminate| |discriminate].
  injection H as <- _. exact (conf_knows _ _ E S).
Qed.

Lemma graph_says c ps msg ps' : knows c -> load_graph hclg c ps = Ok (inr msg, ps') -> says msg.
Proof.
  intros K H. unfold load_graph in H. step H p q E; [now apply res_error in H|]. apply found_path in E; [|exact K|reflexivity].
  destruct E as [(-> & U)|(N & P)].
  - cbn [str_eqb] in H. apply fail_error in H. subst msg. exact (E_key_only files hclg fn (lit "fst") (or_introl eq_refl) U).
  - destruct (str_eqb p []) eqn:X; [apply str_eqb_eq in X; contradiction|]. step H g q2 E2; [now apply res_error in H|]. apply res_value in E2.
    destruct g as [g|]; [discriminate|]. apply fail_error in H. subst msg. now apply E_graph.
Qed.

Lemma file_says key p ps msg ps' : In key [lit "nnet"; lit "prior"; lit "tid2pdf"; lit "symbol_table"; lit "original_lm"; lit "large_lm"] ->
  named files fn key p -> open_file files p ps = Ok (inr msg, ps') -> says msg.
Proof. intros J N H. apply open_says in H. destruct H as (H & ->). eapply E_file; eassumption. Qed.

Lemma am_says c ps msg ps' : knows c -> ml_am O of_word unknown files c ps = Ok (inr msg, ps') -> says msg.
Proof.
  intros K H. unfold ml_am in H.
  step H p1 q1 E1. { apply path_says in H; try easy_key; [|exact K]. destruct H as (U & ->). apply E_key; [cbn; tauto|exact U]. }
  apply path_found in E1; [|exact K|reflexivity].
  step H c1 q2 E2. { eapply file_says; [|exact E1|exact H]; cbn; tauto. } apply open_content in E2.
  step H a1 q3 E3. { apply network_says in H. destruct H as ([H| ->] & N); [eapply E_network; eassumption|exact (E_splice files hclg fn p1 c1 E1 E2 N)]. }
  step H p2 q4 E4. { apply path_says in H; try easy_key; [|exact K]. destruct H as (U & ->). apply E_key; [cbn; tauto|exact U]. }
  apply path_found in E4; [|exact K|reflexivity].
  step H c2 q5 E5. { eapply file_says; [|exact E4|exact H]; cbn; tauto. } apply open_content in E5.
  step H a2 q6 E6. { apply vector_says in H. destruct H as (H & N). eapply E_vector; [|exact E4|exact E5|exact N|exact H]. cbn; tauto. }
  step H a3 q7 E7; [now apply res_error in H|].
  step H n1 q8 E8. { apply int_says in H; try easy_key; [|exact K]. destruct H as (U & ->). apply E_number; [cbn; tauto|exact U]. }
  step H n2 q9 E9. { apply int_says in H; try easy_key; [|exact K]. destruct H as (U & ->). apply E_number; [cbn; tauto|exact U]. }
  step H n3 q10 E10. { apply int_says in H; try easy_key; [|exact K]. destruct H as (U & ->). apply E_number; [cbn; tauto|exact U]. }
  step H n4 q11 E11. { apply int_says in H; try easy_key; [|exact K]. destruct H as (U & ->). apply E_number; [cbn; tauto|exact U]. }
  step H p3 q12 E12. { apply path_says in H; try easy_key; [|exact K]. destruct H as (U & ->). apply E_key; [cbn; tauto|exact U]. }
  apply path_found in E12; [|exact K|reflexivity].
  step H c3 q13 E13. { eapply file_says; [|exact E12|exact H]; cbn; tauto. } apply open_content in E13.
  step H a4 q14 E14. { apply vector_says in H. destruct H as (H & N). eapply E_vector; [|exact E12|exact E13|exact N|exact H]. cbn; tauto. }
  discriminate.
Qed.

Lemma symbols_says c ps msg ps' : knows c -> ml_symbols files c ps = Ok (inr msg, ps') -> says msg.
Proof.
  intros K H. unfold ml_symbols in H. step H p q E; [now apply res_error in H|]. apply found_path in E; [|exact K|reflexivity].
  destruct E as [(-> & U)|(N & P)].
  - cbn [str_eqb] in H. apply fail_error in H. subst msg. exact (E_key_only files hclg fn (lit "symbol_table") (or_intror (or_introl eq_refl)) U).
  - destruct (str_eqb p []) eqn:X; [apply str_eqb_eq in X; contradiction|]. step H u q2 E2; [discriminate|].
    step H c1 q3 E3. { eapply file_says; [|exact P|exact H]; cbn; tauto. } apply open_content in E3.
    step H r q4 E4; [now apply res_error in H|]. apply res_value in E4. destruct r as (t & [w|]); [|discriminate]. apply fail_error in H. subst w.
    eapply E_words; [exact P|exact E3|]. eapply words_says; eassumption.
Qed.

Lemma lm_says c s ps msg ps' : knows c -> ml_lm of_word unknown files c s ps = Ok (inr msg, ps') -> says msg.
Proof.
  intros K H. unfold ml_lm in H. step H p q E; [now apply res_error in H|]. apply found_path in E; [|exact K|reflexivity].
  destruct (str_eqb p []) eqn:X; [discriminate|]. destruct E as [(-> & _)|(_ & P)]; [discriminate|].
  step H p2 q2 E2; [now apply res_error in H|]. apply found_path in E2; [|exact K|reflexivity].
  destruct E2 as [(-> & U)|(N & P2)].
  { cbn [str_eqb] in H. apply fail_error in H. subst msg. exact (E_key_only files hclg fn (lit "original_lm") (or_intror (or_intror (or_introl eq_refl))) U). }
  destruct (str_eqb p2 []) eqn:X2; [apply str_eqb_eq in X2; contradiction|].
  step H c1 q3 E3. { eapply file_says; [|exact P2|exact H]; cbn; tauto. } apply open_content in E3.
  step H u q4 E4; [discriminate|].
  step H a q5 E5. { apply vector_says in H. destruct H as (H & M). eapply E_vector; [|exact P2|exact E3|exact M|exact H]. cbn; tauto. }
  step H c2 q6 E6. { eapply file_says; [|exact P|exact H]; cbn; tauto. } apply open_content in E6.
  step H u2 q7 E7; [discriminate|].
  step H g q8 E8.
  { apply fst_says in H. destruct H as ([H|(x & y & dx & dy & Dx & Dy & Ne & ->)] & M); [eapply E_lm; eassumption|].
    exact (E_lm_size files hclg fn p c2 x y dx dy P E6 M Dx Dy Ne). }
  cbv zeta in H. step H b q9 E9; [now apply res_error in H|]. step H u3 q10 E10; [discriminate|]. discriminate.
Qed.

Lemma init_says msg ps : ml_init O T I junk junk_int of_word unknown files hclg lm_fuel fn = Ok (inr msg, ps) -> says msg.
Proof.
  intros H. unfold ml_init in H.
  destruct (ml_parts O T I junk junk_int of_word unknown files hclg lm_fuel fn []) as [[[a|w] q]|e] eqn:E; cbn [bind] in H; [discriminate| |discriminate].
  injection H as -> _. unfold ml_parts in E. clear ps. rename E into H.
  step H u q1 E1; [discriminate|].
  step H c q2 E2. { eapply conf_says; eassumption. } apply conf_ok in E2.
  step H g q3 E3. { eapply graph_says; eassumption. }
  step H u2 q4 E4; [discriminate|].
  step H a q5 E5. { eapply am_says; eassumption. }
  step H s q6 E6. { eapply symbols_says; eassumption. }
  step H d q7 E7. { eapply lm_says; eassumption. }
  step H fb q8 E8; [now apply res_error in H|]. step H u3 q9 E9; [discriminate|]. step H ca q10 E10; [now apply res_error in H|]. discriminate.
Qed.

End Says.

(** * Whether a file at fault is named *)

Lemma contains_mid a p b : contains (a ++ p ++ b) p.
Proof. now exists a, b. Qed.
Lemma contains_end a p : contains (a ++ p) p.
Proof. exists a, []. now rewrite app_nil_r. Qed.

Lemma fault_named F (hclg : str -> res (option (graph F))) files fn msg : error_text files hclg fn msg ->
  (exists p, at_fault files hclg fn p /\ contains msg p) \/ nameless msg.
Proof.
  intros H. destruct H as [H|content msg Hf H|key J U|key J U|key J U|p N H|key p J N H|key p c msg J N H M S|p c msg N H M S|p c N H M|p c msg N H S|p c msg N H M S|p c a b x y N H M D1 D2 Ne].
  - left. exists fn. split; [left; split; [reflexivity|now left]|apply contains_end].
  - left. exists fn. destruct H as (ps & e & rs & good & bad & rest & t & P & Sh & E & _ & B & _ & H). split.
    + left. split; [reflexivity|]. right. left. exists content, ps, e, rs. split; [exact Hf|]. split; [exact P|]. split; [exact Sh|].
      rewrite E. apply Exists_app. right. now left.
    + destruct H as [(_ & ->)|(_ & ->)]; [apply contains_end|apply contains_mid].
  - left. exists fn. split; [left; split; [reflexivity|]; right; right; left; now exists key|].
    unfold no_key_text. rewrite (app_assoc key), (app_assoc (lit "Corruption: Unable to find key '")). apply contains_mid.
  - left. exists fn. split; [left; split; [reflexivity|]; right; right; right; now exists key|].
    unfold no_key_text. rewrite (app_assoc key), (app_assoc (lit "Corruption: Unable to find key '")). apply contains_mid.
  - right. left. exists key. now split.
  - left. exists p. split; [|apply contains_end]. right. left. now split.
  - left. exists p. split; [|apply contains_end]. right. right. left. exists key. now split.
  - left. exists p. split; [|exact S]. right. right. right. exists c. split; [exact H|]. right. left. exists key. now split.
  - left. exists p. split; [|exact S]. right. right. right. exists c. split; [exact H|]. left. now split.
  - right. right. left. reflexivity.
  - destruct S as (ps & e & rs & P & Sh & [(good & bad & rest & E & G & B & L)|[(G & -> & ->)|(G & -> & _ & ->)]]).
    + right. destruct L as [(n & d & _ & _ & _ & ->)|(w & num & t & _ & _ & _ & _ & _ & _ & ->)]; right; right; right; right; [left|right]; eauto.
    + left. exists p. split; [|apply contains_end]. right. right. right. exists c. split; [exact H|]. right. right. left. split; [exact N|].
      intros es (ps' & rs' & P' & _). destruct (read_pieces _ _ _ P) as (L1 & R1). destruct (read_pieces _ _ _ P') as (L2 & R2).
      destruct (R1 (length c + 2)%nat ltac:(lia)) as (Q1 & _). destruct (R2 (length c + 2)%nat ltac:(lia)) as (Q2 & _). rewrite Q1 in Q2. discriminate.
    + right. right. right. left. reflexivity.
  - left. exists p. split; [|exact S]. right. right. right. exists c. split; [exact H|]. right. right. right. now split.
  - right. right. right. right. left. now exists x, y.
Qed.
