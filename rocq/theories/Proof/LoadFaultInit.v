(** Why loading crashes. *)
From Coq Require Import ZArith String List Bool Lia.
From Verif.Base Require Import Prelude Lemmas.
From Verif.Model Require Import Util File Binary Arith Vector Fbank Srfft FbankInit Nnet Formats Am Configuration SymbolTable Fst
  Decoder Stt Loading.
From Verif.Spec Require Import AudioSpec FormatSpec TextSpec FstSpec LoadingSpec LoadFaultSpec.
From Verif.Proof Require Import Loop Binary Formats Text Number Lines LinesExact NumberExact Config SymbolsExact ConfigExact
  Loading LoadFault LoadFaultLm.
Import ListNotations.
Open Scope Z_scope.

(** * Numbers *)

Lemma digits_run : forall ds vs acc rest, Forall2 (digit_value 10) ds vs -> (forall c r, rest = c :: r -> ~ 48 <= c <= 57) ->
  Datatypes.fst (digits 10 acc (ds ++ rest)) = fold_left (fun a d => a * 10 + d) vs acc.
Proof.
  intros ds vs acc rest H. revert acc. induction H as [|c d ds vs D H IH]; intros acc S; cbn [app fold_left].
  - rewrite digits_stop; [reflexivity|]. intros c r E. apply digit10_none. exact (S c r E).
  - cbn [digits]. rewrite (proj2 (digit_iff 10 c d ltac:(lia)) D). now apply IH.
Qed.

Lemma base_nonneg : forall vs acc ds, 0 <= acc -> Forall2 (digit_value 10) ds vs -> 0 <= fold_left (fun a d => a * 10 + d) vs acc.
Proof.
  intros vs acc ds P H. revert acc P. induction H as [|c d ds vs D H IH]; intros acc P; cbn [fold_left]; [exact P|].
  apply IH. unfold digit_value in D. lia.
Qed.

Lemma stoi_prefix s : int_prefix s -> exists z, stoi s = Ok z.
Proof.
  intros (sign & ds & rest & n & -> & Nd & (vs & V & ->) & S & B).
  pose proof (digits_run ds vs 0 rest V S) as D. pose proof (base_nonneg vs 0 ds ltac:(lia) V) as P.
  set (n := fold_left _ vs 0) in *. clearbody n.
  assert (X : exists c ds' d, ds = c :: ds' /\ digit_value 10 c d)
    by (clear - V Nd; inversion V as [|c d ds' vs' Dc V']; subst; [congruence|now exists c, ds', d]).
  destruct X as (c & ds' & d & -> & Dc).
  assert (C : 48 <= c <= 57) by (unfold digit_value in Dc; lia).
  assert (Dg : digit 10 c = Some d) by (apply digit_iff; [lia|exact Dc]).
  cbn [app] in D. unfold stoi. destruct B as [([->| ->] & L)|(-> & L)]; cbn [app skip_space].
  - rewrite not_space by lia. destruct (Z.eqb_spec c 45); [lia|]. destruct (Z.eqb_spec c 43); [lia|]. rewrite Dg, D.
    unfold in_int32, int_min, int_max. destruct (Z.leb_spec (-2147483648) n); [|lia]. destruct (Z.leb_spec n 2147483647); [|lia]. now exists n.
  - rewrite not_space by lia. cbn [Z.eqb Pos.eqb]. rewrite Dg, D.
    unfold in_int32, int_min, int_max. destruct (Z.leb_spec (-2147483648) n); [|lia]. destruct (Z.leb_spec n 2147483647); [|lia]. now exists n.
  - rewrite not_space by lia. cbn [Z.eqb Pos.eqb]. rewrite Dg, D.
    unfold in_int32, int_min, int_max. destruct (Z.leb_spec (-2147483648) (- n)); [|lia]. destruct (Z.leb_spec (- n) 2147483647); [|lia]. now exists (- n).
Qed.

Lemma stoi_fault s x : stoi s = Fault x -> ~ int_prefix s /\ x = Throw.
Proof.
  intros H. split; [intros P; destruct (stoi_prefix s P) as (z & E); congruence|].
  unfold stoi in H. destruct (skip_space s) as [|c r]; [congruence|].
  destruct (c =? 45); [|destruct (c =? 43)].
  - destruct r as [|d r]; [congruence|]. destruct (digit 10 d); [|congruence]. destruct (in_int32 _); congruence.
  - destruct r as [|d r]; [congruence|]. destruct (digit 10 d); [|congruence]. destruct (in_int32 _); congruence.
  - destruct (digit 10 c); [|congruence]. destruct (in_int32 _); congruence.
Qed.

Lemma apply_log_fault F (O : fops F) v x : apply_log O v = Fault x -> Exists (fun y => f_nonneg O y = false) v /\ x = Assert.
Proof.
  intros H. unfold apply_log in H. apply for_each_fault in H. destruct H as (a & s & J & H).
  destruct (f_nonneg O a) eqn:E; cbn [check bind] in H; [discriminate|]. split; [|congruence]. apply Exists_exists. now exists a.
Qed.

(** * Steps *)

Lemma load_fault A B (m : load A) (k : A -> load B) ps x : load_bind m k ps = Fault x ->
  m ps = Fault x \/ exists a ps', m ps = Ok (inl a, ps') /\ k a ps' = Fault x.
Proof.
  unfold load_bind. intros H. destruct (m ps) as [[[a|w] ps']|y]; cbn [bind] in H; [right; eauto|discriminate|left; congruence].
Qed.
Lemma res_fault A (m : res A) ps x : load_res m ps = Fault x -> m = Fault x.
Proof. unfold load_res. intros H. destruct m; cbn [bind] in H; [discriminate|congruence]. Qed.
Lemma res_value A (m : res A) ps a ps' : load_res m ps = Ok (inl a, ps') -> m = Ok a.
Proof. unfold load_res. intros H. destruct m; cbn [bind] in H; [congruence|discriminate]. Qed.

Section Causes.
Context {F : Type}.
Variable O : fops F.
Variable T : trig_ops F.
Variable I : init_ops F.
Variable junk : nat -> F.
Variable junk_int : nat -> Z.
Variable of_word : Z -> F.
Variable unknown : F.
Variable files : bytes -> option bytes.
Variable hclg : bytes -> res (option (graph F)).
Variable why : bytes -> bytes.
Variable lm_fuel : nat.
Variable fn : bytes.
Hypothesis By : forall p c, files p = Some c -> byte_list c.

Notation cause := (crash_cause O of_word files hclg (fbank_new O T I junk junk_int) fn).
Notation value := (config_value files fn).
Notation file := (config_file files fn).

Definition reads_from (c : conf) : Prop :=
  c_filename c = fn /\
  forall key, lower key = key -> (exists v, value key v /\ v <> [] /\ forall d, get_string c key d = v) \/ (forall d, get_string c key d = d).

Lemma conf_reads content c : files fn = Some content -> conf_read conf_empty fn content = Ok (c, true) -> reads_from c.
Proof.
  intros Fn E. destruct (pieces_exist content) as (ps & e & P).
  assert (S : Forall2 shown ps (map show ps)) by (clear; induction ps; constructor; [apply show_shown|assumption]).
  destruct (config_exact fn content ps e _ P S) as (c' & ok & E' & _ & K). rewrite E in E'. injection E' as <- <-.
  split.
  - unfold conf_read in E. destruct (conf_loop _ _ _) as [[t ok]|]; [|discriminate]. cbn [bind] in E. now injection E as <- _.
  - intros key L. destruct (K eq_refl key key) as [(l & v & A & B & G)|(_ & G)].
    + rewrite <- L at 2. apply lower_lower_case.
    + left. exists v. split; [exists content, ps, e, (map show ps), l; now split|]. split; [|exact G].
      apply taken_iff in B. destruct B as [(t & a & b & k' & _ & _ & _ & _ & _ & _ & _ & _ & N)|(t & a & b & k' & _ & _ & _ & _ & _ & _ & _ & _ & N)]; exact N.
    + right. exact G.
Qed.

Lemma path_reads c key d : reads_from c -> lower key = key ->
  get_path c key d = Ok d \/ exists v p, value key v /\ v <> reserved /\ located fn v p /\ get_path c key d = Ok p.
Proof.
  intros (Kf & K) L. destruct (K key L) as [(v & V & Nv & G)|G].
  - destruct (list_eq_dec Z.eq_dec v reserved) as [->|N].
    + left. unfold get_path. rewrite G. now rewrite str_eqb_refl.
    + right. destruct (located_total fn v) as (p & P). exists v, p. split; [exact V|]. split; [exact N|]. split; [exact P|].
      change reserved with default_string in N. destruct (get_path_cases c key d v G N) as (A & B). rewrite Kf in B.
      destruct P as [((r & E) & ->)|(NS & [(dir & base & E & Nb & ->)|(Nf & ->)])].
      * exact (A r E).
      * exact (proj1 (B Nv NS) dir base E Nb).
      * exact (proj2 (B Nv NS) Nf).
  - left. now apply get_path_missing.
Qed.

Lemma path_fault c key ps x : reads_from c -> lower key = key -> load_path c key ps = Fault x -> False.
Proof.
  intros R L H. unfold load_path in H. apply load_fault in H. destruct H as [H|(p & ps' & _ & H)].
  - apply res_fault in H. unfold get_path_status in H.
    destruct (path_reads c key default_string R L) as [E|(v & p & _ & _ & _ & E)]; rewrite E in H; cbn [bind] in H;
      destruct (str_eqb _ _); discriminate.
  - destruct p; discriminate.
Qed.

Lemma path_value c key ps p ps' : reads_from c -> lower key = key -> load_path c key ps = Ok (inl p, ps') ->
  exists v, value key v /\ v <> reserved /\ located fn v p.
Proof.
  intros R L H. unfold load_path, load_bind, load_res, get_path_status in H.
  destruct (path_reads c key default_string R L) as [E|(v & q & V & N & P & E)]; rewrite E in H; cbn [bind] in H.
  - rewrite str_eqb_refl in H. discriminate.
  - destruct (str_eqb q default_string); [discriminate|]. cbn in H. injection H as <- _. now exists v.
Qed.

Lemma open_content name ps content ps' : open_file files name ps = Ok (inl content, ps') -> files name = Some content.
Proof. unfold open_file. destruct (files name); intros H; [injection H as <- _; reflexivity|discriminate]. Qed.
Lemma open_fault name ps x : open_file files name ps = Fault x -> False.
Proof. unfold open_file. destruct (files name); discriminate. Qed.

Lemma with_fault A (m : io A) name content ps x : read_with why m name content ps = Fault x -> m (open content) = Fault x.
Proof. unfold read_with. destruct (m (open content)) as [[r f]|]; cbn [bind]; congruence. Qed.
Lemma with_value A (m : io A) name content ps a ps' : read_with why m name content ps = Ok (inl a, ps') ->
  exists f, m (open content) = Ok (Some a, f).
Proof. unfold read_with. destruct (m (open content)) as [[[b|] f]|]; cbn [bind]; [|discriminate|discriminate]. intros H. injection H as <- _. eauto. Qed.

Lemma int_fault c key ps x : reads_from c -> lower key = key ->
  In key [lit "left_context"; lit "right_context"; lit "chunk_size"; lit "num_pdfs"] -> load_int c key ps = Fault x -> cause x.
Proof.
  intros (_ & K) L J H. unfold load_int in H. apply load_fault in H. destruct H as [H|(n & ps' & _ & H)]; [|destruct n; discriminate].
  apply res_fault in H. unfold get_integer, get_integer_or_else in H.
  destruct (K key L) as [(v & V & Nv & G)|G]; rewrite G in H.
  - destruct (str_eqb v default_string) eqn:E; [cbn [bind] in H; destruct (_ =? _); discriminate|].
    destruct (stoi v) as [z|y] eqn:Q; cbn [bind] in H; [destruct (_ =? _); discriminate|]. injection H as <-.
    apply stoi_fault in Q. destruct Q as (N & ->). do 4 right. left. exists key, v. split; [exact J|]. split; [exact V|].
    split; [|now split]. intros ->. change reserved with default_string in E. now rewrite str_eqb_refl in E.
  - rewrite str_eqb_refl in H. discriminate.
Qed.

Lemma am_fault c ps x : reads_from c -> load_am O of_word unknown files why c ps = Fault x -> cause x.
Proof.
  intros R H. unfold load_am in H.
  apply load_fault in H. destruct H as [H|(p1 & ps1 & E1 & H)]; [now apply path_fault in H|].
  apply path_value in E1; [|exact R|reflexivity]. destruct E1 as (v1 & V1 & N1 & L1).
  apply load_fault in H. destruct H as [H|(c1 & ps2 & E2 & H)]; [now apply open_fault in H|]. apply open_content in E2.
  apply load_fault in H. destruct H as [H|(nn & ps3 & _ & H)].
  { apply with_fault in H. destruct (network_fault c1 x (By _ _ E2) H) as (Q & X). right. left. exists c1.
    split; [exists v1, p1; now split|]. now split. }
  apply load_fault in H. destruct H as [H|(p2 & ps4 & E4 & H)]; [now apply path_fault in H|].
  apply path_value in E4; [|exact R|reflexivity]. destruct E4 as (v2 & V2 & N2 & L2).
  apply load_fault in H. destruct H as [H|(c2 & ps5 & E5 & H)]; [now apply open_fault in H|]. apply open_content in E5.
  apply load_fault in H. destruct H as [H|(pr & ps6 & E6 & H)].
  { apply with_fault in H. destruct (io_vector_fault (open c2) x (By _ _ E5) H) as (Q & ->). right. right. left. exists (lit "prior"), c2.
    split; [now left|]. split; [exists v2, p2; now split|]. now split. }
  apply with_value in E6. destruct E6 as (f6 & E6).
  apply load_fault in H. destruct H as [H|(lp & ps7 & _ & H)].
  { apply res_fault in H. apply apply_log_fault in H. destruct H as (X & ->). unfold io_vector in E6.
    destruct (vec_read [] (open c2)) as [[[b w] f7]|] eqn:E7; cbn [bind] in E6; [|discriminate]. destruct b; [|discriminate].
    injection E6 as -> ->. destruct (vec_read_only [] (open c2) pr f6 (By _ _ E5) E7) as (w & S & -> & C & _).
    do 3 right. left. exists c2, w. split; [exists v2, p2; now split|]. split; [exists (f_rest f6); now split|]. split; [|reflexivity].
    rewrite map_map in X. apply Exists_exists in X. destruct X as (y & J & X). apply in_map_iff in J. destruct J as (z & <- & J).
    apply Exists_exists. exists z. now split. }
  apply load_fault in H. destruct H as [H|(l & ps8 & _ & H)]; [apply int_fault in H; [exact H|exact R|reflexivity|cbn [In]; tauto]|].
  apply load_fault in H. destruct H as [H|(r & ps9 & _ & H)]; [apply int_fault in H; [exact H|exact R|reflexivity|cbn [In]; tauto]|].
  apply load_fault in H. destruct H as [H|(ch & ps10 & _ & H)]; [apply int_fault in H; [exact H|exact R|reflexivity|cbn [In]; tauto]|].
  apply load_fault in H. destruct H as [H|(np & ps11 & _ & H)]; [apply int_fault in H; [exact H|exact R|reflexivity|cbn [In]; tauto]|].
  apply load_fault in H. destruct H as [H|(p3 & ps12 & E12 & H)]; [now apply path_fault in H|].
  apply path_value in E12; [|exact R|reflexivity]. destruct E12 as (v3 & V3 & N3 & L3).
  apply load_fault in H. destruct H as [H|(c3 & ps13 & E13 & H)]; [now apply open_fault in H|]. apply open_content in E13.
  apply load_fault in H. destruct H as [H|(pd & ps14 & _ & H)]; [|discriminate].
  apply with_fault in H. destruct (io_vector_fault (open c3) x (By _ _ E13) H) as (Q & ->). right. right. left. exists (lit "tid2pdf"), c3.
  split; [right; now left|]. split; [exists v3, p3; now split|]. now split.
Qed.

Lemma path_optional c key d ps x : reads_from c -> lower key = key -> load_res (get_path c key d) ps = Fault x -> False.
Proof.
  intros R L H. apply res_fault in H. destruct (path_reads c key d R L) as [E|(v & p & _ & _ & _ & E)]; congruence.
Qed.
Lemma path_named c key ps p ps' : reads_from c -> lower key = key -> load_res (get_path c key []) ps = Ok (inl p, ps') ->
  str_eqb p [] = false -> exists v, value key v /\ v <> reserved /\ located fn v p.
Proof.
  intros R L H N. apply res_value in H. destruct (path_reads c key [] R L) as [E|(v & q & V & Nr & P & E)]; rewrite E in H; injection H as <-.
  - rewrite str_eqb_refl in N. discriminate.
  - now exists v.
Qed.

Lemma graph_fault c ps x : reads_from c -> load_graph hclg c ps = Fault x -> cause x.
Proof.
  intros R H. unfold load_graph in H. apply load_fault in H. destruct H as [H|(p & ps1 & E & H)]; [now apply path_optional in H|].
  destruct (str_eqb p []) eqn:N; [discriminate|]. apply path_named in E; [|exact R|reflexivity|exact N]. destruct E as (v & V & Nr & L).
  apply load_fault in H. destruct H as [H|(g & ps2 & _ & H)]; [apply res_fault in H; left; now exists v, p|].
  destruct g; discriminate.
Qed.

Lemma symbols_fault c ps x : reads_from c -> load_symbols files why c ps = Fault x -> cause x.
Proof.
  intros R H. unfold load_symbols in H. apply load_fault in H. destruct H as [H|(p & ps1 & E & H)]; [now apply path_optional in H|].
  destruct (str_eqb p []) eqn:N; [discriminate|]. apply path_named in E; [|exact R|reflexivity|exact N]. destruct E as (v & V & Nr & L).
  apply load_fault in H. destruct H as [H|(u & ps2 & _ & H)]; [discriminate|].
  apply load_fault in H. destruct H as [H|(ct & ps3 & E3 & H)]; [now apply open_fault in H|]. apply open_content in E3.
  apply load_fault in H. destruct H as [H|(r & ps4 & _ & H)].
  - apply res_fault in H. destruct (words_fault ct x H) as (Q & X). do 5 right. left. exists ct. split; [exists v, p; now split|]. now split.
  - destruct (snd r); discriminate.
Qed.

Lemma lm_fault c s ps x : reads_from c -> load_lm of_word unknown files why c s ps = Fault x -> cause x.
Proof.
  intros R H. unfold load_lm in H. apply load_fault in H. destruct H as [H|(p & ps1 & E & H)]; [now apply path_optional in H|].
  destruct (str_eqb p []) eqn:N; [discriminate|]. apply path_named in E; [|exact R|reflexivity|exact N]. destruct E as (v & V & Nr & L).
  apply load_fault in H. destruct H as [H|(q & ps2 & E2 & H)]; [now apply path_optional in H|].
  destruct (str_eqb q []) eqn:N2; [discriminate|]. apply path_named in E2; [|exact R|reflexivity|exact N2]. destruct E2 as (v2 & V2 & Nr2 & L2).
  apply load_fault in H. destruct H as [H|(ct & ps3 & E3 & H)]; [now apply open_fault in H|]. apply open_content in E3.
  apply load_fault in H. destruct H as [H|(u & ps4 & _ & H)]; [discriminate|].
  apply load_fault in H. destruct H as [H|(sm & ps5 & _ & H)].
  { apply with_fault in H. destruct (io_vector_fault (open ct) x (By _ _ E3) H) as (Q & ->). right. right. left. exists (lit "original_lm"), ct.
    split; [right; right; now left|]. split; [exists v2, q; now split|]. now split. }
  apply load_fault in H. destruct H as [H|(cl & ps6 & E6 & H)]; [now apply open_fault in H|]. apply open_content in E6.
  apply load_fault in H. destruct H as [H|(u' & ps7 & _ & H)]; [discriminate|].
  assert (Fl : file (lit "large_lm") cl) by (exists v, p; now split).
  apply load_fault in H. destruct H as [H|(g & ps8 & E8 & H)].
  { apply with_fault in H. destruct (transducer_fault cl x (By _ _ E6) H) as (Q & X). do 6 right. left. exists cl. split; [exact Fl|]. left. now split. }
  apply with_value in E8. destruct E8 as (f8 & E8). cbv zeta in H.
  apply load_fault in H. destruct H as [H|(b & ps9 & _ & H)].
  - apply res_fault in H.
    destruct (first_state_fault F g (float_fst of_word g) cl f8 x (By _ _ E6) E8 eq_refl) as (Q & ->); [|exact H|].
    + cbn [float_fst arcs_]. clear. induction (arcs_ g) as [|a l IH]; constructor; [reflexivity|exact IH].
    + do 6 right. left. exists cl. split; [exact Fl|]. right. now split.
  - apply load_fault in H. destruct H as [H|(u2 & ps10 & _ & H)]; discriminate.
Qed.

Lemma init_fault x : stt_init O T I junk junk_int of_word unknown files hclg why lm_fuel fn = Fault x -> cause x.
Proof.
  intros H. unfold stt_init in H. destruct (load_parts _ _ _ _ _ _ _ _ _ _ _ fn []) as [[r ps]|y] eqn:E; cbn [bind] in H; [discriminate|].
  injection H as <-. unfold load_parts in E. apply load_fault in E. destruct E as [E|(u & ps1 & _ & E)]; [discriminate|].
  apply load_fault in E. destruct E as [E|(c & ps2 & E2 & E)].
  { exfalso. unfold load_conf in E. apply load_fault in E. destruct E as [E|(ct & ps2 & E2 & E)]; [now apply open_fault in E|].
    apply load_fault in E. destruct E as [E|(r & ps3 & _ & E)]; [|destruct (snd r); discriminate]. apply res_fault in E.
    destruct (pieces_exist ct) as (ps & e & P).
    assert (S : Forall2 shown ps (map show ps)) by (clear; induction ps; constructor; [apply show_shown|assumption]).
    destruct (config_exact fn ct ps e _ P S) as (c' & ok & E' & _). congruence. }
  assert (R : reads_from c).
  { unfold load_conf, load_bind in E2. destruct (open_file files fn ps1) as [[[ct|w] ps3]|] eqn:Eo; try discriminate. cbn [bind] in E2.
    apply open_content in Eo. unfold load_res in E2. destruct (conf_read conf_empty fn ct) as [[c' ok]|] eqn:Er; [|discriminate]. cbn [bind snd] in E2.
    destruct ok; [|discriminate]. cbn [Datatypes.fst] in E2. injection E2 as <- _. eapply conf_reads; eassumption. }
  apply load_fault in E. destruct E as [E|(g & ps3 & _ & E)]; [eapply graph_fault; eassumption|].
  apply load_fault in E. destruct E as [E|(u2 & ps4 & _ & E)]; [discriminate|].
  apply load_fault in E. destruct E as [E|(a & ps5 & _ & E)]; [eapply am_fault; eassumption|].
  apply load_fault in E. destruct E as [E|(s & ps6 & _ & E)]; [eapply symbols_fault; eassumption|].
  apply load_fault in E. destruct E as [E|(d & ps7 & _ & E)]; [eapply lm_fault; eassumption|].
  apply load_fault in E. destruct E as [E|(fb & ps8 & _ & E)]; [apply res_fault in E; do 7 right; exact E|].
  apply load_fault in E. destruct E as [E|(u3 & ps9 & _ & E)]; [discriminate|].
  apply load_fault in E. destruct E as [E|(ca & ps10 & _ & E)]; [|discriminate].
  apply res_fault in E. destruct d; [|discriminate]. unfold new_cache in E. discriminate.
Qed.

End Causes.
