(** The statements and examples of Props/Text.v and Props/Config.v. *)
From Coq Require Import ZArith List Bool Lia.
From Verif.Base Require Import Prelude ZMap Lemmas.
From Verif.Model Require Import Util File Configuration SymbolTable.
From Verif.Spec Require Import TextSpec.
From Verif.Proof Require Import Text Number Lines Config Symbols.
Import ListNotations.
Open Scope Z_scope.

Lemma trim_exact s :
  trimmed s (trim s) /\ (forall t, trimmed s t -> t = trim s) /\ (trim s = [] <-> all_white s).
Proof.
  split; [apply trim_trimmed|]. split; [|apply trimmed_white, trim_trimmed].
  intros t H. eapply trimmed_unique; [exact H|apply trim_trimmed].
Qed.

Lemma trim_case : trim [32; 97; 32; 98; 9] = [97; 32; 98].
Proof. reflexivity. Qed.

Lemma split_join_inverse s d : d <> [] ->
  exists fs, split s d = Ok fs /\
    (s = join d fs \/ s = join d (fs ++ [[]])) /\
    Forall (fun f => ~ contains f d) fs.
Proof.
  intros N. destruct (split_fields s d N) as (fs & E & F). exists fs.
  split; [exact E|]. split; [now apply fields_join|now apply (fields_clean d s)].
Qed.

Lemma split_case :
  split [97; 61; 61; 98; 61] [61] = Ok [[97]; []; [98]] /\
  split [120; 97; 98; 121; 97; 98] [97; 98] = Ok [[120]; [121]].
Proof. split; reflexivity. Qed.

Lemma format_case : format [123; 125; 61; 123; 125] [[97]; [123; 125]] = [97; 61; 123; 125].
Proof. reflexivity. Qed.

Lemma format_refuted :
  format [123; 125; 32; 123; 125] [[123; 125]; [120]]
    <> substitute [123; 125; 32; 123; 125] [[123; 125]; [120]] /\
  format [123; 123; 125; 125; 123; 125] [[]; [120]]
    <> substitute [123; 123; 125; 125; 123; 125] [[]; [120]].
Proof. split; discriminate. Qed.

Lemma bounded_copy dst s rest siz :
  ~ In 0 s -> (siz <= length dst)%nat ->
  exists dst', strlcpy dst (s ++ 0 :: rest) siz = Ok (dst', lenZ s) /\
    (siz = O -> dst' = dst) /\
    (siz <> O -> exists p r, s = p ++ r /\ length p = Nat.min (siz - 1) (length s) /\
       dst' = p ++ [0] ++ skipn (length p + 1) dst).
Proof.
  intros N L. rewrite strlcpy_ok by assumption. eexists. split; [reflexivity|].
  destruct siz as [|n]; [split; [reflexivity|congruence]|].
  split; [discriminate|]. intros _. exists (firstn n s), (skipn n s).
  rewrite firstn_skipn, firstn_length. split; [reflexivity|].
  split; [lia|]. cbn [app]. rewrite Nat.add_1_r. reflexivity.
Qed.

Lemma bounded_copy_case :
  strlcpy [118; 119; 120; 121; 122] [97; 98; 99; 0] 3 = Ok ([97; 98; 0; 121; 122], 3).
Proof. reflexivity. Qed.

Lemma decimal_exact z s u v :
  decimal z s -> all_white u -> all_white v ->
  -9223372036854775808 <= z <= 9223372036854775807 ->
  string_to_long (u ++ s ++ v) = Some z.
Proof.
  intros D U V R. rewrite (string_to_long_exact z) by assumption. now rewrite clamp_long_id.
Qed.

Lemma decimal_beyond z s u v : decimal z s -> all_white u -> all_white v ->
  (9223372036854775807 < z -> string_to_long (u ++ s ++ v) = Some 9223372036854775807) /\
  (z < -9223372036854775808 -> string_to_long (u ++ s ++ v) = Some (-9223372036854775808)).
Proof.
  intros D U V. rewrite (string_to_long_exact z) by assumption. unfold clamp_long, long_max, long_min. split; intros; f_equal; lia.
Qed.

Lemma blank_number u : all_white u -> string_to_long u = Some 0.
Proof.
  intros U. unfold string_to_long. rewrite (trim_eq u []); [reflexivity|].
  split; [exists u, []; rewrite app_nil_r; repeat split; [exact U|constructor]|].
  split; [discriminate|]. intros c [|x r]; discriminate.
Qed.

Lemma dec120 : decimal_digits 120 [49; 50; 48].
Proof.
  apply (DDS 12 [49; 50] 0); [lia| |lia]. apply (DDS 1 [49] 2); [lia| |lia].
  apply (DD1 1). lia.
Qed.

Lemma decimal_case :
  decimal (-120) [45; 49; 50; 48] /\
  string_to_long [32; 45; 49; 50; 48; 10] = Some (-120) /\
  string_to_long [49; 50; 32; 51] = None /\
  string_to_long [48; 49; 48] = Some 8.
Proof.
  split; [apply (DNeg 120); [lia|apply dec120]|]. repeat split.
Qed.

Lemma plain_dec l : Forall (fun c => c <> 10 /\ c <> 0) l -> Z.of_nat (length l) < 4095 -> plain_line l.
Proof.
  intros F L. rewrite Forall_forall in F.
  split; [|split; [|exact L]]; intros H; destruct (F _ H); congruence.
Qed.

Ltac plain := apply plain_dec; [repeat (constructor; [lia|]); constructor|cbn; lia].

Lemma read_lines_refuted :
  (forall ls l, Forall plain_line ls -> plain_line l -> l <> [] ->
     exists rs, all_lines (text ls ++ l) = Ok (rs, false) /\ Forall2 chomped (ls ++ [l]) rs) /\
  plain_line [97].
Proof. split; [exact all_lines_unfinished|plain]. Qed.

Lemma read_lines_case :
  text [[97; 13]; []; [98]] = [97; 13; 10; 10; 98; 10] /\
  Forall plain_line [[97; 13]; []; [98]] /\
  all_lines [97; 13; 10; 10; 98; 10] = Ok ([[97]; []; [98]], true) /\
  all_lines [97; 10; 98] = Ok ([[97]; [98]], false) /\
  all_lines_eof [97; 10; 98] = Ok ([[97]; [98]], true).
Proof.
  split; [reflexivity|]. split; [repeat (constructor; [plain|]); constructor|].
  repeat split; vm_compute; reflexivity.
Qed.

Lemma config_accepts fn ls l :
  Forall plain_line ls -> plain_line l ->
  let lines := match l with [] => ls | _ => ls ++ [l] end in
  Forall (fun l => no_effect l \/ exists k v, entry l k v) lines ->
  exists c, conf_read conf_empty fn (text ls ++ l) = Ok (c, true) /\
    forall key k d, lower_case key k ->
      exists r, last_value lines k r /\
        get_string c key d = match r with Some v => v | None => d end.
Proof.
  intros F P lines G. rewrite conf_read_fold by assumption.
  change (file_lines ls l) with lines. cbn [c_table conf_empty].
  rewrite conf_fold_fine by exact G.
  eexists. split; [reflexivity|].
  intros key k d Lk. apply lower_case_eq in Lk. subst k.
  destruct (last_value_total lines (lower key) G) as (r & R). exists r. split; [exact R|].
  unfold get_string. cbn [c_table].
  rewrite (conf_fold_lookup _ _ _ R) by now apply conf_fold_fine.
  destruct r; reflexivity.
Qed.

(** A loose entry is an entry with a further "=". *)
Lemma loose_is_entry_plus bad k v : loose_entry bad k v ->
  exists e, trimmed bad (e ++ [61]) /\ entry e k v.
Proof.
  intros (t & a & b & k' & T & E & Na & Nb & NC & Ta & Lk & Tb & Nv).
  exists (a ++ [61] ++ b). split; [rewrite E in T; now rewrite <- !app_assoc|].
  assert (W : ~ all_white b).
  { intros W. apply Nv. now apply (trimmed_white _ _ Tb). }
  destruct (white_suffix b W) as (b' & ws & -> & Ws & r & c & Eb & Nc).
  exists (a ++ [61] ++ b'), a, b', k'.
  split; [|split; [reflexivity|]].
  - split; [exists [], ws; cbn [app]; rewrite <- app_assoc; repeat split; [constructor|exact Ws]|].
    destruct T as (_ & T & _).
    split.
    + intros x q Q. destruct a as [|y a].
      * cbn [app] in Q. injection Q as <- _. unfold white. lia.
      * cbn [app] in Q. injection Q as <- _. apply (T y (a ++ [61] ++ (b' ++ ws) ++ [61])).
        rewrite E. reflexivity.
    + intros x q Q. rewrite Eb, !app_assoc in Q. apply app_inj_tail in Q. destruct Q as (_ & <-).
      exact Nc.
  - split; [exact Na|]. split; [intros H; apply Nb; apply in_or_app; now left|].
    split; [intros q Q; destruct a as [|y a]; cbn [app] in Q; [discriminate|]; injection Q as -> _;
            apply (NC (a ++ [61] ++ (b' ++ ws) ++ [61])); exact E|].
    split; [exact Ta|]. split; [exact Lk|]. split; [|exact Nv].
    now apply (trimmed_suffix b' ws v Ws).
Qed.

Lemma config_rejects fn ls l bad :
  Forall plain_line ls -> plain_line l ->
  In bad (match l with [] => ls | _ => ls ++ [l] end) ->
  ~ no_effect bad -> (forall k v, ~ entry bad k v) ->
  (forall e k v, trimmed bad (e ++ [61]) -> ~ entry e k v) ->
  exists c, conf_read conf_empty fn (text ls ++ l) = Ok (c, false).
Proof.
  intros F P I N1 N2 N3. rewrite conf_read_fold by assumption.
  destruct (snd (conf_fold _ _)) eqn:E; [|eauto]. exfalso.
  apply conf_fold_good in E. rewrite Forall_forall in E. specialize (E bad I).
  destruct E as [[E|(k & v & E)]|(k & v & E)]; [contradiction|now apply (N2 k v)|].
  apply loose_is_entry_plus in E. destruct E as (e & T & E). now apply (N3 e k v).
Qed.

Lemma config_refuted :
  exists c, conf_read conf_empty [102] [97; 61; 98; 61; 10] = Ok (c, true) /\
    (forall d, get_string c [97] d = [98]) /\
    ~ no_effect [97; 61; 98; 61] /\ (forall k v, ~ entry [97; 61; 98; 61] k v).
Proof.
  eexists. split; [vm_compute; reflexivity|]. split; [reflexivity|].
  assert (T : trimmed [97; 61; 98; 61] [97; 61; 98; 61])
    by exact (trim_trimmed [97; 61; 98; 61]).
  split.
  - intros (t & T' & H). rewrite <- (trimmed_unique _ _ _ T T') in H.
    destruct H as [H|(r & H)]; discriminate.
  - intros k v (t & a & b & k' & T' & E & Na & Nb & _).
    rewrite <- (trimmed_unique _ _ _ T T') in E.
    destruct a as [|x [|y a]]; cbn [app] in E; injection E; intros; subst.
    + discriminate.
    + apply Nb. right. now left.
    + apply Na. right. now left.
Qed.

Lemma config_paths fn content c ok key d :
  conf_read conf_empty fn content = Ok (c, ok) ->
  (forall p, (forall d', get_string c key d' = p) -> p <> default_string ->
     p <> [] /\
     (forall r, p = 47 :: r -> get_path c key d = Ok p) /\
     ((forall r, p <> 47 :: r) ->
       (forall dir base, fn = dir ++ 47 :: base -> ~ In 47 base ->
          get_path c key d = Ok (dir ++ 47 :: p)) /\
       (~ In 47 fn -> get_path c key d = Ok p))) /\
  ((forall d', get_string c key d' = d') -> get_path c key d = Ok d).
Proof.
  unfold conf_read. intros R. destruct (conf_loop _ _ _) as [(t & b)|] eqn:L; [|discriminate].
  cbn [bind] in R. injection R as <- <-.
  assert (NE : Forall (fun e => snd e <> []) t).
  { eapply conf_loop_nonempty; [|exact L]. constructor. }
  split; [|apply get_path_missing].
  intros p G N.
  assert (Np : p <> []).
  { intros ->. pose proof (get_path_safe (mk_conf fn t) key d NE) as S.
    unfold get_path in S. rewrite G in S. discriminate. }
  split; [exact Np|].
  destruct (get_path_cases _ _ d _ G N) as (A & B).
  split; [exact A|]. intros NS. exact (B Np NS).
Qed.

Lemma config_paths_case :
  exists c, conf_read conf_empty [100; 47; 109] [102; 115; 116; 61; 103; 10] = Ok (c, true) /\
    get_path c [102; 115; 116] [] = Ok [100; 47; 103] /\ get_path c [113] [120] = Ok [120].
Proof. eexists. split; [vm_compute; reflexivity|]. split; reflexivity. Qed.

Lemma config_integers c key :
  (forall z s, (forall d, get_string c key d = s) -> decimal z s ->
     -2147483648 < z <= 2147483647 -> get_integer c key = Ok (Some z)) /\
  ((forall d, get_string c key d = d) -> get_integer c key = Ok None).
Proof.
  split; [intros z s G D R; now apply (get_integer_exact c key z s)|apply get_integer_missing].
Qed.

Lemma config_integers_refuted :
  exists c, conf_read conf_empty [102] [97; 61; 120; 10; 98; 61; 49; 50; 120; 10] = Ok (c, true) /\
    get_integer c [97] = Fault Throw /\ get_integer c [98] = Ok (Some 12).
Proof. eexists. split; [vm_compute; reflexivity|]. split; reflexivity. Qed.

Lemma config_integers_case :
  exists c, conf_read conf_empty [102] [97; 61; 45; 49; 50; 10] = Ok (c, true) /\
    decimal (-12) [45; 49; 50] /\ (forall d, get_string c [97] d = [45; 49; 50]).
Proof.
  eexists. split; [vm_compute; reflexivity|]. split; [|reflexivity].
  apply (DNeg 12); [lia|]. apply (DDS 1 [49] 2); [lia| |lia]. apply (DD1 1). lia.
Qed.

Lemma symbol_table es ls b e :
  Forall2 (fun e l => exists s, decimal (snd e) s /\ l = fst e ++ [32] ++ s) es ls ->
  Forall plain_line ls ->
  Forall (fun e => ~ In 32 (fst e) /\ 0 <= snd e <= 2147483647) es ->
  NoDup (map fst es) -> NoDup (map snd es) ->
  In ([60; 115; 62], b) es -> In ([60; 47; 115; 62], e) es ->
  exists t, sym_read symtab_init (text ls) = Ok (t, true) /\
    (forall w i, In (w, i) es -> sym_get t i = Ok w /\ sym_id t w = i) /\
    (forall w, ~ In w (map fst es) -> sym_id t w = -1) /\
    s_bos t = b /\ s_eos t = e.
Proof.
  intros F P G N1 N2 B E.
  assert (G' : Forall (fun e => good_word (fst e) /\ 0 <= snd e <= int_max) es).
  { clear N1 N2 B E. induction F as [|(w, i) l es ls (s & D & ->) F IH]; [constructor|].
    inversion P as [|? ? P1 P2]; inversion G as [|? ? (G1 & G2) G3]; subst.
    constructor; [|auto]. cbn [fst snd] in *. split; [|exact G2]. split; [exact G1|].
    intros H. destruct P1 as (_ & Z0 & _). apply Z0. apply in_or_app. now left. }
  destruct (sym_read_says es ls b e F P G' N1 N2 B E) as (t & R & S & Sb & Se).
  exists t. split; [exact R|]. rewrite Forall_forall in G'.
  split; [|split; [|now split]].
  - intros w i H. destruct (G' _ H) as (A & C). split; [|now apply (says_id t es)].
    now apply (says_get t es).
  - intros w H. now apply (says_no_id t es).
Qed.

Lemma symbol_table_case :
  let ls := [[60; 115; 62; 32; 50]; [97; 98; 32; 48]; [60; 47; 115; 62; 32; 49]] in
  Forall2 (fun e l => exists s, decimal (snd e) s /\ l = fst e ++ [32] ++ s)
    [([60; 115; 62], 2); ([97; 98], 0); ([60; 47; 115; 62], 1)] ls /\
  exists t, sym_read symtab_init (text ls) = Ok (t, true) /\
    sym_get t 0 = Ok [97; 98] /\ s_bos t = 2 /\ s_eos t = 1.
Proof.
  cbn zeta. split.
  - repeat constructor; cbn [fst snd].
    + exists [50]. split; [apply DPos, (DD1 2); lia|reflexivity].
    + exists [48]. split; [apply DPos, (DD1 0); lia|reflexivity].
    + exists [49]. split; [apply DPos, (DD1 1); lia|reflexivity].
  - eexists. split; [vm_compute; reflexivity|]. repeat split.
Qed.

Lemma symbol_table_safe content :
  exists rs b, all_lines content = Ok (rs, b) /\
    ((forall l w num id, In l rs -> split l [32] = Ok [w; num] -> string_to_long num = Some id ->
        0 <= id < 288230376151711743) ->
     exists t ok, sym_read symtab_init content = Ok (t, ok)).
Proof.
  destruct (read_lines_total (length content + 2) (open content)) as (rs & b & E).
  { cbn [open f_rest]. lia. }
  exists rs, b. split; [exact E|]. intros H.
  eapply sym_read_safe; [exact E|]. intros l id I (w & num & A & B). eapply H; eassumption.
Qed.

Lemma symbol_table_safe_case :
  (exists t, sym_read symtab_init [97; 32; 98; 32; 99; 10] = Ok (t, false)) /\
  (exists t, sym_read symtab_init [97; 32; 120; 10] = Ok (t, false)) /\
  (exists t, sym_read symtab_init [97; 0; 32; 49; 10] = Ok (t, false)).
Proof. repeat split; eexists; vm_compute; reflexivity. Qed.

Lemma symbol_table_refuted :
  sym_read symtab_init [97; 32; 45; 49; 10] = Fault Undef /\
  sym_read symtab_init [97; 32; 45; 50; 10] = Fault Throw.
Proof. split; vm_compute; reflexivity. Qed.

Lemma config_case :
  exists c, conf_read conf_empty [100; 47; 109]
      [35; 32; 99; 10; 32; 78; 110; 101; 116; 32; 61; 32; 120; 32; 121; 32; 10; 110; 110; 101; 116; 61; 122]
    = Ok (c, true) /\
  get_string c [110; 78; 69; 84] [100] = [122] /\ get_string c [113] [100] = [100] /\
  entry [32; 78; 110; 101; 116; 32; 61; 32; 120; 32; 121; 32] [110; 110; 101; 116] [120; 32; 121].
Proof.
  eexists. split; [vm_compute; reflexivity|]. split; [reflexivity|]. split; [reflexivity|].
  exists [78; 110; 101; 116; 32; 61; 32; 120; 32; 121], [78; 110; 101; 116; 32], [32; 120; 32; 121],
    [78; 110; 101; 116].
  split; [apply (trim_trimmed [32; 78; 110; 101; 116; 32; 61; 32; 120; 32; 121; 32])|].
  split; [reflexivity|]. split; [cbn; lia|]. split; [cbn; lia|]. split; [discriminate|].
  split; [apply (trim_trimmed [78; 110; 101; 116; 32])|].
  split; [apply (lower_lower_case [78; 110; 101; 116])|].
  split; [apply (trim_trimmed [32; 120; 32; 121])|discriminate].
Qed.
