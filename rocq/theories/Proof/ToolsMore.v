(** Proofs about symbol tables and statistics made by the scripts. *)
From Coq Require Import ZArith String List Bool Lia.
From Verif.Base Require Import Prelude Lemmas.
From Verif.Model Require Import Util File Vector Stt Python Tools.
From Verif.Spec Require Import TextSpec AudioSpec FormatSpec ToolSpec.
From Verif.Proof Require Import Text Lines Number Loop Python Tools.
Import ListNotations.
Open Scope Z_scope.

(** * Symbol tables *)

Definition read_word : list (bytes * Z) * Z -> bytes -> res (list (bytes * Z) * Z) :=
  fun '(idx, m) line =>
    match py_fields (strip line) with
    | [word; wid] => i <- py_int wid ;; Ok (idx ++ [(word, i)], if m <? i then i else m)
    | _ => Fault Throw
    end.

Lemma words_loop : forall ls es, Forall2 word_line ls es -> forall d m,
  for_each ls read_word (d, m) = Ok (d ++ es, fold_left Z.max (map snd es) m).
Proof.
  induction 1 as [|l e ls es (a & A & R) H IH]; intros d m; cbn [for_each map fold_left].
  - now rewrite app_nil_r.
  - unfold read_word at 1. rewrite (fields_row _ _ (row_strip _ _ R)), (int_decimal _ _ A). cbn [bind].
    rewrite IH. rewrite <- app_assoc. destruct e as (w, i). cbn [Datatypes.fst snd app].
    replace (if m <? i then i else m) with (Z.max m i) by (destruct (Z.ltb_spec m i); lia). reflexivity.
Qed.

Lemma max_sides l m : fold_left Z.max l m = fold_right Z.max m l.
Proof. apply fold_symmetric; intros; [apply Z.max_assoc|apply Z.max_comm]. Qed.

Lemma place_words : forall (es : list (bytes * Z)) (ws : list bytes), Forall (fun e => 0 <= snd e < lenZ ws) es ->
  exists ws', for_each es (fun ws '(word, i) => py_set ws i word) ws = Ok ws' /\ length ws' = length ws /\
    forall i (d : bytes), (i < length ws)%nat ->
      nth i ws' d = match latest_id (Z.of_nat i) (map (fun e => (snd e, Datatypes.fst e)) es) with
                    | Some w => w | None => nth i ws d end.
Proof.
  induction es as [|(w, t) es IH]; intros ws R.
  - exists ws. repeat split.
  - inversion R as [|? ? R0 R1]; subst. cbn [snd] in R0. cbn [for_each]. rewrite py_set_ok by exact R0. cbn [bind].
    destruct (IH (upd ws (Z.to_nat t) w)) as (ws' & E & L & V).
    { rewrite lenZ_upd. exact R1. }
    exists ws'. rewrite upd_length in *. repeat split; [exact E|exact L|].
    intros i d I. rewrite V by exact I. unfold latest_id. cbn [map latest snd Datatypes.fst].
    destruct (latest Z.eq_dec (Z.of_nat i) (map (fun e => (snd e, Datatypes.fst e)) es)); [reflexivity|].
    unfold lenZ in R0. rewrite nth_upd by lia. destruct (Z.eq_dec (Z.of_nat i) t) as [Q2|Q2].
    + subst t. rewrite Nat2Z.id, Nat.eqb_refl. reflexivity.
    + destruct (Nat.eqb_spec (Z.to_nat t) i); [lia|]. reflexivity.
Qed.

Lemma latest_in {V} : forall (l : list (Z * V)) i v, latest_id i l = Some v -> In (i, v) l.
Proof.
  unfold latest_id. induction l as [|(k, x) l IH]; intros i v; cbn [latest]; [discriminate|].
  destruct (latest Z.eq_dec i l) as [y|] eqn:Q.
  - intros [= <-]. right. now apply IH.
  - destruct (Z.eq_dec i k) as [->|]; [|discriminate]. intros [= <-]. now left.
Qed.

Lemma word_line_solid l e : word_line l e -> solid (Datatypes.fst e).
Proof. intros (a & _ & R). inversion R; subst. assumption. Qed.

Lemma symbols_solid ls es : Forall2 word_line ls es -> Forall solid (symbols es).
Proof.
  intros H. apply Forall_forall. intros w I. unfold symbols in I. apply in_map_iff in I. destruct I as (i & <- & _).
  destruct (latest_id (Z.of_nat i) (map (fun e => (snd e, Datatypes.fst e)) es)) as [w|] eqn:Q.
  - apply latest_in in Q. apply in_map_iff in Q. destruct Q as (e & Q & I). injection Q as _ <-.
    clear - H I. induction H as [|l e' ls es W H IH]; [easy|].
    destruct I as [->|I]; [eapply word_line_solid, W|now apply IH].
  - split; [discriminate|]. repeat (constructor; [unfold blank; lia|]). constructor.
Qed.

Definition step_start : Z * list Z -> bytes -> Z * list Z := fun '(at_, l) b => (at_ + lenZ b, l ++ [at_]).

Lemma starts_spec : forall items at_ l, exists starts,
  fold_left step_start items (at_, l) = (at_ + lenZ (concat items), l ++ starts) /\
  length starts = length items /\
  forall i b s, nth_error items i = Some b -> nth_error starts i = Some s ->
    at_ <= s <= at_ + lenZ (concat items) - lenZ b /\
    exists r, skipn (Z.to_nat (s - at_)) (concat items) = b ++ r.
Proof.
  induction items as [|b items IH]; intros at_ l; cbn [fold_left concat].
  - exists []. unfold lenZ. cbn [length]. rewrite app_nil_r. split; [f_equal; lia|]. split; [reflexivity|]. intros [|i] b s Q; discriminate.
  - unfold step_start at 2. destruct (IH (at_ + lenZ b) (l ++ [at_])) as (starts & E & L & V).
    exists (at_ :: starts). unfold lenZ in *. rewrite app_length. split; [|split].
    + rewrite E, <- app_assoc. cbn [app]. f_equal. lia.
    + cbn [length]. now rewrite L.
    + intros i b' s I S. destruct i as [|i]; cbn [nth_error] in *.
      * injection I as <-. injection S as <-. split; [lia|].
        exists (concat items). replace (at_ - at_) with 0 by lia. reflexivity.
      * destruct (V _ _ _ I S) as (A & r & B). split; [lia|]. exists r. rewrite <- B.
        rewrite skipn_app, skipn_all2 by lia. cbn [app]. f_equal. lia.
Qed.

Lemma convert_words_ok entries ls content : text_file ls content -> Forall2 word_line ls entries ->
  Forall (fun e => 0 <= snd e) entries ->
  8 + 4 * lenZ (symbols entries) + lenZ (flat_map (fun w => w ++ [0]) (symbols entries)) <= 2147483647 ->
  exists file, convert_words content = Ok file /\ symbol_section (symbols entries) file.
Proof.
  intros T H R F. unfold convert_words. rewrite (lines_of _ _ T).
  fold read_word. rewrite (words_loop _ _ H), max_sides. cbn [bind app].
  set (n := Z.to_nat (fold_right Z.max 0 (map snd entries) + 1)).
  assert (B : Forall (fun e => 0 <= snd e < Z.of_nat n) entries).
  { apply Forall_forall. intros e I. rewrite Forall_forall in R. specialize (R e I).
    pose proof (fold_max (map snd entries) 0) as (M0 & M & _). rewrite max_sides in M0, M.
    specialize (M (snd e) (in_map snd _ _ I)). unfold n. lia. }
  destruct (place_words entries (repeat (lit "<empty>") n)) as (ws & E & L & V).
  { unfold lenZ. rewrite repeat_length. exact B. }
  rewrite E. cbn [bind]. rewrite repeat_length in L, V.
  assert (W : ws = symbols entries).
  { apply (nth_ext _ _ [] []).
    - unfold symbols. fold n. now rewrite map_length, seq_length.
    - intros i I0. assert (I : (i < n)%nat) by (rewrite <- L; exact I0). clear I0.
      etransitivity; [exact (V i [] I)|]. unfold symbols. fold n.
      match goal with |- _ = nth _ (map ?f (seq 0 n)) _ => set (g := f) end.
      assert (Q : nth i (map g (seq 0 n)) [] = g i).
      { etransitivity; [apply (nth_indep _ [] (g 0%nat))|].
        - apply (Nat.lt_le_trans _ _ _ I). rewrite map_length, seq_length. lia.
        - rewrite map_nth, seq_nth by exact I. reflexivity. }
      etransitivity; [|symmetry; exact Q]. unfold g.
      change (map (fun e : bytes * Z => (snd e, Datatypes.fst e)) entries)
        with (map (fun e : str * Z => (snd e, Datatypes.fst e)) entries).
      destruct (latest_id (Z.of_nat i) _); [reflexivity|].
      rewrite (nth_indep _ [] (lit "<empty>")) by (rewrite repeat_length; exact I). apply nth_repeat. }
  subst ws. clear E V.
  replace (map (fun w => strip w ++ [0]) (symbols entries)) with (map (fun w : bytes => w ++ [0]) (symbols entries)).
  2:{ apply map_ext_in. intros w I. pose proof (symbols_solid _ _ H) as S. rewrite Forall_forall in S.
      now rewrite (strip_shows _ _ (solid_shows _ (S _ I))). }
  set (items := map (fun w : bytes => w ++ [0]) (symbols entries)).
  change (fold_left (fun '(at_, l) b => (at_ + lenZ b, l ++ [at_])) items (0, []))
    with (fold_left step_start items (0, [])).
  destruct (starts_spec items 0 []) as (starts & ES & LS & VS). rewrite ES. cbn [snd app].
  assert (LI : length items = length (symbols entries)) by (unfold items; now rewrite map_length).
  assert (QB : concat items = flat_map (fun w => w ++ [0]) (symbols entries)) by (unfold items; now rewrite <- flat_map_concat_map).
  unfold lenZ in F, VS.
  assert (HW : forall k, 0 <= k <= 2147483647 -> pack_int k = Ok (word k)).
  { intros k K. apply pack_int_word. unfold fits. change (2 ^ (8 * Z.of_nat 4 - 1)) with 2147483648. lia. }
  assert (HS : Forall2 (fun x y => pack_int x = Ok (word y)) starts starts).
  { assert (HF : Forall (fun s => 0 <= s <= 2147483647) starts).
    { apply Forall_forall. intros s I. apply In_nth_error in I. destruct I as (i & I).
      destruct (nth_error items i) as [b|] eqn:Q.
      - destruct (VS _ _ _ Q I) as (A & _). rewrite QB in A. lia.
      - apply nth_error_None in Q. assert (nth_error starts i = None) by (apply nth_error_None; rewrite LS; exact Q). congruence. }
    clear - HF HW. induction HF; constructor; auto. }
  pose proof (eq_trans LS LI) as LT. rewrite QB. unfold lenZ. rewrite LT.
  rewrite HW by lia. cbn [bind]. rewrite HW by lia. cbn [bind]. rewrite HW by lia. cbn [bind].
  rewrite (write_all_flat pack_int word _ _ HS). cbn [bind].
  eexists. split; [reflexivity|]. exists starts, (flat_map (fun w => w ++ [0]) (symbols entries)).
  split; [|split; [|split]].
  - change (lit "SYM0") with [83; 89; 77; 48].
    replace (Z.of_nat (length (symbols entries)) * 4) with (4 * Z.of_nat (length (symbols entries))) by lia.
    reflexivity.
  - exact LT.
  - reflexivity.
  - intros i w s I S. assert (Q : nth_error items i = Some (w ++ [0])) by (unfold items; exact (map_nth_error (fun w : bytes => w ++ [0]) i (symbols entries) I)).
    destruct (VS _ _ _ Q S) as (A & r & B2). split; [lia|]. exists r.
    rewrite QB, Z.sub_0_r in B2. rewrite B2. now rewrite <- app_assoc.
Qed.

Lemma py_int_cases b : (exists z, py_int b = Ok z) \/ py_int b = Fault Throw.
Proof. unfold py_int. repeat (match goal with |- context [match ?x with _ => _ end] => destruct x end); eauto. Qed.

(** A line with another number of columns. *)
Lemma convert_words_bad ls content l fs : text_file ls content -> In l ls -> row l fs -> length fs <> 2%nat ->
  convert_words content = Fault Throw.
Proof.
  intros T I R L. unfold convert_words. rewrite (lines_of _ _ T). fold read_word.
  assert (G : forall st, for_each ls read_word st = Fault Throw).
  { clear T. induction ls as [|l' ls IH]; [easy|]. intros (d, m). cbn [for_each]. destruct I as [->|I].
    - unfold read_word. rewrite (fields_row _ _ (row_strip _ _ R)).
      destruct fs as [|a [|b [|c fs]]]; try reflexivity. cbn [length] in L. lia.
    - unfold read_word at 1. destruct (py_fields (strip l')) as [|a [|b [|c r]]]; try reflexivity.
      destruct (py_int_cases b) as [(z & ->)| ->]; cbn [bind]; [|reflexivity].
      apply (IH I). }
  now rewrite G.
Qed.

(** * Statistics *)

Lemma digit_iff c : is_digit c = true <-> digit c.
Proof. unfold is_digit, digit. rewrite andb_true_iff, Z.leb_le, Z.leb_le. lia. Qed.

Definition no_digit (s : str) : Prop := forall c r, s = c :: r -> ~ digit c.

Lemma skip_digits_app : forall d s, Forall digit d -> no_digit s -> skip_digits (d ++ s) = s.
Proof.
  induction d as [|c d IH]; intros s H N; cbn [app skip_digits].
  - destruct s as [|c s]; cbn [skip_digits]; [reflexivity|]. destruct (is_digit c) eqn:Q; [|reflexivity].
    apply digit_iff in Q. exfalso. eapply N; [reflexivity|exact Q].
  - inversion H; subst. rewrite (proj2 (digit_iff c)) by assumption. now apply IH.
Qed.

Lemma skip_digits_spec : forall s, exists d, s = d ++ skip_digits s /\ Forall digit d /\ no_digit (skip_digits s).
Proof.
  induction s as [|c s (d & E & D1 & D2)]; cbn [skip_digits].
  - exists []. repeat split; [constructor|intros c r Q; discriminate].
  - destruct (is_digit c) eqn:Q.
    + exists (c :: d). cbn [app]. repeat split; [now f_equal|constructor; [now apply digit_iff|exact D1]|exact D2].
    + exists []. repeat split; [constructor|]. intros c' r [= <- _] K. apply digit_iff in K. congruence.
Qed.

Lemma skip_digits1_app d s : digits d -> no_digit s -> skip_digits1 (d ++ s) = Some s.
Proof.
  intros (N & H) M. destruct d as [|c d]; [now destruct N|]. inversion H; subst. cbn [app skip_digits1].
  rewrite (proj2 (digit_iff c)) by assumption. f_equal. now apply skip_digits_app.
Qed.

Lemma skip_digits1_spec s r : skip_digits1 s = Some r -> exists d, digits d /\ s = d ++ r.
Proof.
  destruct s as [|c s]; cbn [skip_digits1]; [discriminate|]. destruct (is_digit c) eqn:Q; [|discriminate]. intros [= <-].
  destruct (skip_digits_spec s) as (d & E & D1 & _). exists (c :: d). split.
  - split; [discriminate|]. constructor; [now apply digit_iff|exact D1].
  - cbn [app]. now f_equal.
Qed.

Lemma skip_sign_app a d s : sign a -> digits d -> skip_sign (a ++ d ++ s) = d ++ s.
Proof.
  intros A (N & H). destruct A as [->|[->| ->]]; try reflexivity.
  destruct d as [|c d]; [now destruct N|]. inversion H as [|? ? K]; subst. cbn [app skip_sign].
  unfold is_sign. unfold digit in K. destruct (Z.eqb_spec c 43); [lia|]. destruct (Z.eqb_spec c 45); [lia|]. reflexivity.
Qed.

Lemma skip_sign_spec s : exists a, sign a /\ s = a ++ skip_sign s.
Proof.
  destruct s as [|c s]; cbn [skip_sign]; [exists []; split; [now left|reflexivity]|].
  unfold is_sign. destruct (Z.eqb_spec c 43) as [->|]; [exists [43]; split; [right; now left|reflexivity]|].
  destruct (Z.eqb_spec c 45) as [->|]; [exists [45]; split; [right; now right|reflexivity]|].
  exists []. split; [now left|reflexivity].
Qed.

Lemma ends_number_iff s : ends_number s = true <-> exponent s.
Proof.
  unfold ends_number. split.
  - destruct s as [|c r]; [now left|]. rewrite andb_true_iff, Z.eqb_eq. intros (-> & H).
    destruct (skip_digits1 (skip_sign r)) as [[|]|] eqn:Q; try discriminate.
    destruct (skip_digits1_spec _ _ Q) as (d & D1 & E). destruct (skip_sign_spec r) as (a & A & E2).
    right. exists a, d. split; [exact A|]. split; [exact D1|]. rewrite app_nil_r in E. f_equal. rewrite E in E2. exact E2.
  - intros [->|(a & d & A & D1 & ->)]; [reflexivity|]. change (101 =? 101) with true. cbn [andb].
    pose proof (skip_sign_app a d [] A D1) as Q. rewrite app_nil_r in Q. rewrite Q.
    rewrite <- (app_nil_r d), skip_digits1_app; [reflexivity|exact D1|]. intros c r K. discriminate.
Qed.

Lemma exponent_no_digit s : exponent s -> no_digit s.
Proof.
  intros [->|(a & d & _ & _ & ->)] c r; [discriminate|]. intros [= <- _]. unfold digit. lia.
Qed.

Lemma is_number_iff s : is_number s = true <-> number_text s.
Proof.
  unfold is_number. split.
  - destruct (skip_sign_spec s) as (a & A & E). destruct (skip_digits1 (skip_sign s)) as [r|] eqn:Q; [|discriminate].
    destruct (skip_digits1_spec _ _ Q) as (d & D1 & E2). intros H.
    assert (K : exists f e, fraction f /\ exponent e /\ r = f ++ e).
    { destruct r as [|c r]; [exists [], []; repeat split; now left|].
      destruct (Z.eqb_spec c 46) as [->|].
      - destruct (skip_digits1 r) as [r'|] eqn:Q2; [|discriminate].
        destruct (skip_digits1_spec _ _ Q2) as (d2 & D2 & E3). exists (46 :: d2), r'. split; [|split].
        + right. exists d2. now split.
        + now apply ends_number_iff.
        + cbn [app]. now f_equal.
      - exists [], (c :: r). repeat split; [now left|now apply ends_number_iff]. }
    destruct K as (f & e & Hf & He & ->). exists a, d, f, e. split; [exact A|]. split; [exact D1|]. split; [exact Hf|]. split; [exact He|].
    rewrite E2 in E. exact E.
  - intros (a & d & f & e & A & D1 & Hf & He & ->). rewrite skip_sign_app by assumption.
    assert (NF : no_digit (f ++ e)).
    { destruct Hf as [->|(d2 & _ & ->)]; [now apply exponent_no_digit|]. intros c r [= <- _]. unfold digit. lia. }
    rewrite skip_digits1_app by assumption. destruct Hf as [->|(d2 & D2 & ->)]; cbn [app].
    + destruct e as [|c e']; [reflexivity|].
      destruct (Z.eqb_spec c 46) as [->|]; [|now apply ends_number_iff].
      exfalso. destruct He as [K|(a' & d' & _ & _ & K)]; discriminate.
    + change (46 =? 46) with true. cbv iota. rewrite skip_digits1_app; [now apply ends_number_iff|exact D2|].
      now apply exponent_no_digit.
Qed.

Lemma numbers_filter : forall fs ns, numbers_of fs ns -> filter is_number fs = ns.
Proof.
  induction 1 as [|f fs ns K H IH|f fs ns K H IH]; cbn [filter]; [reflexivity| |].
  - rewrite (proj2 (is_number_iff f) K). now f_equal.
  - destruct (is_number f) eqn:Q; [|exact IH]. apply is_number_iff in Q. contradiction.
Qed.

Lemma row_blank_front u l fs : all_blank u -> row l fs -> row (u ++ l) fs.
Proof.
  intros U R. destruct R as [w W|w f l fs W S R N].
  - constructor. now apply Forall_app.
  - rewrite app_assoc. constructor; auto. now apply Forall_app.
Qed.

Lemma row_join l fs : row l fs -> forall m gs, row m gs -> row ((l ++ [10; 32]) ++ m) (fs ++ gs).
Proof.
  induction 1 as [w W|w f l fs W S R IH N]; intros m gs M.
  - cbn [app]. apply row_blank_front; [|exact M]. apply Forall_app. split; [exact W|].
    repeat (constructor; [unfold blank; lia|]). constructor.
  - cbn [app]. rewrite <- !app_assoc. constructor; [exact W|exact S| |].
    + specialize (IH m gs M). now rewrite <- app_assoc in IH.
    + intros c r. destruct l as [|c' l]; cbn [app].
      * intros [= <- _]. unfold blank. lia.
      * intros [= <- _]. eapply N. reflexivity.
Qed.

Lemma fields_of_file content fs : file_fields content fs ->
  py_fields (flat_map (fun l => l ++ [10; 32]) (py_lines content)) = fs.
Proof.
  intros (ls & rows & T & H & ->). rewrite (lines_of _ _ T). clear T. apply fields_row.
  induction H as [|l r ls rows R H IH]; cbn [flat_map concat]; [constructor; constructor|].
  now apply row_join.
Qed.

Section Stats.
Context {N : Type}.
Variable P : py_float N.

Lemma parse_all : forall ns xs, Forall2 (fun n x => n_parse P n = Some x) ns xs -> forall d,
  for_each ns (fun d t => x <- py_parse P t ;; Ok (d ++ [x])) d = Ok (d ++ xs).
Proof.
  induction 1 as [|n x ns xs E H IH]; intros d; cbn [for_each]; [now rewrite app_nil_r|].
  unfold py_parse at 1. rewrite E. cbn [bind]. rewrite IH, <- app_assoc. reflexivity.
Qed.

Lemma stats_ok content fs ns xs ws : file_fields content fs -> numbers_of fs ns ->
  Forall2 (fun n x => n_parse P n = Some x) ns xs -> length ns = 82%nat ->
  Forall2 (fun x w => n_pack P x = Some w) (firstn 41 xs) ws -> Forall (fits 4) ws ->
  convert_cmvn_stats P content = Ok (vector_file ws).
Proof.
  intros F K X L W S. unfold convert_cmvn_stats.
  rewrite (fields_of_file _ _ F), (numbers_filter _ _ K), (parse_all _ _ X). cbn [bind app].
  pose proof (Forall2_len _ _ _ _ _ X) as LX. pose proof (eq_trans (eq_sym LX) L) as LY.
  assert (LL : length ws = 41%nat).
  { rewrite <- (Forall2_len _ _ _ _ _ W), firstn_length, LY. reflexivity. }
  unfold lenZ at 1. rewrite LY. change (Z.of_nat 82 =? 82) with true. cbv iota.
  apply write_vec_words; [|rewrite LL; cbn; lia]. clear - W S.
  induction W as [|c w costs ws Q PK IH]; constructor.
  - unfold pack_float. rewrite Q. inversion S; subst. now apply pack_int_word.
  - inversion S; subst. now apply IH.
Qed.

Lemma stats_count content fs ns xs : file_fields content fs -> numbers_of fs ns ->
  Forall2 (fun n x => n_parse P n = Some x) ns xs -> length ns <> 82%nat ->
  convert_cmvn_stats P content = Fault Throw.
Proof.
  intros F K X L. unfold convert_cmvn_stats.
  rewrite (fields_of_file _ _ F), (numbers_filter _ _ K), (parse_all _ _ X). cbn [bind app].
  pose proof (Forall2_len _ _ _ _ _ X) as LX. unfold lenZ at 1.
  destruct (Z.eqb_spec (Z.of_nat (length xs)) 82) as [Q|]; [|reflexivity].
  exfalso. apply L. etransitivity; [exact LX|]. lia.
Qed.
End Stats.
