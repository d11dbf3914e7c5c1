(** Reading graph files: every operation on the stream takes exactly the bytes
    of its layout. *)
From Coq Require Import ZArith List Bool Lia.
From Verif.Base Require Import Prelude Lemmas.
From Verif.Model Require Import Util File Binary Fst Decoder ConstFst.
From Verif.Spec Require Import AudioSpec FormatSpec FstSpec ConstFstSpec.
From Verif.Proof Require Import Binary.
Import ListNotations.
Open Scope Z_scope.
Ltac Zify.zify_post_hook ::= Z.div_mod_to_equations.

(** The bytes [c] were read between [s] and [s']. *)
Definition took (s : stream) (c : bytes) (s' : stream) : Prop :=
  st_failed s = false /\ st_failed s' = false /\ st_rest s = c ++ st_rest s' /\
  st_pos s' = st_pos s + lenZ c.

Lemma lenZ_app : forall A (a b : list A), lenZ (a ++ b) = lenZ a + lenZ b.
Proof. intros. unfold lenZ. rewrite app_length. lia. Qed.

Lemma took_nil : forall s, st_failed s = false -> took s [] s.
Proof. intros s H. repeat split; auto. unfold lenZ. cbn. lia. Qed.

Lemma took_app : forall s c1 s1 c2 s2, took s c1 s1 -> took s1 c2 s2 -> took s (c1 ++ c2) s2.
Proof.
  intros s c1 s1 c2 s2 (A1 & A2 & A3 & A4) (B1 & B2 & B3 & B4). repeat split; auto.
  - rewrite A3, B3, app_assoc. reflexivity.
  - rewrite lenZ_app. lia.
Qed.

Lemma took_bytes : forall s c s', took s c s' -> byte_list (st_rest s) -> byte_list c /\ byte_list (st_rest s').
Proof. intros s c s' (_ & _ & E & _) B. rewrite E in B. apply Forall_app in B. exact B. Qed.

Lemma took_length : forall s c s', took s c s' -> length (st_rest s) = (length c + length (st_rest s'))%nat.
Proof. intros s c s' (_ & _ & E & _). rewrite E, app_length. reflexivity. Qed.

(** The stream after the bytes [c]. *)
Definition behind (c : bytes) (rest : bytes) (s : stream) : stream :=
  mk_stream rest (st_pos s + lenZ c) false.

Lemma took_behind : forall s c rest, st_failed s = false -> st_rest s = c ++ rest -> took s c (behind c rest s).
Proof. intros s c rest F E. repeat split; auto. Qed.

Lemma took_eq : forall s c s', took s c s' -> s' = behind c (st_rest s') s.
Proof. intros s c [r p f] (_ & F & _ & P). cbn in *. subst. reflexivity. Qed.

(** ** Plain reads *)
Lemma read_fwd : forall c s rest n, st_failed s = false -> st_rest s = c ++ rest -> lenZ c = n ->
  st_read n s = (c, behind c rest s).
Proof.
  intros c s rest n F E <-. unfold st_read. rewrite F, E. unfold lenZ.
  rewrite Nat2Z.id, firstn_app, firstn_all, skipn_app, skipn_all, Nat.sub_diag. cbn [firstn skipn app].
  rewrite app_nil_r. rewrite Z.ltb_irrefl. reflexivity.
Qed.

Lemma read_inv : forall n s got s', 0 <= n -> st_read n s = (got, s') -> st_failed s' = false ->
  took s got s' /\ lenZ got = n.
Proof.
  intros n s got s' N E F. unfold st_read in E. destruct (st_failed s) eqn:Fs.
  - injection E as <- <-. congruence.
  - injection E as <- <-. cbn [st_failed] in F. apply Z.ltb_ge in F.
    assert (L : lenZ (firstn (Z.to_nat n) (st_rest s)) <= n)
      by (unfold lenZ; pose proof (firstn_le_length (Z.to_nat n) (st_rest s)); lia).
    split; [|lia]. split; [exact Fs|]. split; [apply Z.ltb_ge; exact F|].
    split; [cbn [st_rest]; rewrite firstn_skipn; reflexivity|reflexivity].
Qed.

Lemma read_shrinks : forall n s, (length (st_rest (snd (st_read n s))) <= length (st_rest s))%nat.
Proof.
  intros n s. unfold st_read. destruct (st_failed s); [cbn; lia|]. cbn [snd st_rest].
  rewrite skipn_length. lia.
Qed.

Lemma read_failed : forall n s, st_failed s = true -> st_failed (snd (st_read n s)) = true.
Proof. intros n s F. unfold st_read. rewrite F. exact F. Qed.

(** ** Integers *)
Lemma int_fwd : forall n z s rest, (0 < n)%nat -> fits n z -> st_failed s = false ->
  st_rest s = encode n z ++ rest -> st_int n s = (z, behind (encode n z) rest s).
Proof.
  intros n z s rest P Fz F E. unfold st_int.
  rewrite (read_fwd (encode n z) s rest) by (auto; unfold lenZ; rewrite encode_length; reflexivity).
  rewrite encode_length, Nat.sub_diag. cbn [repeat]. rewrite app_nil_r, le_signed_encode by assumption.
  reflexivity.
Qed.

Lemma int_took : forall n s z s', st_int n s = (z, s') -> st_failed s' = false ->
  exists c, took s c s' /\ length c = n /\ z = le_signed c.
Proof.
  intros n s z s' E F. unfold st_int in E. destruct (st_read (Z.of_nat n) s) as [got s1] eqn:R.
  injection E as <- <-. destruct (read_inv _ _ _ _ (Nat2Z.is_nonneg n) R F) as [T L]. exists got.
  unfold lenZ in L. split; [exact T|]. split; [lia|].
  replace (n - length got)%nat with 0%nat by lia. cbn [repeat]. rewrite app_nil_r. reflexivity.
Qed.

Lemma int_inv : forall n s z s', (0 < n)%nat -> byte_list (st_rest s) -> st_int n s = (z, s') -> st_failed s' = false ->
  took s (encode n z) s' /\ fits n z.
Proof.
  intros n s z s' P B E F. destruct (int_took n s z s' E F) as (c & T & L & ->).
  destruct (took_bytes _ _ _ T B) as [Bc _]. subst n. rewrite encode_le_signed by assumption. split; [exact T|].
  apply le_signed_fits; [exact Bc|]. intros ->. cbn in P. lia.
Qed.

Lemma int_failed : forall n s, st_failed s = true -> st_failed (snd (st_int n s)) = true.
Proof.
  intros n s F. unfold st_int. pose proof (read_failed (Z.of_nat n) s F) as H.
  destruct (st_read (Z.of_nat n) s). exact H.
Qed.

Lemma int_ok : forall n s z s', st_int n s = (z, s') -> st_failed s' = false -> st_failed s = false.
Proof.
  intros n s z s' E F. destruct (st_failed s) eqn:Fs; [|reflexivity].
  pose proof (int_failed n s Fs) as H. rewrite E in H. cbn in H. congruence.
Qed.

Lemma four : (0 < 4)%nat. Proof. lia. Qed.
Lemma eight : (0 < 8)%nat. Proof. lia. Qed.

Section Read.
Variable junk : nat -> Z.
Notation st_chars := (st_chars junk).
Notation st_string := (st_string junk).
Notation header_read := (header_read junk).
Notation symbols_loop := (symbols_loop junk).
Notation symbols_read := (symbols_read junk).
Notation fst_header := (fst_header junk).

(** ** Strings *)
Lemma chars_fwd : forall c s rest, st_failed s = false -> st_rest s = c ++ rest ->
  st_chars (length c) s = (c, behind c rest s).
Proof.
  induction c as [|x c IH]; intros s rest F E.
  - cbn [length ConstFst.st_chars]. unfold behind. cbn [app] in E. subst rest. destruct s as [r p f]. cbn in *.
    subst f. unfold lenZ. cbn. rewrite Z.add_0_r. reflexivity.
  - cbn [length ConstFst.st_chars]. rewrite (read_fwd [x] s (c ++ rest)) by auto.
    rewrite (IH (behind [x] (c ++ rest) s) rest) by reflexivity.
    unfold behind. cbn [st_pos]. unfold lenZ. cbn [length]. f_equal. f_equal. lia.
Qed.

Lemma chars_inv : forall n s t s', st_chars n s = (t, s') -> st_failed s' = false -> took s t s' /\ length t = n.
Proof.
  induction n as [|n IH]; intros s t s' E F; cbn [ConstFst.st_chars] in E.
  - injection E as <- <-. split; [apply took_nil; exact F|reflexivity].
  - destruct (st_read 1 s) as [got s1] eqn:R. destruct (st_chars n s1) as [text s2] eqn:C.
    injection E as <- <-. destruct (IH s1 text s2 C F) as [T L].
    assert (F1 : st_failed s1 = false) by (destruct T; assumption).
    destruct (read_inv _ _ _ _ Z.le_0_1 R F1) as [T1 L1].
    destruct got as [|x [|y got]]; unfold lenZ in L1; cbn [length] in L1; try lia.
    split; [|cbn [length]; lia]. change (x :: text) with ([x] ++ text). exact (took_app _ _ _ _ _ T1 T).
Qed.

Lemma string_fwd : forall b t s rest, sized_text b t -> st_failed s = false -> st_rest s = b ++ rest ->
  st_string s = (t, behind b rest s).
Proof.
  intros b t s rest (n & Fn & L & ->) F E. unfold ConstFst.st_string. rewrite <- app_assoc in E.
  unfold word in *. rewrite (int_fwd 4 n s (t ++ rest)) by (auto; lia). rewrite <- L.
  rewrite (chars_fwd t (behind (encode 4 n) (t ++ rest) s) rest) by reflexivity.
  unfold behind. cbn [st_pos]. rewrite lenZ_app. f_equal. f_equal. lia.
Qed.

Lemma string_took : forall s t s', st_string s = (t, s') -> st_failed s' = false ->
  exists c, took s c s' /\ (4 <= length c)%nat.
Proof.
  intros s t s' E F. unfold ConstFst.st_string in E. destruct (st_int 4 s) as [n s1] eqn:I.
  destruct (chars_inv _ _ _ _ E F) as [T L]. assert (F1 : st_failed s1 = false) by (destruct T; assumption).
  destruct (int_took 4 s n s1 I F1) as (c & T1 & L1 & _). exists (c ++ t).
  split; [exact (took_app _ _ _ _ _ T1 T)|rewrite app_length; lia].
Qed.

Lemma string_inv : forall s t s', byte_list (st_rest s) -> st_string s = (t, s') -> st_failed s' = false ->
  exists b, took s b s' /\ sized_text b t.
Proof.
  intros s t s' B E F. unfold ConstFst.st_string in E. destruct (st_int 4 s) as [n s1] eqn:I.
  destruct (chars_inv _ _ _ _ E F) as [T L]. assert (F1 : st_failed s1 = false) by (destruct T; assumption).
  destruct (int_inv 4 s n s1 ltac:(lia) B I F1) as (T1 & Fn). exists (encode 4 n ++ t).
  split; [exact (took_app _ _ _ _ _ T1 T)|]. exists n. auto.
Qed.

(** ** The header *)
Definition header_bytes (h : header) (props : Z) (t1 t2 : bytes) : bytes :=
  word 2125659606 ++ t1 ++ t2 ++ word (h_version h) ++ word (h_flags h) ++ encode 8 props ++
  encode 8 (h_start h) ++ encode 8 (h_num_states h) ++ encode 8 (h_num_arcs h).

Definition header_at (b : bytes) (h : header) : Prop :=
  exists props t1 t2, b = header_bytes h props t1 t2 /\ sized_text t1 (h_type h) /\ sized_text t2 (h_arcs_type h) /\
    fits 4 (h_version h) /\ fits 4 (h_flags h) /\ fits 8 props /\ fits 8 (h_start h) /\ fits 8 (h_num_states h) /\
    fits 8 (h_num_arcs h).

Lemma header_fwd : forall b h s rest, header_at b h -> st_failed s = false -> st_rest s = b ++ rest ->
  header_read s = (Some h, behind b rest s).
Proof.
  intros b h s rest (props & t1 & t2 & -> & S1 & S2 & F1 & F2 & F3 & F4 & F5 & F6) F E.
  unfold header_bytes in *. rewrite <- !app_assoc in E. unfold ConstFst.header_read, word in *.
  rewrite (int_fwd 4 2125659606 s _ ltac:(lia) ltac:(unfold fits; cbn; lia) F E). rewrite Z.eqb_refl. cbn [negb].
  erewrite (string_fwd t1 (h_type h)) by (auto; reflexivity).
  erewrite (string_fwd t2 (h_arcs_type h)) by (auto; reflexivity).
  erewrite (int_fwd 4 (h_version h)) by (auto; try lia; reflexivity).
  erewrite (int_fwd 4 (h_flags h)) by (auto; try lia; reflexivity).
  erewrite (int_fwd 8 props) by (auto; try lia; reflexivity).
  erewrite (int_fwd 8 (h_start h)) by (auto; try lia; reflexivity).
  erewrite (int_fwd 8 (h_num_states h)) by (auto; try lia; reflexivity).
  erewrite (int_fwd 8 (h_num_arcs h)) by (auto; try lia; reflexivity).
  unfold behind. cbn [st_failed st_pos]. rewrite !lenZ_app. destruct h as [x1 x2 x3 x4 x5 x6 x7]. cbn [h_type h_arcs_type h_version h_flags h_start h_num_states h_num_arcs].
  f_equal. f_equal. lia.
Qed.

Lemma header_inv : forall s h s', byte_list (st_rest s) -> header_read s = (Some h, s') ->
  st_failed s' = false /\ exists b, took s b s' /\ header_at b h.
Proof.
  intros s h s' B E. unfold ConstFst.header_read in E.
  destruct (st_int 4 s) as [magic s1] eqn:E1. destruct (Z.eqb_spec magic 2125659606) as [->|]; cbn [negb] in E; [|discriminate E].
  destruct (st_string s1) as [t s2] eqn:E2. destruct (st_string s2) as [a s3] eqn:E3.
  destruct (st_int 4 s3) as [version s4] eqn:E4. destruct (st_int 4 s4) as [flags s5] eqn:E5.
  destruct (st_int 8 s5) as [props s6] eqn:E6. destruct (st_int 8 s6) as [start s7] eqn:E7.
  destruct (st_int 8 s7) as [states s8] eqn:E8. destruct (st_int 8 s8) as [arcs s9] eqn:E9.
  destruct (st_failed s9) eqn:F9; [discriminate E|]. injection E as <- <-. split; [exact F9|].
  pose proof (int_ok _ _ _ _ E9 F9) as F8. pose proof (int_ok _ _ _ _ E8 F8) as F7. pose proof (int_ok _ _ _ _ E7 F7) as F6.
  pose proof (int_ok _ _ _ _ E6 F6) as F5. pose proof (int_ok _ _ _ _ E5 F5) as F4. pose proof (int_ok _ _ _ _ E4 F4) as F3.
  destruct (string_took _ _ _ E3 F3) as (c3 & T3 & _). assert (F2 : st_failed s2 = false) by (destruct T3; assumption). clear c3 T3.
  destruct (string_took _ _ _ E2 F2) as (c2 & T2 & _). assert (F1 : st_failed s1 = false) by (destruct T2; assumption). clear c2 T2.
  destruct (int_inv 4 _ _ _ four B E1 F1) as [T1 _]. destruct (took_bytes _ _ _ T1 B) as [_ B1].
  destruct (string_inv _ _ _ B1 E2 F2) as (b2 & T2 & S2). destruct (took_bytes _ _ _ T2 B1) as [_ B2].
  destruct (string_inv _ _ _ B2 E3 F3) as (b3 & T3 & S3). destruct (took_bytes _ _ _ T3 B2) as [_ B3].
  destruct (int_inv 4 _ _ _ four B3 E4 F4) as [T4 I4]. destruct (took_bytes _ _ _ T4 B3) as [_ B4].
  destruct (int_inv 4 _ _ _ four B4 E5 F5) as [T5 I5]. destruct (took_bytes _ _ _ T5 B4) as [_ B5].
  destruct (int_inv 8 _ _ _ eight B5 E6 F6) as [T6 I6]. destruct (took_bytes _ _ _ T6 B5) as [_ B6].
  destruct (int_inv 8 _ _ _ eight B6 E7 F7) as [T7 I7]. destruct (took_bytes _ _ _ T7 B6) as [_ B7].
  destruct (int_inv 8 _ _ _ eight B7 E8 F8) as [T8 I8]. destruct (took_bytes _ _ _ T8 B7) as [_ B8].
  destruct (int_inv 8 _ _ _ eight B8 E9 F9) as [T9 I9].
  eexists. split; [exact (took_app _ _ _ _ _ T1 (took_app _ _ _ _ _ T2 (took_app _ _ _ _ _ T3 (took_app _ _ _ _ _ T4
    (took_app _ _ _ _ _ T5 (took_app _ _ _ _ _ T6 (took_app _ _ _ _ _ T7 (took_app _ _ _ _ _ T8 T9))))))))|].
  exists props, b2, b3. split; [reflexivity|]. cbn [h_type h_arcs_type h_version h_flags h_start h_num_states h_num_arcs]. auto 10.
Qed.

(** ** Tables of symbols *)
Lemma entry_length : forall b, symbol_entry b -> (0 < length b)%nat.
Proof.
  intros b (t & s & key & _ & _ & ->). rewrite app_length, encode_length. lia.
Qed.

Lemma symbols_loop_fwd : forall entries fuel left s rest, Forall symbol_entry entries ->
  st_failed s = false -> st_rest s = concat entries ++ rest -> length entries = Z.to_nat left ->
  (length (st_rest s) < fuel)%nat ->
  symbols_loop fuel left s = Ok (behind (concat entries) rest s).
Proof.
  induction entries as [|e entries IH]; intros fuel left s rest H F E L Hf.
  - cbn [length] in L. destruct fuel as [|fuel]; [lia|]. cbn [ConstFst.symbols_loop]. destruct (Z.leb_spec left 0); [|lia].
    destruct s as [r p f]. cbn in *. subst. unfold behind, lenZ. cbn. rewrite Z.add_0_r. reflexivity.
  - inversion_clear H as [|? ? He Hr]. cbn [length] in L. destruct fuel as [|fuel]; [lia|]. cbn [ConstFst.symbols_loop].
    destruct (Z.leb_spec left 0); [lia|]. pose proof (entry_length e He) as Le.
    assert (Hl : (length (concat entries ++ rest) < fuel)%nat).
    { rewrite E in Hf. cbn [concat] in Hf. rewrite !app_length in *. lia. }
    destruct He as (t & sym & key & St & Fk & ->).
    cbn [concat] in E. rewrite <- !app_assoc in E. rewrite (string_fwd t sym s _ St F E).
    erewrite (int_fwd 8 key) by (auto; try lia; reflexivity).
    cbn [behind st_failed]. rewrite (IH fuel (left - 1) _ rest Hr); try reflexivity; [|lia|exact Hl].
    unfold behind. cbn [st_pos concat]. rewrite !lenZ_app. do 2 f_equal. lia.
Qed.

Lemma symbols_fwd : forall b s rest, symbol_file b -> st_failed s = false -> st_rest s = b ++ rest ->
  symbols_read s = Ok (behind b rest s).
Proof.
  intros b s rest (magic & t & name & next & n & entries & F1 & S & F2 & F3 & L & He & ->) F E.
  rewrite <- !app_assoc in E. unfold ConstFst.symbols_read, word in *.
  rewrite (int_fwd 4 magic s _ ltac:(lia) F1 F E). cbn [behind st_failed].
  erewrite (string_fwd t name) by (auto; reflexivity).
  erewrite (int_fwd 8 next) by (auto; try lia; reflexivity).
  erewrite (int_fwd 8 n) by (auto; try lia; reflexivity).
  cbn [behind st_failed].
  erewrite (symbols_loop_fwd entries); [|exact He|reflexivity|reflexivity|exact L|apply Nat.lt_succ_diag_r].
  unfold behind. cbn [st_pos]. rewrite !lenZ_app. do 2 f_equal. lia.
Qed.

Lemma symbols_loop_inv : forall fuel left s s', byte_list (st_rest s) -> symbols_loop fuel left s = Ok s' -> st_failed s' = false ->
  exists entries, Forall symbol_entry entries /\ length entries = Z.to_nat left /\ took s (concat entries) s'.
Proof.
  induction fuel as [|fuel IH]; intros left s s' B E F; cbn [ConstFst.symbols_loop] in E.
  - destruct (Z.leb_spec left 0); [|discriminate E]. injection E as <-. exists []. split; [constructor|].
    split; [cbn; lia|apply took_nil; exact F].
  - destruct (Z.leb_spec left 0).
    + injection E as <-. exists []. split; [constructor|]. split; [cbn; lia|apply took_nil; exact F].
    + destruct (st_string s) as [sym s1] eqn:E1. destruct (st_int 8 s1) as [key s2] eqn:E2.
      destruct (st_failed s2) eqn:F2; [injection E as <-; congruence|]. pose proof (int_ok _ _ _ _ E2 F2) as F1.
      destruct (string_inv _ _ _ B E1 F1) as (b & T1 & S1). destruct (took_bytes _ _ _ T1 B) as [_ B1].
      destruct (int_inv 8 _ _ _ eight B1 E2 F2) as [T2 I2]. destruct (took_bytes _ _ _ T2 B1) as [_ B2].
      destruct (IH _ _ _ B2 E F) as (entries & He & L & T3). exists ((b ++ encode 8 key) :: entries).
      split; [constructor; [exists b, sym, key; auto|exact He]|]. split; [cbn [length]; lia|].
      cbn [concat]. exact (took_app _ _ _ _ _ (took_app _ _ _ _ _ T1 T2) T3).
Qed.

Lemma symbols_inv : forall s s', byte_list (st_rest s) -> symbols_read s = Ok s' -> st_failed s' = false ->
  exists b, took s b s' /\ symbol_file b.
Proof.
  intros s s' B E F. unfold ConstFst.symbols_read in E. destruct (st_int 4 s) as [magic s1] eqn:E1.
  destruct (st_failed s1) eqn:F1; [injection E as <-; congruence|].
  destruct (st_string s1) as [name s2] eqn:E2. destruct (st_int 8 s2) as [next s3] eqn:E3. destruct (st_int 8 s3) as [n s4] eqn:E4.
  destruct (st_failed s4) eqn:F4; [injection E as <-; congruence|].
  pose proof (int_ok _ _ _ _ E4 F4) as F3. pose proof (int_ok _ _ _ _ E3 F3) as F2.
  destruct (int_inv 4 _ _ _ four B E1 F1) as [T1 I1]. destruct (took_bytes _ _ _ T1 B) as [_ B1].
  destruct (string_inv _ _ _ B1 E2 F2) as (b & T2 & S2). destruct (took_bytes _ _ _ T2 B1) as [_ B2].
  destruct (int_inv 8 _ _ _ eight B2 E3 F3) as [T3 I3]. destruct (took_bytes _ _ _ T3 B2) as [_ B3].
  destruct (int_inv 8 _ _ _ eight B3 E4 F4) as [T4 I4]. destruct (took_bytes _ _ _ T4 B3) as [_ B4].
  destruct (symbols_loop_inv _ _ _ _ B4 E F) as (entries & He & L & T5).
  eexists. split; [exact (took_app _ _ _ _ _ T1 (took_app _ _ _ _ _ T2 (took_app _ _ _ _ _ T3 (took_app _ _ _ _ _ T4 T5))))|].
  exists magic, b, name, next, n, entries. auto 10.
Qed.

Lemma symbols_loop_ends : forall fuel left s, (length (st_rest s) < fuel)%nat -> exists s', symbols_loop fuel left s = Ok s'.
Proof.
  induction fuel as [|fuel IH]; intros left s L; [lia|]. cbn [ConstFst.symbols_loop].
  destruct (Z.leb_spec left 0); [eauto|].
  destruct (st_string s) as [sym s1] eqn:E1. destruct (st_int 8 s1) as [key s2] eqn:E2.
  destruct (st_failed s2) eqn:F2; [eauto|]. apply IH.
  destruct (int_took _ _ _ _ E2 F2) as (c2 & T2 & L2 & _). assert (F1 : st_failed s1 = false) by (destruct T2; assumption).
  destruct (string_took _ _ _ E1 F1) as (c1 & T1 & L1). pose proof (took_length _ _ _ T1). pose proof (took_length _ _ _ T2). lia.
Qed.

Lemma symbols_ends : forall s, exists s', symbols_read s = Ok s'.
Proof.
  intros s. unfold ConstFst.symbols_read. destruct (st_int 4 s) as [magic s1]. destruct (st_failed s1); [eauto|].
  destruct (st_string s1) as [name s2]. destruct (st_int 8 s2) as [next s3]. destruct (st_int 8 s3) as [n s4].
  destruct (st_failed s4); [eauto|]. apply symbols_loop_ends. lia.
Qed.

End Read.

(** ** Padding *)
Lemma align_fwd : forall b n s rest, (length b < n)%nat -> (length b < 16)%nat -> (st_pos s + lenZ b) mod 16 = 0 ->
  st_failed s = false -> st_rest s = b ++ rest -> align_input n s = (true, behind b rest s).
Proof.
  induction b as [|x b IH]; intros n s rest L L16 A F E; (destruct n as [|n]; [cbn in L; lia|]); cbn [align_input]; rewrite F.
  - unfold lenZ in A. cbn [length] in A. rewrite Z.add_0_r in A. rewrite A, Z.eqb_refl.
    destruct s as [r p f]. cbn in *. subst. unfold behind, lenZ. cbn. rewrite Z.add_0_r. reflexivity.
  - unfold lenZ in A. cbn [length] in A, L, L16. destruct (Z.eqb_spec (st_pos s mod 16) 0); [lia|].
    rewrite (read_fwd [x] s (b ++ rest)) by auto. cbn [snd].
    rewrite (IH n _ rest); cbn [behind st_pos st_failed st_rest]; auto; try lia.
    + unfold behind. cbn [st_pos]. unfold lenZ. cbn [length]. do 2 f_equal. lia.
    + unfold lenZ. cbn [length]. rewrite <- A. f_equal. lia.
Qed.

Lemma align_inv : forall n s s', (Z.to_nat ((- st_pos s) mod 16) < n)%nat -> align_input n s = (true, s') -> st_failed s' = false ->
  exists b, took s b s' /\ (length b < 16)%nat /\ (st_pos s + lenZ b) mod 16 = 0.
Proof.
  induction n as [|n IH]; intros s s' L E F; [lia|]. cbn [align_input] in E.
  destruct (st_failed s) eqn:Fs; [discriminate E|]. destruct (Z.eqb_spec (st_pos s mod 16) 0) as [A|A].
  - injection E as <-. exists []. split; [apply took_nil; exact F|]. split; [cbn; lia|]. unfold lenZ. cbn. lia.
  - destruct (st_read 1 s) as [got s1] eqn:R. cbn [snd] in E.
    destruct (st_failed s1) eqn:F1.
    + destruct n as [|n]; cbn [align_input] in E; [injection E as <-; congruence|]. rewrite F1 in E. discriminate E.
    + destruct (read_inv _ _ _ _ Z.le_0_1 R F1) as [T1 L1].
      assert (P1 : st_pos s1 = st_pos s + 1) by (destruct T1 as (_ & _ & _ & ->); lia).
      destruct (IH s1 s') as (b & T & Lb & Ab); auto.
      { rewrite P1. lia. }
      exists (got ++ b). split; [exact (took_app _ _ _ _ _ T1 T)|]. unfold lenZ in *. rewrite app_length. rewrite P1 in Ab.
      assert (length b <> 15%nat) by (intros Eb; rewrite Eb in Ab; apply A; replace (st_pos s + 1 + Z.of_nat 15) with (st_pos s + 1 * 16) in Ab by lia; rewrite Z_mod_plus_full in Ab; exact Ab).
      split; [lia|]. rewrite Nat2Z.inj_add, L1. rewrite <- Ab. f_equal. lia.
Qed.
