(** Which graph files are accepted, and as what. *)
From Coq Require Import ZArith String List Bool Lia.
From Verif.Base Require Import Prelude Lemmas.
From Verif.Model Require Import Util File Binary Fst Decoder Stt ConstFst.
From Verif.Spec Require Import AudioSpec FormatSpec FstSpec ConstFstSpec.
From Verif.Proof Require Import Binary ConstFst ConstFstRead.
Import ListNotations.
Open Scope Z_scope.
Ltac Zify.zify_post_hook ::= Z.div_mod_to_equations.

Section File.
Variable junk : nat -> Z.
Variable room : Z -> bool.
Notation fst_header := (fst_header junk).
Notation const_read := (const_read junk room).

Definition known (h : header) : Prop := h_type h = s_const /\ h_arcs_type h = s_standard /\ 1 <= h_version h.
Definition symbols_at (flag : bool) (b : bytes) : Prop := if flag then symbol_file b else b = [].

Lemma behind_nil : forall s, st_failed s = false -> behind [] (st_rest s) s = s.
Proof. intros [r p f] F. cbn in *. subst. unfold behind, lenZ. cbn. rewrite Z.add_0_r. reflexivity. Qed.

Lemma behind_app : forall a b r1 rest s, behind b rest (behind a r1 s) = behind (a ++ b) rest s.
Proof. intros. unfold behind. cbn [st_pos]. rewrite lenZ_app. f_equal. lia. Qed.

Lemma opt_symbols_fwd : forall (flag : bool) b s rest, symbols_at flag b -> st_failed s = false -> st_rest s = b ++ rest ->
  (if flag then symbols_read junk s else Ok s) = Ok (behind b rest s).
Proof.
  intros flag b s rest H F E. destruct flag; cbn [symbols_at] in H.
  - apply symbols_fwd; auto.
  - subst b. cbn [app] in E. subst rest. rewrite behind_nil by exact F. reflexivity.
Qed.

Lemma opt_symbols_inv : forall (flag : bool) s s', byte_list (st_rest s) ->
  (if flag then symbols_read junk s else Ok s) = Ok s' -> st_failed s' = false ->
  exists b, took s b s' /\ symbols_at flag b.
Proof.
  intros flag s s' B E F. destruct flag; cbn [symbols_at].
  - destruct (symbols_inv junk s s' B E F) as (b & T & H). eauto.
  - injection E as <-. exists []. split; [apply took_nil; exact F|reflexivity].
Qed.

Lemma fst_header_fwd : forall b h isyms osyms s rest, header_at b h -> known h ->
  symbols_at (Z.testbit (h_flags h) 0) isyms -> symbols_at (Z.testbit (h_flags h) 1) osyms ->
  st_failed s = false -> st_rest s = (b ++ isyms ++ osyms) ++ rest ->
  fst_header s = Ok (Some h, behind (b ++ isyms ++ osyms) rest s).
Proof.
  intros b h isyms osyms s rest Hb (K1 & K2 & K3) Hi Ho F E. rewrite <- !app_assoc in E. unfold ConstFst.fst_header.
  rewrite (header_fwd junk b h s _ Hb F E).
  rewrite K1, K2. rewrite !(proj2 (str_eqb_eq _ _) eq_refl). destruct (Z.ltb_spec (h_version h) 1); [lia|]. cbn [negb orb].
  rewrite (opt_symbols_fwd _ isyms _ (osyms ++ rest) Hi); [|reflexivity|reflexivity]. cbn [bind].
  rewrite (opt_symbols_fwd _ osyms _ rest Ho); [|reflexivity|reflexivity]. cbn [bind].
  rewrite !behind_app, app_assoc. reflexivity.
Qed.

Lemma fst_header_some : forall s h s', byte_list (st_rest s) -> fst_header s = Ok (Some h, s') ->
  known h /\ exists b s1, took s b s1 /\ header_at b h.
Proof.
  intros s h s' B E. unfold ConstFst.fst_header in E.
  destruct (header_read junk s) as [[h0|] s1] eqn:E0; [|discriminate E].
  destruct (header_inv junk _ _ _ B E0) as (F1 & b & T & Hb).
  destruct (str_eqb (h_type h0) s_const) eqn:K1; cbn [negb orb] in E; [|discriminate E].
  destruct (str_eqb (h_arcs_type h0) s_standard) eqn:K2; cbn [negb orb] in E; [|discriminate E].
  destruct (Z.ltb_spec (h_version h0) 1) as [|K3]; [discriminate E|].
  apply bind_ok in E. destruct E as (s2 & E2 & E). apply bind_ok in E. destruct E as (s3 & E3 & E). injection E as <- <-.
  apply str_eqb_eq in K1, K2. split; [repeat split; auto|]. eauto.
Qed.

Lemma fst_header_inv : forall s h s', byte_list (st_rest s) -> fst_header s = Ok (Some h, s') -> st_failed s' = false ->
  known h /\ exists b isyms osyms, took s (b ++ isyms ++ osyms) s' /\ header_at b h /\
    symbols_at (Z.testbit (h_flags h) 0) isyms /\ symbols_at (Z.testbit (h_flags h) 1) osyms.
Proof.
  intros s h s' B E F. split; [apply (fst_header_some s h s' B E)|]. unfold ConstFst.fst_header in E.
  destruct (header_read junk s) as [[h0|] s1] eqn:E0; [|discriminate E].
  destruct (header_inv junk _ _ _ B E0) as (F1 & b & T & Hb). destruct (took_bytes _ _ _ T B) as [_ B1].
  destruct (_ || _); [discriminate E|].
  apply bind_ok in E. destruct E as (s2 & E2 & E). apply bind_ok in E. destruct E as (s3 & E3 & E). injection E as <- <-.
  assert (F2 : st_failed s2 = false).
  { destruct (st_failed s2) eqn:F2; [|reflexivity]. exfalso. destruct (Z.testbit (h_flags h0) 1); [|injection E3 as <-; congruence].
    unfold symbols_read in E3. pose proof (int_failed 4 s2 F2) as H. destruct (st_int 4 s2) as [m s4]. cbn [snd] in H. rewrite H in E3.
    injection E3 as <-. congruence. }
  destruct (opt_symbols_inv _ _ _ B1 E2 F2) as (i & Ti & Hi). destruct (took_bytes _ _ _ Ti B1) as [_ B2].
  destruct (opt_symbols_inv _ _ _ B2 E3 F) as (o & To & Ho).
  exists b, i, o. split; [exact (took_app _ _ _ _ _ T (took_app _ _ _ _ _ Ti To))|]. auto.
Qed.

Lemma fst_header_ends : forall s, exists r, fst_header s = Ok r.
Proof.
  intros s. unfold ConstFst.fst_header. destruct (header_read junk s) as [[h|] s1]; [|eauto]. destruct (_ || _); [eauto|].
  assert (H : forall (f : bool) s, exists s', (if f then symbols_read junk s else Ok s) = Ok s')
    by (intros f s0; destruct f; [apply symbols_ends|eauto]).
  destruct (H (Z.testbit (h_flags h) 0) s1) as [s2 ->]. cbn [bind]. destruct (H (Z.testbit (h_flags h) 1) s2) as [s3 ->]. cbn [bind]. eauto.
Qed.

(** ** Padding, if asked for *)
Lemma opt_align_fwd : forall (asked : bool) b front s rest, padding asked front b -> st_pos s = lenZ front ->
  st_failed s = false -> st_rest s = b ++ rest ->
  (if asked then align_input 16 s else (true, s)) = (true, behind b rest s).
Proof.
  intros asked b front s rest H P F E. destruct asked; cbn [padding] in H.
  - destruct H as [L A]. apply align_fwd; auto. rewrite P. unfold lenZ. rewrite <- Nat2Z.inj_add. exact A.
  - subst b. cbn [app] in E. subst rest. rewrite behind_nil by exact F. reflexivity.
Qed.

Lemma opt_align_inv : forall (asked : bool) front s s', st_pos s = lenZ front ->
  (if asked then align_input 16 s else (true, s)) = (true, s') -> st_failed s' = false ->
  exists b, took s b s' /\ padding asked front b.
Proof.
  intros asked front s s' P E F. destruct asked; cbn [padding].
  - destruct (align_inv 16%nat s s') as (b & T & L & A); auto; [lia|]. exists b. split; [exact T|]. split; [exact L|].
    rewrite P in A. unfold lenZ in A. rewrite <- Nat2Z.inj_add in A. exact A.
  - injection E as <-. exists []. split; [apply took_nil; exact F|reflexivity].
Qed.

(** ** Whole files *)
Definition const_of (t : tables) : const_fst := mk_const (tb_start t) (map plain (tb_states t)) (tb_arcs t).

Lemma flat_length : forall A (f : A -> bytes) w l, (forall x, length (f x) = w) -> length (flat_map f l) = (length l * w)%nat.
Proof. intros A f w l H. induction l as [|x l IH]; [reflexivity|]. cbn [flat_map length]. rewrite app_length, H, IH. lia. Qed.

Lemma map_state_of : forall l, Forall row_fits l -> map state_of (map row_bytes l) = map plain l.
Proof. intros l H. induction H as [|r l Hr _ IH]; [reflexivity|]. cbn [map]. rewrite state_of_row, IH by assumption. reflexivity. Qed.
Lemma map_arc_of : forall l, Forall arc_fits l -> map arc_of (map arc_bytes l) = l.
Proof. intros l H. induction H as [|r l Hr _ IH]; [reflexivity|]. cbn [map]. rewrite arc_of_bytes, IH by assumption. reflexivity. Qed.

Lemma file_fwd : forall start states arcs t content rest, graph_layout start states arcs t content rest ->
  reduced start states arcs t -> tables_fit t -> memory_for room (lenZ (tb_states t)) (lenZ (tb_arcs t)) ->
  const_read content = Ok (Some (const_of t), mk_stream rest (lenZ content - lenZ rest) false).
Proof.
  intros start states arcs t content rest
    (t1 & t2 & version & flags & props & isyms & osyms & pad1 & pad2 & S1 & S2 & Fv & V1 & Ff & Fp & Fs & Fn & Fa & Hi & Ho & H)
    (R1 & R2 & R3) (T1 & T2 & T3 & T4) (M1 & M2 & M3).
  cbv zeta in H. destruct H as (P1 & P2 & E).
  set (h := mk_header s_const s_standard version flags start states arcs).
  set (hb := header_bytes h props t1 t2).
  set (front := word 2125659606 ++ t1 ++ t2 ++ word version ++ word flags ++ encode 8 props ++
                encode 8 start ++ encode 8 states ++ encode 8 arcs ++ isyms ++ osyms) in *.
  assert (Ef : front = hb ++ isyms ++ osyms) by (unfold front, hb, header_bytes; rewrite <- !app_assoc; reflexivity).
  assert (Hb : header_at hb h) by (exists props, t1, t2; cbn; auto 10).
  set (sb := flat_map row_bytes (tb_states t)) in *. set (ab := flat_map arc_bytes (tb_arcs t)) in *.
  assert (Ec : content = front ++ pad1 ++ sb ++ pad2 ++ ab ++ rest) by (rewrite E, <- !app_assoc; reflexivity).
  assert (Ls : lenZ sb = 20 * lenZ (tb_states t)) by (unfold lenZ, sb; rewrite (flat_length _ _ 20) by apply row_length; lia).
  assert (La : lenZ ab = 16 * lenZ (tb_arcs t)) by (unfold lenZ, ab; rewrite (flat_length _ _ 16) by apply arc_length; lia).
  unfold ConstFst.const_read. set (s0 := mk_stream content 0 false).
  rewrite (fst_header_fwd hb h isyms osyms s0 (pad1 ++ sb ++ pad2 ++ ab ++ rest) Hb);
    [|repeat split; exact V1|exact Hi|exact Ho|reflexivity|cbn [s0 st_rest]; rewrite Ec, Ef; reflexivity].
  rewrite <- Ef. cbn [bind]. cbn [h h_version h_flags h_num_states h_num_arcs h_start].
  rewrite (opt_align_fwd _ pad1 front (behind front (pad1 ++ sb ++ pad2 ++ ab ++ rest) s0) (sb ++ pad2 ++ ab ++ rest) P1);
    [|unfold behind, s0; cbn [st_pos]; lia|reflexivity|reflexivity]. cbn [negb]. rewrite behind_app.
  assert (Ew : wrap32 states = lenZ (tb_states t)).
  { apply wrap32_reduced; [|exact R2]. unfold fits, lenZ. change (2 ^ (8 * Z.of_nat 4 - 1)) with 2147483648. lia. }
  rewrite Ew. rewrite states_size by (unfold lenZ; lia).
  rewrite (map_fwd room _ _ sb (pad2 ++ ab ++ rest)); [|exact Ls|reflexivity|reflexivity|unfold lenZ in *; lia|intros; apply M1; lia].
  cbn [bind]. rewrite behind_app. cbn [behind st_failed].
  change (mk_stream ?r (?p + lenZ ?c) false) with (behind c r s0).
  rewrite (opt_align_fwd _ pad2 (front ++ pad1 ++ sb) (behind ((front ++ pad1) ++ sb) (pad2 ++ ab ++ rest) s0) (ab ++ rest) P2);
    [|unfold behind, s0; cbn [st_pos]; rewrite <- app_assoc; lia|reflexivity|reflexivity]. cbn [negb]. rewrite behind_app.
  rewrite arcs_size. assert (Em : arcs mod 1152921504606846976 = lenZ (tb_arcs t)).
  { destruct R3 as (k & ->). rewrite Z_mod_plus_full. apply Z.mod_small. unfold lenZ in *. lia. }
  rewrite Em. rewrite (map_fwd room _ _ ab rest); [|exact La|reflexivity|reflexivity|lia|intros; apply M2; lia].
  cbn [bind]. rewrite behind_app. cbn [behind st_failed]. unfold const_of. rewrite (wrap32_reduced start _ T1 R1).
  replace (Z.to_nat (16 * lenZ (tb_arcs t) / 16)) with (length (tb_arcs t)) by (unfold lenZ; lia).
  replace (Z.to_nat (lenZ (tb_states t))) with (length (tb_states t)) by (unfold lenZ; lia).
  unfold sb, ab. rewrite (records_fwd _ _ _ row_length), (records_fwd _ _ _ arc_length), map_state_of, map_arc_of by assumption.
  assert (EL : lenZ content = lenZ front + lenZ pad1 + lenZ sb + lenZ pad2 + lenZ ab + lenZ rest) by (rewrite Ec, !lenZ_app; lia).
  unfold behind. rewrite !lenZ_app. cbn [s0 st_pos]. fold sb ab. rewrite EL.
  do 3 f_equal. lia.
Qed.

Lemma file_inv : forall content c s', byte_list content -> const_read content = Ok (Some c, s') ->
  exists start states arcs t, graph_layout start states arcs t content (st_rest s') /\ reduced start states arcs t /\
    tables_fit t /\ memory_for room (lenZ (tb_states t)) (lenZ (tb_arcs t)) /\ c = const_of t.
Proof.
  intros content c s' B E. unfold ConstFst.const_read in E. set (s0 := mk_stream content 0 false) in *.
  destruct (fst_header_ends s0) as [[h s1] E1]. rewrite E1 in E. cbn [bind] in E. destruct h as [h|]; [|discriminate E].
  set (asked := (h_version h =? 1) || Z.testbit (h_flags h) 2) in *.
  destruct (if asked then align_input 16 s1 else (true, s1)) as [ok2 s2] eqn:E2. destruct ok2; cbn [negb] in E; [|discriminate E].
  apply bind_ok in E. destruct E as ([sb s3] & E3 & E). destruct sb as [sb|]; [|discriminate E].
  destruct (st_failed s3) eqn:F3; [discriminate E|].
  destruct (if asked then align_input 16 s3 else (true, s3)) as [ok4 s4] eqn:E4. destruct ok4; cbn [negb] in E; [|discriminate E].
  apply bind_ok in E. destruct E as ([ab s5] & E5 & E). destruct ab as [ab|]; [|discriminate E].
  destruct (st_failed s5) eqn:F5; [discriminate E|]. injection E as <- <-.
  assert (Rs : forall z, 0 <= size_t z < 18446744073709551616) by (intros z; unfold size_t; lia).
  destruct (map_inv room _ _ _ _ (Rs _) E5 F5) as (T5 & L5 & M5).
  assert (F4 : st_failed s4 = false) by (destruct T5; assumption).
  destruct (map_inv room _ _ _ _ (Rs _) E3 F3) as (T3 & L3 & M3).
  assert (F2 : st_failed s2 = false) by (destruct T3; assumption).
  assert (F1 : st_failed s1 = false).
  { destruct (st_failed s1) eqn:F1; [|reflexivity]. destruct asked; cbn [align_input] in E2; [rewrite F1 in E2; discriminate E2|].
    injection E2 as <-. congruence. }
  destruct (fst_header_inv s0 h s1 B E1 F1) as ((K1 & K2 & K3) & hb & isyms & osyms & T1 & Hb & Hi & Ho).
  destruct (took_bytes _ _ _ T1 B) as [_ B1]. set (front := hb ++ isyms ++ osyms) in *.
  assert (P1 : st_pos s1 = lenZ front) by (destruct T1 as (_ & _ & _ & ->); cbn [s0 st_pos]; lia).
  destruct (opt_align_inv asked front s1 s2 P1 E2 F2) as (pad1 & T2 & Pd1).
  destruct (took_bytes _ _ _ T2 B1) as [_ B2]. destruct (took_bytes _ _ _ T3 B2) as [Bs B3].
  assert (P3 : st_pos s3 = lenZ (front ++ pad1 ++ sb)).
  { destruct T3 as (_ & _ & _ & ->). destruct T2 as (_ & _ & _ & ->). rewrite P1, !lenZ_app. lia. }
  destruct (opt_align_inv asked _ s3 s4 P3 E4 F4) as (pad2 & T4 & Pd2).
  destruct (took_bytes _ _ _ T4 B3) as [_ B4]. destruct (took_bytes _ _ _ T5 B4) as [Ba _].
  destruct (wrap32_spec (h_num_states h)) as [Fn Kn]. set (ns := wrap32 (h_num_states h)) in *.
  unfold fits in Fn. change (2 ^ (8 * Z.of_nat 4 - 1)) with 2147483648 in Fn.
  destruct (Z_lt_dec ns 0) as [Neg|Pos].
  { exfalso. rewrite states_size_neg in M3 by lia. destruct M3 as [M3 _]; lia. }
  rewrite states_size in L3, M3 by lia. rewrite arcs_size in *. set (na := h_num_arcs h mod 1152921504606846976) in *.
  assert (Na : 0 <= na) by (unfold na; lia).
  destruct (records_inv _ row_bytes row_fits 20 row_inv (Z.to_nat ns) sb) as (rows & Lr & Fr & ->); [unfold lenZ in L3; lia|exact Bs|].
  destruct (records_inv _ arc_bytes arc_fits 16 arc_inv (Z.to_nat na) ab) as (l & La & Fa & ->); [unfold lenZ in L5; lia|exact Ba|].
  destruct Hb as (props & t1 & t2 & Eb & S1 & S2 & V & Ff & Fp & Fs & Fns & Fna). rewrite K1 in S1. rewrite K2 in S2.
  destruct (wrap32_spec (h_start h)) as [Fst Kst].
  set (t := mk_tables (wrap32 (h_start h)) rows l).
  exists (h_start h), (h_num_states h), (h_num_arcs h), t.
  split; [|split; [|split; [|split]]].
  - exists t1, t2, (h_version h), (h_flags h), props, isyms, osyms, pad1, pad2.
    repeat (split; [assumption|]). cbv zeta. fold asked.
    assert (Ef : word 2125659606 ++ t1 ++ t2 ++ word (h_version h) ++ word (h_flags h) ++ encode 8 props ++
                encode 8 (h_start h) ++ encode 8 (h_num_states h) ++ encode 8 (h_num_arcs h) ++ isyms ++ osyms = front)
      by (unfold front; rewrite Eb; unfold header_bytes; rewrite <- !app_assoc; reflexivity).
    rewrite Ef. cbn [t tb_states tb_arcs]. split; [exact Pd1|]. split; [exact Pd2|].
    pose proof (took_app _ _ _ _ _ T1 (took_app _ _ _ _ _ T2 (took_app _ _ _ _ _ T3 (took_app _ _ _ _ _ T4 T5)))) as (_ & _ & ER & _).
    cbn [s0 st_rest] in ER. rewrite ER. rewrite <- !app_assoc. reflexivity.
  - split; [exact Kst|]. split; cbn [t tb_states tb_arcs].
    + rewrite Lr, Z2Nat.id by lia. exact Kn.
    + rewrite La, Z2Nat.id by lia. exists (h_num_arcs h / 1152921504606846976). unfold na. lia.
  - split; [exact Fst|]. split; [exact Fr|]. split; [exact Fa|]. cbn [t tb_states]. lia.
  - cbn [t tb_states tb_arcs]. unfold memory_for, lenZ. rewrite Lr, La, !Z2Nat.id by lia. split; [intros; apply M3; lia|].
    split; [intros; apply M5; lia|]. destruct (Z_lt_dec 0 na); [destruct M5; lia|lia].
  - unfold const_of. cbn [t tb_start tb_states tb_arcs]. f_equal.
    + rewrite <- Lr. rewrite (records_fwd _ _ _ row_length). apply map_state_of. exact Fr.
    + replace (Z.to_nat (16 * na / 16)) with (length l) by lia. rewrite (records_fwd _ _ _ arc_length). apply map_arc_of. exact Fa.
Qed.
End File.
