(** Graphs from files. *)
From Coq Require Import ZArith String List Bool Lia.
From Verif.Base Require Import Prelude Lemmas.
From Verif.Model Require Import Util File Binary Fst Decoder Stt ConstFst.
From Verif.Spec Require Import AudioSpec FormatSpec FstSpec ConstFstSpec.
From Verif.Proof Require Import Binary ConstFst ConstFstRead ConstFstFile.
Import ListNotations.
Open Scope Z_scope.
Ltac Zify.zify_post_hook ::= Z.div_mod_to_equations.

(** ** The arcs of the states *)
Lemma getZ_mid : forall A (l : list A) before x after, l = before ++ x :: after -> getZ l (lenZ before) = Ok x.
Proof.
  intros A l before x after ->. unfold getZ, lenZ. destruct (Z.ltb_spec (Z.of_nat (length before)) 0); [lia|].
  rewrite Nat2Z.id, nth_error_app2, Nat.sub_diag by lia. reflexivity.
Qed.

Lemma arcs_fwd : forall x l before after, l = before ++ x ++ after -> arcs_from l (lenZ before) (length x) = Ok x.
Proof.
  induction x as [|a x IH]; intros l before after E; [reflexivity|]. cbn [length arcs_from].
  rewrite (getZ_mid _ l before a (x ++ after) E). cbn [bind].
  replace (lenZ before + 1) with (lenZ (before ++ [a])) by (rewrite lenZ_app; reflexivity).
  rewrite (IH l (before ++ [a]) after) by (rewrite E, <- app_assoc; reflexivity). reflexivity.
Qed.

Lemma arcs_inv : forall n l pos x, arcs_from l pos n = Ok x ->
  length x = n /\ (n <> 0%nat -> exists before after, l = before ++ x ++ after /\ lenZ before = pos).
Proof.
  induction n as [|n IH]; intros l pos x E; cbn [arcs_from] in E.
  - injection E as <-. split; [reflexivity|congruence].
  - apply bind_ok in E. destruct E as (a & Ea & E). apply bind_ok in E. destruct E as (r & Er & E). injection E as <-.
    destruct (IH _ _ _ Er) as [L H]. split; [cbn [length]; lia|]. intros _.
    pose proof (getZ_lt _ _ _ _ Ea) as B. unfold getZ in Ea. destruct (Z.ltb_spec pos 0); [lia|].
    destruct (nth_error l (Z.to_nat pos)) as [a'|] eqn:N; [|discriminate Ea]. injection Ea as ->.
    destruct (nth_error_split l _ N) as (b & c & -> & Lb).
    exists b. destruct n as [|n].
    + destruct r; [|discriminate L]. exists c. split; [reflexivity|]. unfold lenZ. lia.
    + destruct H as (b' & after & E & Lb'); [discriminate|]. exists after. split; [|unfold lenZ; lia].
      f_equal. cbn [app]. f_equal.
      replace (b ++ a :: c) with ((b ++ [a]) ++ c) in E by (rewrite <- app_assoc; reflexivity).
      assert (LL : length (b ++ [a]) = length b') by (rewrite app_length; cbn [length]; unfold lenZ in Lb'; lia).
      clear - E LL. revert b' E LL. generalize (b ++ [a]) as p. induction p as [|y p IH]; intros [|y' b'] E LL; try discriminate LL.
      * exact E.
      * cbn in E. injection E as -> E. apply (IH b' E). cbn in LL. lia.
Qed.

Lemma arcs_ends : forall n l pos, 0 <= pos ->
  (exists x, arcs_from l pos n = Ok x) \/ arcs_from l pos n = Fault Undef /\ (0 < n)%nat /\ lenZ l < pos + Z.of_nat n.
Proof.
  induction n as [|n IH]; intros l pos P; cbn [arcs_from]; [eauto|].
  destruct (Z_lt_dec pos (lenZ l)) as [H|H].
  - destruct (getZ_total _ l pos ltac:(lia)) as [a ->]. cbn [bind]. destruct (IH l (pos + 1) ltac:(lia)) as [[x ->]|(-> & _ & B)]; cbn [bind]; [eauto|].
    right. repeat split; lia.
  - right. unfold getZ. destruct (Z.ltb_spec pos 0); [lia|].
    destruct (nth_error l (Z.to_nat pos)) eqn:N; [apply (f_equal (fun o => match o with Some _ => true | None => false end)) in N|].
    + exfalso. assert (nth_error l (Z.to_nat pos) = None) by (apply nth_error_None; unfold lenZ in H; lia). rewrite H1 in N. discriminate N.
    + cbn [bind]. repeat split; lia.
Qed.

Definition weigh {F} (of_word : Z -> F) (st : Z * list (arc Z)) : F * list (arc F) :=
  (of_word (Datatypes.fst st), map (map_arc of_word) (snd st)).

Lemma states_fwd : forall F (of_word : Z -> F) l rows sts, Forall row_fits rows -> Forall2 (row_stands_for l) rows sts ->
  states_of of_word l (map plain rows) = Ok (map (weigh of_word) sts).
Proof.
  intros F of_word l rows sts Fr H. induction H as [|r st rows sts (W & before & after & E & Hp & L) _ IH]; [reflexivity|].
  inversion_clear Fr as [|? ? (_ & _ & Na & _) Fr']. cbn [map states_of plain cs_pos cs_narcs cs_weight].
  rewrite <- L, Nat2Z.id. destruct (Z.eq_dec (r_arcs r) 0) as [Z0|NZ].
  - destruct st as [w [|a x]]; [|cbn [snd length] in L; lia]. cbn [snd length arcs_from bind]. rewrite (IH Fr'). cbn [bind].
    rewrite W. reflexivity.
  - rewrite <- (Hp NZ). change (Z.of_nat (length before)) with (lenZ before). rewrite (arcs_fwd (snd st) l before after E). cbn [bind].
    rewrite (IH Fr'). cbn [bind]. rewrite W. reflexivity.
Qed.

Lemma states_inv : forall F (of_word : Z -> F) l rows r, Forall row_fits rows -> states_of of_word l (map plain rows) = Ok r ->
  exists sts, Forall2 (row_stands_for l) rows sts /\ r = map (weigh of_word) sts.
Proof.
  intros F of_word l rows. induction rows as [|row rows IH]; intros r Fr E; cbn [map states_of] in E.
  - injection E as <-. exists []. split; [constructor|reflexivity].
  - apply bind_ok in E. destruct E as (x & Ex & E). apply bind_ok in E. destruct E as (r' & Er & E). injection E as <-.
    inversion_clear Fr as [|? ? (_ & _ & Na & _) Fr']. destruct (IH r' Fr' Er) as (sts & H & ->).
    cbn [plain cs_pos cs_narcs cs_weight] in *. destruct (arcs_inv _ _ _ _ Ex) as [L Hx]. unfold natural in Na.
    exists ((r_weight row, x) :: sts). split; [|reflexivity]. constructor; [|exact H]. split; [reflexivity|]. cbn [snd].
    destruct (Z.eq_dec (r_arcs row) 0) as [Z0|NZ].
    + destruct x; [|cbn [length] in L; lia]. exists [], l. split; [reflexivity|]. split; [congruence|cbn; lia].
    + destruct Hx as (b & c & E & Lb); [lia|]. exists b, c. split; [exact E|]. split; [auto|lia].
Qed.

Lemma states_ends : forall F (of_word : Z -> F) l rows, Forall row_fits rows ->
  (exists r, states_of of_word l (map plain rows) = Ok r) \/
  states_of of_word l (map plain rows) = Fault Undef /\
    exists row, In row rows /\ 0 < r_arcs row /\ lenZ l < r_first row + r_arcs row.
Proof.
  intros F of_word l rows Fr. induction Fr as [|row rows (_ & P & N & _) _ IH]; [left; eexists; reflexivity|].
  cbn [map states_of plain cs_pos cs_narcs cs_weight]. unfold natural in *.
  destruct (arcs_ends (Z.to_nat (r_arcs row)) l (r_first row) ltac:(lia)) as [[x ->]|(-> & A & B)]; cbn [bind].
  - destruct IH as [[r ->]|(-> & row' & I & H)]; cbn [bind]; [eauto|]. right. split; [reflexivity|]. exists row'. split; [right; exact I|exact H].
  - right. split; [reflexivity|]. exists row. split; [left; reflexivity|lia].
Qed.

Lemma states_outside : forall F (of_word : Z -> F) l rows row, Forall row_fits rows -> In row rows -> 0 < r_arcs row ->
  lenZ l < r_first row + r_arcs row -> states_of of_word l (map plain rows) = Fault Undef.
Proof.
  intros F of_word l rows row Fr I P B. destruct (states_ends F of_word l rows Fr) as [[r E]|[E _]]; [|exact E].
  exfalso. destruct (states_inv F of_word l rows r Fr E) as (sts & H & _).
  clear - I P B H. induction H as [|r st rows sts (_ & b & a & E & Hp & L) _ IH]; [exact I|].
  destruct I as [->|I]; [|exact (IH I)]. specialize (Hp ltac:(lia)). rewrite E in B. rewrite !lenZ_app in B. unfold lenZ in B. lia.
Qed.

Section Graph.
Variable F : Type.
Variable of_word : Z -> F.
Variable junk : nat -> Z.
Variable room : Z -> bool.
Variable files : bytes -> option bytes.
Variable name : bytes.
Notation const_read := (const_read junk room).
Notation graph_read := (graph_read junk room of_word files name).

Lemma graph_of_states : forall g, mk_graph (t_start g) (map (weigh of_word) (t_states g)) = graph_meant of_word g.
Proof. reflexivity. Qed.

Lemma read_layout : forall start states arcs t content rest g, files name = Some content ->
  graph_layout start states arcs t content rest -> reduced start states arcs t -> tables_fit t ->
  memory_for room (Z.of_nat (length (tb_states t))) (Z.of_nat (length (tb_arcs t))) -> stands_for t g ->
  graph_read = Ok (Some (graph_meant of_word g)).
Proof.
  intros start states arcs t content rest g Ef L R T M (S1 & S2). unfold ConstFst.graph_read. rewrite Ef.
  rewrite (file_fwd junk room _ _ _ _ _ _ L R T M). cbn [bind const_of cf_arcs cf_states cf_start].
  rewrite (states_fwd F of_word _ _ _ (proj1 (proj2 T)) S2). cbn [bind]. rewrite <- S1. reflexivity.
Qed.

Lemma true_numbers : forall t, reduced (tb_start t) (Z.of_nat (length (tb_states t))) (Z.of_nat (length (tb_arcs t))) t.
Proof. intros t. repeat split; exists 0; lia. Qed.

Lemma read_file : forall t content rest g, files name = Some content -> graph_file t content rest ->
  memory_for room (Z.of_nat (length (tb_states t))) (Z.of_nat (length (tb_arcs t))) -> stands_for t g ->
  graph_read = Ok (Some (graph_meant of_word g)).
Proof. intros t content rest g Ef (T & L) M S. exact (read_layout _ _ _ _ _ _ _ Ef L (true_numbers t) T M S). Qed.

Lemma read_exact : forall content G, files name = Some content -> byte_list content ->
  (graph_read = Ok (Some G) <->
   exists start states arcs t rest g, graph_layout start states arcs t content rest /\ reduced start states arcs t /\
     tables_fit t /\ memory_for room (Z.of_nat (length (tb_states t))) (Z.of_nat (length (tb_arcs t))) /\
     stands_for t g /\ G = graph_meant of_word g).
Proof.
  intros content G Ef B. split.
  - intros E. unfold ConstFst.graph_read in E. rewrite Ef in E. apply bind_ok in E. destruct E as ([c s'] & Ec & E).
    destruct c as [c|]; [|discriminate E]. apply bind_ok in E. destruct E as (l & El & E). injection E as <-.
    destruct (file_inv junk room content c s' B Ec) as (start & states & arcs & t & L & R & T & M & ->).
    cbn [const_of cf_arcs cf_states cf_start] in *. destruct (states_inv F of_word _ _ _ (proj1 (proj2 T)) El) as (sts & S & ->).
    exists start, states, arcs, t, (st_rest s'), (mk_transducer (tb_start t) sts).
    split; [exact L|]. split; [exact R|]. split; [exact T|]. split; [exact M|]. split; [split; [reflexivity|exact S]|reflexivity].
  - intros (start & states & arcs & t & rest & g & L & R & T & M & S & ->). exact (read_layout _ _ _ _ _ _ _ Ef L R T M S).
Qed.

(** ** What can go wrong *)
Lemma header_at_header : forall content b h s1, took (mk_stream content 0 false) b s1 -> header_at b h -> known h ->
  graph_header (h_start h) (h_num_states h) (h_num_arcs h) content.
Proof.
  intros content b h s1 (_ & _ & E & _) (props & t1 & t2 & -> & S1 & S2 & V & Ff & Fp & Fs & Fn & Fa) (K1 & K2 & K3).
  rewrite K1 in S1. rewrite K2 in S2. exists t1, t2, (h_version h), (h_flags h), props, (st_rest s1).
  repeat (split; [assumption|]). cbn [st_rest] in E. rewrite E. unfold header_bytes. rewrite <- !app_assoc. reflexivity.
Qed.

Lemma header_unique : forall content start states arcs start' states' arcs',
  graph_header start states arcs content -> graph_header start' states' arcs' content ->
  start = start' /\ states = states' /\ arcs = arcs'.
Proof.
  assert (H : forall content start states arcs, graph_header start states arcs content ->
    exists v f s, header_read junk (mk_stream content 0 false) = (Some (mk_header s_const s_standard v f start states arcs), s)).
  { intros content start states arcs (t1 & t2 & v & f & props & rest & S1 & S2 & V & V1 & Ff & Fp & Fs & Fn & Fa & E).
    set (h := mk_header s_const s_standard v f start states arcs).
    exists v, f, (behind (header_bytes h props t1 t2) rest (mk_stream content 0 false)).
    apply (header_fwd junk (header_bytes h props t1 t2) h); [|reflexivity|].
    - exists props, t1, t2. cbn. auto 10.
    - cbn [st_rest]. rewrite E. unfold header_bytes, h. cbn [h_version h_flags h_start h_num_states h_num_arcs]. rewrite <- !app_assoc. reflexivity. }
  intros content a b c a' b' c' H1 H2. destruct (H _ _ _ _ H1) as (v & f & s & E1). destruct (H _ _ _ _ H2) as (v' & f' & s' & E2).
  rewrite E1 in E2. injection E2 as -> -> -> -> -> ->. auto.
Qed.

Lemma header_app : forall start states arcs p x, graph_header start states arcs p -> graph_header start states arcs (p ++ x).
Proof.
  intros start states arcs p x (t1 & t2 & v & f & props & rest & S1 & S2 & V & V1 & Ff & Fp & Fs & Fn & Fa & ->).
  exists t1, t2, v, f, props, (rest ++ x). repeat (split; [assumption|]). rewrite <- !app_assoc. reflexivity.
Qed.

Lemma layout_header : forall start states arcs t content rest, graph_layout start states arcs t content rest ->
  graph_header start states arcs content.
Proof.
  intros start states arcs t content rest
    (t1 & t2 & version & flags & props & isyms & osyms & pad1 & pad2 & S1 & S2 & Fv & V1 & Ff & Fp & Fs & Fn & Fa & Hi & Ho & H).
  cbv zeta in H. destruct H as (_ & _ & ->). eexists t1, t2, version, flags, props, _. repeat (split; [assumption|]).
  rewrite <- !app_assoc. reflexivity.
Qed.

Lemma layout_app : forall start states arcs t content rest x, graph_layout start states arcs t content rest ->
  graph_layout start states arcs t (content ++ x) (rest ++ x).
Proof.
  intros start states arcs t content rest x
    (t1 & t2 & version & flags & props & isyms & osyms & pad1 & pad2 & S1 & S2 & Fv & V1 & Ff & Fp & Fs & Fn & Fa & Hi & Ho & H).
  cbv zeta in H. destruct H as (P1 & P2 & ->). exists t1, t2, version, flags, props, isyms, osyms, pad1, pad2.
  cbv zeta. repeat (split; [assumption|]). rewrite <- !app_assoc. reflexivity.
Qed.

Lemma wrap32_mod : forall z, 0 <= wrap32 z -> wrap32 z = z mod 4294967296 /\ z mod 4294967296 < 2147483648.
Proof.
  intros z. unfold wrap32, int_max. pose proof (Z.mod_pos_bound z 4294967296 eq_refl) as B.
  cbv zeta. generalize dependent (z mod 4294967296). intros m B H. destruct (Z.leb_spec m 2147483647); lia.
Qed.

Lemma wrap32_neg : forall z, wrap32 z < 0 -> 2147483648 <= z mod 4294967296.
Proof.
  intros z. unfold wrap32, int_max. pose proof (Z.mod_pos_bound z 4294967296 eq_refl) as B.
  cbv zeta. generalize dependent (z mod 4294967296). intros m B H. destruct (Z.leb_spec m 2147483647); lia.
Qed.

Lemma const_faults : forall content f, byte_list content -> const_read content = Fault f ->
  exists start states arcs, graph_header start states arcs content /\
    (f = Throw /\ no_memory room states arcs \/ f = Undef /\ arcs mod 1152921504606846976 = 1152921504606846975).
Proof.
  intros content f B E. unfold ConstFst.const_read in E. set (s0 := mk_stream content 0 false) in *.
  destruct (fst_header_ends junk s0) as [[h s1] E1]. rewrite E1 in E. cbn [bind] in E. destruct h as [h|]; [|discriminate E].
  destruct (fst_header_some junk s0 h s1 B E1) as (K & b & s1' & T & Hb).
  exists (h_start h), (h_num_states h), (h_num_arcs h). split; [exact (header_at_header content b h s1' T Hb K)|].
  set (asked := (h_version h =? 1) || Z.testbit (h_flags h) 2) in *.
  destruct (if asked then align_input 16 s1 else (true, s1)) as [ok2 s2] eqn:E2. destruct ok2; cbn [negb] in E; [|discriminate E].
  assert (Rs : forall z, 0 <= size_t z < 18446744073709551616) by (intros z; unfold size_t; lia).
  unfold no_memory. cbv zeta.
  destruct (map_ends room (size_t (size_t (wrap32 (h_num_states h)) * 20)) s2 (Rs _)) as [[[sb s3] E3]|[(E3 & P & H)|(E3 & H)]].
  - rewrite E3 in E. cbn [bind] in E. destruct sb as [sb|]; [|discriminate E]. destruct (st_failed s3); [discriminate E|].
    destruct (if asked then align_input 16 s3 else (true, s3)) as [ok4 s4] eqn:E4. destruct ok4; cbn [negb] in E; [|discriminate E].
    destruct (map_ends room (size_t (size_t (h_num_arcs h) * 16)) s4 (Rs _)) as [[[ab s5] E5]|[(E5 & P & H)|(E5 & H)]].
    + rewrite E5 in E. cbn [bind] in E. destruct ab as [ab|]; [|discriminate E]. destruct (st_failed s5); discriminate E.
    + rewrite E5 in E. cbn [bind] in E. injection E as <-. left. split; [reflexivity|]. right. right. rewrite arcs_size in P, H. split; [lia|exact H].
    + rewrite E5 in E. cbn [bind] in E. injection E as <-. right. split; [reflexivity|]. rewrite arcs_size in H. lia.
  - rewrite E3 in E. cbn [bind] in E. injection E as <-. left. split; [reflexivity|].
    destruct (Z_lt_dec (wrap32 (h_num_states h)) 0) as [Neg|Pos].
    + left. apply wrap32_neg. exact Neg.
    + right. left. destruct (wrap32_mod (h_num_states h)) as [W WB]; [lia|]. rewrite <- W. rewrite states_size in P, H by lia.
      split; [lia|]. apply H. lia.
  - exfalso. destruct (wrap32_spec (h_num_states h)) as [Fn _]. unfold fits in Fn. change (2 ^ (8 * Z.of_nat 4 - 1)) with 2147483648 in Fn.
    destruct (Z_lt_dec (wrap32 (h_num_states h)) 0) as [Neg|Pos].
    + rewrite states_size_neg in H by lia. lia.
    + rewrite states_size in H by lia. lia.
Qed.

Lemma read_faults : forall content f, files name = Some content -> byte_list content -> graph_read = Fault f ->
  exists start states arcs, graph_header start states arcs content /\
    (f = Throw /\ no_memory room states arcs \/
     f = Undef /\ (arcs mod 1152921504606846976 = 1152921504606846975 \/
       exists t rest r, graph_layout start states arcs t content rest /\ In r (tb_states t) /\ row_outside t r)).
Proof.
  intros content f Ef B E. unfold ConstFst.graph_read in E. rewrite Ef in E.
  destruct (const_read content) as [[c s']|f'] eqn:Ec; cbn [bind] in E.
  - destruct c as [c|]; [|discriminate E]. destruct (file_inv junk room content c s' B Ec) as (start & states & arcs & t & L & R & T & M & ->).
    exists start, states, arcs. split; [exact (layout_header _ _ _ _ _ _ L)|]. right. cbn [const_of cf_arcs cf_states cf_start] in *.
    destruct (states_ends F of_word (tb_arcs t) (tb_states t) (proj1 (proj2 T))) as [[r Er]|(Er & row & I & P & H)]; rewrite Er in E; cbn [bind] in E; [discriminate E|].
    injection E as <-. split; [reflexivity|]. right. exists t, (st_rest s'), row. split; [exact L|]. split; [exact I|]. split; [exact P|exact H].
  - injection E as ->. destruct (const_faults content f B Ec) as (start & states & arcs & H & [D|(D1 & D2)]); exists start, states, arcs; split; auto.
Qed.

Lemma memory_no : forall states arcs, 0 <= states <= 2147483647 -> 0 <= arcs -> memory_for room states arcs ->
  ~ no_memory room states arcs /\ arcs mod 1152921504606846976 <> 1152921504606846975.
Proof.
  intros states arcs R A (M1 & M2 & M3). unfold no_memory. cbv zeta. rewrite !Z.mod_small by lia. split; [|lia].
  intros [H|[(P & H)|(P & H)]]; [lia|rewrite M1 in H by lia; discriminate|specialize (H M3); rewrite M2 in H by lia; discriminate].
Qed.

Lemma read_truncated : forall t p x, graph_file t (p ++ x) [] -> x <> [] -> byte_list (p ++ x) ->
  memory_for room (Z.of_nat (length (tb_states t))) (Z.of_nat (length (tb_arcs t))) ->
  files name = Some p -> graph_read = Ok None.
Proof.
  intros t p x (T & L) Nx B M Ef. pose proof (proj1 (proj1 (Forall_app _ _ _) B)) as Bp.
  unfold ConstFst.graph_read. rewrite Ef. destruct (const_read p) as [[c s']|f] eqn:Ec; cbn [bind].
  - destruct c as [c|]; [|reflexivity]. exfalso.
    destruct (file_inv junk room p c s' Bp Ec) as (start & states & arcs & t' & L' & R' & T' & M' & ->).
    pose proof (file_fwd junk room _ _ _ _ _ _ (layout_app _ _ _ _ _ _ x L') R' T' M') as E1.
    pose proof (file_fwd junk room _ _ _ _ _ _ L (true_numbers t) T M) as E2. rewrite E1 in E2.
    apply (f_equal (fun r => match r with Ok (_, s) => st_rest s | Fault _ => x end)) in E2. cbn [st_rest] in E2.
    apply app_eq_nil in E2. destruct E2 as [_ ->]. apply Nx. reflexivity.
  - exfalso. destruct (const_faults p f Bp Ec) as (start & states & arcs & H & D).
    destruct (header_unique _ _ _ _ _ _ _ (header_app _ _ _ _ x H) (layout_header _ _ _ _ _ _ L)) as (-> & -> & ->).
    destruct T as (_ & _ & _ & Ls). destruct (memory_no _ _ (conj (Nat2Z.is_nonneg _) Ls) (Nat2Z.is_nonneg _) M) as [N1 N2].
    destruct D as [(_ & D)|(_ & D)]; [exact (N1 D)|exact (N2 D)].
Qed.

Lemma read_no_magic : forall content, files name = Some content -> byte_list content ->
  (forall rest, content <> word 2125659606 ++ rest) -> graph_read = Ok None.
Proof.
  intros content Ef B N. unfold ConstFst.graph_read. rewrite Ef. unfold ConstFst.const_read, fst_header, header_read.
  destruct (st_int 4 (mk_stream content 0 false)) as [m s1] eqn:E1. destruct (Z.eqb_spec m 2125659606) as [->|]; cbn [negb bind]; [|reflexivity].
  destruct (st_failed s1) eqn:F1.
  - destruct (st_string junk s1) as [t s2] eqn:E2. destruct (st_string junk s2) as [a s3] eqn:E3.
    destruct (st_int 4 s3) as [version s4] eqn:E4. destruct (st_int 4 s4) as [flags s5] eqn:E5.
    destruct (st_int 8 s5) as [props s6] eqn:E6. destruct (st_int 8 s6) as [start s7] eqn:E7.
    destruct (st_int 8 s7) as [states s8] eqn:E8. destruct (st_int 8 s8) as [arcs s9] eqn:E9.
    destruct (st_failed s9) eqn:F9; cbn [bind]; [reflexivity|]. exfalso.
    pose proof (int_ok _ _ _ _ E9 F9) as F8. pose proof (int_ok _ _ _ _ E8 F8) as F7. pose proof (int_ok _ _ _ _ E7 F7) as F6.
    pose proof (int_ok _ _ _ _ E6 F6) as F5. pose proof (int_ok _ _ _ _ E5 F5) as F4. pose proof (int_ok _ _ _ _ E4 F4) as F3.
    destruct (string_took junk _ _ _ E3 F3) as (c3 & (F2 & _) & _). destruct (string_took junk _ _ _ E2 F2) as (c2 & (F1' & _) & _). congruence.
  - exfalso. destruct (int_inv 4 (mk_stream content 0 false) _ _ four B E1 F1) as [(_ & _ & E & _) _]. exact (N _ E).
Qed.

Lemma read_unknown : forall content t1 t2 ty arc_ty version rest, files name = Some content ->
  content = word 2125659606 ++ t1 ++ t2 ++ word version ++ rest -> byte_list content ->
  sized_text t1 ty -> sized_text t2 arc_ty -> fits 4 version ->
  ty <> lit "const" \/ arc_ty <> lit "standard" \/ version < 1 -> graph_read = Ok None.
Proof.
  intros content t1 t2 ty arc_ty version rest Ef E B S1 S2 V D. unfold ConstFst.graph_read. rewrite Ef. unfold ConstFst.const_read.
  destruct (fst_header_ends junk (mk_stream content 0 false)) as [[h s1] E1]. rewrite E1. cbn [bind]. destruct h as [h|]; [|reflexivity].
  exfalso. destruct (fst_header_some junk (mk_stream content 0 false) h s1 B E1) as ((K1 & K2 & K3) & b & s2 & T & (props & u1 & u2 & Eb & U1 & U2 & Hv & _)).
  destruct T as (_ & _ & Er & _). cbn [st_rest] in Er. rewrite Er in E. subst b. unfold header_bytes in E. rewrite <- !app_assoc in E.
  apply app_inv_head in E.
  assert (X : forall a s a' s' r r', sized_text a s -> sized_text a' s' -> a ++ r = a' ++ r' -> s = s' /\ r = r').
  { clear - junk. intros a s a' s' r r' H H' E.
    pose proof (string_fwd junk a s (mk_stream (a ++ r) 0 false) r H eq_refl eq_refl) as E1.
    pose proof (string_fwd junk a' s' (mk_stream (a ++ r) 0 false) r' H' eq_refl E) as E2. rewrite E1 in E2. injection E2 as -> -> _. auto. }
  destruct (X _ _ _ _ _ _ U1 S1 E) as [Y1 E']. destruct (X _ _ _ _ _ _ U2 S2 E') as [Y2 E''].
  assert (Y3 : h_version h = version).
  { revert E''. clear - Hv V. match goal with |- _ ++ ?r = _ -> _ => generalize r end. intros r E.
    pose proof (int_fwd 4 (h_version h) (mk_stream (word (h_version h) ++ r) 0 false) r four Hv eq_refl eq_refl) as I1.
    pose proof (int_fwd 4 version (mk_stream (word (h_version h) ++ r) 0 false) rest four V eq_refl E) as I2.
    rewrite I1 in I2. injection I2 as Y3 _. exact Y3. }
  destruct D as [D|[D|D]].
  - apply D. rewrite <- Y1. exact K1.
  - apply D. rewrite <- Y2. exact K2.
  - lia.
Qed.

Lemma read_missing : files name = None -> graph_read = Ok None.
Proof. intros E. unfold ConstFst.graph_read. rewrite E. reflexivity. Qed.

Lemma read_outside : forall t content rest r, files name = Some content -> graph_file t content rest ->
  memory_for room (Z.of_nat (length (tb_states t))) (Z.of_nat (length (tb_arcs t))) ->
  In r (tb_states t) -> row_outside t r -> graph_read = Fault Undef.
Proof.
  intros t content rest r Ef (T & L) M I (P & H). unfold ConstFst.graph_read. rewrite Ef.
  rewrite (file_fwd junk room _ _ _ _ _ _ L (true_numbers t) T M). cbn [bind const_of cf_arcs cf_states cf_start].
  rewrite (states_outside F of_word _ _ r (proj1 (proj2 T)) I P H). reflexivity.
Qed.
End Graph.
