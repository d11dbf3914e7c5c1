(** A recognizer in IEEE 754 arithmetic for which no session fails. *)
From Coq Require Import ZArith String List Bool Lia Floats.SpecFloat.
From Verif.Base Require Import Prelude ZMap Lemmas.
From Verif.Spec Require Import AudioSpec AmSpec FbankSpec PcmSpec TextSpec DecoderSpec SttSpec TotalSpec SessionSpec.
From Verif.Model Require Import Util File Arith Vector Pcm Fbank Am SymbolTable HashTable Pool OLabel Fst Decoder Stt Ieee.
From Verif.Proof Require Import Loop DecoderBase Decoder DecoderMain IeeeLaws IeeeCases DecoderTotal FbankStream SttTotal.
From Verif.Proof Require Fbank DecoderRun Windows DecoderCases.
Import ListNotations.
Open Scope Z_scope.

Section Case.
Variable L : library.
Notation O := (ieee L).
Notation X := ieee_wide.

(** Silence may come before "so", which may be followed by "what"; weights are
    0.1, 0.2, 0.7, ... *)
Definition graph9 : graph float32 := mk_graph 0
  [ (infinite, [mk_arc 0 1 0 (tenth 7); mk_arc 1 0 5 (tenth 2)]);
    (tenth 3, [mk_arc 1 1 0 (tenth 1); mk_arc 2 2 7 (tenth (-1))]);
    (tenth 1, [mk_arc 2 2 0 (tenth 0)]) ].
Definition bank9 : fbank float32 :=
  mk_fbank 512 (repeat (num 1 0) 400) [(0, [num 1 0])] (fun _ => Ok (repeat (num 1 0) 512)).
Definition row9 : list float32 := [tenth (-1); tenth (-3)].
Definition am9 : am float32 := mk_am 0 0 1 [num 0 0; num 0 0] (fun m => Ok (map (fun _ => row9) m)).
Definition symbols9 : symtab :=
  mk_symtab 10 (zset (zset (zset zempty 5 (lit "so")) 7 (lit "what")) 9 (lit "ever")) [] 0 0.
Definition rc9_on (bank : fbank float32) : recognizer float32 unit := mk_recognizer graph9 am9 [0; 0; 1] None tt bank symbols9.
Definition rc9 : recognizer float32 unit := rc9_on bank9.
Definition states9 : list state := [(0, 0); (1, 0); (2, 0)].
Notation cfg := (utt_config O (tenth 1) rc9).

(** * Features and rows *)
Lemma extract_total : forall (w : list float32), List.length w = 400%nat ->
  exists x, extract_window O w 0 (fb_window bank9) (fb_padded bank9) = Ok x.
Proof.
  intros w Lw. unfold extract_window, frame_shift, frame_length. unfold lenZ at 1. rewrite Lw.
  change ((0 <=? 0 * 160) && (0 * 160 + 400 <=? Z.of_nat 400)) with true.
  change (400 <=? fb_padded bank9) with true. cbn [check bind].
  rewrite vrange_ok by (unfold lenZ; rewrite ?Lw; lia). cbn [bind].
  change (Z.to_nat (0 * 160)) with 0%nat. cbn [skipn].
  rewrite firstn_all2 by lia.
  destruct (Fbank.process_window_ok O (fb_window bank9) w (f_zero O)) as [x [E [Lx _]]];
    [intros ->; discriminate Lw|rewrite Lw; reflexivity|].
  rewrite E. cbn [bind]. eauto.
Qed.

Lemma bank9_frame : forall (w : list float32), List.length w = 400%nat -> exists r, frame_features O bank9 w = Ok [r].
Proof.
  intros w Lw. destruct (extract_total w Lw) as (x & E). unfold frame_features. rewrite E. cbn [bind].
  assert (H : match compute_frame O bank9 x with Ok [_] => true | _ => false end = true) by (vm_compute; reflexivity).
  destruct (compute_frame O bank9 x) as [[|r [|? ?]]|]; try discriminate H. eauto.
Qed.

Lemma features9 : forall samples, features_fit O rc9 1 samples.
Proof.
  intros samples w J. pose proof (windows_length _ _ _ J) as Lw. destruct (bank9_frame w Lw) as (r & E).
  apply single_frame in E; auto. destruct E as (b & E). exists [r], b. split; auto.
Qed.

Lemma am9_fits : forall bank d, 0 < d -> am_fits (rc9_on bank) 0 0 1 d.
Proof.
  intros bank d Hd. constructor; cbn; try lia; auto.
  - intros x y U Lx. change (S (0 + 0)) with 1%nat.
    assert (Hw : forall x : list (list float32), windows 1 1 x = map (fun r => [r]) x).
    { intros z. rewrite Windows.windows_1. rewrite Nat.sub_0_r. clear.
      apply nth_ext with (d := []) (d' := []); [now rewrite !map_length, seq_length|].
      intros n Hn. rewrite map_length, seq_length in Hn.
      rewrite (nth_indep _ [] (firstn 1 (skipn 0 z))) by (now rewrite map_length, seq_length).
      rewrite (map_nth (fun i => firstn 1 (skipn i z))), seq_nth by auto. cbn [Nat.add].
      rewrite (nth_indep _ [] [[]]) by (now rewrite map_length). rewrite (map_nth (fun r => [r])).
      revert n Hn. induction z as [|a z IH]; intros n Hn; [cbn in Hn; lia|]. destruct n; [reflexivity|]. cbn in *. apply IH. lia. }
    rewrite Hw. clear. split.
    + intros E. injection E as <-. induction x as [|a x IH]; constructor; auto.
    + intros H. f_equal. revert y H. induction x as [|a x IH]; intros y H; inversion H as [|? b ? y' H1 H2]; subst; cbn; auto.
      injection H1 as <-. f_equal. apply IH. exact H2.
  - intros w U Lw. destruct w as [|a [|b w]]; try discriminate Lw. exists row9. split; reflexivity.
Qed.

Lemma rows9 : forall bank samples rows, rows_of O (rc9_on bank) 0 0 samples rows -> rows = repeat row9 (num_windows 400 160 (List.length samples)).
Proof.
  intros bank samples rows (feats & H1 & H2).
  assert (Lf : List.length feats = num_windows 400 160 (List.length samples)).
  { rewrite <- (Forall2_len _ _ _ _ _ H1). unfold windows. now rewrite map_length, seq_length. }
  rewrite <- Lf.
  assert (Lr : List.length rows = List.length feats).
  { rewrite <- (Forall2_len _ _ _ _ _ H2). change (S (0 + 0)) with 1%nat. rewrite Windows.windows_1_length.
    destruct feats as [|f fs]; [reflexivity|]. unfold padded. cbn [repeat app]. rewrite app_nil_r. lia. }
  rewrite <- Lr.
  assert (Hr : Forall (fun r => r = row9) rows).
  { clear - H2. induction H2 as [|w r ws rs (x & Ex & Hl & Hn) _ IH]; constructor; auto.
    cbn in Ex. destruct w as [|a [|b w]]; try discriminate Ex. injection Ex as <-.
    destruct r as [|a1 [|a2 [|a3 r]]]; try discriminate Hl.
    pose proof (Hn 0%nat (num 0 0) ltac:(cbn; lia)) as N0. pose proof (Hn 1%nat (num 0 0) ltac:(cbn; lia)) as N1.
    unfold row9 in N0, N1. cbn [nth am_prior rc_am rc9_on am9] in N0, N1.
    assert (E0 : f_add O (tenth (-1)) (f_mul O (f_minus_one O) (num 0 0)) = tenth (-1)) by (apply fl_eq; vm_compute; reflexivity).
    assert (E1 : f_add O (tenth (-3)) (f_mul O (f_minus_one O) (num 0 0)) = tenth (-3)) by (apply fl_eq; vm_compute; reflexivity).
    rewrite E0 in N0. rewrite E1 in N1. rewrite N0, N1. unfold row9. reflexivity. }
  clear - Hr. induction Hr; cbn; congruence.
Qed.

(** * Decoding *)
Local Opaque tenth num infinite.
Lemma arcs9 : forall s a, arc_from graph9 s a ->
  (s = 0 /\ (a = mk_arc 0 1 0 (tenth 7) \/ a = mk_arc 1 0 5 (tenth 2))) \/
  (s = 1 /\ (a = mk_arc 1 1 0 (tenth 1) \/ a = mk_arc 2 2 7 (tenth (-1)))) \/
  (s = 2 /\ a = mk_arc 2 2 0 (tenth 0)).
Proof.
  intros s a (H0 & fw & l & E & J). destruct (Z.to_nat s) as [|[|[|n]]] eqn:Es; cbn in E.
  - injection E as <- <-. left. split; [lia|]. destruct J as [J|[J|[]]]; auto.
  - injection E as <- <-. right. left. split; [lia|]. destruct J as [J|[J|[]]]; auto.
  - injection E as <- <-. right. right. split; [lia|]. destruct J as [J|[]]; auto.
  - destruct n; discriminate.
Qed.

Lemma fits9 : forall rows, (forall r, In r rows -> r = row9) -> run_fits O X cfg None (fun _ => True) rows states9.
Proof.
  intros rows Hr.
  assert (Hp : forall s, In s states9 -> proper cfg s /\ answers cfg (fun _ => True) s).
  { intros s J. split; [|intros a m c _ _ E; discriminate E].
    destruct J as [<-|[<-|[<-|[]]]]; unfold proper; cbn; lia. }
  assert (Hs : forall s a, In s states9 -> arc_from graph9 (Datatypes.fst s) a -> In (arrival O None s a) states9).
  { intros s a J Af. apply arcs9 in Af. unfold states9 in *. destruct J as [<-|[<-|[<-|[]]]]; cbn [Datatypes.fst] in Af;
      destruct Af as [(E & [-> | ->])|[(E & [-> | ->])|(E & ->)]]; try discriminate E; cbn; auto. }
  assert (Hf : forall from logp, (from = [] \/ from = states9 /\ logp = row9) -> frame_fits O X cfg None (fun _ => True) logp from states9).
  { intros from logp Hc. constructor; auto.
    - cbn. lia.
    - intros s J. apply Hp. destruct Hc as [-> | (-> & _)]; [destruct J|exact J].
    - intros s a J Af NZ. destruct Hc as [-> | (-> & ->)]; [destruct J|]. split; [now apply Hs|].
      apply arcs9 in Af. destruct Af as [(E & [-> | ->])|[(E & [-> | ->])|(E & ->)]]; cbn in NZ; try congruence;
                eexists; [exists 0, (tenth (-1))|exists 0, (tenth (-1))|exists 1, (tenth (-3))|exists 1, (tenth (-3))];
        (split; [discriminate|split; [reflexivity|split; [discriminate|split; reflexivity]]]). }
  constructor.
  - now left.
  - discriminate.
  - apply Hf. now left.
  - intros logp J. apply Hf. right. auto.
Qed.

(** Words are known by the state. *)
Lemma words9 : forall fs s c ws, path O X graph9 [0; 0; 1] (tenth 1) None fs s c ws ->
  (s = (0, 0) /\ ws = []) \/ (s = (1, 0) /\ ws = [5]) \/ (s = (2, 0) /\ ws = [5; 7]).
Proof.
  intros fs s c ws P. induction P as [|fs s l c ws a l' lw P IH Af Z0 El|fs logp s l c ws a l' lw ac P IH Af NZ Ac El].
  - now left.
  - injection El as <- <-. apply arcs9 in Af.
    destruct Af as [(-> & [-> | ->])|[(-> & [-> | ->])|(-> & ->)]]; try discriminate Z0.
    destruct IH as [(E & ->)|[(E & ->)|(E & ->)]]; try discriminate E. injection E as ->. right. left. split; reflexivity.
  - injection El as <- <-. apply arcs9 in Af.
    destruct Af as [(-> & [-> | ->])|[(-> & [-> | ->])|(-> & ->)]]; try (exfalso; apply NZ; reflexivity);
      destruct IH as [(E & ->)|[(E & ->)|(E & ->)]]; try discriminate E; injection E as ->; auto.
Qed.

Lemma brief9 : forall rows, brief O X cfg None rows.
Proof.
  intros rows later fs s c ws _ P. destruct (words9 _ _ _ _ P) as [(_ & ->)|[(_ & ->)|(_ & ->)]]; reflexivity.
Qed.

Lemma lively9 : lively cfg states9.
Proof.
  intros s J. destruct J as [<-|[<-|[<-|[]]]]; eexists; (split; [split; [cbn; lia|eexists; eexists; split; [reflexivity|now left]]|discriminate]).
Qed.

Lemma named9 : named rc9 states9.
Proof.
  intros s a J Af NZ. apply arcs9 in Af. destruct Af as [(E & [-> | ->])|[(E & [-> | ->])|(E & ->)]]; try (exfalso; apply NZ; reflexivity).
  - exists (lit "so"). reflexivity.
  - exists (lit "what"). reflexivity.
Qed.

(** * Costs *)
Definition by_eps9 (layer : list (state * float32)) : list (state * float32) :=
  layer ++ flat_map (fun p => flat_map (fun a => if input_label a =? 0 then
      [((next_state a, snd (Datatypes.fst p)), x_narrow X (cost_after O X (snd p) (weight a) (f_zero O) None))]
      else []) (DecoderCases.arcs_of cfg (Datatypes.fst (Datatypes.fst p)))) layer.
Definition by_frame9 (logp : list float32) (layer : list (state * float32)) : list (state * float32) :=
  flat_map (fun p => flat_map (fun a => match log_likelihood O cfg logp (input_label a) with
      | Ok l => [((next_state a, snd (Datatypes.fst p)), x_narrow X (cost_after O X (snd p) (weight a) (x_neg X l) None))]
      | Fault _ => []
      end) (filter (fun a => negb (input_label a =? 0)) (DecoderCases.arcs_of cfg (Datatypes.fst (Datatypes.fst p))))) layer.
Definition layer0 := by_eps9 [((0, 0), num 0 0)].
Definition layer1 := by_eps9 (by_frame9 row9 layer0).
Definition layer2 := by_eps9 (by_frame9 row9 layer1).
Definition next_finite (layer : list (state * float32)) : bool :=
  forallb (fun p => forallb (fun a => match log_likelihood O cfg row9 (input_label a) with
      | Ok l => f_finite O (f_add O (f_add O (snd p) (weight a)) (x_neg X l))
      | Fault _ => true end) (DecoderCases.arcs_of cfg (Datatypes.fst (Datatypes.fst p)))) layer.

Lemma finite9 : finite_costs O X cfg None [row9; row9].
Proof.
  assert (H2 : layered L cfg [row9; row9] [layer2; layer1; layer0] = true) by (vm_compute; reflexivity).
  assert (H1 : layered L cfg [row9] [layer1; layer0] = true) by (vm_compute; reflexivity).
  assert (H0 : layered L cfg [] [layer0] = true) by (vm_compute; reflexivity).
  assert (N0 : next_finite layer0 = true) by (vm_compute; reflexivity).
  assert (N1 : next_finite layer1 = true) by (vm_compute; reflexivity).
  intros later fs s c ws E P. split.
  { exact (layered_finite L cfg [row9; row9] [layer2; layer1; layer0] H2 later fs s c ws E P). }
  intros later' logp a ac -> Af NZ Ac. cbn [rev app] in E.
  assert (G : forall layer, next_finite layer = true -> logp = row9 -> In (s, c) layer ->
    f_finite O (f_add O (f_add O c (weight a)) ac) = true).
  { intros layer N -> J. unfold next_finite in N. rewrite forallb_forall in N. specialize (N _ J). cbn [Datatypes.fst snd] in N.
    rewrite forallb_forall in N. specialize (N a (DecoderCases.arcs_of_in cfg _ _ Af)).
    destruct (DecoderCases.acoustic_log O X cfg _ _ _ Ac) as (y & Ey & ->). rewrite Ey in N. exact N. }
  destruct later' as [|l1 [|l2 [|l3 later']]]; cbn [app] in E; try discriminate E.
  - injection E as <- <-. apply (G layer1 N1 eq_refl). exact (layered_path L cfg _ _ _ _ P _ H1).
  - injection E as _ <- <-. apply (G layer0 N0 eq_refl). exact (layered_path L cfg _ _ _ _ P _ H0).
Qed.

(** * Everything *)
Lemma case9_on : forall bank samples rows, rows_of O (rc9_on bank) 0 0 samples rows -> List.length samples = 560%nat ->
  lm_implements (rc_lm (rc9_on bank)) None (fun _ : unit => True) /\
  run_fits O X cfg None (fun _ => True) rows states9 /\ (forall fuel, run_safe O X cfg fuel tt rows) /\
  lively cfg states9 /\ finite_costs O X cfg None rows /\ brief O X cfg None rows /\ ends cfg states9 /\ named (rc9_on bank) states9 /\
  rows = [row9; row9].
Proof.
  intros bank samples rows H Ls. apply rows9 in H. rewrite Ls in H.
  assert (rows = [row9; row9]) as -> by exact H. clear H. split; [exact I|].
  split; [apply fits9; intros r [<-|[<-|[]]]; reflexivity|].
  split; [intros fuel; apply (DecoderRun.safe_20 O X cfg None (fun _ => True) I fuel tt _ I); discriminate|].
  split; [exact lively9|]. split; [exact finite9|]. split; [apply brief9|]. split; [intros s m _ E; discriminate E|].
  split; [exact named9|reflexivity].
Qed.

Lemma case9 : forall samples rows, rows_of O rc9 0 0 samples rows -> List.length samples = 560%nat ->
  features_fit O rc9 1 samples /\ am_fits rc9 0 0 1 1 /\ lm_implements (rc_lm rc9) None (fun _ : unit => True) /\
  run_fits O X cfg None (fun _ => True) rows states9 /\ (forall fuel, run_safe O X cfg fuel tt rows) /\
  lively cfg states9 /\ finite_costs O X cfg None rows /\ brief O X cfg None rows /\ ends cfg states9 /\ named rc9 states9 /\
  rows = [row9; row9].
Proof.
  intros samples rows H Ls. split; [apply features9|]. split; [apply am9_fits; lia|]. exact (case9_on bank9 samples rows H Ls).
Qed.
End Case.

(** In IEEE 754 arithmetic, the beam of the program is all right. *)
Lemma session_ieee : forall lib C tenth (rc : recognizer float32 C) wm good,
  let O := ieee lib in let X := ieee_wide in
  lm_implements (rc_lm rc) wm good ->
  forall L R c d f xs stream rest,
  features_fit O rc d (map (f_int O) xs) -> am_fits rc L R c d -> supported f ->
  AudioSpec.decodes (Z.to_nat (w_bits f / 8)) stream xs rest ->
  let cfg := utt_config O tenth rc in
  exists rows, rows_of O rc L R (map (f_int O) xs) rows /\
  forall states, good (rc_cache rc) -> run_fits O X cfg wm good rows states ->
  (forall fuel, run_safe O X cfg fuel (rc_cache rc) rows) -> lively cfg states -> finite_costs O X cfg wm rows ->
  brief O X cfg wm rows -> ends cfg states -> named rc states ->
  exists fuel0 dec words weight text,
    best_path O X cfg (end_of_stream dec) = Ok (words, weight) /\ spells (rc_symbols rc) (rev words) text /\
    forall fuel err, (fuel0 <= fuel)%nat ->
      DecoderSpec.decodes O X cfg collector fuel (rc_cache rc) rows dec /\
      exists u, utt_init O X tenth fuel err rc f = Ok (Some u, err) /\
      forall ps, Forall piece ps -> concat ps = stream ->
      exists ns ll, session O X tenth fuel err (Some u) ps = Ok (ns, text, ll) /\ total ns = lenZ xs /\
        Forall (fun n => 0 <= n) ns /\
        (words <> [] -> ll = f_div O weight (f_int O (lenZ rows))).
Proof.
  intros lib C tenth rc wm good O X Hl L R c d f xs stream rest Fs Af Sf Dx cfg.
  destruct (SttTotal.session_ok O X tenth rc wm good Hl L R c d f xs stream rest Fs Af Sf Dx) as (rows & Hr & H).
  exists rows. split; auto. intros states. apply (H states (ieee_divides lib) (ieee_wf lib)).
  apply ieee_rounding; vm_compute; reflexivity.
Qed.

(** * A result *)
Definition audio9 : bytes := concat (repeat [7; 250] 560).
Definition text9 : bytes := lit "so what" ++ [0].

Lemma result9_on : forall lib bank dim, 0 < dim -> features_fit (ieee lib) (rc9_on bank) dim (map (f_int (ieee lib)) (repeat (-1529) 560)) -> exists fuel0, forall fuel, (fuel0 <= fuel)%nat -> forall err,
  exists u, utt_init (ieee lib) ieee_wide (tenth 1) fuel err (rc9_on bank) (mk_format 1 16000 16) = Ok (Some u, err) /\
  forall ps, Forall piece ps -> concat ps = audio9 ->
  exists ns ll, session (ieee lib) ieee_wide (tenth 1) fuel err (Some u) ps = Ok (ns, text9, ll) /\ total ns = 560.
Proof.
  intros lib bank dim Hdim Hfit. set (xs := repeat (-1529) 560).
  assert (Dx : AudioSpec.decodes (Z.to_nat (w_bits (mk_format 1 16000 16) / 8)) audio9 xs []).
  { change (Z.to_nat (w_bits (mk_format 1 16000 16) / 8)) with 2%nat. unfold audio9, xs. clear.
    generalize 560%nat. intros n. unfold AudioSpec.decodes. rewrite app_nil_r. split; [|split; [|cbn; lia]].
    - induction n as [|n IH]; [reflexivity|]. cbn [repeat concat map]. rewrite IH. reflexivity.
    - apply Forall_forall. intros x J. apply repeat_spec in J. subst x. unfold fits. cbn. lia. }
  destruct (session_ieee lib unit (tenth 1) (rc9_on bank) None (fun _ => True) I 0%nat 0%nat 1%nat dim (mk_format 1 16000 16) xs audio9 []
    Hfit (am9_fits bank dim Hdim) ltac:(unfold supported, valid_width; cbn; tauto) Dx) as (rows & Hr & H).
  destruct (case9_on lib bank _ _ Hr) as (_ & C1 & C2 & C3 & C4 & C5 & C6 & C7 & Er).
  { rewrite map_length. unfold xs. apply repeat_length. }
  destruct (H states9 I C1 C2 C3 C4 C5 C6 C7) as (fuel0 & dec & words & weight & text & Eb & St & Hs).
  assert (E9 : forall n, exists d, DecoderSpec.decodes (ieee lib) ieee_wide (utt_config (ieee lib) (tenth 1) (rc9_on bank)) collector (50 + n) tt [row9; row9] d /\
     exists w, best_path (ieee lib) ieee_wide (utt_config (ieee lib) (tenth 1) (rc9_on bank)) (end_of_stream d) = Ok ([7; 5], w)).
  { intros n. destruct (DecoderCases.report_ok _ _ _ (ieee lib) ieee_wide (utt_config (ieee lib) (tenth 1) (rc9_on bank)) collector (50 + n) tt [row9; row9]
      [((0, 0), num 11911823 (-23)); ((1, 0), num 14092861 (-25)); ((2, 0), num 10737418 (-26))]
      ([7; 5], num 8724152 (-25)) ([7; 5], num 12079595 (-25))) as (d & D1 & _ & _ & D2).
    - vm_compute. reflexivity.
    - eauto. }
  exists fuel0. intros fuel Hf err. destruct (Hs fuel err Hf) as (_ & u & Eu & Hu). exists u. split; auto.
  destruct (Hs (50 + fuel0)%nat err ltac:(lia)) as (Hd & _). destruct (E9 fuel0) as (d & (d0 & d1 & G1 & G2 & G3) & w & G4).
  destruct Hd as (d0' & d1' & K1 & K2 & K3). rewrite Er in *. cbn [rc_cache rc9_on] in K1.
  rewrite G1 in K1. injection K1 as <-. rewrite G2 in K2. injection K2 as <-. rewrite G3 in K3. injection K3 as <-.
  rewrite G4 in Eb. injection Eb as <- <-.
  assert (text = text9) as ->.
  { apply (SttTotal.spells_unique symbols9 (rev [7; 5])); [exact St|]. exists [lit "so"; lit "what"].
    split; [repeat constructor; reflexivity|reflexivity]. }
  intros ps Hp Ec. destruct (Hu ps Hp Ec) as (ns & ll & E1 & E2 & _). exists ns, ll. split; auto.
Qed.

Lemma result9 : forall lib, exists fuel0, forall fuel, (fuel0 <= fuel)%nat -> forall err,
  exists u, utt_init (ieee lib) ieee_wide (tenth 1) fuel err rc9 (mk_format 1 16000 16) = Ok (Some u, err) /\
  forall ps, Forall piece ps -> concat ps = audio9 ->
  exists ns ll, session (ieee lib) ieee_wide (tenth 1) fuel err (Some u) ps = Ok (ns, text9, ll) /\ total ns = 560.
Proof. intros lib. exact (result9_on lib bank9 1 ltac:(lia) (features9 lib _)). Qed.
