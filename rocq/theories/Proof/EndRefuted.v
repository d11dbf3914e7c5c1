(** A model and audio of 22 frames for which the program prints words that no
    path has. *)
From Coq Require Import ZArith Reals String List Bool Lia.
From Verif.Base Require Import Prelude Lemmas.
From Verif.Spec Require Import AudioSpec AmSpec PcmSpec TextSpec NnetSpec FbankSpec DecoderSpec SttSpec TotalSpec SessionSpec LibmSpec ValueSpec LoadingSpec ProgramSpec EndSpec.
From Verif.Model Require Import Util File Arith Pcm Fbank Srfft FbankInit Pool Fst Decoder SymbolTable Stt Main Loading Ieee IeeeFbank.
From Verif.Proof Require Import IeeeLaws IeeeCases MelClose TotalCases FiniteCases EndToEnd EndCases EndDirect.
From Verif.Proof Require DecoderCases LoadingCases.
Import ListNotations.
Open Scope Z_scope.

(** "so what", or "what" after a while. *)
Definition graph14 : graph float32 := mk_graph 0
  [ (infinite, [mk_arc 3 1 0 (tenth 140); mk_arc 1 0 5 (tenth 0)]);
    (infinite, [mk_arc 2 1 7 (tenth 4)]);
    (tenth 0, [mk_arc 2 1 0 (tenth 4)]);
    (infinite, [mk_arc 3 1 0 (tenth 0); mk_arc 4 1 7 (tenth 106)]);
    (infinite, [mk_arc 4 1 0 (tenth 0)]) ].
Definition states14 : list state := [(0, 0); (1, 0); (2, 0); (3, 0); (4, 0)].
Definition model14 : model (graph float32) :=
  mk_model graph14 layers11 [0; 0] 1 1 2 2 [0; 0; 1] words11 9 8 None.
Definition hclg14 (name : str) : res (option (graph float32)) := Ok (if str_eqb name (lit "d/g") then Some graph14 else None).
Definition audio14 : bytes := concat (repeat [7; 250] 3760).
Definition samples14 : list Z := repeat (-1529) 3760.
Definition files14 (name : str) : option str :=
  if str_eqb name (lit "u.wav") then Some (wav 16 7556 7520 audio14) else files11 name.
Definition rows14 : list (list float32) := repeat row9 22.

Section Case14.
Variable C : Type.
Notation O := (ieee rough).
Notation X := ieee_wide.
Definition config14 : config float32 C := new_config O graph14 [0; 0; 1] (tenth 1) None.

(** * The run of the decoder *)
Definition known14 (x : Z) : bool := (x =? 5) || (x =? 7).
Definition run14 (fuel : nat) (cache : C) : res (list Z) :=
  d0 <- new_decoder cache ;; d1 <- initialize O X config14 fuel d0 ;;
  _ <- check (told O X config14 known14 fuel d1 rows14) Assert ;;
  '(d, b) <- process_all O X config14 collector fuel d1 rows14 ;; _ <- check b Assert ;;
  '(ws, _) <- best_path O X config14 (end_of_stream d) ;; Ok ws.
Lemma run14_ok : forall n cache, run14 (50 + n) cache = Ok [7; 7].
Proof. intros n cache. vm_compute. reflexivity. Qed.

(** * Its graph *)
Local Opaque tenth num infinite.
Lemma arcs14 : forall s a, arc_from graph14 s a ->
  (s = 0 /\ (a = mk_arc 3 1 0 (tenth 140) \/ a = mk_arc 1 0 5 (tenth 0))) \/
  (s = 1 /\ a = mk_arc 2 1 7 (tenth 4)) \/ (s = 2 /\ a = mk_arc 2 1 0 (tenth 4)) \/
  (s = 3 /\ (a = mk_arc 3 1 0 (tenth 0) \/ a = mk_arc 4 1 7 (tenth 106))) \/ (s = 4 /\ a = mk_arc 4 1 0 (tenth 0)).
Proof.
  intros s a (H0 & fw & l & E & J). destruct (Z.to_nat s) as [|[|[|[|[|n]]]]] eqn:Es; cbn in E.
  - injection E as <- <-. left. split; [lia|]. destruct J as [J|[J|[]]]; auto.
  - injection E as <- <-. right. left. split; [lia|]. destruct J as [J|[]]; auto.
  - injection E as <- <-. right. right. left. split; [lia|]. destruct J as [J|[]]; auto.
  - injection E as <- <-. right. right. right. left. split; [lia|]. destruct J as [J|[J|[]]]; auto.
  - injection E as <- <-. right. right. right. right. split; [lia|]. destruct J as [J|[]]; auto.
  - destruct n; discriminate.
Qed.

Lemma words14 : forall fs s c ws, path O X graph14 [0; 0; 1] (tenth 1) None fs s c ws ->
  snd s = 0 /\ nth_error [[]; [5]; [5; 7]; []; [7]] (Z.to_nat (Datatypes.fst s)) = Some ws.
Proof.
  intros fs s c ws P. induction P as [|fs s l c ws a l' lw P IH Af Z0 El|fs logp s l c ws a l' lw ac P IH Af NZ Ac El].
  - split; reflexivity.
  - injection El as <- <-. destruct IH as (E1 & E2). cbn [Datatypes.fst snd] in *. subst l. split; [reflexivity|]. apply arcs14 in Af.
    destruct Af as [(-> & [-> | ->])|[(-> & ->)|[(-> & ->)|[(-> & [-> | ->])|(-> & ->)]]]]; try discriminate Z0;
      cbn in E2; injection E2 as <-; reflexivity.
  - injection El as <- <-. destruct IH as (E1 & E2). cbn [Datatypes.fst snd] in *. subst l. split; [reflexivity|]. apply arcs14 in Af.
    destruct Af as [(-> & [-> | ->])|[(-> & ->)|[(-> & ->)|[(-> & [-> | ->])|(-> & ->)]]]]; try (exfalso; apply NZ; reflexivity);
      cbn in E2; injection E2 as <-; reflexivity.
Qed.

Lemma not14 : forall fs s c ws, path O X graph14 [0; 0; 1] (tenth 1) None fs s c ws -> ws <> [7; 7].
Proof.
  intros fs s c ws P ->. apply words14 in P. destruct P as (_ & P).
  destruct (Z.to_nat (Datatypes.fst s)) as [|[|[|[|[|n]]]]]; cbn in P; try discriminate P. destruct n; discriminate P.
Qed.

Lemma brief14 : forall rows, brief O X config14 None rows.
Proof.
  intros rows later fs s c ws _ P. apply words14 in P. destruct P as (_ & P).
  destruct (Z.to_nat (Datatypes.fst s)) as [|[|[|[|[|n]]]]]; cbn in P; try (injection P as <-; reflexivity). destruct n; discriminate P.
Qed.

Lemma lively14 : lively config14 states14.
Proof.
  intros s J. destruct J as [<-|[<-|[<-|[<-|[<-|[]]]]]]; eexists; (split; [split; [cbn; lia|eexists; eexists; split; [reflexivity|now left]]|discriminate]).
Qed.

Lemma fits14 : forall rows, (forall r, In r rows -> r = row9) -> run_fits O X config14 None (fun _ => True) rows states14.
Proof.
  intros rows Hr.
  assert (Hp : forall s, In s states14 -> proper config14 s /\ answers config14 (fun _ => True) s).
  { intros s J. split; [|intros a m c _ _ E; discriminate E].
    destruct J as [<-|[<-|[<-|[<-|[<-|[]]]]]]; unfold proper; cbn; lia. }
  assert (Hs : forall s a, In s states14 -> arc_from graph14 (Datatypes.fst s) a -> In (arrival O None s a) states14).
  { intros s a J Af. apply arcs14 in Af. unfold states14 in *. destruct J as [<-|[<-|[<-|[<-|[<-|[]]]]]]; cbn [Datatypes.fst] in Af;
      destruct Af as [(E & [-> | ->])|[(E & ->)|[(E & ->)|[(E & [-> | ->])|(E & ->)]]]]; try discriminate E; cbn; tauto. }
  assert (Hf : forall from logp, (from = [] \/ from = states14 /\ logp = row9) -> frame_fits O X config14 None (fun _ => True) logp from states14).
  { intros from logp Hc. constructor; auto.
    - cbn. lia.
    - intros s J. apply Hp. destruct Hc as [-> | (-> & _)]; [destruct J|exact J].
    - intros s a J Af NZ. destruct Hc as [-> | (-> & ->)]; [destruct J|]. split; [now apply Hs|].
      assert (E1 : input_label a = 1).
      { apply arcs14 in Af. destruct Af as [(E & [-> | ->])|[(E & ->)|[(E & ->)|[(E & [-> | ->])|(E & ->)]]]]; cbn in NZ; try congruence; reflexivity. }
      eexists. exists 0, (tenth (-1)). rewrite E1.
      split; [discriminate|split; [reflexivity|split; [discriminate|split; reflexivity]]]. }
  constructor.
  - now left.
  - discriminate.
  - apply Hf. now left.
  - intros logp J. apply Hf. right. auto.
Qed.
End Case14.

(** * Costs *)
Section Costs.
Notation O := (ieee rough).
Notation X := ieee_wide.
Notation cfg := (config14 unit).

Definition next_finite14 (layer : list (state * float32)) : bool :=
  forallb (fun p => forallb (fun a => match log_likelihood O cfg row9 (input_label a) with
      | Ok l => f_finite O (f_add O (f_add O (snd p) (weight a)) (x_neg X l))
      | Fault _ => true end) (DecoderCases.arcs_of cfg (Datatypes.fst (Datatypes.fst p)))) layer.
Definition add14 (p : state * float32) (layer : list (state * float32)) : list (state * float32) :=
  if IeeeCases.listed p layer then layer else p :: layer.
Definition by_eps14 (layer : list (state * float32)) : list (state * float32) :=
  fold_right (fun p l => fold_right (fun a l => if input_label a =? 0 then
      add14 ((next_state a, snd (Datatypes.fst p)), x_narrow X (cost_after O X (snd p) (weight a) (f_zero O) None)) l
      else l) l (DecoderCases.arcs_of cfg (Datatypes.fst (Datatypes.fst p)))) layer layer.
Definition by_frame14 (logp : list float32) (layer : list (state * float32)) : list (state * float32) :=
  fold_right (fun p l => fold_right (fun a l => if input_label a =? 0 then l else
      match log_likelihood O cfg logp (input_label a) with
      | Ok y => add14 ((next_state a, snd (Datatypes.fst p)), x_narrow X (cost_after O X (snd p) (weight a) (x_neg X y) None)) l
      | Fault _ => l
      end) l (DecoderCases.arcs_of cfg (Datatypes.fst (Datatypes.fst p)))) [] layer.
Fixpoint layers14 (n : nat) : list (list (state * float32)) :=
  match n with
  | 0%nat => [by_eps14 [((0, 0), f_zero O)]]
  | Datatypes.S n => let ls := layers14 n in by_eps14 (by_frame14 row9 (hd [] ls)) :: ls
  end.

Lemma layered_part : forall later fs layers, layered rough cfg (later ++ fs) layers = true ->
  exists pre layers', layers = pre ++ layers' /\ layered rough cfg fs layers' = true.
Proof.
  induction later as [|logp later IH]; intros fs layers H; cbn [app] in H; [exists [], layers; auto|].
  destruct layers as [|layer rest]; [discriminate H|]. cbn [layered] in H. apply andb_true_iff in H. destruct H as [_ H].
  apply andb_true_iff in H. destruct H as [H _]. destruct (IH _ _ H) as (pre & l' & -> & E). exists (layer :: pre), l'. auto.
Qed.

Lemma finite14 : finite_costs O X cfg None rows14.
Proof.
  assert (H : (let ls := layers14 22 in layered rough cfg rows14 ls && forallb next_finite14 ls) = true) by (vm_compute; reflexivity).
  cbv zeta in H. apply andb_true_iff in H. destruct H as (H1 & H2).
  assert (Hr : rev rows14 = rows14) by reflexivity.
  intros later fs s c ws E P. split.
  { apply (layered_finite rough cfg rows14 (layers14 22)) with (later := later) (fs := fs) (s := s) (ws := ws); auto. }
  intros later' logp a ac -> Af NZ Ac. rewrite Hr in E.
  assert (logp = row9) as ->.
  { apply (repeat_spec 22). fold rows14. rewrite E. apply in_or_app. left. apply in_or_app. right. now left. }
  rewrite E in H1. destruct (layered_part _ _ _ H1) as (pre & l' & El & Hl).
  pose proof (layered_path rough cfg _ _ _ _ P _ Hl) as J. destruct l' as [|layer l']; [contradiction|].
  rewrite forallb_forall in H2. assert (N : next_finite14 layer = true) by (apply H2; rewrite El; apply in_or_app; right; now left).
  unfold next_finite14 in N. rewrite forallb_forall in N. specialize (N _ J). cbn [Datatypes.fst snd] in N.
  rewrite forallb_forall in N. specialize (N a (DecoderCases.arcs_of_in cfg _ _ Af)).
  destruct (DecoderCases.acoustic_log O X cfg _ _ _ Ac) as (y & Ey & ->). rewrite Ey in N. exact N.
Qed.
End Costs.

(** * The files *)
Import LoadingCases.
Lemma stored14 : stored (ieee rough) bits32 files14 hclg14 (lit "d/m") model14.
Proof.
  exists (text lines11 ++ last11), (lines11 ++ [last11]).
  split; [reflexivity|].
  split.
  { exists lines11, last11. split; [reflexivity|]. split; [unfold lines11; cbn [map]; repeat (constructor; [plain9|]); constructor|].
    split; [plain9|]. split; [reflexivity|].
    repeat (constructor; [right; do 2 eexists; apply classify_some; vm_compute; reflexivity|]). constructor. }
  split; [exists (lit "d/g"); split; [apply graph9_set; vm_compute; reflexivity|reflexivity]|].
  split; [data9 "n"%string; exact network11|].
  split.
  { data9 "p"%string. split; [apply vector9; small|]. repeat (constructor; [vm_compute; reflexivity|]). constructor. }
  split; [apply (number9 _ _ 1); [vm_compute; reflexivity|cbn; lia]|].
  split; [apply (number9 _ _ 1); [vm_compute; reflexivity|cbn; lia]|].
  split; [apply (number9 _ _ 2); [vm_compute; reflexivity|cbn; lia]|].
  split; [apply (number9 _ _ 2); [vm_compute; reflexivity|cbn; lia]|].
  split; [data9 "t"%string; apply vector9; small|].
  split; [data9 "w"%string; exact words11_file|].
  apply absent9. vm_compute. reflexivity.
Qed.

Lemma audio14_bytes : byte_list audio14.
Proof.
  unfold audio14. generalize 3760%nat. intros n. apply Forall_forall. intros x J. apply in_concat in J.
  destruct J as (l & J & Jx). apply repeat_spec in J. subst l. destruct Jx as [<-|[<-|[]]]; lia.
Qed.

Lemma decodes14 : AudioSpec.decodes 2 audio14 samples14 [].
Proof.
  unfold audio14, samples14. generalize 3760%nat. intros n. unfold AudioSpec.decodes. rewrite app_nil_r. split; [|split; [|cbn; lia]].
  - induction n as [|n IH]; [reflexivity|]. cbn [repeat concat map]. rewrite IH. reflexivity.
  - apply Forall_forall. intros x J. apply repeat_spec in J. subst x. unfold fits. cbn. lia.
Qed.

Lemma wav14 : wav_sizes 16 7556 7520.
Proof. unfold wav_sizes, valid_width, fits. cbn. lia. Qed.

Lemma network14 : network_fits model14 blocks11.
Proof. destruct fits11. constructor; auto. Qed.

Lemma rows_same14 : forall T I junk junk_int lm_fuel rc samples rows,
  made_of (ieee rough) bits32 T I junk junk_int lm_fuel model14 rc -> features_fit (ieee rough) rc 40 samples ->
  rows_of (ieee rough) rc 1 1 samples rows -> rows = repeat row9 (num_windows 400 160 (List.length samples)).
Proof.
  intros T I junk junk_int lm_fuel rc samples rows (H0 & H1) Hd Hr.
  refine (rows11 T I junk junk_int lm_fuel (mk_recognizer TotalCases.graph9 (rc_am rc) (rc_pdf rc) (rc_lm rc) (rc_cache rc) (rc_fbank rc) (rc_symbols rc)) samples rows _ _ _).
  - split; [reflexivity|]. exact H1.
  - exact Hd.
  - exact Hr.
Qed.

Lemma printed14 : forall M, libm M -> close_logf M -> forall junk junk_int unknown why lm_fuel header_error,
  let O := ieee rough in let X := ieee_wide in
  exists rc rows,
    made_of O bits32 (ieee_trig M) (ieee_init M) junk junk_int lm_fuel model14 rc /\
    rows_of O rc (left_context blocks11) (right_context blocks11) (map (f_int O) samples14) rows /\
    (let cfg := utt_config O (tenth 1) rc in
     run_fits O X cfg None (fun _ => True) rows states14 /\ lively cfg states14 /\ finite_costs O X cfg None rows /\
     brief O X cfg None rows /\ ends cfg states14 /\ EndSpec.listed model14 states14) /\
    (forall s c ws, path O X (m_graph model14) (m_tid2pdf model14) (tenth 1) None (rev rows) s c ws -> ws <> [7; 7]) /\
    forall fuel, (50 <= fuel)%nat ->
    run_main O X (tenth 1) fuel files14
      (stt_load O (ieee_trig M) (ieee_init M) junk junk_int bits32 unknown files14 hclg14 why lm_fuel) header_error
      [lit "d/m"; lit "u.wav"] = Ok (lit "what what" ++ [10], 0).
Proof.
  intros M HM HC junk junk_int unknown why lm_fuel header_error O X. destruct (extractor_built rough M HC junk junk_int) as (fb & Efb).
  destruct (files_direct rough M junk junk_int (tenth 1) bits32 unknown files14 hclg14 why lm_fuel header_error (lit "d/m") model14 blocks11 fb
    HM Efb stored14 network14
    (lit "u.wav") 16 7556 7520 audio14 samples14 [] ltac:(exists (lit "u"); reflexivity) eq_refl wav14 audio14_bytes decodes14) as (rc & rows & Hm & Hrows & H).
  pose proof Hm as (A0 & _ & _ & _ & _ & _ & A6 & _ & _ & A9 & A10). cbn [m_lm model14 m_graph m_tid2pdf] in A0, A6, A10.
  assert (Er : rows = rows14).
  { pose proof (rows_same14 _ _ _ _ _ _ _ _ Hm (audio_features rough M junk junk_int _ rc 2 samples14 HM A9 (le_S _ _ (le_S _ _ (le_n 2))) (proj1 (proj2 decodes14))) Hrows) as E.
    rewrite map_length in E. unfold samples14 in E. rewrite repeat_length in E. exact E. }
  subst rows.
  assert (Ec : utt_config (ieee rough) (tenth 1) rc = config14 _).
  { unfold utt_config, config14. now rewrite A0, A6, A10. }
  exists rc, rows14. split; [exact Hm|]. split; [exact Hrows|]. split; [|split].
  - cbv zeta. unfold O. rewrite Ec. split; [apply fits14; intros r J; exact (repeat_spec 22 _ _ J)|]. split; [apply lively14|].
    split; [exact finite14|]. split; [apply brief14|]. split; [intros s m _ E; discriminate E|].
    intros s a J Af NZ. apply arcs14 in Af. destruct Af as [(E & [-> | ->])|[(E & ->)|[(E & ->)|[(E & [-> | ->])|(E & ->)]]]]; try (exfalso; apply NZ; reflexivity).
    + exists (lit "so"). cbn. tauto.
    + exists (lit "what"). cbn. tauto.
    + exists (lit "what"). cbn. tauto.
  - exact (not14 (rev rows14)).
  - intros fuel Hfuel. cbv zeta in H. rewrite Ec in H.
    pose proof (run14_ok _ (fuel - 50) (rc_cache rc)) as R. replace (50 + (fuel - 50))%nat with fuel in R by lia. unfold run14 in R.
    destruct (new_decoder (rc_cache rc)) as [d0|] eqn:E0; [|discriminate R]. cbn [bind] in R.
    destruct (initialize (ieee rough) ieee_wide (config14 _) fuel d0) as [d1|] eqn:E1; [|discriminate R]. cbn [bind] in R.
    destruct (told (ieee rough) ieee_wide (config14 _) known14 fuel d1 rows14) eqn:E2; [|discriminate R]. cbn [check bind] in R.
    destruct (process_all (ieee rough) ieee_wide (config14 _) collector fuel d1 rows14) as [[d [|]]|] eqn:E3; try discriminate R. cbn [check bind] in R.
    destruct (best_path (ieee rough) ieee_wide (config14 _) (end_of_stream d)) as [[ws w]|] eqn:E4; [|discriminate R]. cbn [bind] in R. injection R as ->.
    refine (H known14 fuel d0 d1 d [7; 7] w _ eq_refl E1 E2 E3 E4 eq_refl [lit "what"; lit "what"] _).
    + intros x K. unfold known14 in K. apply orb_true_iff in K. destruct K as [K|K]; apply Z.eqb_eq in K; subst x.
      * exists (lit "so"). cbn. tauto.
      * exists (lit "what"). cbn. tauto.
    + constructor; [cbn; tauto|]. constructor; [cbn; tauto|constructor].
Qed.

Lemma refuted14 : forall M, libm M -> close_logf M -> forall junk junk_int unknown why lm_fuel header_error,
  let O := ieee rough in let X := ieee_wide in
  stored O bits32 files14 hclg14 (lit "d/m") model14 /\ network_fits model14 blocks11 /\
  model_words O bits32 lm_fuel model14 None (fun _ => True) /\
  files14 (lit "u.wav") = Some (wav 16 7556 7520 audio14) /\ wav_sizes 16 7556 7520 /\ byte_list audio14 /\
  AudioSpec.decodes 2 audio14 samples14 [] /\
  exists rc rows,
    made_of O bits32 (ieee_trig M) (ieee_init M) junk junk_int lm_fuel model14 rc /\
    rows_of O rc (left_context blocks11) (right_context blocks11) (map (f_int O) samples14) rows /\
    (let cfg := utt_config O (tenth 1) rc in
     run_fits O X cfg None (fun _ => True) rows states14 /\ lively cfg states14 /\ finite_costs O X cfg None rows /\
     brief O X cfg None rows /\ ends cfg states14 /\ EndSpec.listed model14 states14) /\
    (forall s c ws, path O X (m_graph model14) (m_tid2pdf model14) (tenth 1) None (rev rows) s c ws -> ws <> [7; 7]) /\
    forall fuel, (50 <= fuel)%nat ->
    run_main O X (tenth 1) fuel files14
      (stt_load O (ieee_trig M) (ieee_init M) junk junk_int bits32 unknown files14 hclg14 why lm_fuel) header_error
      [lit "d/m"; lit "u.wav"] = Ok (lit "what what" ++ [10], 0).
Proof.
  intros M HM HC junk junk_int unknown why lm_fuel header_error O X.
  split; [exact stored14|]. split; [exact network14|]. split; [exact (without_lm O bits32 lm_fuel model14 eq_refl)|].
  split; [reflexivity|]. split; [exact wav14|]. split; [exact audio14_bytes|]. split; [exact decodes14|].
  exact (printed14 M HM HC junk junk_int unknown why lm_fuel header_error).
Qed.
