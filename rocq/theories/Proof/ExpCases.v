(** A network that is too sure, in files. *)
From Coq Require Import ZArith String List Bool Lia Floats.SpecFloat.
From Verif.Base Require Import Prelude Lemmas.
From Verif.Spec Require Import AudioSpec AmSpec FbankSpec PcmSpec TextSpec FormatSpec NnetSpec AmTextSpec FstSpec DecoderSpec SttSpec TotalSpec SessionSpec LibmSpec ValueSpec LoadingSpec ProgramSpec EndSpec CommandSpec PlainSpec ExpSpec.
From Verif.Model Require Import Util File Arith Vector Pcm Fbank Srfft FbankInit Nnet Am SymbolTable Pool Fst Decoder Stt Main Loading Ieee IeeeFbank.
From Verif.Proof Require Import Loop Lines IeeeLaws IeeeCases TotalCases FiniteCases EndToEnd EndCases CommandUse ExpLimits ExpProgram.
From Verif.Proof Require Nnet AmVerify LoadingCases Windows MelClose MelCloseCases PlainCases ExpUse.
Import ListNotations.
Open Scope Z_scope.

(** exp is 2 ^ 128 from 89 on, 0 up to -105 and 1 in between; log is infinite
    where it has to be and 0 otherwise. *)
Definition loud : library := mk_library (fun x => x)
  (fun x => if SFleb (num64 89 0) (fl_val x) then f64 (num64 1 128)
            else if SFleb (fl_val x) (num64 (-105) 0) then f64 (num64 0 0) else f64 (num64 1 0))
  (fun x => match fl_val x with
            | S754_zero _ => f64 (S754_infinity true)
            | S754_infinity false => f64 (S754_infinity false)
            | _ => f64 (S754_zero false)
            end)
  (fun _ _ => f32 (S754_zero false)).

Lemma loud_steep : steep_exp loud.
Proof.
  constructor; cbn [lib_exp lib_log loud].
  - intros x _. unfold above64. destruct (SFleb (num64 89 0) (fl_val x)); [vm_compute; reflexivity|].
    destruct (SFleb (fl_val x) (num64 (-105) 0)); vm_compute; reflexivity.
  - intros x _ H. unfold above64 in H. rewrite H. vm_compute. reflexivity.
  - intros x Fx H. unfold below64 in *. destruct (SFleb (num64 89 0) (fl_val x)) eqn:E.
    + exfalso. apply (above_key 2200 (2 ^ (1024 + 2200)) (Z.le_refl _) (Z.le_refl _) 89 0) in E; try lia.
      apply (below_key 2200 (2 ^ (1024 + 2200)) (Z.le_refl _) (Z.le_refl _) (-105) 0) in H; try lia.
      destruct E as (a & Ka & A). destruct H as (b & Kb & B). rewrite Ka in Kb. injection Kb as <-.
      pose proof (Z.pow_pos_nonneg 2 (0 + 2200) ltac:(lia) ltac:(lia)). lia.
    + rewrite H. vm_compute. reflexivity.
  - reflexivity.
  - intros s. destruct s; reflexivity.
Qed.

Lemma loud_sane : sane_exp loud.
Proof.
  constructor; cbn [lib_exp lib_log loud].
  - intros x Fx H. destruct (SFleb (num64 89 0) (fl_val x)) eqn:E.
    + exfalso. apply (above_key 2200 (2 ^ (1024 + 2200)) (Z.le_refl _) (Z.le_refl _) 89 0) in E; try lia.
      apply (below_key 2200 (2 ^ (1024 + 2200)) (Z.le_refl _) (Z.le_refl _) 80 0) in H; try lia.
      destruct E as (a & Ka & A). destruct H as (b & Kb & B). rewrite Ka in Kb. injection Kb as <-.
      pose proof (Z.pow_pos_nonneg 2 (0 + 2200) ltac:(lia) ltac:(lia)). lia.
    + destruct (SFleb (fl_val x) (num64 (-105) 0)); split; vm_compute; reflexivity.
  - intros x H1 H2. destruct (SFleb (num64 89 0) (fl_val x)) eqn:E; [vm_compute; reflexivity|].
    destruct (SFleb (fl_val x) (num64 (-105) 0)) eqn:E2; [|vm_compute; reflexivity].
    exfalso. apply (below_key 2200 (2 ^ (1024 + 2200)) (Z.le_refl _) (Z.le_refl _) (-105) 0) in E2; try lia.
    apply (above_key 2200 (2 ^ (1024 + 2200)) (Z.le_refl _) (Z.le_refl _) (-80) 0) in H2; try lia.
    destruct H2 as (a & Ka & A). destruct E2 as (b & Kb & B). rewrite Ka in Kb. injection Kb as <-.
    pose proof (Z.pow_pos_nonneg 2 (0 + 2200) ltac:(lia) ltac:(lia)). lia.
  - intros x H1 H2. destruct (fl_val x) as [s|[|]| |s m e] eqn:E; try (split; vm_compute; reflexivity).
    + exfalso. unfold above64 in H1. rewrite E in H1. vm_compute in H1. discriminate H1.
    + exfalso. unfold below64 in H2. rewrite E in H2. vm_compute in H2. discriminate H2.
Qed.

(** * Rows *)
Lemma mild17 : Forall mild [[num 3 0; num (-2000) 0; num 79 0]; [num (-80) 0]].
Proof.
  constructor; [|constructor; [|constructor]]; (constructor; [repeat constructor; vm_compute; reflexivity| |reflexivity]); constructor 1; vm_compute; reflexivity.
Qed.

Lemma over17 : Forall (fun row : list float32 => Forall (fun x => is_finite (fl_val x) = true) row /\ Exists (above32 89 0) row)
  [[num 3 0; num (-2000) 0; num 89 0]; [num 100 0; num 0 0]].
Proof.
  constructor; [|constructor; [|constructor]].
  - split; [repeat constructor; vm_compute; reflexivity|]. constructor 2. constructor 2. constructor 1. vm_compute. reflexivity.
  - split; [repeat constructor; vm_compute; reflexivity|]. constructor 1. vm_compute. reflexivity.
Qed.

Lemma under17 : Forall (fun row : list float32 => Forall (fun x => is_finite (fl_val x) = true /\ below32 (-105) 0 x) row)
  [[num (-105) 0; num (-2000) 0]].
Proof. repeat constructor; vm_compute; reflexivity. Qed.

(** * A model in files *)
(** Activations [z] and 0, and priors of 1. *)
Definition layers17 (z : Z) : list (layer Z) := [Splice [-1; 0; 1]; Narrow 1 1; Linear (repeat [1065353216; -1082130432] 120) [z; 0]; LogSoftmax].
Definition blocks17 (z : Z) : list (block Z) :=
  [Context [-1; 0; 1]; Single (Linear (repeat [1065353216; -1082130432] 120) [z; 0]); Single LogSoftmax].
Definition model17 (z : Z) : model (graph float32) :=
  mk_model graph13 (layers17 z) [1065353216; 1065353216] 1 1 2 2 [0; 0; 1] words11 9 8 None.
Definition audio17 : bytes := concat (repeat [7; 250] 720).
Definition samples17 : list Z := repeat (-1529) 720.
Definition files17 (z : Z) (name : str) : option str :=
  match List.find (fun e => str_eqb name (Datatypes.fst e))
    [(lit "d/m", text lines11 ++ last11);
     (lit "d/n", network_file 1 1 (layers17 z));
     (lit "d/p", vector_file [1065353216; 1065353216]);
     (lit "d/t", vector_file [0; 0; 1]);
     (lit "d/w", text word_lines11);
     (lit "u.wav", wav 16 1476 1440 audio17)] with
  | Some e => Some (snd e)
  | None => None
  end.

Import LoadingCases.
Lemma network17 : forall z, fits 4 z -> is_network (layers17 z) (network_file 1 1 (layers17 z)).
Proof.
  intros z Fz. exists 1, 1, []. rewrite app_nil_r. split; [reflexivity|]. split; [fit|]. split; [fit|]. split; [|cbn; lia].
  unfold layers17. constructor; [split; [fit_all|cbn; lia]|]. constructor; [split; fit|]. constructor; [|constructor; [exact Logic.I|constructor]].
  assert (S2 : forall a b, fits 4 a -> fits 4 b -> storable [a; b]).
  { intros a b A B. split; [discriminate|]. split; [|cbn; lia]. constructor; [exact A|]. constructor; [exact B|constructor]. }
  split; [|apply S2; [exact Fz|unfold fits; cbn; lia]]. split; [discriminate|].
  split; [|split; [|vm_compute; discriminate]].
  - apply Forall_forall. intros r J. apply repeat_spec in J. subst r. apply S2; unfold fits; cbn; lia.
  - exists 2. apply Forall_forall. intros r J. apply repeat_spec in J. subst r. reflexivity.
Qed.

Lemma stored17 : forall z, fits 4 z -> stored (ieee loud) bits32 (files17 z) hclg13 (lit "d/m") (model17 z).
Proof.
  intros z Fz. exists (text lines11 ++ last11), (lines11 ++ [last11]). split; [reflexivity|].
  split.
  { exists lines11, last11. split; [reflexivity|]. split; [unfold lines11; cbn [map]; repeat (constructor; [plain9|]); constructor|].
    split; [plain9|]. split; [reflexivity|].
    repeat (constructor; [right; do 2 eexists; apply classify_some; vm_compute; reflexivity|]). constructor. }
  split; [exists (lit "d/g"); split; [apply graph9_set; vm_compute; reflexivity|reflexivity]|].
  split; [data9 "n"%string; exact (network17 z Fz)|].
  split.
  { data9 "p"%string. split; [apply vector9|].
    - split; [discriminate|]. split; [|cbn; lia]. repeat (constructor; [unfold fits; cbn; lia|]). constructor.
    - repeat (constructor; [vm_compute; reflexivity|]). constructor. }
  split; [apply (number9 _ _ 1); [vm_compute; reflexivity|cbn; lia]|].
  split; [apply (number9 _ _ 1); [vm_compute; reflexivity|cbn; lia]|].
  split; [apply (number9 _ _ 2); [vm_compute; reflexivity|cbn; lia]|].
  split; [apply (number9 _ _ 2); [vm_compute; reflexivity|cbn; lia]|].
  split; [data9 "t"%string; apply vector9; small|].
  split; [data9 "w"%string; exact words11_file|].
  apply absent9. vm_compute. reflexivity.
Qed.

Lemma fits17 : forall z, network_fits (model17 z) (blocks17 z).
Proof.
  intros z. constructor.
  - reflexivity.
  - repeat constructor. discriminate.
  - apply RunSplice; [discriminate|]. apply RunNarrow; [lia|lia|]. apply RunLinear; [reflexivity| |discriminate|].
    + apply Forall_forall. intros r J. apply repeat_spec in J. subst r. reflexivity.
    + apply RunRow; [tauto|]. constructor.
  - reflexivity.
  - reflexivity.
  - cbn. lia.
  - cbn. lia.
Qed.

(** * The rows *)
Notation O := (ieee loud).
Definition loud_word : Z := 1120403456.
Notation z := loud_word.
Notation net17 := (nnet_propagate O (map (layer_numbers bits32) (layers17 z))).
Lemma loud_fits : fits 4 loud_word. Proof. unfold fits, loud_word. cbn. lia. Qed.
Definition row17 : list float32 := [minus_inf; minus_inf].

Lemma tail_last : forall F (O : fops F) ls' ls x old y, propagate_all O ls x old = Ok y ->
  exists old', propagate_all O (ls ++ ls') x old = propagate_all O ls' y old'.
Proof.
  intros F O' ls'. induction ls as [|l ls IH]; intros x old y E; cbn [propagate_all app] in *.
  - injection E as <-. now exists old.
  - destruct (propagate O' l x old); [|discriminate E]. cbn [bind] in *. exact (IH _ _ _ E).
Qed.

Lemma net17_row : forall w, uniform 40 w -> List.length w = 3%nat -> net17 w = Ok [row17].
Proof.
  intros w U Lw. set (first := [Splice [-1; 0; 1]; Narrow 1 1] : list (layer float32)).
  set (W := map (map bits32) (repeat [1065353216; -1082130432] 120)). set (b := map bits32 [loud_word; 0]).
  change (map (layer_numbers bits32) (layers17 z)) with (first ++ [Linear W b; LogSoftmax]).
  assert (Run : runs_on 40 first 120).
  { apply RunSplice; [discriminate|]. apply RunNarrow; [lia|lia|]. constructor. }
  assert (NW : w <> []) by (intros ->; discriminate Lw).
  destruct (AmVerify.runs_ok O _ _ _ Run ltac:(lia) w NW U) as (y & E & NY & UY).
  assert (Loc : local (nnet_propagate O first) 1 1 40).
  { apply (Nnet.stack_local O [Context [-1; 0; 1]] 40); [|lia]. repeat constructor. discriminate. }
  pose proof (proj1 (Loc w y U ltac:(lia)) E) as H. apply Forall2_len in H.
  rewrite Windows.windows_1_length, Lw in H.
  destruct y as [|r [|r2 y]]; cbn [List.length] in H; try lia.
  destruct (tail_last _ O [Linear W b; LogSoftmax] first w [] [r] E) as (old' & G). unfold nnet_propagate. rewrite G.
  inversion UY as [|? ? Hr _]; subst. cbn [propagate_all propagate]. unfold linear.
  change (num_cols [r]) with (lenZ r). rewrite Hr.
  change (negb (lenZ b =? 0)) with true. change (lenZ [r]) with 1.
  change (Z.of_nat 120 =? lenZ W) with true. change (num_cols W) with 2.
  cbn [check bind map_rows]. unfold mat_row. change (num_cols W) with 2. change (seq 0 (Z.to_nat 2)) with [0%nat; 1%nat]. cbn [map].
  change (mat_shape 1 2) with (Ok tt). cbn [bind].
  assert (A : add_vec O [f_dot O r (column O 0 W); f_dot O r (column O 1 W)] b = Ok [num 100 0; num 0 0]).
  { unfold add_vec. change (lenZ [f_dot O r (column O 0 W); f_dot O r (column O 1 W)] =? lenZ b) with true. cbn [check bind map2 b map].
    reflexivity. }
  rewrite A. reflexivity.
Qed.

Lemma rows17 : forall T I junk junk_int lm_fuel rc samples rows,
  made_of O bits32 T I junk junk_int lm_fuel (model17 z) rc -> features_fit O rc 40 samples ->
  rows_of O rc 1 1 samples rows -> rows = repeat row17 (num_windows 400 160 (List.length samples)).
Proof.
  intros T I junk junk_int lm_fuel rc samples rows (_ & _ & _ & _ & Hp & Hn & _) Hd (feats & H1 & H2).
  assert (Uf : uniform 40 feats).
  { unfold features_fit in Hd. clear - H1 Hd. induction H1 as [|w r ws rs (b & E) _ IH]; [constructor|]. constructor.
    - destruct (Hd w (or_introl eq_refl)) as (r' & b' & E' & Lr). rewrite E in E'. now injection E' as <- _.
    - apply IH. intros x J. apply Hd. now right. }
  assert (Lf : List.length feats = num_windows 400 160 (List.length samples)).
  { rewrite <- (Forall2_len _ _ _ _ _ H1). unfold windows. now rewrite map_length, seq_length. }
  rewrite <- Lf.
  assert (Lr : List.length rows = List.length feats).
  { rewrite <- (Forall2_len _ _ _ _ _ H2). rewrite Windows.windows_1_length. unfold padded.
    destruct feats as [|x fs]; [reflexivity|]. rewrite !app_length, !repeat_length. cbn [List.length]. lia. }
  rewrite <- Lr.
  assert (Up : uniform 40 (padded 1 1 feats)) by (apply SttTotal.padded_forall; exact Uf).
  assert (Hr : Forall (fun r => r = row17) rows).
  { assert (Hw : Forall (fun w => uniform 40 w /\ List.length w = 3%nat) (windows 3 1 (padded 1 1 feats))).
    { apply Forall_forall. intros w J. split; [|exact (SttTotal.windows_one _ _ _ _ J)].
      exact (SttTotal.windows_uniform _ 3 1 _ _ Up w J). }
    clear - H2 Hw Hp Hn. change (Datatypes.S (1 + 1)) with 3%nat in H2.
    induction H2 as [|w r ws rs (x & Ex & Hl & Hx) _ IH]; constructor; [|inversion Hw; auto].
    inversion Hw as [|? ? (U & Lw) _]; subst. rewrite Hn in Ex. cbn [m_layers model17] in Ex. rewrite (net17_row w U Lw) in Ex. injection Ex as <-.
    rewrite Hp in Hx. cbn [m_prior model17 map] in Hx.
    destruct r as [|a1 [|a2 [|a3 r]]]; try discriminate Hl.
    pose proof (Hx 0%nat (num 0 0) ltac:(cbn; lia)) as N0. pose proof (Hx 1%nat (num 0 0) ltac:(cbn; lia)) as N1.
    unfold row17 in N0, N1. cbn [nth] in N0, N1. rewrite N0, N1. unfold row17.
    vm_compute. reflexivity. }
  clear - Hr. induction Hr; cbn; congruence.
Qed.

(** * The decoder *)
Definition silence17 {C} (fuel : nat) (cache : C) : option (bool * res nat) :=
  match new_decoder cache with
  | Ok d0 =>
      match initialize O ieee_wide (new_config O graph13 [0; 0; 1] (tenth 1) None) fuel d0 with
      | Ok d1 => Some (mute O ieee_wide (new_config O graph13 [0; 0; 1] (tenth 1) None) fuel d1 [row17; row17; row17],
          d <- feed O ieee_wide (new_config O graph13 [0; 0; 1] (tenth 1) None) fuel d1 [row17; row17; row17] ;; Ok 0%nat)
      | Fault _ => None
      end
  | Fault _ => None
  end.

Lemma silenced17 : forall C (cache : C) n, silence17 (50 + n) cache = Some (true, Fault Undef).
Proof. intros C cache n. vm_compute. reflexivity. Qed.

Lemma fed17 : forall C (cache : C) n, exists d0 d1,
  let cfg := new_config O graph13 [0; 0; 1] (tenth 1) None in
  new_decoder cache = Ok d0 /\ initialize O ieee_wide cfg (50 + n) d0 = Ok d1 /\
  mute O ieee_wide cfg (50 + n) d1 [row17; row17; row17] = true /\ feed O ieee_wide cfg (50 + n) d1 [row17; row17; row17] = Fault Undef.
Proof.
  intros C cache n. pose proof (silenced17 C cache n) as H. unfold silence17 in H. set (fuel := (50 + n)%nat) in *. clearbody fuel.
  destruct (new_decoder cache) as [d0|]; [|discriminate H].
  destruct (initialize _ _ _ _ d0) as [d1|] eqn:E1; [|discriminate H].
  exists d0, d1. cbv zeta. split; [reflexivity|]. split; [exact E1|].
  destruct (mute _ _ _ _ _ _); [|discriminate H]. split; [reflexivity|].
  destruct (feed _ _ _ _ _ _) as [d|e]; cbn [bind] in H; [discriminate H|]. congruence.
Qed.

(** * The program *)
Lemma bytes17 : byte_list audio17.
Proof.
  unfold audio17. generalize 720%nat. intros n. apply Forall_forall. intros x J. apply in_concat in J.
  destruct J as (l & J & Jx). apply repeat_spec in J. subst l. destruct Jx as [<-|[<-|[]]]; lia.
Qed.

Lemma decodes17 : AudioSpec.decodes 2 audio17 samples17 [].
Proof.
  unfold audio17, samples17. generalize 720%nat. intros n. unfold AudioSpec.decodes. rewrite app_nil_r. split; [|split; [|cbn; lia]].
  - induction n as [|n IH]; [reflexivity|]. cbn [repeat concat map]. rewrite IH. reflexivity.
  - apply Forall_forall. intros x J. apply repeat_spec in J. subst x. unfold fits. cbn. lia.
Qed.

Lemma wav17 : wav_sizes 16 1476 1440.
Proof. unfold wav_sizes, valid_width, fits. cbn. lia. Qed.

Lemma failed17 : forall M, libm M -> close_logf M -> forall junk junk_int unknown why lm_fuel header_error fuel, (50 <= fuel)%nat ->
  exists e, run_main O ieee_wide (tenth 1) fuel (files17 z)
    (stt_load O (ieee_trig M) (ieee_init M) junk junk_int bits32 unknown (files17 z) hclg13 why lm_fuel) header_error
    [lit "d/m"; lit "u.wav"] = Fault e.
Proof.
  intros M HM HC junk junk_int unknown why lm_fuel header_error fuel Hfuel. destruct (MelClose.extractor_built loud M HC junk junk_int) as (fb & Efb).
  destruct (files_fail loud M junk junk_int (tenth 1) bits32 unknown (files17 z) hclg13 why lm_fuel header_error (lit "d/m") (model17 z) (blocks17 z) fb
    HM Efb (stored17 z loud_fits) (fits17 z) (lit "u.wav") 16 1476 1440 audio17 samples17 [] ltac:(exists (lit "u"); reflexivity) eq_refl wav17 bytes17 decodes17)
    as (rc & rows & Hm & Hrows & H).
  pose proof Hm as (A0 & _ & _ & _ & _ & _ & A6 & _ & _ & A9 & A10). cbn [m_lm model17 m_graph m_tid2pdf] in A0, A6, A10.
  assert (Er : rows = [row17; row17; row17]).
  { change (left_context (blocks17 z)) with 1%nat in Hrows. change (right_context (blocks17 z)) with 1%nat in Hrows.
    pose proof (rows17 _ _ _ _ _ _ _ _ Hm (audio_features loud M junk junk_int _ rc 2 samples17 HM A9 (le_S _ _ (le_S _ _ (le_n 2))) (proj1 (proj2 decodes17))) Hrows) as E.
    rewrite map_length in E. unfold samples17 in E. rewrite repeat_length in E. exact E. }
  subst rows.
  assert (Ec : utt_config O (tenth 1) rc = new_config O graph13 [0; 0; 1] (tenth 1) None).
  { unfold utt_config. now rewrite A0, A6, A10. }
  cbv zeta in H. rewrite Ec in H. replace fuel with (50 + (fuel - 50))%nat by lia.
  destruct (fed17 _ (rc_cache rc) (fuel - 50)) as (d0 & d1 & G1 & G2 & G3 & G4).
  exact (H _ d0 d1 Undef G1 G2 G3 G4).
Qed.

(** * Mild activations *)
Definition mild_word : Z := 1065353216.
Lemma mild_fits : fits 4 mild_word. Proof. unfold fits, mild_word. cbn. lia. Qed.

Lemma sound17 : forall z, sound_graph (m_graph (model17 z)) (m_tid2pdf (model17 z)) (lenZ (m_prior (model17 z))).
Proof. intros z0. exact PlainCases.sound13. Qed.

Lemma loud_log : sane_log loud.
Proof.
  intros x H1 H2. cbn [lib_log loud]. destruct (fl_val x) as [s|[|]| |s m e] eqn:E; try (split; vm_compute; reflexivity).
  - exfalso. vm_compute in H1. discriminate H1.
  - exfalso. vm_compute in H2. discriminate H2.
Qed.

Lemma priors17 : forall z, Forall (fun w => in32 (1, 98) (f_log O (bits32 w))) (m_prior (model17 z)).
Proof. intros z0. repeat constructor; vm_compute; reflexivity. Qed.

Definition before17 : list (layer Z) := [Splice [-1; 0; 1]; Narrow 1 1; Linear (repeat [1065353216; -1082130432] 120) [mild_word; 0]].

Lemma mild_net : forall w y, nnet_propagate O (map (layer_numbers bits32) before17) w = Ok [y] -> mild y.
Proof.
  intros w y E. set (first := [Splice [-1; 0; 1]; Narrow 1 1] : list (layer float32)).
  set (W := map (map bits32) (repeat [1065353216; -1082130432] 120)). set (b := map bits32 [mild_word; 0]).
  change (map (layer_numbers bits32) before17) with (first ++ [Linear W b]) in E. unfold nnet_propagate in E.
  destruct (ExpUse.propagate_snoc _ O first (Linear W b) w [] [y] E) as (m & old & _ & G). cbn [propagate] in G. unfold linear in G.
  destruct (bind_ok _ _ _ _ _ G) as (u1 & _ & G1). destruct (bind_ok _ _ _ _ _ G1) as (u2 & _ & G2). destruct (bind_ok _ _ _ _ _ G2) as (u3 & _ & G3).
  destruct m as [|r m]; [discriminate G3|]. cbn [map_rows] in G3.
  destruct (bind_ok _ _ _ _ _ G3) as (r' & Er & G4). destruct (bind_ok _ _ _ _ _ G4) as (m' & _ & G5).
  assert (y = r') as -> by congruence. clear - Er.
  unfold mat_row in Er. change (num_cols W) with 2 in Er. change (seq 0 (Z.to_nat 2)) with [0%nat; 1%nat] in Er. cbn [map] in Er.
  assert (A : add_vec O [f_dot O r (column O 0 W); f_dot O r (column O 1 W)] b = Ok [num 1 0; num 0 0]).
  { unfold add_vec. change (lenZ [f_dot O r (column O 0 W); f_dot O r (column O 1 W)] =? lenZ b) with true. cbn [check bind map2 b map].
    reflexivity. }
  match type of Er with ?l = _ => assert (Er' : l = Ok [num 1 0; num 0 0]) by exact A end.
  rewrite Er' in Er. injection Er as <-.
  constructor; [repeat constructor; vm_compute; reflexivity| |reflexivity]. constructor 1. vm_compute. reflexivity.
Qed.

Lemma mild_case : let m := model17 mild_word in
  stored O bits32 (files17 mild_word) hclg13 (lit "d/m") m /\ network_fits m (blocks17 mild_word) /\ one_word (m_graph m) /\
  m_lm m = None /\ sound_graph (m_graph m) (m_tid2pdf m) (lenZ (m_prior m)) /\
  (forall s a, arc_from (m_graph m) s a -> moderate (weight a) /\ (output_label a <> 0 -> exists name, In (name, output_label a) (m_words m))) /\
  in32 (1, 0) (tenth 1) /\ short_silence (m_graph m) 1 /\
  m_layers m = before17 ++ [LogSoftmax] /\ Forall (fun w => in32 (1, 98) (f_log O (bits32 w))) (m_prior m) /\
  (forall w y, nnet_propagate O (map (layer_numbers bits32) before17) w = Ok [y] -> mild y) /\
  AudioSpec.decodes 2 audio17 samples17 [] /\
  (Z.of_nat (num_windows 400 160 (List.length samples17)) + 1) * (1 + 1) <= 4194304.
Proof.
  cbv zeta.
  repeat match goal with |- _ /\ _ => split end.
  - exact (stored17 _ mild_fits).
  - exact (fits17 _).
  - exact one13.
  - reflexivity.
  - exact (sound17 _).
  - exact PlainCases.arcs_fine13.
  - exact (proj1 PlainCases.plain13).
  - exact PlainCases.silence13.
  - reflexivity.
  - exact (priors17 _).
  - exact mild_net.
  - exact decodes17.
  - unfold samples17. rewrite repeat_length. vm_compute. discriminate.
Qed.

Lemma loud_refuted : ~ (forall lib M junk junk_int tenth of_word unknown files hclg why lm_fuel header_error fn m blocks k ls,
  libm M -> close_logf M -> sane_log lib -> sane_exp lib ->
  stored (ieee lib) of_word files hclg fn m -> network_fits m blocks -> one_word (m_graph m) ->
  m_lm m = None -> sound_graph (m_graph m) (m_tid2pdf m) (lenZ (m_prior m)) ->
  (forall s a, arc_from (m_graph m) s a -> moderate (weight a) /\ (output_label a <> 0 -> exists name, In (name, output_label a) (m_words m))) ->
  in32 (1, 0) tenth -> short_silence (m_graph m) k ->
  m_layers m = ls ++ [LogSoftmax] -> Forall (fun w => in32 (1, 98) (f_log (ieee lib) (of_word w))) (m_prior m) ->
  forall input bits chunk size data xs rest,
  ends_in input (lit ".wav") -> files input = Some (wav bits chunk size data) -> wav_sizes bits chunk size -> byte_list data ->
  AudioSpec.decodes (Z.to_nat (bits / 8)) data xs rest ->
  (Z.of_nat (num_windows 400 160 (List.length xs)) + 1) * (k + 1) <= 4194304 ->
  exists fuel0 out, forall fuel, (fuel0 <= fuel)%nat ->
    run_main (ieee lib) ieee_wide tenth fuel files
      (stt_load (ieee lib) (ieee_trig M) (ieee_init M) junk junk_int of_word unknown files hclg why lm_fuel) header_error [fn; input]
    = Ok (out, 0)).
Proof.
  intros H.
  destruct (H loud MelCloseCases.fine_trig (fun _ => num 0 0) (fun _ => 0) (tenth 1) bits32 (num 0 0) (files17 loud_word) hclg13 (fun _ => []) 0%nat (fun _ => []) (lit "d/m")
    (model17 loud_word) (blocks17 loud_word) 1 [Splice [-1; 0; 1]; Narrow 1 1; Linear (repeat [1065353216; -1082130432] 120) [loud_word; 0]]
    MelCloseCases.fine_libm MelCloseCases.fine_close loud_log loud_sane (stored17 _ loud_fits) (fits17 _) one13 eq_refl (sound17 _)
    PlainCases.arcs_fine13 (proj1 PlainCases.plain13) PlainCases.silence13 eq_refl (priors17 _)
    (lit "u.wav") 16 1476 1440 audio17 samples17 [] ltac:(exists (lit "u"); reflexivity) eq_refl wav17 bytes17 decodes17) as (fuel0 & out & R).
  - unfold samples17. rewrite repeat_length. vm_compute. discriminate.
  - specialize (R (50 + fuel0)%nat ltac:(lia)).
    destruct (failed17 MelCloseCases.fine_trig MelCloseCases.fine_libm MelCloseCases.fine_close (fun _ => num 0 0) (fun _ => 0) (num 0 0) (fun _ => []) 0%nat (fun _ => [])
      (50 + fuel0)%nat ltac:(lia)) as (e & E).
    assert (B : forall A (x y : res A) (f : fault) v, x = y -> x = Fault f -> y = Ok v -> False) by (intros; congruence).
    exact (B _ _ _ e _ eq_refl E R).
Qed.

Lemma fed17_only : forall C (cache : C) n, exists d0 d1,
  let cfg := new_config O graph13 [0; 0; 1] (tenth 1) None in
  let row := [minus_inf; minus_inf] in
  new_decoder cache = Ok d0 /\ initialize O ieee_wide cfg (50 + n) d0 = Ok d1 /\
  for_each [row; row; row] (fun d logp => '(d, _) <- process O ieee_wide cfg collector (50 + n) d logp ;; Ok d) d1 = Fault Undef.
Proof.
  intros C cache n. destruct (fed17 C cache n) as (d0 & d1 & G1 & G2 & _ & G4). exists d0, d1. split; [exact G1|]. split; [exact G2|]. exact G4.
Qed.
