(** A model in files, audio in a file, and what the program prints. *)
From Coq Require Import ZArith String List Bool Lia Floats.SpecFloat.
From Verif.Base Require Import Prelude Lemmas.
From Verif.Spec Require Import AudioSpec AmSpec FbankSpec PcmSpec TextSpec FormatSpec NnetSpec AmTextSpec FstSpec DecoderSpec SttSpec TotalSpec SessionSpec LibmSpec LoadingSpec ProgramSpec EndSpec.
From Verif.Model Require Import Util File Arith Vector Pcm Fbank Srfft FbankInit Nnet Am SymbolTable Pool Fst Decoder Stt Main Loading Ieee IeeeFbank.
From Verif.Proof Require Import Loop Lines IeeeLaws IeeeCases TotalCases FiniteCases EndToEnd.
From Verif.Proof Require Nnet AmVerify LoadingCases DecoderRun DecoderCases Windows.
Import ListNotations.
Open Scope Z_scope.

(** The number with these 32 bits. *)
Definition bits32 (w : Z) : float32 :=
  let u := w mod 4294967296 in
  let s := 2147483648 <=? u in
  let e := u / 8388608 mod 256 in
  let m := u mod 8388608 in
  f32 (if e =? 0 then match m with Zpos p => S754_finite s p (-149) | _ => S754_zero s end
       else if e =? 255 then (if m =? 0 then S754_infinity s else S754_nan)
       else match m + 8388608 with Zpos p => S754_finite s p (e - 150) | _ => S754_nan end).

(** Three rows of 40 features at a time give log probabilities -0.1 and -0.3,
    as [rough] multiplies. *)
Definition blocks11 : list (block Z) :=
  [Context [-1; 0; 1]; Single (Linear (repeat [1065353216; -1082130432] 120) [-1110651699; -1097229926])].
Definition layers11 : list (layer Z) :=
  [Splice [-1; 0; 1]; Narrow 1 1; Linear (repeat [1065353216; -1082130432] 120) [-1110651699; -1097229926]].
Definition words11 : list (str * Z) := [(lit "<eps>", 0); (lit "so", 5); (lit "what", 7); (lit "</s>", 8); (lit "<s>", 9)].
Definition word_lines11 : list str := map lit ["<eps> 0"; "so 5"; "what 7"; "</s> 8"; "<s> 9"]%string.
Definition lines11 : list str := map lit
  ["fst=g"; "nnet=n"; "prior=p"; "left_context=1"; "right_context=1"; "chunk_size=2"; "num_pdfs=2"; "tid2pdf=t"]%string.
Definition last11 : str := lit "symbol_table=w".
Definition model11 : model (graph float32) :=
  mk_model graph9 layers11 [0; 0] 1 1 2 2 [0; 0; 1] words11 9 8 None.

Definition files11 (name : str) : option str :=
  match List.find (fun e => str_eqb name (Datatypes.fst e))
    [(lit "d/m", text lines11 ++ last11);
     (lit "d/n", network_file 1 1 layers11);
     (lit "d/p", vector_file [0; 0]);
     (lit "d/t", vector_file [0; 0; 1]);
     (lit "d/w", text word_lines11);
     (lit "u.wav", wav 16 1156 1120 audio9)] with
  | Some e => Some (snd e)
  | None => None
  end.
Definition hclg11 (name : str) : res (option (graph float32)) := Ok (if str_eqb name (lit "d/g") then Some graph9 else None).

Import LoadingCases.
Lemma network11 : is_network layers11 (network_file 1 1 layers11).
Proof.
  exists 1, 1, []. rewrite app_nil_r. split; [reflexivity|]. split; [fit|]. split; [fit|]. split; [|cbn; lia].
  unfold layers11. constructor; [split; [fit_all|cbn; lia]|]. constructor; [split; fit|]. constructor; [|constructor].
  assert (S2 : forall a b, fits 4 a -> fits 4 b -> storable [a; b]).
  { intros a b A B. split; [discriminate|]. split; [|cbn; lia]. constructor; [exact A|]. constructor; [exact B|constructor]. }
  split; [|apply S2; unfold fits; cbn; lia]. split; [discriminate|].
  split; [|split; [|vm_compute; discriminate]].
  - apply Forall_forall. intros r J. apply repeat_spec in J. subst r. apply S2; unfold fits; cbn; lia.
  - exists 2. apply Forall_forall. intros r J. apply repeat_spec in J. subst r. reflexivity.
Qed.

Lemma words11_file : words_file words11 9 8 (text word_lines11).
Proof.
  exists word_lines11. split; [reflexivity|].
  split.
  { repeat (constructor; [match goal with |- exists s, decimal (snd (_, ?d)) s /\ _ =>
      exists [48 + d]; split; [apply digit_decimal; cbn; lia|reflexivity] end|]). constructor. }
  split; [unfold word_lines11; cbn [map]; repeat (constructor; [plain9|]); constructor|].
  split; [repeat (constructor; [split; [cbn; intuition discriminate|cbn; lia]|]); constructor|].
  split; [unfold words11; cbn [map Datatypes.fst]; repeat (constructor; [cbn; intuition discriminate|]); constructor|].
  split; [unfold words11; cbn [map snd]; repeat (constructor; [cbn; intuition discriminate|]); constructor|].
  split; cbn; tauto.
Qed.

Lemma stored11 : stored (ieee rough) bits32 files11 hclg11 (lit "d/m") model11.
Proof.
  exists (text lines11 ++ last11), (lines11 ++ [last11]). split; [reflexivity|].
  split.
  { exists lines11, last11. split; [reflexivity|]. split; [unfold lines11; cbn [map]; repeat (constructor; [plain9|]); constructor|].
    split; [plain9|]. split; [reflexivity|].
    repeat (constructor; [right; do 2 eexists; apply classify_some; vm_compute; reflexivity|]). constructor. }
  split; [exists (lit "d/g"); split; [apply graph9_set; vm_compute; reflexivity|reflexivity]|].
  split; [data9 "n"%string; exact network11|].
  split.
  { data9 "p"%string. split; [apply vector9; small|]. repeat (constructor; [vm_compute; reflexivity|]). constructor. }
  split; [apply (number9 _ _ 1); [vm_compute; reflexivity|cbn; lia]|].
  split; [apply (number9 _ _ 1); [vm_compute; reflexivity|cbn; lia]|].
  split; [apply (number9 _ _ 2); [vm_compute; reflexivity|cbn; lia]|].
  split; [apply (number9 _ _ 2); [vm_compute; reflexivity|cbn; lia]|].
  split; [data9 "t"%string; apply vector9; small|].
  split; [data9 "w"%string; exact words11_file|].
  apply absent9. vm_compute. reflexivity.
Qed.

Lemma fits11 : network_fits model11 blocks11.
Proof.
  constructor.
  - reflexivity.
  - repeat constructor. discriminate.
  - apply RunSplice; [discriminate|]. apply RunNarrow; [lia|lia|]. apply RunLinear; [reflexivity| |discriminate|constructor].
    apply Forall_forall. intros r J. apply repeat_spec in J. subst r. reflexivity.
  - reflexivity.
  - reflexivity.
  - cbn. lia.
  - cbn. lia.
Qed.

(** * The rows *)
Lemma linear_last : forall F (O : fops F) W b ls x old y, propagate_all O ls x old = Ok y ->
  exists old', propagate_all O (ls ++ [Linear W b]) x old = propagate_all O [Linear W b] y old'.
Proof.
  intros F O W b. induction ls as [|l ls IH]; intros x old y E; cbn [propagate_all app] in *.
  - injection E as <-. now exists old.
  - destruct (propagate O l x old); [|discriminate E]. cbn [bind] in *. exact (IH _ _ _ E).
Qed.

Notation O := (ieee rough).
Notation net11 := (nnet_propagate O (map (layer_numbers bits32) layers11)).
Lemma net11_row : forall w, uniform 40 w -> List.length w = 3%nat -> net11 w = Ok [row9].
Proof.
  intros w U Lw. set (first := [Splice [-1; 0; 1]; Narrow 1 1] : list (layer float32)).
  set (W := map (map bits32) (repeat [1065353216; -1082130432] 120)). set (b := map bits32 [-1110651699; -1097229926]).
  change (map (layer_numbers bits32) layers11) with (first ++ [Linear W b]).
  assert (Run : runs_on 40 first 120).
  { apply RunSplice; [discriminate|]. apply RunNarrow; [lia|lia|]. constructor. }
  assert (NW : w <> []) by (intros ->; discriminate Lw).
  destruct (AmVerify.runs_ok O _ _ _ Run ltac:(lia) w NW U) as (y & E & NY & UY).
  assert (Loc : local (nnet_propagate O first) 1 1 40).
  { apply (Nnet.stack_local O [Context [-1; 0; 1]] 40); [|lia]. repeat constructor. discriminate. }
  pose proof (proj1 (Loc w y U ltac:(lia)) E) as H. apply Forall2_len in H.
  rewrite Windows.windows_1_length, Lw in H.
  destruct y as [|r [|r2 y]]; cbn [List.length] in H; try lia.
  destruct (linear_last _ O W b first w [] [r] E) as (old' & G). unfold nnet_propagate. rewrite G.
  inversion UY as [|? ? Hr _]; subst. cbn [propagate_all propagate]. unfold linear.
  change (num_cols [r]) with (lenZ r). rewrite Hr.
  change (negb (lenZ b =? 0)) with true. change (lenZ [r]) with 1.
  change (Z.of_nat 120 =? lenZ W) with true. change (num_cols W) with 2.
  cbn [check bind map_rows]. unfold mat_row. change (num_cols W) with 2. change (seq 0 (Z.to_nat 2)) with [0%nat; 1%nat]. cbn [map].
  change (mat_shape 1 2) with (Ok tt). cbn [bind].
  assert (A : add_vec O [f_dot O r (column O 0 W); f_dot O r (column O 1 W)] b = Ok row9).
  { unfold add_vec. change (lenZ [f_dot O r (column O 0 W); f_dot O r (column O 1 W)] =? lenZ b) with true. cbn [check bind map2 b map].
    reflexivity. }
  rewrite A. reflexivity.
Qed.

Lemma rows11 : forall T I junk junk_int lm_fuel rc samples rows,
  made_of O bits32 T I junk junk_int lm_fuel model11 rc -> features_fit O rc 40 samples ->
  rows_of O rc 1 1 samples rows -> rows = repeat row9 (num_windows 400 160 (List.length samples)).
Proof.
  intros T I junk junk_int lm_fuel rc samples rows (_ & _ & _ & _ & Hp & Hn & _) Hd (feats & H1 & H2).
  assert (Uf : uniform 40 feats).
  { unfold features_fit in Hd. clear - H1 Hd. induction H1 as [|w r ws rs (b & E) _ IH]; [constructor|]. constructor.
    - destruct (Hd w (or_introl eq_refl)) as (r' & b' & E' & Lr). rewrite E in E'. now injection E' as <- _.
    - apply IH. intros x J. apply Hd. now right. }
  assert (Lf : List.length feats = num_windows 400 160 (List.length samples)).
  { rewrite <- (Forall2_len _ _ _ _ _ H1). unfold windows. now rewrite map_length, seq_length. }
  rewrite <- Lf.
  assert (Lr : List.length rows = List.length feats).
  { rewrite <- (Forall2_len _ _ _ _ _ H2). rewrite Windows.windows_1_length. unfold padded.
    destruct feats as [|x fs]; [reflexivity|]. rewrite !app_length, !repeat_length. cbn [List.length]. lia. }
  rewrite <- Lr.
  assert (Up : uniform 40 (padded 1 1 feats)) by (apply SttTotal.padded_forall; exact Uf).
  assert (Hr : Forall (fun r => r = row9) rows).
  { assert (Hw : Forall (fun w => uniform 40 w /\ List.length w = 3%nat) (windows 3 1 (padded 1 1 feats))).
    { apply Forall_forall. intros w J. split; [|exact (SttTotal.windows_one _ _ _ _ J)].
      exact (SttTotal.windows_uniform _ 3 1 _ _ Up w J). }
    clear - H2 Hw Hp Hn. change (S (1 + 1)) with 3%nat in H2.
    induction H2 as [|w r ws rs (x & Ex & Hl & Hx) _ IH]; constructor; [|inversion Hw; auto].
    inversion Hw as [|? ? (U & Lw) _]; subst. rewrite Hn in Ex. cbn [m_layers model11] in Ex. rewrite (net11_row w U Lw) in Ex. injection Ex as <-.
    rewrite Hp in Hx. cbn [m_prior model11 map] in Hx.
    destruct r as [|a1 [|a2 [|a3 r]]]; try discriminate Hl.
    pose proof (Hx 0%nat (num 0 0) ltac:(cbn; lia)) as N0. pose proof (Hx 1%nat (num 0 0) ltac:(cbn; lia)) as N1.
    unfold row9 in N0, N1. cbn [nth] in N0, N1. rewrite N0, N1. unfold row9.
    reflexivity. }
  clear - Hr. induction Hr; cbn; congruence.
Qed.

(** * What is printed *)
Lemma decoded11 : forall C (cache : C) n, exists d,
  DecoderSpec.decodes O ieee_wide (new_config O TotalCases.graph9 [0; 0; 1] (tenth 1) None) collector (50 + n) cache [row9; row9] d /\
  exists w, best_path O ieee_wide (new_config O TotalCases.graph9 [0; 0; 1] (tenth 1) None) (end_of_stream d) = Ok ([7; 5], w).
Proof.
  intros C cache n. destruct (DecoderCases.report_ok _ _ _ O ieee_wide (new_config O TotalCases.graph9 [0; 0; 1] (tenth 1) None) collector (50 + n) cache [row9; row9]
      [((0, 0), num 11911823 (-23)); ((1, 0), num 14092861 (-25)); ((2, 0), num 10737418 (-26))]
      ([7; 5], num 8724152 (-25)) ([7; 5], num 12079595 (-25))) as (d & D1 & _ & _ & D2).
  - vm_compute. reflexivity.
  - eauto.
Qed.

Lemma run_fits11 : forall C rows, (forall r, In r rows -> r = row9) ->
  run_fits O ieee_wide (new_config O TotalCases.graph9 [0; 0; 1] (tenth 1) None : config float32 C) None (fun _ => True) rows states9.
Proof.
  intros C rows Hr.
  assert (Conv : forall logp from, frame_fits O ieee_wide (utt_config O (tenth 1) rc9) None (fun _ => True) logp from states9 ->
    frame_fits O ieee_wide (new_config O TotalCases.graph9 [0; 0; 1] (tenth 1) None : config float32 C) None (fun _ => True) logp from states9).
  { intros logp from [H1 H2 H3 H4 H5]. constructor; auto.
    - intros s J. split; [exact (proj1 (H2 s J))|]. intros a m c _ _ E. discriminate E.
    - intros s J. split; [exact (proj1 (H3 s J))|]. intros a m c _ _ E. discriminate E. }
  destruct (fits9 rough rows Hr) as [F1 F2 F3 F4]. constructor; auto. discriminate.
Qed.

Lemma audio9_bytes : byte_list audio9.
Proof.
  unfold audio9. generalize 560%nat. intros n. apply Forall_forall. intros x J. apply in_concat in J.
  destruct J as (l & J & Jx). apply repeat_spec in J. subst l. destruct Jx as [<-|[<-|[]]]; lia.
Qed.

Definition samples11 : list Z := repeat (-1529) 560.
Lemma decodes11 : AudioSpec.decodes 2 audio9 samples11 [].
Proof.
  unfold audio9, samples11. generalize 560%nat. intros n. unfold AudioSpec.decodes. rewrite app_nil_r. split; [|split; [|cbn; lia]].
  - induction n as [|n IH]; [reflexivity|]. cbn [repeat concat map]. rewrite IH. reflexivity.
  - apply Forall_forall. intros x J. apply repeat_spec in J. subst x. unfold fits. cbn. lia.
Qed.

Lemma wav11 : wav_sizes 16 1156 1120.
Proof. unfold wav_sizes, valid_width, fits. cbn. lia. Qed.

Lemma names11 : forall n w, In (n, w) words11 -> (w = 5 -> n = lit "so") /\ (w = 7 -> n = lit "what").
Proof.
  intros n w. unfold words11. cbn [In].
  intros [J|[J|[J|[J|[J|[]]]]]]; injection J as <- <-; split; intros E; try discriminate E; reflexivity.
Qed.

Lemma printed_with : forall files hclg, stored O bits32 files hclg (lit "d/m") model11 -> files (lit "u.wav") = Some (wav 16 1156 1120 audio9) ->
  forall junk junk_int unknown why lm_fuel header_error,
  exists fuel0, forall fuel, (fuel0 <= fuel)%nat ->
  run_main O ieee_wide (tenth 1) fuel files
    (stt_load O (ieee_trig rough_trig) (ieee_init rough_trig) junk junk_int bits32 unknown files hclg why lm_fuel) header_error
    [lit "d/m"; lit "u.wav"] = Ok (lit "so what" ++ [10], 0).
Proof.
  intros files hclg St Fu junk junk_int unknown why lm_fuel header_error. destruct (rough_extractor junk junk_int) as (fb & Efb).
  destruct (files_text rough rough_trig junk junk_int (tenth 1) bits32 unknown files hclg why lm_fuel header_error (lit "d/m") model11 blocks11 fb
    rough_libm Efb St fits11 None (fun _ => True) (without_lm O bits32 lm_fuel model11 eq_refl)
    (lit "u.wav") 16 1156 1120 audio9 samples11 [] ltac:(exists (lit "u"); reflexivity) Fu wav11 audio9_bytes decodes11) as (rc & rows & Hm & Hrows & H).
  pose proof Hm as (A0 & _ & _ & _ & _ & _ & A6 & _ & _ & A9 & A10). cbn [m_lm model11 m_graph m_tid2pdf] in A0, A6, A10.
  assert (Er : rows = [row9; row9]).
  { change (left_context blocks11) with 1%nat in Hrows. change (right_context blocks11) with 1%nat in Hrows.
    pose proof (rows11 _ _ _ _ _ _ _ _ Hm (audio_features rough rough_trig junk junk_int _ rc 2 samples11 rough_libm A9 (le_S _ _ (le_S _ _ (le_n 2))) (proj1 (proj2 decodes11))) Hrows) as E.
    rewrite map_length in E. unfold samples11 in E. rewrite repeat_length in E. exact E. }
  subst rows.
  assert (Ec : utt_config O (tenth 1) rc = new_config O TotalCases.graph9 [0; 0; 1] (tenth 1) None).
  { unfold utt_config. now rewrite A0, A6, A10. }
  specialize (H states9). cbv zeta in H. rewrite Ec in H.
  destruct H as (fuel0 & words & names & Hn & _ & Hf).
  - apply run_fits11. intros r [<-|[<-|[]]]; reflexivity.
  - intros fuel. apply (DecoderRun.safe_20 O ieee_wide (new_config O TotalCases.graph9 [0; 0; 1] (tenth 1) None) None (fun _ => True) Logic.I fuel (rc_cache rc) _ Logic.I). discriminate.
  - exact (lively9 rough).
  - exact (finite9 rough).
  - exact (brief9 rough [row9; row9]).
  - intros s m _ E. discriminate E.
  - intros s a J Af NZ. apply arcs9 in Af. destruct Af as [(E & [-> | ->])|[(E & [-> | ->])|(E & ->)]]; try (exfalso; apply NZ; reflexivity).
    + exists (lit "so"). cbn. tauto.
    + exists (lit "what"). cbn. tauto.
  - exists fuel0. intros fuel Hfuel. destruct (Hf fuel Hfuel) as (_ & Hrun). etransitivity; [exact Hrun|]. clear Hrun.
    destruct (Hf (50 + fuel0)%nat ltac:(lia)) as ((d & w & Hd & Hbp) & _).
    destruct (decoded11 _ (rc_cache rc) fuel0) as (d' & (d0 & d1 & G1 & G2 & G3) & w' & G4).
    destruct Hd as (d0' & d1' & K1 & K2 & K3).
    rewrite G1 in K1. injection K1 as <-. rewrite G2 in K2. injection K2 as <-. rewrite G3 in K3. injection K3 as <-.
    rewrite G4 in Hbp. injection Hbp as Ew _.
    assert (words = [5; 7]) as -> by (rewrite <- (rev_involutive words), <- Ew; reflexivity).
    inversion Hn as [|x n1 xs1 ns1 J1 Hn1]; subst. inversion Hn1 as [|x2 n2 xs2 ns2 J2 Hn2]; subst. inversion Hn2; subst.
    rewrite (proj1 (names11 _ _ J1) eq_refl), (proj2 (names11 _ _ J2) eq_refl). reflexivity.
Qed.

Lemma printed11 : forall junk junk_int unknown why lm_fuel header_error,
  exists fuel0, forall fuel, (fuel0 <= fuel)%nat ->
  run_main O ieee_wide (tenth 1) fuel files11
    (stt_load O (ieee_trig rough_trig) (ieee_init rough_trig) junk junk_int bits32 unknown files11 hclg11 why lm_fuel) header_error
    [lit "d/m"; lit "u.wav"] = Ok (lit "so what" ++ [10], 0).
Proof. exact (printed_with files11 hclg11 stored11 eq_refl). Qed.

