(** Costs close together: the decoder of C48, and the program of C87 with two files. *)
From Coq Require Import ZArith String List Bool Lia Floats.SpecFloat.
From Verif.Base Require Import Prelude Lemmas.
From Verif.Model Require Import Util File Arith Pcm Fbank Srfft FbankInit Nnet Am SymbolTable Fst Decoder Stt Main Loading Ieee IeeeFbank.
From Verif.Spec Require Import AudioSpec FbankSpec PcmSpec NnetSpec FstSpec DecoderSpec SttSpec TotalSpec LibmSpec ValueSpec LoadingSpec ProgramSpec EndSpec ListSpec ExpSpec CloseSpec.
From Verif.Proof Require Import Loop DecoderBase Decoder DecoderMain DecoderCases IeeeLaws IeeeCases TotalCases FiniteCases EndToEnd EndCases ListCases CloseCosts CloseUse.
Import ListNotations.
Open Scope Z_scope.

Definition within15b (a : Z) (x : float32) : bool := SFleb (num32 a 0) (fl_val x) && SFleb (fl_val x) (num32 (a + 15) 0).

Section Layers.
Variable L : library.
Variable cfg : config float32 unit.
Notation path := (path (ieee L) ieee_wide (c_graph cfg) (c_pdf cfg) (c_scale cfg) None).

Lemma layered_suffix : forall later fs layers, layered L cfg (later ++ fs) layers = true ->
  exists before layers', layers = before ++ layers' /\ layered L cfg fs layers' = true.
Proof.
  induction later as [|logp later IH]; intros fs layers H; cbn [app] in H; [exists [], layers; auto|].
  destruct layers as [|layer rest]; [discriminate H|]. cbn [layered] in H. apply andb_true_iff in H. destruct H as [_ H].
  apply andb_true_iff in H. destruct H as [H _]. destruct (IH fs rest H) as (b & l & -> & Q). exists (layer :: b), l. auto.
Qed.

Lemma layered_close : forall C (cfg' : config float32 C) a frames layers, c_graph cfg' = c_graph cfg -> c_pdf cfg' = c_pdf cfg -> c_scale cfg' = c_scale cfg ->
  Z.abs a <= 8000000 -> layered L cfg (rev frames) layers = true ->
  forallb (fun layer => (lenZ layer <=? 30000) && forallb (fun p => within15b a (snd p)) layer) layers = true ->
  close_costs L cfg' None frames.
Proof.
  intros C cfg' a frames layers E1 E2 E3 Ha H Hw later fs E. rewrite E in H. rewrite E1, E2, E3.
  destruct (layered_suffix _ _ _ H) as (b & l & -> & Hl). rewrite forallb_app in Hw. apply andb_true_iff in Hw. destruct Hw as [_ Hw].
  destruct l as [|layer rest]; [destruct fs; discriminate Hl|]. cbn [forallb] in Hw. apply andb_true_iff in Hw. destruct Hw as [Hw _].
  apply andb_true_iff in Hw. destruct Hw as [Hn Hw]. apply Z.leb_le in Hn.
  exists a, (map Datatypes.fst layer). split; [exact Ha|]. split; [unfold lenZ in *; now rewrite map_length|]. split; [|now left].
  intros s c ws P. pose proof (layered_path L cfg _ _ _ _ P _ Hl) as J. cbv beta iota in J.
  split; [apply in_map_iff; exists (s, c); auto|]. rewrite forallb_forall in Hw. specialize (Hw _ J). cbn [snd] in Hw.
  apply andb_true_iff in Hw. exact Hw.
Qed.

(** The costs of its paths. *)
Definition silent (layer : list (state * float32)) : list (state * float32) :=
  layer ++ flat_map (fun p => flat_map (fun a => if input_label a =? 0 then
      [((next_state a, snd (Datatypes.fst p)), x_narrow ieee_wide (cost_after (ieee L) ieee_wide (snd p) (weight a) (f_zero (ieee L)) None))]
      else []) (arcs_of cfg (Datatypes.fst (Datatypes.fst p)))) layer.
Definition framed (logp : list float32) (layer : list (state * float32)) : list (state * float32) :=
  flat_map (fun p => flat_map (fun a => match log_likelihood (ieee L) cfg logp (input_label a) with
      | Ok l => [((next_state a, snd (Datatypes.fst p)), x_narrow ieee_wide (cost_after (ieee L) ieee_wide (snd p) (weight a) (x_neg ieee_wide l) None))]
      | Fault _ => []
      end) (filter (fun a => negb (input_label a =? 0)) (arcs_of cfg (Datatypes.fst (Datatypes.fst p))))) layer.
Definition first_layer : list (state * float32) := silent [((0, 0), num 0 0)].
Definition next_layer (logp : list float32) (layer : list (state * float32)) : list (state * float32) := silent (framed logp layer).
End Layers.

(** * The decoder with weights 0.1, 0.2, ... *)
Lemma close8 : forall L, close_costs L (config8 L) None frames8.
Proof.
  intros L. set (c := config8 L). set (l0 := first_layer L c). set (l1 := next_layer L c (nth 0 frames8 []) l0). set (l2 := next_layer L c (nth 1 frames8 []) l1).
  apply (layered_close L c unit c (-7) frames8 [l2; l1; l0]); try reflexivity; try lia; vm_compute; reflexivity.
Qed.

Lemma close_case8 : forall L, lm_implements (c_lm (config8 L)) None (fun _ => True) /\ c_beam (config8 L) = f_int (ieee L) 16 /\
  close_costs L (config8 L) None frames8 /\ run_safe (ieee L) ieee_wide (config8 L) 50 tt frames8 /\
  exists d, decodes (ieee L) ieee_wide (config8 L) collector 50 tt frames8 d /\
  view (d_toks d) = [((1, 0), num 10066330 (-25)); ((2, 0), num 13421774 (-26))] /\
  best_path (ieee L) ieee_wide (config8 L) (end_of_stream d) = Ok ([9; 5], num 15099495 (-24)).
Proof.
  intros L. split; [exact Logic.I|]. split; [reflexivity|]. split; [apply close8|]. split; [apply safe8|]. exact (run8 L).
Qed.

(** * Two files *)
Lemma close9 : forall C (cfg : config float32 C) rows, c_graph cfg = TotalCases.graph9 -> c_pdf cfg = [0; 0; 1] -> c_scale cfg = tenth 1 ->
  rows = [row9] \/ rows = [row9; row9] -> close_costs rough cfg None rows.
Proof.
  intros C cfg rows E1 E2 E3 H.
  set (c := new_config (ieee rough) TotalCases.graph9 [0; 0; 1] (tenth 1) None : config float32 unit).
  set (l0 := first_layer rough c). set (l1 := next_layer rough c row9 l0). set (l2 := next_layer rough c row9 l1).
  destruct H as [-> | ->]; [apply (layered_close rough c C cfg (-7) _ [l1; l0])|apply (layered_close rough c C cfg (-7) _ [l2; l1; l0])];
    try assumption; try lia; vm_compute; reflexivity.
Qed.

Lemma close11 : forall M junk junk_int lm_fuel rc n chunk size, libm M ->
  made_of (ieee rough) bits32 (ieee_trig M) (ieee_init M) junk junk_int lm_fuel model11 rc ->
  wav_sizes 16 chunk size -> num_windows 400 160 n = 1%nat \/ num_windows 400 160 n = 2%nat ->
  close_wav rough (tenth 1) None blocks11 rc (wav 16 chunk size (tone n)).
Proof.
  intros M junk junk_int lm_fuel rc n chunk size HM Hm Hs Hn rows (bits' & chunk' & size' & data' & xs' & rest' & Ec' & Hsz' & _ & Dx' & Hrows).
  destruct (wav_inj _ _ _ _ _ _ _ _ Hs Hsz' Ec') as (<- & <-).
  change (Z.to_nat (16 / 8)) with 2%nat in Dx'.
  assert (Lx : List.length xs' = n).
  { destruct Dx' as (D1 & _ & D3). pose proof (f_equal (@List.length Z) D1) as L. unfold tone in L.
    assert (Lt : forall k, List.length (concat (repeat [7; 250] k)) = (2 * k)%nat) by (intros k; induction k; cbn [repeat concat app List.length]; lia).
    assert (Le : List.length (concat (map (encode 2) xs')) = (2 * List.length xs')%nat).
    { clear. induction xs' as [|x xs IH]; [reflexivity|]. cbn [map concat]. rewrite app_length, IH. change (List.length (encode 2 x)) with 2%nat. cbn [List.length]. lia. }
    rewrite Lt, app_length, Le in L. lia. }
  pose proof Hm as (A0 & _ & _ & _ & _ & _ & A6 & _ & _ & A9 & _).
  cbn [m_lm model11 m_graph m_tid2pdf] in A0, A6.
  change (left_context blocks11) with 1%nat in Hrows. change (right_context blocks11) with 1%nat in Hrows.
  pose proof (rows11 _ _ _ _ _ _ _ _ Hm (audio_features rough M junk junk_int _ rc 2 xs' HM A9 (le_S _ _ (le_S _ _ (le_n 2))) (proj1 (proj2 Dx'))) Hrows) as Er.
  rewrite map_length, Lx in Er.
  apply close9; [exact A0|exact A6|reflexivity|]. destruct Hn as [Hn|Hn]; rewrite Hn in Er; auto.
Qed.

Lemma close_list13 : forall M junk junk_int lm_fuel rc, libm M ->
  made_of (ieee rough) bits32 (ieee_trig M) (ieee_init M) junk junk_int lm_fuel model11 rc ->
  Forall (fun e => exists content, files13 (snd e) = Some content /\
    decodable (ieee rough) ieee_wide (tenth 1) model11 None (fun _ => True) blocks11 rc content /\
    close_wav rough (tenth 1) None blocks11 rc content) entries13.
Proof.
  intros M junk junk_int lm_fuel rc HM Hm.
  pose proof (proj2 (proj2 (proj2 (proj2 list13))) M junk junk_int lm_fuel rc HM Hm) as H.
  unfold entries13 in *. inversion H as [|? ? (c1 & F1 & D1) H1]; subst. inversion H1 as [|? ? (c2 & F2 & D2) _]; subst. clear H H1.
  constructor; [|constructor; [|constructor]].
  - exists c1. split; [exact F1|]. split; [exact D1|]. injection F1 as <-.
    apply (close11 M junk junk_int lm_fuel rc 560 1156 1120 HM Hm wav11). right. reflexivity.
  - exists c2. split; [exact F2|]. split; [exact D2|]. injection F2 as <-.
    apply (close11 M junk junk_int lm_fuel rc 400 836 800 HM Hm); [unfold wav_sizes, valid_width, fits; cbn; lia|left; reflexivity].
Qed.
