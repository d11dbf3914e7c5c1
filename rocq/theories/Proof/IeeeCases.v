(** A run of the decoder in IEEE 754 arithmetic. *)
From Coq Require Import ZArith List Bool Lia Floats.SpecFloat.
From Verif.Base Require Import Prelude ZMap Lemmas.
From Verif.Spec Require Import FstSpec DecoderSpec.
From Verif.Model Require Import Arith Vector HashTable Pool OLabel Fst Decoder Ieee.
From Verif.Proof Require Import Loop DecoderBase Decoder DecoderMain DecoderCases IeeeLaws.
From Verif.Proof Require DecoderRun.
Import ListNotations.
Open Scope Z_scope.

(** m * 2^e *)
Definition num (m e : Z) : float32 := f32 (binary_normalize 24 128 m e false).
Definition infinite : float32 := f32 (S754_infinity false).

(** * Costs of all paths, by layers *)

Definition sf_eqb (x y : spec_float) : bool :=
  match x, y with
  | S754_zero s, S754_zero s' => Bool.eqb s s'
  | S754_infinity s, S754_infinity s' => Bool.eqb s s'
  | S754_nan, S754_nan => true
  | S754_finite s m e, S754_finite s' m' e' => Bool.eqb s s' && Pos.eqb m m' && Z.eqb e e'
  | _, _ => false
  end.

Lemma sf_eqb_eq : forall x y, sf_eqb x y = true -> x = y.
Proof.
  intros [s|s| |s m e] [s'|s'| |s' m' e'] H; try discriminate H; cbn [sf_eqb] in H; try reflexivity.
  - apply eqb_prop in H. now subst.
  - apply eqb_prop in H. now subst.
  - apply andb_true_iff in H. destruct H as [H H3]. apply andb_true_iff in H. destruct H as [H1 H2].
    apply eqb_prop in H1. apply Pos.eqb_eq in H2. apply Z.eqb_eq in H3. now subst.
Qed.

Definition listed (p : state * float32) (layer : list (state * float32)) : bool :=
  existsb (fun q => state_eqb (Datatypes.fst p) (Datatypes.fst q) && sf_eqb (fl_val (snd p)) (fl_val (snd q))) layer.

Lemma listed_in : forall p layer, listed p layer = true -> In p layer.
Proof.
  intros p layer H. apply existsb_exists in H. destruct H as (q & J & E). apply andb_true_iff in E. destruct E as [E1 E2].
  apply state_eqb_spec in E1. apply sf_eqb_eq in E2. apply fl_eq in E2. destruct p, q. cbn in *. now subst.
Qed.

Section Layers.
Variable L : library.
Variable cfg : config float32 unit.
Notation O := (ieee L).
Notation X := ieee_wide.
Notation path := (path O X (c_graph cfg) (c_pdf cfg) (c_scale cfg) None).

Definition eps_closed (layer : list (state * float32)) : bool :=
  forallb (fun p => forallb (fun a => negb (input_label a =? 0) ||
      listed ((next_state a, snd (Datatypes.fst p)), x_narrow X (cost_after O X (snd p) (weight a) (f_zero O) None)) layer)
    (arcs_of cfg (Datatypes.fst (Datatypes.fst p)))) layer.

Definition emits (layer : list (state * float32)) (logp : list float32) (layer' : list (state * float32)) : bool :=
  forallb (fun p => forallb (fun a => (input_label a =? 0) ||
      match log_likelihood O cfg logp (input_label a) with
      | Ok l => listed ((next_state a, snd (Datatypes.fst p)), x_narrow X (cost_after O X (snd p) (weight a) (x_neg X l) None)) layer'
      | Fault _ => false
      end) (arcs_of cfg (Datatypes.fst (Datatypes.fst p)))) layer.

(** Frames newest first, and a layer for each, and one for none. *)
Fixpoint layered (fs : list (list float32)) (layers : list (list (state * float32))) {struct layers} : bool :=
  match layers with
  | [] => false
  | layer :: rest =>
      eps_closed layer && forallb (fun p => is_finite (fl_val (snd p))) layer &&
      match fs with
      | [] => listed ((g_start (c_graph cfg), 0), f_zero O) layer
      | logp :: fs' => layered fs' rest && match rest with [] => false | older :: _ => emits older logp layer end
      end
  end.

Lemma layered_path : forall fs s c ws, path fs s c ws -> forall layers, layered fs layers = true ->
  match layers with [] => False | layer :: _ => In (s, c) layer end.
Proof.
  intros fs s c ws P. induction P as [|fs s l c ws a l' lw P IH Af Z0 El|fs logp s l c ws a l' lw ac P IH Af NZ Ac El];
    intros [|layer rest] H; cbn [layered] in H; try discriminate H.
  - apply andb_true_iff in H. destruct H as [_ H]. now apply listed_in.
  - specialize (IH (layer :: rest) H). cbn [lm_after] in El. injection El as <- <-.
    destruct fs; apply andb_true_iff in H; destruct H as [H _]; apply andb_true_iff in H; destruct H as [H _];
      unfold eps_closed in H; rewrite forallb_forall in H; specialize (H _ IH); cbn [Datatypes.fst snd] in H; rewrite forallb_forall in H;
      specialize (H a (arcs_of_in cfg _ _ Af)); rewrite Z0 in H; cbn [Z.eqb negb orb] in H; now apply listed_in.
  - apply andb_true_iff in H. destruct H as [_ H]. apply andb_true_iff in H. destruct H as [H1 H2].
    specialize (IH rest H1). destruct rest as [|older rest]; [discriminate H2|]. cbn [lm_after] in El. injection El as <- <-.
    unfold emits in H2. rewrite forallb_forall in H2. specialize (H2 _ IH). cbn [Datatypes.fst snd] in H2. rewrite forallb_forall in H2.
    specialize (H2 a (arcs_of_in cfg _ _ Af)). apply orb_true_iff in H2. destruct H2 as [H2|H2]; [apply Z.eqb_eq in H2; contradiction|].
    destruct (acoustic_log O X cfg _ _ _ Ac) as (y & Ey & ->). rewrite Ey in H2. now apply listed_in.
Qed.

Lemma layered_older : forall later fs layers, layered (later ++ fs) layers = true -> exists layers', layered fs layers' = true.
Proof.
  induction later as [|logp later IH]; intros fs layers H; cbn [app] in H; [eauto|].
  destruct layers as [|layer rest]; [discriminate H|]. cbn [layered] in H. apply andb_true_iff in H. destruct H as [_ H].
  apply andb_true_iff in H. destruct H as [H _]. eauto.
Qed.

Lemma layered_finite : forall frames layers, layered (rev frames) layers = true ->
  all_costs O X cfg None frames (fun c => f_finite O c = true).
Proof.
  intros frames layers H later fs s c ws E P. rewrite E in H. destruct (layered_older _ _ _ H) as (layers' & H').
  pose proof (layered_path _ _ _ _ P _ H') as J. destruct layers' as [|layer rest]; [contradiction|].
  cbn [layered] in H'. assert (G : forallb (fun p => is_finite (fl_val (snd p))) layer = true).
  { destruct fs; apply andb_true_iff in H'; destruct H' as [H' _]; apply andb_true_iff in H'; now destruct H' as [_ H']. }
  rewrite forallb_forall in G. exact (G _ J).
Qed.
End Layers.

(** * A graph with weights 0.1, 0.2, 0.7, ... *)

Definition tenth (z : Z) : float32 := f_div (ieee (mk_library (fun x => x) (fun x => x) (fun x => x) (fun _ _ => num 0 0))) (num z 0) (num 10 0).

Definition graph8 : graph float32 := mk_graph 0
  [ (tenth 1, [mk_arc 1 1 5 (tenth 2); mk_arc 2 0 7 (tenth 1)]);
    (tenth 3, [mk_arc 1 1 0 (tenth 1); mk_arc 2 0 9 (tenth (-1))]);
    (infinite, [mk_arc 1 2 0 (tenth 0)]) ].
Definition config8 (L : library) : config float32 unit := new_config (ieee L) graph8 [0; 0; 1] (num 1 0) None.
Definition frames8 : list (list float32) := [[tenth (-1); tenth (-3)]; [tenth (-2); tenth (-1)]].

Lemma run8 : forall L, exists d, decodes (ieee L) ieee_wide (config8 L) collector 50 tt frames8 d /\
  view (d_toks d) = [((1, 0), num 10066330 (-25)); ((2, 0), num 13421774 (-26))] /\
  best_path (ieee L) ieee_wide (config8 L) (end_of_stream d) = Ok ([9; 5], num 15099495 (-24)).
Proof.
  intros L. destruct (report_ok _ _ _ (ieee L) ieee_wide (config8 L) collector 50 tt frames8 
     [((1, 0), num 10066330 (-25)); ((2, 0), num 13421774 (-26))] ([9;9;5], infinite) ([9; 5], num 15099495 (-24))) as (d & H).
  - vm_compute. reflexivity.
  - exists d. tauto.
Qed.

(** The costs of its paths. *)
Definition by_eps (L : library) (layer : list (state * float32)) : list (state * float32) :=
  layer ++ flat_map (fun p => flat_map (fun a => if input_label a =? 0 then
      [((next_state a, snd (Datatypes.fst p)), x_narrow ieee_wide (cost_after (ieee L) ieee_wide (snd p) (weight a) (f_zero (ieee L)) None))]
      else []) (arcs_of (config8 L) (Datatypes.fst (Datatypes.fst p)))) layer.
Definition by_frame (L : library) (logp : list float32) (layer : list (state * float32)) : list (state * float32) :=
  flat_map (fun p => flat_map (fun a => match log_likelihood (ieee L) (config8 L) logp (input_label a) with
      | Ok l => [((next_state a, snd (Datatypes.fst p)), x_narrow ieee_wide (cost_after (ieee L) ieee_wide (snd p) (weight a) (x_neg ieee_wide l) None))]
      | Fault _ => []
      end) (filter (fun a => negb (input_label a =? 0)) (arcs_of (config8 L) (Datatypes.fst (Datatypes.fst p))))) layer.

Lemma costs8 : forall L, all_costs (ieee L) ieee_wide (config8 L) None frames8 (fun c => f_finite (ieee L) c = true).
Proof.
  intros L. set (l0 := by_eps L [((0, 0), num 0 0)]). set (l1 := by_eps L (by_frame L (nth 0 frames8 []) l0)).
  set (l2 := by_eps L (by_frame L (nth 1 frames8 []) l1)).
  apply (layered_finite L (config8 L) frames8 [l2; l1; l0]). vm_compute. reflexivity.
Qed.

Lemma unpruned8 : forall L, run_unpruned (ieee L) ieee_wide (config8 L) None 50 tt frames8.
Proof.
  intros L d0 d1 E0 E1. apply run_check_ok; [exact ieee_below|].
  assert (H : (d0 <- new_decoder tt ;; d1 <- initialize (ieee L) ieee_wide (config8 L) 50 d0 ;;
    Ok (run_check (ieee L) ieee_wide (config8 L) 50 d1 frames8)) = Ok true) by (vm_compute; reflexivity).
  rewrite E0 in H. cbn [bind] in H. rewrite E1 in H. cbn [bind] in H. congruence.
Qed.

Lemma safe8 : forall L, run_safe (ieee L) ieee_wide (config8 L) 50 tt frames8.
Proof.
  intros L. apply (DecoderRun.safe_20 (ieee L) ieee_wide (config8 L) None (fun _ => True) I 50 tt frames8 I).
  unfold lenZ. cbn. discriminate.
Qed.

Lemma beam8 : forall L, f_nonneg (ieee L) (c_beam (config8 L)) = true /\
  f_lt (ieee L) (c_beam (config8 L)) (f_int (ieee L) 18446744073709551616) = true.
Proof. intros L. split; vm_compute; reflexivity. Qed.

Lemma case8 : forall L, lm_implements (c_lm (config8 L)) None (fun _ => True) /\
  all_costs (ieee L) ieee_wide (config8 L) None frames8 (fun c => f_finite (ieee L) c = true) /\
  run_safe (ieee L) ieee_wide (config8 L) 50 tt frames8 /\
  run_unpruned (ieee L) ieee_wide (config8 L) None 50 tt frames8 /\
  (f_nonneg (ieee L) (c_beam (config8 L)) = true /\
   f_lt (ieee L) (c_beam (config8 L)) (f_int (ieee L) 18446744073709551616) = true) /\
  exists d, decodes (ieee L) ieee_wide (config8 L) collector 50 tt frames8 d /\
  view (d_toks d) = [((1, 0), num 10066330 (-25)); ((2, 0), num 13421774 (-26))] /\
  best_path (ieee L) ieee_wide (config8 L) (end_of_stream d) = Ok ([9; 5], num 15099495 (-24)).
Proof. intros L. exact (conj I (conj (costs8 L) (conj (safe8 L) (conj (unpruned8 L) (conj (beam8 L) (run8 L)))))). Qed.
