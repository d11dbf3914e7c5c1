From Coq Require Import ZArith String List Bool Lia.
From Verif.Base Require Import Prelude Lemmas.
From Verif.Model Require Import Util File Arith Pcm Vector Fbank Am Pool OLabel Fst Decoder Stt Api.
From Verif.Spec Require Import PcmSpec SttSpec ProgramSpec ApiSpec.
From Verif.Proof Require Import QOps DecoderCases Stt SttCases Api ApiError ApiSession.
Import ListNotations.
Open Scope Z_scope.

(** One model and one that is missing. *)
Definition loads1 (config : bytes) : res (recognizer trop unit + bytes) :=
  Ok (if str_eqb config (lit "model") then inl rc7 else inr (lit "IOError: Unable to open " ++ config)).
Definition mono : wave_format := mk_format 1 16000 16.

(** Two sessions at once, the first in one piece, the second in three; between
    them a model is missing. *)
Definition two (p a b c : bytes) : list call :=
  let feed k p := Feed k (Some p) (lenZ p) in
  [Load (lit "model"); Load (lit "none"); Start 0 0 mono; LastError; Start 1 0 mono;
   feed 1%nat a; feed 0%nat p; feed 1%nat b; Finish 0; feed 1%nat c; LastError; Finish 1; Look 1; Look 0].
Definition two_sessions : list call :=
  two (audio 3440) (firstn 1 (audio 3440)) (firstn 999 (skipn 1 (audio 3440))) (skipn (1 + 999) (audio 3440)).

Notation run1 := (run tops twide (Num 1) 50 loads1).

Lemma two_zero : forall p a b c, filter (of_utt 0) (two p a b c) = whole_session 0 0 mono [p].
Proof. reflexivity. Qed.
Lemma two_one : forall p a b c, filter (of_utt 1) (two p a b c) = whole_session 1 0 mono [a; b; c].
Proof. reflexivity. Qed.
Lemma alone_zero : forall p a b c, alone 0 (two p a b c) = Load (lit "model") :: Load (lit "none") :: whole_session 0 0 mono [p].
Proof. reflexivity. Qed.
Lemma alone_one : forall p a b c, alone 1 (two p a b c) = Load (lit "model") :: Load (lit "none") :: whole_session 1 0 mono [a; b; c].
Proof. reflexivity. Qed.
Lemma alone_more : forall k p a b c, alone (S (S k)) (two p a b c) = [Load (lit "model"); Load (lit "none")].
Proof. reflexivity. Qed.
Lemma two_header : forall p a b c f why, ~ In (Header f why) (two p a b c).
Proof. intros p a b c f why I. unfold two in I. cbn [In] in I. intuition discriminate. Qed.
Lemma two_unload : forall p a b c r, ~ In (Unload r) (two p a b c).
Proof. intros p a b c r I. unfold two in I. cbn [In] in I. intuition discriminate. Qed.
Lemma two_configs : forall p a b c, nth_error (configs (two p a b c)) 0 = Some (lit "model").
Proof. reflexivity. Qed.

Notation step1 := (step tops twide (Num 1) 50 loads1).
Lemma step_model : forall e stts m, step1 (mk_state e stts m) (Load (lit "model")) = Ok (mk_state e (stts ++ [Stt rc7]) m, Pointer false).
Proof. reflexivity. Qed.
Lemma step_none : forall e e' stts m, set_error e (lit "IOError: Unable to open none") = Ok e' ->
  step1 (mk_state e stts m) (Load (lit "none")) = Ok (mk_state e' (stts ++ [NoStt]) m, Pointer true).
Proof.
  intros e e' stts m E. change (step1 (mk_state e stts m) (Load (lit "none"))) with
    (err <- set_error e (lit "IOError: Unable to open none") ;; Ok (mk_state err (stts ++ [NoStt]) m, Pointer (F := trop) true)).
  rewrite E. reflexivity.
Qed.
Lemma run_step : forall s c cs s1 a, step1 s c = Ok (s1, a) -> run1 s (c :: cs) = (t <- run1 s1 cs ;; Ok ((c, a) :: t)).
Proof. intros s c cs s1 a E. cbn [run]. rewrite E. reflexivity. Qed.
Lemma step_last : forall e stts m, step1 (mk_state e stts m) LastError = Ok (mk_state e stts m, Message (last_error e)).
Proof. reflexivity. Qed.

Lemma two_loads : exists e, fits e /\ forall cs, run1 init_state (Load (lit "model") :: Load (lit "none") :: cs) =
   (t <- run1 (mk_state e [Stt rc7; NoStt] (fun _ => Dangling)) cs ;;
    Ok ((Load (lit "model"), Pointer false) :: (Load (lit "none"), Pointer true) :: t)).
Proof.
  destruct (set_error_ok no_error (lit "IOError: Unable to open none") (init_fits (F := trop) (C := unit))) as (e & E1 & L1 & _).
  exists e. split; [exact L1|]. intros cs. change (init_state : state trop unit) with (mk_state no_error [] (fun _ : nat => @Dangling trop unit)).
  rewrite (run_step _ _ _ _ _ (step_model _ _ _)), (run_step _ _ _ _ _ (step_none _ e _ _ E1)). cbn [app].
  destruct (run1 _ cs); reflexivity.
Qed.

Lemma two_run : forall p a b c,
  (forall k ps, ps = [p] \/ ps = [a; b; c] -> forall e, fits e ->
     exists t, run1 (mk_state e [Stt rc7; NoStt] (fun _ => Dangling)) (whole_session k 0 mono ps) = Ok t) ->
  exists t, run1 init_state (two p a b c) = Ok t.
Proof.
  intros p a b c W. destruct (run1 init_state (two p a b c)) as [t|f] eqn:Er; [exists t; reflexivity|exfalso].
  destruct two_loads as (e & Le & Ld).
  destruct (faults tops twide (Num 1) 50 loads1 (two p a b c) f Er) as [[k K]|(fi & why & I & _)].
  2:{ exact (two_header _ _ _ _ _ _ I). }
  destruct k as [|[|k]].
  - rewrite alone_zero, Ld in K. destruct (W 0%nat [p] (or_introl eq_refl) e Le) as [t T]. rewrite T in K. cbn [bind] in K. discriminate K.
  - rewrite alone_one, Ld in K. destruct (W 1%nat _ (or_intror eq_refl) e Le) as [t T]. rewrite T in K. cbn [bind] in K. discriminate K.
  - rewrite alone_more, Ld in K. cbn [bind run] in K. discriminate K.
Qed.

Lemma two_texts : forall p a b c u n ns hyp ll,
  utt_init tops twide (Num 1) 50 no_error rc7 mono = Ok (Some u, no_error) ->
  session tops twide (Num 1) 50 no_error (Some u) [p] = Ok ([n], hyp, ll) ->
  session tops twide (Num 1) 50 no_error (Some u) [a; b; c] = Ok (ns, hyp, ll) -> In 0 hyp ->
  exists t, run1 init_state (two p a b c) = Ok t /\
    map snd (filter (fun x => of_utt 0 (Datatypes.fst x)) t) = [Pointer false; Number n; Nothing; Text (cstr hyp) ll] /\
    map snd (filter (fun x => of_utt 1 (Datatypes.fst x)) t) = Pointer false :: map Number ns ++ [Nothing; Text (cstr hyp) ll].
Proof.
  intros p a b c u n ns hyp ll E S1 S2 H0.
  pose proof (init_fits (F := trop) (C := unit)) as Ln. change (s_err init_state) with no_error in Ln.
  destruct (two_run p a b c) as [t T].
  { intros k ps P e Le.
    assert (S0 : exists ms, session tops twide (Num 1) 50 no_error (Some u) ps = Ok (ms, hyp, ll)) by (destruct P as [-> | ->]; eauto).
    destruct S0 as [ms S0]. pose proof (init_same tops twide (Num 1) 50 no_error e rc7 mono Ln Le) as Q.
    rewrite E in Q. destruct (utt_init _ _ _ _ e _ _) as [[v e1]|] eqn:R; cbn [alike] in Q; [|contradiction].
    destruct Q as (Q & _ & Q2). cbn [Datatypes.fst snd] in *. subst v.
    rewrite (session_same tops twide (Num 1) 50 ps (Some u) no_error e1 Ln Q2) in S0.
    exact (session_runs tops twide (Num 1) 50 loads1 k 0 rc7 e [Stt rc7; NoStt] _ _ u e1 ps ms _ _ eq_refl R S0 H0). }
  exists t. split; [exact T|].
  destruct (sessions tops twide (Num 1) 50 loads1 0 0 (two p a b c) t (lit "model") rc7 mono [p] T (two_configs _ _ _ _) eq_refl
              (two_unload _ _ _ _ _) (two_zero _ _ _ _)) as (v & e & ms & hyp1 & ll1 & A1 & A2 & A3).
  destruct (sessions tops twide (Num 1) 50 loads1 1 0 (two p a b c) t (lit "model") rc7 mono [a; b; c] T (two_configs _ _ _ _) eq_refl
              (two_unload _ _ _ _ _) (two_one _ _ _ _)) as (v' & e' & ms' & hyp' & ll' & B1 & B2 & B3).
  change (s_err (init_state : state trop unit)) with no_error in *.
  rewrite E in A1, B1. injection A1 as <- _. injection B1 as <- _.
  rewrite S1 in A2. injection A2 as <- <- <-. rewrite S2 in B2. injection B2 as <- <- <-.
  split; [exact A3|exact B3].
Qed.

Lemma one_number : forall e (u : option (utt trop unit)) p ns hyp ll, session tops twide (Num 1) 50 e u [p] = Ok (ns, hyp, ll) -> exists n : Z, ns = [n].
Proof.
  intros e u p ns hyp ll S1. unfold session in S1. cbn [process_pieces] in S1. inv_bind S1. destruct a as [[x y] z].
  inv_bind Hb. destruct a as [[n w] z']. cbn [bind] in Hb. injection Hb as <- _ _. inv_bind S1. destruct a as [w1 z1].
  destruct w1; [|discriminate]. injection S1 as <- _ _. eauto.
Qed.

Lemma start_is : forall rc e, start rc e 16 = utt_init tops twide (Num 1) 50 e rc mono.
Proof. intros rc e. unfold start, mono. reflexivity. Qed.

Lemma both7 : exists u ns, utt_init tops twide (Num 1) 50 no_error rc7 mono = Ok (Some u, no_error) /\
  session tops twide (Num 1) 50 no_error (Some u) [audio 3440] = Ok ([3440], lit "so what" ++ [0], Num 0) /\
  session tops twide (Num 1) 50 no_error (Some u) (cut 3440 1 999) = Ok (ns, lit "so what" ++ [0], Num 0) /\ total ns = 3440.
Proof.
  destruct session7 as (u & E & _ & _ & _ & S). rewrite start_is in E.
  destruct (S _ (or_introl eq_refl)) as (ms & S1 & T1). destruct (S _ (or_intror eq_refl)) as (ms' & S2 & T2).
  destruct (one_number _ _ _ _ _ _ S1) as [n ->]. cbn [total fold_right] in T1. rewrite Z.add_0_r in T1. subst n.
  exists u, ms'. split; [exact E|]. split; [exact S1|]. split; [exact S2|exact T2].
Qed.

Lemma two_answers : exists t ns, run1 init_state two_sessions = Ok t /\
  map snd (filter (fun x => of_utt 0 (Datatypes.fst x)) t) =
    [Pointer false; Number 3440; Nothing; Text (lit "so what") (Num 0)] /\
  map snd (filter (fun x => of_utt 1 (Datatypes.fst x)) t) =
    Pointer false :: map Number ns ++ [Nothing; Text (lit "so what") (Num 0)] /\ total ns = 3440.
Proof.
  destruct both7 as (u & ns & E & S1 & S2 & T2).
  assert (H0 : In 0 (lit "so what" ++ [0])) by (apply in_or_app; right; now left).
  destruct (two_texts _ _ _ _ u 3440 ns _ _ E S1 S2 H0) as (t & R1 & R2 & R3).
  exists t, ns. split; [exact R1|]. split; [exact R2|]. split; [exact R3|exact T2].
Qed.

(** What the program is told. *)
Definition told : list call :=
  [LastError; Load (lit "none"); LastError; Load (lit "model"); Start 0 1 (mk_format 1 16000 12); LastError;
   Feed 0 None 0; LastError].
Lemma bad_format : forall rc u e0 e1 e e2, utt_init tops twide (Num 1) 50 e0 rc mono = Ok (Some u, e1) ->
  set_error e (lit "Corruption: bits_per_sample == 8, 16 or 32 expected, but 12 found") = Ok e2 ->
  utt_init (C := unit) tops twide (Num 1) 50 e rc (mk_format 1 16000 12) = Ok (None, e2).
Proof.
  intros rc u e0 e1 e e2 E E2. unfold utt_init in *.
  destruct (new_decoder (rc_cache rc)) as [d0|]; cbn [bind] in *; [|discriminate].
  destruct (initialize _ _ _ _ d0) as [d|]; cbn [bind] in *; [|discriminate].
  change (set_format reader_init (mk_format 1 16000 12)) with (false, reader_init). cbv iota.
  change (set_format_error (mk_format 1 16000 12)) with (lit "Corruption: bits_per_sample == 8, 16 or 32 expected, but 12 found").
  rewrite E2. reflexivity.
Qed.

Lemma told_run : exists t, run1 init_state told = Ok t /\
  flat_map (fun x => match snd x with Message m => [m] | _ => [] end) t =
    [[]; lit "IOError: Unable to open none";
     lit "Corruption: bits_per_sample == 8, 16 or 32 expected, but 12 found"; lit "utt is NULL"].
Proof.
  assert (R : exists t, run1 init_state told = Ok t /\ map snd t =
            [Message []; Pointer true; Message (lit "IOError: Unable to open none"); Pointer false; Pointer true;
             Message (lit "Corruption: bits_per_sample == 8, 16 or 32 expected, but 12 found"); Number (-1); Message (lit "utt is NULL")]).
  2:{ destruct R as (t & T & M). exists t. split; [exact T|]. rewrite flat_map_concat_map.
      rewrite <- (map_map snd (fun a : answer trop => match a with Message m => [m] | _ => [] end)), M. reflexivity. }
  destruct (set_error_ok no_error (lit "IOError: Unable to open none") (init_fits (F := trop) (C := unit))) as (e1 & E1 & L1 & T1 & _).
  destruct (set_error_ok e1 (lit "Corruption: bits_per_sample == 8, 16 or 32 expected, but 12 found") L1) as (e2 & E2 & L2 & T2 & _).
  destruct (set_error_ok e2 (lit "utt is NULL") L2) as (e3 & E3 & L3 & T3 & _).
  assert (In1 : utt_init tops twide (Num 1) 50 e1 rc7 (mk_format 1 16000 12) = Ok (None, e2)).
  { destruct start7 as (u & E). rewrite start_is in E. exact (bad_format _ _ _ _ _ _ E E2). }
  eexists. split.
  - unfold told. change (init_state : state trop unit) with (mk_state no_error [] (fun _ : nat => @Dangling trop unit)).
    rewrite (run_step _ _ _ _ _ (step_last _ _ _)), (run_step _ _ _ _ _ (step_none _ e1 _ _ E1)).
    rewrite (run_step _ _ _ _ _ (step_last _ _ _)), (run_step _ _ _ _ _ (step_model _ _ _)). cbn [app].
    erewrite (run_step _ (Start _ _ _)).
    2:{ cbn [Api.step]. unfold stt_of. cbn [s_stt nth_error bind]. rewrite In1. cbn [bind utt_pointer]. reflexivity. }
    rewrite (run_step _ _ _ _ _ (step_last _ _ _)).
    erewrite (run_step _ (Feed _ _ _)).
    2:{ cbn [Api.step]. rewrite set_utt_same. unfold stt_process, check_utt. rewrite E3. cbn [bind]. reflexivity. }
    rewrite (run_step _ _ _ _ _ (step_last _ _ _)). cbn [run bind]. reflexivity.
  - cbn [map snd]. rewrite T1, T2, T3. reflexivity.
Qed.
