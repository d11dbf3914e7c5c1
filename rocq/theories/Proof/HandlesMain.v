(** The files that the program opens and closes. *)
From Coq Require Import ZArith String List Bool Lia Permutation.
From Verif.Base Require Import Prelude Lemmas.
From Verif.Model Require Import Util File Binary Arith Vector Fbank Srfft FbankInit Nnet Formats Am Pcm Configuration
  SymbolTable Fst Decoder Stt Loading Main Handles.
From Verif.Spec Require Import AudioSpec TextSpec LoadingSpec LoadFaultSpec ProgramSpec HandleSpec.
From Verif.Proof Require Import Handles HandlesInit.
From Verif.Proof Require Lines Program.
Import ListNotations.

Definition anything (_ : bytes) : Prop := True.

Lemma st_refl h U K : log_ok h -> holds h U -> st h U K anything [] [] h.
Proof.
  intros L H. split; [exact L|]. split; [exact H|]. split; [now rewrite app_nil_r|]. split; [reflexivity|]. exists [].
  split; [now rewrite app_nil_r|]. split; [|split; [reflexivity|split; [constructor|reflexivity]]].
  intros p q E. symmetry in E. apply app_eq_nil in E. destruct E as (-> & _). cbn. lia.
Qed.

Lemma st_any h U K A N loc h' : st h U K A N loc h' -> st h U K anything N loc h'.
Proof.
  intros (L & H & O & M & l & G & X & Nm & Al & C). split; [exact L|]. split; [exact H|]. split; [exact O|]. split; [exact M|].
  exists l. split; [exact G|]. split; [exact X|]. split; [exact Nm|]. split; [|exact C]. clear. now induction N; constructor.
Qed.

Lemma at_most_app K k l1 l2 c : at_most K l1 -> at_most k l2 -> opens l1 = (closes l1 + c)%nat -> (c + k <= K)%nat -> at_most K (l1 ++ l2).
Proof.
  intros A B C D p q E. destruct (Nat.le_gt_cases (length p) (length l1)) as [Le|Gt].
  - apply (A p (skipn (length p) l1)). assert (X : firstn (length p) (l1 ++ l2) = p) by (rewrite E, firstn_app, Nat.sub_diag, firstn_all; apply app_nil_r).
    rewrite firstn_app in X. replace (length p - length l1)%nat with 0%nat in X by lia. cbn [firstn] in X. rewrite app_nil_r in X.
    rewrite <- (firstn_skipn (length p) l1) at 1. now rewrite X.
  - assert (X : p = l1 ++ firstn (length p - length l1) l2).
    { assert (Y : firstn (length p) (l1 ++ l2) = p) by (rewrite E, firstn_app, Nat.sub_diag, firstn_all; apply app_nil_r).
      rewrite firstn_app, firstn_all2 in Y by lia. now symmetry. }
    rewrite X, opens_app, closes_app. specialize (B _ _ (eq_sym (firstn_skipn (length p - length l1) l2))). lia.
Qed.

Lemma st_trans h U K k N1 N2 loc h1 h2 : st h U K anything N1 loc h1 -> st h1 U k anything N2 [] h2 ->
  (length (owned_fds loc) + k <= K)%nat -> st h U K anything (N1 ++ N2) loc h2.
Proof.
  intros (_ & _ & O1 & M1 & l1 & G1 & X1 & Nm1 & Al1 & C1) (L & H & O2 & M2 & l2 & G2 & X2 & Nm2 & Al2 & C2) D.
  split; [exact L|]. split; [exact H|]. split; [rewrite O2, app_nil_r; exact O1|]. split; [congruence|]. exists (l1 ++ l2).
  split; [rewrite G2, G1; now rewrite app_assoc|]. split; [exact (at_most_app _ _ _ _ _ X1 X2 C1 D)|].
  split; [rewrite names_app, Nm1, Nm2; reflexivity|]. split; [apply Forall_app; now split|]. rewrite opens_app, closes_app. cbn in C2. lia.
Qed.

(** The program ended with [exit]: files may be open. *)
Definition ended (h : hs) (k : nat) (h' : hs) : Prop := log_ok h' /\ exists l, h_log h' = h_log h ++ l /\ at_most k l.

Lemma st_ended h U K A N loc h' : st h U K A N loc h' -> ended h K h'.
Proof. intros (L & _ & _ & _ & l & G & X & _). split; [exact L|]. now exists l. Qed.

Lemma ended_trans h U K k N loc h1 h2 : st h U K anything N loc h1 -> ended h1 k h2 -> (length (owned_fds loc) + k <= K)%nat -> ended h K h2.
Proof.
  intros (_ & _ & O1 & M1 & l1 & G1 & X1 & Nm1 & Al1 & C1) (L & l2 & G2 & X2) D. split; [exact L|]. exists (l1 ++ l2).
  split; [rewrite G2, G1; now rewrite app_assoc|]. exact (at_most_app _ _ _ _ _ X1 X2 C1 D).
Qed.

Section Main.
Context {F D C : Type}.
Variable O : fops F.
Variable X : xops F D.
Variable tenth : F.
Variable fuel : nat.
Variable files : bytes -> option bytes.
Variable header_error : bytes -> bytes.

Lemma header_same err n content h : log_ok h -> nth_error (h_streams h) n = Some true ->
  match pcm_header_of err (open content) (header_error content) with
  | Fault f => h_header header_error err n content h = Fault f
  | Ok (fmt, f, e) => h_header header_error err n content h = Ok (fmt, f, e, h)
  end.
Proof.
  intros L N. unfold h_header.
  assert (R : rf_use (length (h_objs (rf_borrow n h)) - 1) (rf_borrow n h) = Ok tt).
  { unfold rf_use, obj, rf_borrow. cbn [h_objs]. rewrite app_length. cbn [length]. rewrite Nat.add_sub, nth_error_app2, Nat.sub_diag by lia.
    cbn [nth_error bind r_fd]. unfold fuse. cbn [h_streams]. now rewrite N. }
  rewrite R. cbn [bind]. destruct (pcm_header_of err (open content) (header_error content)) as [[[fmt f] e]|x]; cbn [bind]; [|reflexivity].
  assert (De : rf_destroy (rf_borrow n h) = Ok h).
  { unfold rf_destroy, rf_borrow. cbn [h_objs]. rewrite rev_app_distr. cbn [rev app r_fd r_owned bind h_objs]. rewrite removelast_last.
    now destruct h. }
  now rewrite De.
Qed.

Lemma audio_files w (rc : recognizer F C) name h U : log_ok h -> holds h U ->
  match process_audio O X tenth fuel files header_error w rc name with
  | Fault f => h_audio files O X tenth fuel header_error w rc name h = Fault f
  | Ok (w', Go hyp) => exists h', h_audio files O X tenth fuel header_error w rc name h = Ok (w', Go hyp, h') /\ st h U 1 anything [name] [] h'
  | Ok (w', Exit c) => exists h', h_audio files O X tenth fuel header_error w rc name h = Ok (w', Exit c, h') /\ ended h 1 h' /\ c <> 0%Z
  end.
Proof.
  intros L H. unfold process_audio, h_audio. destruct (fopen files name h) as [[[n content]|] k] eqn:P.
  2: { apply fopen_none in P. destruct P as (-> & Fn). rewrite Fn. unfold fatal. cbn [bind]. exists h. split; [reflexivity|].
       split; [exact (st_ended _ _ _ _ _ _ _ (st_refl h U 1 L H))|discriminate]. }
  assert (P0 := P). apply fopen_ok in P; [|exact L]. destruct P as (L' & Fn & -> & S & O' & M' & G'). rewrite Fn.
  assert (N : nth_error (h_streams k) (length (h_streams h)) = Some true) by (rewrite S, nth_error_app2, Nat.sub_diag by lia; reflexivity).
  assert (A1 : at_most 1 [Opened (length (h_streams h)) name]).
  { apply (at_most_snoc 1 []); [|cbn; lia]. intros p q E. symmetry in E. apply app_eq_nil in E. destruct E as (-> & _). cbn. lia. }
  assert (En : ended h 1 k) by (split; [exact L'|]; eexists; split; [exact G'|exact A1]).
  pose proof (header_same (w_err w) (length (h_streams h)) content k L' N) as Hd.
  destruct (pcm_header_of (w_err w) (open content) (header_error content)) as [[[fmt f] err]|x]; cbn [bind]; [|now rewrite Hd].
  rewrite Hd. cbn [bind]. destruct fmt as [fmt|].
  2: { unfold fatal. cbn [bind]. exists k. split; [reflexivity|]. split; [exact En|discriminate]. }
  destruct (utt_init O X tenth fuel err rc fmt) as [[u e]|x]; cbn [bind]; [|reflexivity].
  destruct u as [u|].
  2: { unfold fatal. cbn [bind]. exists k. split; [reflexivity|]. split; [exact En|discriminate]. }
  unfold fuse. rewrite N. cbn [bind].
  destruct (audio_loop O X tenth fuel (Datatypes.S (Datatypes.S (length content))) f (Some u) e) as [[u1 e1]|x]; cbn [bind]; [|reflexivity].
  destruct (stt_end O X tenth fuel e1 u1) as [[u2 e2]|x]; cbn [bind]; [|reflexivity].
  destruct (utt_destroy u2) as [u3|x]; cbn [bind]; [|reflexivity].
  destruct (fclose_ok k _ L' N) as (k' & -> & L2 & S2 & O2 & M2 & G2). cbn [bind]. exists k'. split; [reflexivity|].
  split; [exact L2|]. split.
  - unfold holds in *. rewrite O2, O', S2, S. rewrite S in N.
    assert (Q : Permutation (length (h_streams h) :: live (upd (h_streams h ++ [true]) (length (h_streams h)) false)) (length (h_streams h) :: owned_fds (h_objs h) ++ U)).
    { rewrite <- (live_upd _ _ N), live_app, H. perm. }
    now apply Permutation_cons_inv in Q.
  - split; [rewrite app_nil_r; congruence|]. split; [congruence|]. exists ([Opened (length (h_streams h)) name] ++ [Closed (length (h_streams h))]).
    split; [rewrite G2, G'; now rewrite <- app_assoc|]. split; [apply at_most_snoc; [exact A1|cbn; lia]|].
    split; [reflexivity|]. split; [constructor; [exact Logic.I|constructor]|reflexivity].
Qed.

(** The audio files of the lines that are read. *)
Inductive walks : file -> list bytes -> Prop :=
| walk_end f f' : read_line f = (NoLine, f') -> walks f []
| walk_line f line f' utt wav ws : read_line f = (Line line, f') -> split line [32%Z] = Ok [utt; wav] -> walks f' ws -> walks f (wav :: ws).

Lemma scp_loop_files n : forall w (rc : recognizer F C) name fd f h U, log_ok h -> holds h U -> rf_use fd h = Ok tt ->
  (exists o a b m, h_objs h = a ++ o :: b /\ length a = fd /\ r_fd o = Some m /\ r_owned o = true) ->
  match scp_loop O X tenth fuel files header_error n w rc name f with
  | Fault e => h_scp_loop files O X tenth fuel header_error n w rc name fd f h = Fault e
  | Ok (w', Go _) => exists h' ws, h_scp_loop files O X tenth fuel header_error n w rc name fd f h = Ok (w', Go tt, h') /\
      st h U 1 anything ws [] h' /\ walks f ws
  | Ok (w', Exit c) => exists h', h_scp_loop files O X tenth fuel header_error n w rc name fd f h = Ok (w', Exit c, h') /\ ended h 1 h' /\ c <> 0%Z
  end.
Proof.
  induction n as [|n IH]; intros w rc name fd f h U L H Us Ob; cbn [scp_loop h_scp_loop]; [reflexivity|].
  rewrite Us. cbn [bind]. assert (En := st_ended _ _ _ _ _ _ _ (st_refl h U 1 L H)).
  destruct (read_line f) as [[line| |] f'] eqn:RL.
  - destruct (split line [32%Z]) as [fields|x] eqn:Sp; cbn [bind]; [|reflexivity].
    destruct fields as [|utt [|wav [|? ?]]]; try (exists h; split; [reflexivity|]; split; [exact En|discriminate]).
    pose proof (audio_files w rc wav h U L H) as A.
    destruct (process_audio O X tenth fuel files header_error w rc wav) as [[w1 [hyp|c]]|x]; cbn [bind].
    + destruct A as (h1 & -> & T1). cbn [bind].
      assert (Q : log_ok h1 /\ holds h1 U /\ h_objs h1 = h_objs h). { destruct T1 as (A1 & A2 & A3 & _). rewrite app_nil_r in A3. auto. }
      destruct Q as (L1 & H1 & O1).
      assert (Us1 : rf_use fd h1 = Ok tt).
      { destruct Ob as (o & a & b & m & E & <- & Fd & W). unfold rf_use, obj. rewrite O1, E, nth_error_app2, Nat.sub_diag by lia.
        cbn [nth_error bind]. rewrite Fd. unfold fuse. rewrite (holds_in h1 U m H1); [reflexivity|]. rewrite O1, E, owned_mid.
        apply in_app_iff. right. apply in_app_iff. left. unfold fds. rewrite W, Fd. now left. }
      rewrite <- O1 in Ob.
      specialize (IH (print w1 (cstr utt ++ [32%Z] ++ cstr hyp ++ [10%Z])) rc name fd f' h1 U L1 H1 Us1 Ob).
      destruct (scp_loop O X tenth fuel files header_error n (print w1 (cstr utt ++ [32%Z] ++ cstr hyp ++ [10%Z])) rc name f') as [[w2 [u|c]]|x].
      * destruct IH as (h2 & ws & E2 & T2 & Wk). exists h2, (wav :: ws). split; [exact E2|]. split.
        -- exact (st_trans h U 1 1 [wav] ws [] h1 h2 T1 T2 (le_n 1)).
        -- exact (walk_line f line f' utt wav ws RL Sp Wk).
      * destruct IH as (h2 & E2 & T2 & Nc). exists h2. split; [exact E2|]. split; [|exact Nc].
        exact (ended_trans h U 1 1 [wav] [] h1 h2 T1 T2 (le_n 1)).
      * exact IH.
    + destruct A as (h1 & -> & T1 & Nc). cbn [bind]. exists h1. auto.
    + now rewrite A.
  - exists h, []. split; [reflexivity|]. split; [now apply st_refl|]. now apply (walk_end f f').
  - exists h. split; [reflexivity|]. split; [exact En|discriminate].
Qed.

Lemma scp_files w (rc : recognizer F C) name h U : log_ok h -> holds h U ->
  match process_scp O X tenth fuel files header_error w rc name with
  | Fault e => h_scp files O X tenth fuel header_error w rc name h = Fault e
  | Ok (w', Go _) => exists h' content ws, h_scp files O X tenth fuel header_error w rc name h = Ok (w', Go tt, h') /\
      st h U 2 anything (name :: ws) [] h' /\ files name = Some content /\ walks (open content) ws
  | Ok (w', Exit c) => exists h', h_scp files O X tenth fuel header_error w rc name h = Ok (w', Exit c, h') /\ ended h 2 h' /\ c <> 0%Z
  end.
Proof.
  intros L H. unfold process_scp, h_scp.
  assert (T0 : st h U 2 anything [] [slot None 0] (rf_new h)).
  { split; [exact L|]. split; [unfold holds in *; cbn [rf_new h_objs h_streams]; rewrite (owned_mid _ _ []); cbn; now rewrite app_nil_r|].
    split; [reflexivity|]. split; [reflexivity|]. exists []. cbn [rf_new h_log]. split; [now rewrite app_nil_r|].
    split; [|split; [reflexivity|split; [constructor|reflexivity]]].
    intros p q E. symmetry in E. apply app_eq_nil in E. destruct E as (-> & _). cbn. lia. }
  pose proof (sim_open h U 2 anything files [] [] 0 [] name Logic.I (Nat.lt_0_succ 1) [] (rf_new h) T0) as Op.
  unfold open_file, fl_open in Op. cbn [length] in Op. rewrite Nat.add_0_r in Op.
  destruct (files name) as [content|].
  - unfold load_ret in Op. destruct Op as (h1 & E1 & (m & T1) & _).
    destruct (rf_open files (length (h_objs h)) name (rf_new h)) as [[c h2]|x]; [|discriminate]. cbn [bind] in E1 |- *.
    destruct c as [c|]; [|discriminate]. assert (Q : c = content /\ h2 = h1) by (clear -E1; inversion E1; auto). destruct Q as (-> & ->). clear E1.
    assert (Q : log_ok h1 /\ holds h1 U /\ h_objs h1 = h_objs h ++ [slot (Some m) (lenZ content)]) by (destruct T1 as (A1 & A2 & A3 & _); auto).
    destruct Q as (L1 & H1 & O1).
    assert (Us1 : rf_use (length (h_objs h)) h1 = Ok tt).
    { unfold rf_use, obj. rewrite O1, nth_error_app2, Nat.sub_diag by lia. cbn [nth_error bind slot r_fd]. unfold fuse.
      rewrite (holds_in h1 U m H1); [reflexivity|]. rewrite O1, owned_mid. apply in_app_iff. right. now left. }
    pose proof (scp_loop_files (Datatypes.S (Datatypes.S (length content))) w rc name (length (h_objs h)) (open content) h1 U L1 H1 Us1) as Lp.
    destruct (scp_loop O X tenth fuel files header_error (Datatypes.S (Datatypes.S (length content))) w rc name (open content)) as [[w2 [u|c]]|x].
    + destruct Lp as (h2 & ws & -> & T2 & Wk); [exists (slot (Some m) (lenZ content)), (h_objs h), [], m; auto|]. cbn [bind].
      assert (T3 := st_trans h U 2 1 [name] ws _ h1 h2 T1 T2 (le_n 2)).
      destruct (leave_ok h U 2 anything (name :: ws) _ h2 T3) as (h3 & E3 & T4). cbn [length app leave] in E3.
      destruct (rf_destroy h2) as [h4|]; [|discriminate]. cbn [bind] in E3 |- *. injection E3 as ->. exists h3, content, ws. auto.
    + destruct Lp as (h2 & -> & T2 & Nc); [exists (slot (Some m) (lenZ content)), (h_objs h), [], m; auto|]. cbn [bind].
      exists h2. split; [reflexivity|]. split; [|exact Nc]. exact (ended_trans h U 2 1 [name] _ h1 h2 T1 T2 (le_n 2)).
    + rewrite Lp; [reflexivity|]. exists (slot (Some m) (lenZ content)), (h_objs h), [], m; auto.
  - unfold load_fail in Op. destruct Op as (h1 & E1 & (N1 & loc & T1)).
    destruct (rf_open files (length (h_objs h)) name (rf_new h)) as [[c h2]|x]; [|discriminate]. cbn [bind] in E1 |- *.
    destruct c as [c|]; [discriminate|]. assert (Q : h2 = h1) by (clear -E1; inversion E1; auto). subst h2. exists h1. split; [reflexivity|].
    split; [exact (st_ended _ _ _ _ _ _ _ T1)|discriminate].
Qed.

(** ** The whole program *)

Variable load0 : bytes -> res (recognizer F C + bytes).
Variable load : bytes -> hs -> res ((recognizer F C + bytes) * hs).
Variable parts : bytes -> list bytes -> Prop.
Hypothesis load_files : forall fn, match load0 fn with
  | Fault e => load fn no_files = Fault e
  | Ok r => exists h' N, load fn no_files = Ok (r, h') /\ st no_files [] 2 anything N [] h' /\ (forall rc, r = inl rc -> parts fn N)
  end.

Lemma main_files args :
  match run_main O X tenth fuel files load0 header_error args with
  | Fault e => h_main files O X tenth fuel load header_error args no_files = Fault e
  | Ok (out, code) => exists h', h_main files O X tenth fuel load header_error args no_files = Ok (out, code, h') /\
      ended no_files 2 h' /\
      (code = 0%Z -> exists fn input N ws, args = [fn; input] /\ st no_files [] 2 anything (N ++ input :: ws) [] h' /\ parts fn N /\
        (ends_in input (lit ".wav") /\ ws = [] \/
         ~ ends_in input (lit ".wav") /\ exists content, files input = Some content /\ walks (open content) ws))
  end.
Proof.
  assert (R0 : ended no_files 2 no_files) by (apply (st_ended no_files [] 2 anything [] []); apply st_refl; [apply none_ok|apply perm_nil]).
  unfold run_main, h_main. destruct args as [|fn [|input [|? ?]]]; try (exists no_files; split; [reflexivity|]; split; [exact R0|discriminate]).
  destruct (lenZ input <? 4)%Z eqn:Len; [exists no_files; split; [reflexivity|]; split; [exact R0|discriminate]|].
  apply Z.ltb_ge in Len.
  specialize (load_files fn). destruct (load0 fn) as [r|e]; cbn [bind]; [|now rewrite load_files].
  destruct load_files as (h1 & N & -> & T1 & Pt). cbn [bind]. destruct r as [rc|msg].
  2: { destruct (set_error (w_err (mk_world [] (repeat 0%Z (Z.to_nat error_size)))) msg) as [err|e]; cbn [bind]; [|reflexivity].
       exists h1. split; [reflexivity|]. split; [exact (st_ended _ _ _ _ _ _ _ T1)|discriminate]. }
  specialize (Pt rc eq_refl).
  assert (Q : log_ok h1 /\ holds h1 []) by (destruct T1 as (A1 & A2 & _); auto). destruct Q as (L1 & H1).
  assert (Suf : str_eqb (skipn (Z.to_nat (lenZ input - 4)) input) (lit ".wav") = true <-> ends_in input (lit ".wav")).
  { split.
    - intros E. exists (firstn (Z.to_nat (lenZ input - 4)) input).
      assert (X0 : skipn (Z.to_nat (lenZ input - 4)) input = lit ".wav") by (now apply Lines.str_eqb_eq).
      rewrite <- X0. symmetry. apply firstn_skipn.
    - intros (p & ->). rewrite Program.suffix_take by reflexivity. reflexivity. }
  destruct (str_eqb (skipn (Z.to_nat (lenZ input - 4)) input) (lit ".wav")) eqn:Sx.
  - pose proof (audio_files (mk_world [] (repeat 0%Z (Z.to_nat error_size))) rc input h1 [] L1 H1) as A.
    destruct (process_audio O X tenth fuel files header_error _ rc input) as [[w1 [hyp|c]]|x]; cbn [bind].
    + destruct A as (h2 & -> & T2). cbn [bind]. exists h2. split; [reflexivity|].
      assert (T3 : st no_files [] 2 anything (N ++ [input]) [] h2) by (apply (st_trans no_files [] 2 1 N [input] [] h1 h2 T1 T2); cbn; lia).
      split; [exact (st_ended _ _ _ _ _ _ _ T3)|]. intros _. exists fn, input, N, []. split; [reflexivity|]. split; [exact T3|].
      split; [exact Pt|]. left. split; [now apply Suf|reflexivity].
    + destruct A as (h2 & -> & T2 & Nc). cbn [bind]. exists h2. split; [reflexivity|]. split; [|congruence].
      apply (ended_trans no_files [] 2 1 N [] h1 h2 T1 T2). cbn; lia.
    + now rewrite A.
  - pose proof (scp_files (mk_world [] (repeat 0%Z (Z.to_nat error_size))) rc input h1 [] L1 H1) as A.
    destruct (process_scp O X tenth fuel files header_error _ rc input) as [[w1 [u|c]]|x]; cbn [bind].
    + destruct A as (h2 & content & ws & -> & T2 & Fc & Wk). cbn [bind]. exists h2. split; [reflexivity|].
      assert (T3 : st no_files [] 2 anything (N ++ input :: ws) [] h2) by (apply (st_trans no_files [] 2 2 N (input :: ws) [] h1 h2 T1 T2); cbn; lia).
      split; [exact (st_ended _ _ _ _ _ _ _ T3)|]. intros _. exists fn, input, N, ws. split; [reflexivity|]. split; [exact T3|].
      split; [exact Pt|]. right. split; [intros X0; apply Suf in X0; discriminate|]. eauto.
    + destruct A as (h2 & -> & T2 & Nc). cbn [bind]. exists h2. split; [reflexivity|]. split; [|congruence].
      apply (ended_trans no_files [] 2 2 N [] h1 h2 T1 T2). cbn; lia.
    + now rewrite A.
Qed.
End Main.
