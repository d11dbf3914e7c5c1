(** The command line program. *)
From Coq Require Import ZArith String List Bool Lia.
From Verif.Base Require Import Prelude Lemmas.
From Verif.Spec Require Import AudioSpec PcmSpec TextSpec SttSpec ProgramSpec.
From Verif.Model Require Import Util File Arith Vector Pcm Fbank Nnet Am SymbolTable Pool OLabel Fst Decoder Stt Main.
From Verif.Proof Require Text.
From Verif.Proof Require Import Loop DecoderBase Lines Pcm PcmCases Stt SttCut.
Import ListNotations.
Open Scope Z_scope.
Ltac Zify.zify_post_hook ::= Z.div_mod_to_equations.

Lemma wav_header : forall bits chunk size data, wav_sizes bits chunk size ->
  read_pcm_header (open (wav bits chunk size data)) = Ok (Some (mk_format 1 16000 bits), mk_file data false).
Proof.
  intros bits chunk size data (W & S1 & S2). unfold wav, open.
  apply Pcm.header_accepted; auto; destruct W as [-> | [-> | ->]]; cbv; intuition discriminate.
Qed.

Lemma suffix_take : forall (p s : bytes), lenZ s = 4 -> skipn (Z.to_nat (lenZ (p ++ s) - 4)) (p ++ s) = s.
Proof.
  intros p s L. replace (Z.to_nat (lenZ (p ++ s) - 4)) with (length p).
  - rewrite skipn_app, skipn_all, Nat.sub_diag. reflexivity.
  - rewrite lenZ_app. unfold lenZ in *. lia.
Qed.

Section Program.
Context {F D C : Type}.
Variable O : fops F.
Variable X : xops F D.
Variable tenth : F.
Variable fuel : nat.
Variable files : bytes -> option bytes.
Variable load : bytes -> res (recognizer F C + bytes).
Variable header_error : bytes -> bytes.

Notation ready_entry := (ready_entry O X tenth fuel files).
Notation unreadable := (unreadable files header_error).
Notation can_start := (can_start O X tenth fuel).
Notation process_audio := (process_audio O X tenth fuel files header_error).
Notation scp_loop := (scp_loop O X tenth fuel files header_error).
Notation run_main := (run_main O X tenth fuel files load header_error).

Definition forget (x : list Z * option (utt F C) * bytes) : res (option (utt F C) * bytes) :=
  let '(_, u, err) := x in Ok (u, err).

(** The file is read in pieces of at most 1024 bytes. *)
Lemma audio_pieces : forall n rest, (length rest < n)%nat -> byte_list rest ->
  exists ps, Forall piece ps /\ concat ps = rest /\
    forall (u : option (utt F C)) err,
      audio_loop O X tenth fuel n (mk_file rest false) u err = bind (process_pieces O X tenth fuel err u ps) forget.
Proof.
  induction n as [|n IH]; intros rest L B; [lia|].
  cbn [audio_loop f_eof]. unfold fread. cbn [f_rest f_eof orb].
  set (b := firstn (Z.to_nat 1024) rest).
  destruct (Z.eqb_spec (lenZ b) 0) as [Z0|Z0].
  - exists []. split; [constructor|]. split; [|reflexivity].
    unfold b, lenZ in Z0. rewrite firstn_length in Z0. destruct rest; [reflexivity|cbn [length] in Z0; lia].
  - assert (Pb : piece b).
    { unfold b in *. split; [|split].
      - unfold byte_list in *. rewrite <- (firstn_skipn (Z.to_nat 1024) rest), Forall_app in B. tauto.
      - intros E. rewrite E in Z0. cbn in Z0. lia.
      - unfold lenZ. rewrite firstn_length. lia. }
    assert (Lb : (0 < length b)%nat) by (unfold lenZ in Z0; lia).
    destruct (Z.ltb_spec (lenZ rest) 1024) as [S1|S1].
    + exists [b]. split; [constructor; [assumption|constructor]|]. split.
      { cbn [concat]. rewrite app_nil_r. unfold b. apply firstn_all2. unfold lenZ in S1. lia. }
      intros u err. cbn [process_pieces].
      match goal with |- context[bind (stt_process ?a1 ?a2 ?a3 ?a4 ?a5 ?a6 ?a7 ?a8)] =>
        destruct (stt_process a1 a2 a3 a4 a5 a6 a7 a8) as [[[k u1] err1]|] end; cbn [bind forget]; [|reflexivity].
      destruct n; [|reflexivity]. cbn [audio_loop]. unfold b in Lb. rewrite firstn_length in Lb. lia.
    + destruct (IH (skipn (Z.to_nat 1024) rest)) as (ps & P1 & P2 & P3).
      { rewrite skipn_length. unfold b in Lb. rewrite firstn_length in Lb. lia. }
      { unfold byte_list in *. rewrite <- (firstn_skipn (Z.to_nat 1024) rest), Forall_app in B. tauto. }
      exists (b :: ps). split; [constructor; assumption|]. split.
      { cbn [concat]. rewrite P2. apply firstn_skipn. }
      intros u err. cbn [process_pieces].
      match goal with |- context[bind (stt_process ?a1 ?a2 ?a3 ?a4 ?a5 ?a6 ?a7 ?a8)] =>
        destruct (stt_process a1 a2 a3 a4 a5 a6 a7 a8) as [[[k u1] err1]|] end; cbn [bind forget]; [|reflexivity].
      rewrite P3. destruct (process_pieces O X tenth fuel err1 u1 ps) as [[[ks u2] err2]|]; reflexivity.
Qed.

(** What [ProcessAudio] returns, and that it prints nothing. *)
Definition same_text (w : world) (x : world * outcome bytes) (y : list Z * bytes * F) : Prop :=
  let '(w', r) := x in let '(_, mem, _) := y in w_out w' = w_out w /\ r = Go (cstr mem).

Lemma end_some : forall err (v : utt F C) u' err', stt_end O X tenth fuel err (Some v) = Ok (u', err') -> exists v', u' = Some v'.
Proof.
  intros err v u' err' E. unfold stt_end in E. destruct (bind_ok _ _ _ _ _ E) as [[[[[v1 i] rc]|] e] [E1 E2]].
  - destruct (bind_ok _ _ _ _ _ E2) as [[rows a] [E3 E4]]. inv_bind E4.
    destruct (bind_ok _ _ _ _ _ E4) as [[h l] [E5 E6]]. injection E6 as <- <-. eauto.
  - injection E2 as <- <-. eauto.
Qed.

Lemma audio_text : forall w (rc : recognizer F C) name bits chunk size data err u err0 ps,
  files name = Some (wav bits chunk size data) -> wav_sizes bits chunk size -> byte_list data ->
  utt_init O X tenth fuel err rc (mk_format 1 16000 bits) = Ok (Some u, err0) ->
  Forall piece ps -> concat ps = data ->
  alike any (same_text w) (process_audio w rc name) (session O X tenth fuel err (Some u) ps).
Proof.
  intros w rc name bits chunk size data err u err0 ps Hf Hs Hb Hu Hp Hc.
  unfold Main.process_audio. rewrite Hf. unfold pcm_header_of. rewrite wav_header by assumption. cbn [bind w_err w_out].
  destruct (utt_init_inv _ _ _ _ _ _ _ _ _ Hu) as (-> & Sup & d & Eu).
  assert (Hu' : utt_init O X tenth fuel (w_err w) rc (mk_format 1 16000 bits) = Ok (Some u, w_err w)).
  { unfold utt_init in *. inv_bind Hu. inv_bind Hu. rewrite Hb0. cbn [bind]. rewrite Hb1. cbn [bind].
    destruct (set_format reader_init (mk_format 1 16000 bits)) as [[] r]; [|inv_bind Hu; discriminate].
    injection Hu as <-. reflexivity. }
  rewrite Hu'. cbn [bind].
  destruct (audio_pieces (S (S (length (wav bits chunk size data)))) data) as (qs & Q1 & Q2 & Q3).
  { unfold wav. rewrite app_length. lia. }
  { assumption. }
  rewrite Q3, bind_bind.
  assert (SW : forall e ps, Forall piece ps -> concat ps = data -> exists xs rest, decodes (width bits) data xs rest /\
            alike any (session_is (F := F) (lenZ xs)) (session O X tenth fuel e (Some u) ps) (whole O X tenth fuel rc d xs)).
  { intros e ps' H1 H2. subst u. rewrite <- H2. apply session_whole; auto; [intros; exact I| |].
    - apply Hs.
    - left. intros. exact I. }
  destruct (SW (w_err w) qs Q1 Q2) as (xs & r1 & D1 & A1). destruct (SW err ps Hp Hc) as (ys & r2 & D2 & A2).
  assert (P : (0 < width bits)%nat) by (destruct Hs as [[-> | [-> | ->]] _]; cbv; lia).
  assert (xs = ys) as <-.
  { destruct D1 as (E1 & F1 & L1), D2 as (E2 & F2 & L2).
    apply (decodes_unique (width bits) P xs ys r1 r2); auto. congruence. }
  apply alike_trans with (R := same_text w) (S := fun x y => snd (Datatypes.fst x) = snd (Datatypes.fst y))
    (b := session O X tenth fuel (w_err w) (Some u) qs).
  - intros. exact I.
  - unfold session.
    assert (PS : forall e qs v ns u' e', process_pieces O X tenth fuel e (Some v) qs = Ok (ns, u', e') -> exists v' : utt F C, u' = Some v').
    { clear. intros e qs. revert e. induction qs as [|q qs IH]; intros e v ns u' e' E; cbn [process_pieces] in E.
      - injection E as <- <- <-. eauto.
      - destruct (bind_ok _ _ _ _ _ E) as [[[n u1] e1] [E1 E2]]. destruct (bind_ok _ _ _ _ _ E2) as [[[ns2 u2] e2] [E3 E4]].
        injection E4 as <- <- <-.
        assert (exists v1, u1 = Some v1) as [v1 ->].
        { clear - E1. unfold stt_process in E1. destruct (bind_ok _ _ _ _ _ E1) as [[[[[v0 i] rc]|] e0] [E2 E3]].
          - destruct (bind_ok _ _ _ _ _ E3) as [[[xs|] r] [E4 E5]].
            + destruct (lenZ xs =? 0); [injection E5 as <- <- <-; eauto|].
              destruct (bind_ok _ _ _ _ _ E5) as [[fe wa] [E6 E7]].
              destruct (bind_ok _ _ _ _ _ E7) as [[am [d [hy ll]]] [E8 E9]]. injection E9 as <- <- <-. eauto.
            + inv_bind E5. injection E5 as <- <- <-. eauto.
          - injection E3 as <- <- <-. eauto. }
        eauto. }
    destruct (process_pieces O X tenth fuel (w_err w) (Some u) qs) as [[[ns u1] e1]|] eqn:EP; cbn [bind forget alike]; [|exact I].
    destruct (PS _ _ _ _ _ _ EP) as [v1 ->].
    destruct (stt_end O X tenth fuel e1 (Some v1)) as [[u2 e2]|] eqn:EE; cbn [bind alike]; [|exact I].
    destruct (end_some _ _ _ _ EE) as [v2 ->]. cbn [utt_destroy bind alike same_text w_out]. auto.
  - destruct (session O X tenth fuel (w_err w) (Some u) qs) as [[[n1 m1] l1]|], (session O X tenth fuel err (Some u) ps) as [[[n2 m2] l2]|],
      (whole O X tenth fuel rc d xs) as [y|]; cbn [alike] in *; try tauto.
    unfold session_is in *. cbn [Datatypes.fst snd] in *. destruct A1 as (_ & _ & A1), A2 as (_ & _ & A2). congruence.
  - intros [w' r] [[n1 m1] l1] [[n2 m2] l2] (S1 & S2) S3. cbn [Datatypes.fst snd same_text] in *. subst m2. auto.
Qed.

(** The error buffer keeps its size. *)
Lemma set_error_len : forall err msg e, lenZ err = error_size -> set_error err msg = Ok e -> lenZ e = error_size.
Proof. intros err msg e L E. destruct (set_error_ok err msg L) as (e' & E1 & L1 & _). congruence. Qed.

Lemma check_len : forall err (u : option (utt F C)) p e, lenZ err = error_size -> check_utt err u = Ok (p, e) -> lenZ e = error_size.
Proof.
  intros err u p e L E. unfold check_utt in E.
  destruct u as [v|]; [destruct (u_internal v) as [i|]; [destruct (i_recognizer i)|]|];
    try (inv_bind E; injection E as <- <-; eapply set_error_len; eassumption). injection E as <- <-. exact L.
Qed.

Lemma process_len : forall err (u : option (utt F C)) data size n u' e, lenZ err = error_size ->
  stt_process O X tenth fuel err u data size = Ok (n, u', e) -> lenZ e = error_size.
Proof.
  intros err u data size n u' e L E. unfold stt_process in E. destruct (bind_ok _ _ _ _ _ E) as [[[[[v i] rc]|] e0] [E1 E2]].
  - pose proof (check_len _ _ _ _ L E1) as L0. destruct (bind_ok _ _ _ _ _ E2) as [[[xs|] r] [E4 E5]].
    + destruct (lenZ xs =? 0); [injection E5 as <- <- <-; exact L0|].
      destruct (bind_ok _ _ _ _ _ E5) as [[fe wa] [E6 E7]].
      destruct (bind_ok _ _ _ _ _ E7) as [[am [d [hy ll]]] [E8 E9]]. injection E9 as <- <- <-. exact L0.
    + inv_bind E5. injection E5 as <- <- <-. eapply set_error_len; [exact L0|eassumption].
  - injection E2 as <- <- <-. eapply check_len; eassumption.
Qed.

Lemma end_len : forall err (u : option (utt F C)) u' e, lenZ err = error_size ->
  stt_end O X tenth fuel err u = Ok (u', e) -> lenZ e = error_size.
Proof.
  intros err u u' e L E. unfold stt_end in E. destruct u as [v|]; [|discriminate].
  destruct (bind_ok _ _ _ _ _ E) as [[[[[v1 i] rc]|] e0] [E1 E2]].
  - pose proof (check_len _ _ _ _ L E1) as L0. destruct (bind_ok _ _ _ _ _ E2) as [[rows a] [E3 E4]]. inv_bind E4.
    destruct (bind_ok _ _ _ _ _ E4) as [[h l] [E5 E6]]. injection E6 as <- <-. exact L0.
  - injection E2 as <- <-. eapply check_len; eassumption.
Qed.

Lemma loop_len : forall n f (u : option (utt F C)) err u' e, lenZ err = error_size ->
  audio_loop O X tenth fuel n f u err = Ok (u', e) -> lenZ e = error_size.
Proof.
  induction n as [|n IH]; intros f u err u' e L E; cbn [audio_loop] in E; [discriminate|].
  destruct (f_eof f); [injection E as <- <-; exact L|]. destruct (fread f 1024) as [b f'].
  destruct (lenZ b =? 0); [injection E as <- <-; exact L|].
  destruct (bind_ok _ _ _ _ _ E) as [[[k u1] e1] [E1 E2]]. eapply IH; [|exact E2]. eapply process_len; eassumption.
Qed.

Lemma audio_len : forall w (rc : recognizer F C) name w' r, lenZ (w_err w) = error_size ->
  process_audio w rc name = Ok (w', r) -> lenZ (w_err w') = error_size.
Proof.
  intros w rc name w' r L E. unfold Main.process_audio in E. destruct (files name) as [content|].
  2: { injection E as <- _. exact L. }
  destruct (bind_ok _ _ _ _ _ E) as [[[fmt f] e0] [E1 E2]].
  assert (L0 : lenZ e0 = error_size).
  { unfold pcm_header_of in E1. destruct (bind_ok _ _ _ _ _ E1) as [[[x|] f0] [E3 E4]].
    - injection E4 as _ _ <-. exact L.
    - inv_bind E4. injection E4 as _ _ <-. eapply set_error_len; [exact L|eassumption]. }
  destruct fmt as [fmt|]; [|injection E2 as <- _; exact L0].
  destruct (bind_ok _ _ _ _ _ E2) as [[u e1] [E3 E4]].
  assert (L1 : lenZ e1 = error_size).
  { unfold utt_init in E3. inv_bind E3. inv_bind E3. destruct (set_format reader_init fmt) as [[] rd].
    - injection E3 as _ <-. exact L0.
    - inv_bind E3. injection E3 as _ <-. eapply set_error_len; [exact L0|eassumption]. }
  destruct u as [v|]; [|injection E4 as <- _; exact L1].
  destruct (bind_ok _ _ _ _ _ E4) as [[u2 e2] [E5 E6]]. destruct (bind_ok _ _ _ _ _ E6) as [[u3 e3] [E7 E8]].
  inv_bind E8. injection E8 as <- _. cbn [w_err]. eapply end_len; [|exact E7]. eapply loop_len; [|exact E5]. exact L1.
Qed.

(** * One file *)
Lemma main_wav : forall model input (rc : recognizer F C) bits chunk size data err u err0 ps,
  load model = Ok (inl rc) -> ends_in input (lit ".wav") ->
  files input = Some (wav bits chunk size data) -> wav_sizes bits chunk size -> byte_list data ->
  utt_init O X tenth fuel err rc (mk_format 1 16000 bits) = Ok (Some u, err0) ->
  Forall piece ps -> concat ps = data ->
  alike any (fun x y => let '(out, code) := x in let '(_, mem, _) := y in out = cstr mem ++ [10] /\ code = 0)
    (run_main [model; input]) (session O X tenth fuel err (Some u) ps).
Proof.
  intros model input rc bits chunk size data err u err0 ps Hl [p ->] Hf Hs Hb Hu Hp Hc.
  unfold Main.run_main. destruct (Z.ltb_spec (lenZ (p ++ lit ".wav")) 4) as [L|L].
  { rewrite lenZ_app in L. change (lenZ (lit ".wav")) with 4 in L. unfold lenZ in L. lia. }
  rewrite Hl. cbn [bind]. rewrite suffix_take by reflexivity. rewrite str_eqb_refl.
  rewrite <- (bind_ret _ (session _ _ _ _ _ _ _)).
  eapply alike_bind; [eapply audio_text; eassumption|].
  intros [w r] [[ns mem] ll] (S1 & ->). cbn [alike bind]. rewrite S1. auto.
Qed.

Lemma no_error_ok : lenZ no_error = error_size.
Proof. unfold no_error, lenZ. rewrite repeat_length. reflexivity. Qed.

(** * Lists *)
Lemma printed_cons : forall e es h hs, printed (e :: es) (h :: hs) = Datatypes.fst e ++ [32] ++ h ++ [10] ++ printed es hs.
Proof. intros. unfold printed. cbn [combine map concat]. rewrite <- !app_assoc. reflexivity. Qed.

Lemma entry_split : forall e, entry_ok e -> split (entry_line e) [32] = Ok [Datatypes.fst e; Datatypes.snd e].
Proof.
  intros [a b] (A & B & N & _). unfold entry_line. cbn [Datatypes.fst Datatypes.snd] in *.
  change (a ++ [32] ++ b) with (join [32] [a; b]). apply Text.split_join.
  - constructor; [apply A|]. constructor; [apply B|constructor].
  - intros r f E. destruct r as [|x [|y r]]; cbn in E.
    + discriminate.
    + injection E as -> <-. assumption.
    + injection E as -> -> E. destruct r; discriminate.
Qed.

Lemma entry_plain : forall e, entry_ok e -> plain_line (entry_line e) /\ chomp (entry_line e) = entry_line e /\ entry_line e <> [].
Proof.
  intros [a b] ((A0 & A1 & A2 & _) & (B0 & B1 & B2 & _) & N & L). cbn [Datatypes.fst Datatypes.snd] in *.
  unfold lenZ in L. assert (I : forall z, In z (entry_line (a, b)) -> In z a \/ z = 32 \/ In z b).
  { intros z I. unfold entry_line in I. cbn [Datatypes.fst Datatypes.snd] in I. apply in_app_or in I. destruct I as [I|I]; [auto|].
    apply in_app_or in I. destruct I as [[I|[]]|I]; auto. }
  split; [|split].
  - split; [|split].
    + intros H. apply I in H. destruct H as [H|[H|H]]; [tauto|lia|tauto].
    + intros H. apply I in H. destruct H as [H|[H|H]]; [tauto|lia|tauto].
    + lia.
  - eapply chomped_unique; [apply drop_trailing_chomped|]. split.
    + exists []. rewrite app_nil_r. split; [reflexivity|constructor].
    + intros c r E. assert (H : In c (entry_line (a, b))) by (rewrite E; apply in_or_app; right; now left).
      apply I in H. split; intros ->; destruct H as [H|[H|H]]; try tauto; lia.
  - unfold entry_line. destruct a; discriminate.
Qed.

Lemma audio_transcript : forall w (rc : recognizer F C) e hyp, ready_entry rc e hyp ->
  ~ In 0 hyp /\ exists err, process_audio w rc (Datatypes.snd e) = Ok (mk_world (w_out w) err, Go hyp).
Proof.
  intros w rc e hyp (content & Hf & Hb & bits & ch & size & data & ps & err & u & ns & mem & ll & -> & Hs & Hu & Hp & Hc & Hr & ->).
  split; [apply cstr_nul|].
  assert (Hd : byte_list data) by (unfold wav, byte_list in Hb; apply Forall_app in Hb; tauto).
  pose proof (audio_text w rc _ _ _ _ _ _ _ _ _ Hf Hs Hd Hu Hp Hc) as A. rewrite Hr in A.
  destruct (process_audio w rc (Datatypes.snd e)) as [[[o er] r]|]; cbn [alike same_text w_out] in A; [|tauto].
  destruct A as [-> ->]. eauto.
Qed.

Lemma main_transcript : forall model input (rc : recognizer F C) content hyp,
  load model = Ok (inl rc) -> ends_in input (lit ".wav") -> files input = Some content -> byte_list content ->
  transcript O X tenth fuel rc content hyp -> run_main [model; input] = Ok (hyp ++ [10], 0).
Proof.
  intros model input rc content hyp Hl [p Ep] Hf Hb Ht. unfold Main.run_main. destruct (Z.ltb_spec (lenZ input) 4) as [L|L].
  { rewrite Ep, lenZ_app in L. change (lenZ (lit ".wav")) with 4 in L. unfold lenZ in L. lia. }
  rewrite Hl. cbn [bind]. replace (skipn (Z.to_nat (lenZ input - 4)) input) with (lit ".wav").
  2: { rewrite Ep, suffix_take by reflexivity. reflexivity. }
  rewrite str_eqb_refl.
  destruct (audio_transcript (mk_world [] no_error) rc ([], input) hyp) as (_ & err & E).
  { exists content. auto. }
  cbn [Datatypes.snd] in E. unfold no_error in E. rewrite E. reflexivity.
Qed.

Lemma list_loop : forall (rc : recognizer F C) name entries hyps rest n w,
  Forall2 (ready_entry rc) entries hyps -> Forall entry_ok entries -> (length entries <= n)%nat -> lenZ (w_err w) = error_size ->
  exists err, lenZ err = error_size /\ scp_loop n w rc name (mk_file (list_file entries ++ rest) false) =
    scp_loop (n - length entries) (mk_world (w_out w ++ printed entries hyps) err) rc name (mk_file rest false).
Proof.
  intros rc name entries hyps rest n w H. revert n w. induction H as [|e h es hs H1 _ IH]; intros n w K L LW.
  - exists (w_err w). split; [exact LW|]. cbn [list_file map text concat app printed combine length]. rewrite Nat.sub_0_r, app_nil_r.
    destruct w; reflexivity.
  - inversion K as [|? ? K1 K2]; subst. destruct n as [|n]; [cbn [length] in L; lia|]. cbn [length] in L.
    unfold list_file. cbn [map]. rewrite text_cons, <- app_assoc. cbn [app].
    destruct (entry_plain e K1) as (P1 & P2 & _).
    cbn [Main.scp_loop]. rewrite read_line_line by assumption. rewrite chomp_newline, P2, entry_split by assumption. cbn [bind].
    destruct (audio_transcript w rc e h H1) as (Nh & err & E). rewrite E. cbn [bind].
    pose proof (audio_len _ _ _ _ _ LW E) as LE. cbn [w_err] in LE.
    destruct (IH n (print (mk_world (w_out w) err) (cstr (Datatypes.fst e) ++ [32] ++ cstr h ++ [10])) K2 ltac:(lia) LE) as (err' & LE' & E').
    exists err'. split; [exact LE'|]. unfold list_file in E'. rewrite E'. cbn [length print w_out Nat.sub]. do 2 f_equal.
    rewrite printed_cons, !Text.cstr_id by (try assumption; apply K1). rewrite <- !app_assoc. reflexivity.
Qed.

Lemma scp_args : forall model input (rc : recognizer F C) content,
  load model = Ok (inl rc) -> ~ ends_in input (lit ".wav") -> 4 <= lenZ input -> files input = Some content ->
  run_main [model; input] =
  bind (scp_loop (S (S (length content))) (mk_world [] no_error) rc input (open content))
    (fun '(w, r) => match r with Exit c => Ok (w_out w, c) | Go _ => Ok (w_out w, 0) end).
Proof.
  intros model input rc content Hl Hw L Hf. unfold Main.run_main.
  destruct (Z.ltb_spec (lenZ input) 4); [lia|]. rewrite Hl. cbn [bind].
  rewrite str_eqb_neq.
  - unfold process_scp. rewrite Hf. reflexivity.
  - intros E. apply Hw. exists (firstn (Z.to_nat (lenZ input - 4)) input). rewrite <- E. symmetry. apply firstn_skipn.
Qed.

Lemma main_list : forall model input (rc : recognizer F C) entries hyps,
  load model = Ok (inl rc) -> ~ ends_in input (lit ".wav") -> 4 <= lenZ input ->
  files input = Some (list_file entries) -> Forall entry_ok entries -> Forall2 (ready_entry rc) entries hyps ->
  run_main [model; input] = Ok (printed entries hyps, 0).
Proof.
  intros model input rc entries hyps Hl Hw L Hf K H. rewrite (scp_args _ _ _ _ Hl Hw L Hf).
  assert (LE : (length entries <= length (list_file entries))%nat).
  { unfold list_file. rewrite <- (map_length entry_line entries). apply text_length. }
  destruct (list_loop rc input entries hyps [] (S (S (length (list_file entries)))) (mk_world [] no_error) H K ltac:(lia) no_error_ok) as (err & _ & E).
  rewrite app_nil_r in E. unfold open. rewrite E.
  destruct (S (S (length (list_file entries))) - length entries)%nat as [|m] eqn:M; [lia|]. reflexivity.
Qed.

(** The last line without its newline. *)
Lemma main_list_unfinished : forall model input (rc : recognizer F C) entries e hyps,
  load model = Ok (inl rc) -> ~ ends_in input (lit ".wav") -> 4 <= lenZ input ->
  files input = Some (list_file entries ++ entry_line e) -> Forall entry_ok (entries ++ [e]) ->
  Forall2 (ready_entry rc) (entries ++ [e]) hyps ->
  run_main [model; input] =
  Ok (printed (entries ++ [e]) hyps ++ lit "pasco: IOError: EOF already reached: " ++ input ++ [10], 1).
Proof.
  intros model input rc entries e hyps Hl Hw L Hf K H. rewrite (scp_args _ _ _ _ Hl Hw L Hf).
  apply Forall_app in K. destruct K as [K K1]. inversion K1 as [|? ? K2 _]; subst.
  apply Forall2_app_inv_l in H. destruct H as (hs & hs1 & H1 & H2 & ->).
  inversion H2 as [|? h ? ? H3 H4]; subst. inversion H4; subst.
  assert (LE : (length entries <= length (list_file entries))%nat).
  { unfold list_file. rewrite <- (map_length entry_line entries). apply text_length. }
  destruct (entry_plain e K2) as (P1 & P2 & P3).
  destruct (list_loop rc input entries hs (entry_line e) (S (S (length (list_file entries ++ entry_line e)))) (mk_world [] no_error) H1 K) as (err & _ & E).
  { rewrite app_length. lia. }
  { exact no_error_ok. }
  unfold open. rewrite E.
  destruct (S (S (length (list_file entries ++ entry_line e))) - length entries)%nat as [|[|m]] eqn:M;
    [rewrite app_length in M; lia|rewrite app_length in M; lia|].
  cbn [Main.scp_loop]. rewrite read_line_last by assumption. fold (chomp (entry_line e)). rewrite P2, entry_split by assumption. cbn [bind].
  destruct (audio_transcript (mk_world ([] ++ printed entries hs) err) rc e h H3) as (Nh & err' & E'). cbn [w_out] in *. rewrite E'. cbn [bind].
  rewrite read_line_eof. cbn [bind print w_out]. do 2 f_equal. cbn [app].
  assert (PA : printed (entries ++ [e]) (hs ++ [h]) = printed entries hs ++ Datatypes.fst e ++ [32] ++ h ++ [10]).
  { clear - H1. induction H1 as [|x y xs ys _ _ IH]; [unfold printed; cbn [combine map concat app]; now rewrite app_nil_r|].
    cbn [app]. rewrite !printed_cons, IH, <- !app_assoc. reflexivity. }
  rewrite PA, !Text.cstr_id by (try assumption; apply K2). rewrite <- !app_assoc. cbn [app]. rewrite <- !app_assoc. reflexivity.
Qed.

(** * Errors *)
Lemma main_usage : forall args, is_usage args -> run_main args = Ok (usage, 1).
Proof.
  intros [|a [|b [|c args]]] H; try reflexivity. cbn [is_usage] in H. unfold Main.run_main.
  destruct (Z.ltb_spec (lenZ b) 4); [reflexivity|lia].
Qed.

Lemma main_load : forall model input msg, 4 <= lenZ input -> load model = Ok (inr msg) ->
  run_main [model; input] = Ok (lit "error: " ++ firstn (Z.to_nat 2047) (cstr msg) ++ [10], 22).
Proof.
  intros model input msg L Hl. unfold Main.run_main. destruct (Z.ltb_spec (lenZ input) 4); [lia|]. rewrite Hl. cbn [bind w_err].
  destruct (set_error_ok no_error msg no_error_ok) as (err & E & _ & S1 & _). unfold no_error in E. rewrite E. cbn [bind]. rewrite S1. reflexivity.
Qed.

Lemma cstr_cut : forall s n, cstr (firstn n (cstr s)) = firstn n (cstr s).
Proof.
  intros s n. apply Text.cstr_id. intros I. apply (cstr_nul s).
  rewrite <- (firstn_skipn n (cstr s)). apply in_or_app. now left.
Qed.

Lemma audio_unreadable : forall w (rc : recognizer F C) name msg, lenZ (w_err w) = error_size -> can_start rc ->
  unreadable name msg -> exists err,
  process_audio w rc name = Ok (mk_world (w_out w ++ lit "error: " ++ msg ++ [10]) err, Exit 22).
Proof.
  intros w rc name msg L (fmt0 & err0 & u0 & S0) [Hf Nn|content f Hf Hh|content fmt f Hf Hh Ns]; unfold Main.process_audio; rewrite Hf.
  - eexists. unfold fatal, print. rewrite Text.cstr_id; [reflexivity|].
    intros I. apply in_app_or in I. destruct I as [I|I]; [cbn in I; intuition discriminate|contradiction].
  - unfold pcm_header_of. rewrite Hh. cbn [bind].
    destruct (set_error_ok (w_err w) (header_error content) L) as (err & E & _ & S1 & _). rewrite E. cbn [bind].
    unfold fatal, print. rewrite S1, cstr_cut. cbn [w_out w_err]. eauto.
  - unfold pcm_header_of. rewrite Hh. cbn [bind w_err w_out].
    unfold utt_init in *. inv_bind S0. inv_bind S0. rewrite Hb. cbn [bind]. rewrite Hb0. cbn [bind].
    destruct (set_format_cases reader_init fmt) as [[S1 S2]|[S1 S2]]; [contradiction|]. rewrite S2.
    destruct (set_error_ok (w_err w) (set_format_error fmt) L) as (err & E & _ & S3 & _). rewrite E. cbn [bind].
    unfold fatal, print. rewrite S3, cstr_cut. cbn [w_out w_err]. eauto.
Qed.

Lemma main_unreadable : forall model input (rc : recognizer F C) msg,
  load model = Ok (inl rc) -> ends_in input (lit ".wav") -> can_start rc -> unreadable input msg ->
  run_main [model; input] = Ok (lit "error: " ++ msg ++ [10], 22).
Proof.
  intros model input rc msg Hl [p Ep] Hc Hu. unfold Main.run_main. destruct (Z.ltb_spec (lenZ input) 4) as [L|L].
  { rewrite Ep, lenZ_app in L. change (lenZ (lit ".wav")) with 4 in L. unfold lenZ in L. lia. }
  rewrite Hl. cbn [bind]. replace (skipn (Z.to_nat (lenZ input - 4)) input) with (lit ".wav").
  2: { rewrite Ep, suffix_take by reflexivity. reflexivity. }
  rewrite str_eqb_refl.
  destruct (audio_unreadable (mk_world [] no_error) rc input msg no_error_ok Hc Hu) as (err & E).
  unfold no_error in E. rewrite E. reflexivity.
Qed.

(** A list that cannot be finished. *)
Lemma list_start : forall model input (rc : recognizer F C) entries hyps line rest,
  load model = Ok (inl rc) -> ~ ends_in input (lit ".wav") -> 4 <= lenZ input ->
  files input = Some (list_file entries ++ line ++ [10] ++ rest) -> Forall entry_ok entries ->
  Forall2 (ready_entry rc) entries hyps -> exists n err, lenZ err = error_size /\ run_main [model; input] =
  bind (scp_loop (S n) (mk_world (printed entries hyps) err) rc input (mk_file (line ++ 10 :: rest) false))
    (fun '(w, r) => match r with Exit c => Ok (w_out w, c) | Go _ => Ok (w_out w, 0) end).
Proof.
  intros model input rc entries hyps line rest Hl Hw L Hf K H. rewrite (scp_args _ _ _ _ Hl Hw L Hf).
  assert (LE : (length entries <= length (list_file entries))%nat).
  { unfold list_file. rewrite <- (map_length entry_line entries). apply text_length. }
  destruct (list_loop rc input entries hyps (line ++ [10] ++ rest)
    (S (S (length (list_file entries ++ line ++ [10] ++ rest)))) (mk_world [] no_error) H K) as (err & LR & E).
  { rewrite app_length. lia. }
  { exact no_error_ok. }
  unfold open. rewrite E.
  destruct (S (S (length (list_file entries ++ line ++ [10%Z] ++ rest))) - length entries)%nat as [|m] eqn:M; [rewrite app_length in M; lia|].
  exists m, err. split; [exact LR|]. reflexivity.
Qed.

Lemma main_list_unreadable : forall model input (rc : recognizer F C) entries hyps e rest msg,
  load model = Ok (inl rc) -> ~ ends_in input (lit ".wav") -> 4 <= lenZ input ->
  files input = Some (list_file entries ++ entry_line e ++ [10] ++ rest) -> Forall entry_ok (entries ++ [e]) ->
  Forall2 (ready_entry rc) entries hyps -> can_start rc -> unreadable (Datatypes.snd e) msg ->
  run_main [model; input] = Ok (printed entries hyps ++ lit "error: " ++ msg ++ [10], 22).
Proof.
  intros model input rc entries hyps e rest msg Hl Hw L Hf K H Hc Hu.
  apply Forall_app in K. destruct K as [K K1]. inversion K1 as [|? ? K2 _]; subst.
  destruct (list_start _ _ _ _ _ _ _ Hl Hw L Hf K H) as (n & err & LE & ->).
  destruct (entry_plain e K2) as (P1 & P2 & P3).
  cbn [Main.scp_loop]. rewrite read_line_line by assumption. rewrite chomp_newline, P2, entry_split by assumption. cbn [bind].
  destruct (audio_unreadable (mk_world (printed entries hyps) err) rc (Datatypes.snd e) msg LE Hc Hu) as (err' & E).
  rewrite E. reflexivity.
Qed.

Lemma main_list_line : forall model input (rc : recognizer F C) entries hyps line rest,
  load model = Ok (inl rc) -> ~ ends_in input (lit ".wav") -> 4 <= lenZ input ->
  files input = Some (list_file entries ++ line ++ [10] ++ rest) -> Forall entry_ok entries ->
  Forall2 (ready_entry rc) entries hyps -> clean line -> lenZ line < 4095 ->
  run_main [model; input] = Ok (printed entries hyps ++ lit "scp: unexpected line: " ++ line ++ [10], 22).
Proof.
  intros model input rc entries hyps line rest Hl Hw L Hf K H (N0 & N10 & N13 & N32) LL.
  destruct (list_start _ _ _ _ _ _ _ Hl Hw L Hf K H) as (n & err & LE & ->).
  assert (P1 : plain_line line) by (split; [assumption|]; split; [assumption|]; exact LL).
  assert (P2 : chomp line = line).
  { eapply chomped_unique; [apply drop_trailing_chomped|]. split.
    - exists []. rewrite app_nil_r. split; [reflexivity|constructor].
    - intros c r E. assert (I : In c line) by (rewrite E; apply in_or_app; right; now left).
      split; intros ->; contradiction. }
  cbn [Main.scp_loop]. rewrite read_line_line by assumption. rewrite chomp_newline, P2.
  assert (SP : split line [32] = Ok (match line with [] => [] | _ => [line] end)).
  { apply Text.split_eq; [discriminate|]. destruct line as [|c line]; [constructor|]. constructor; [discriminate|].
    intros (u & v & E). apply N32. rewrite E. apply in_or_app. right. now left. }
  rewrite SP. cbn [bind]. destruct line as [|c line]; cbn [bind print w_out]; rewrite Text.cstr_id by assumption; reflexivity.
Qed.

Lemma main_no_list : forall model input (rc : recognizer F C),
  load model = Ok (inl rc) -> ~ ends_in input (lit ".wav") -> 4 <= lenZ input -> files input = None ->
  run_main [model; input] = Ok (lit "pasco: IOError: Unable to open " ++ input ++ [10], 1).
Proof.
  intros model input rc Hl Hw L Hf. unfold Main.run_main.
  destruct (Z.ltb_spec (lenZ input) 4); [lia|]. rewrite Hl. cbn [bind].
  rewrite str_eqb_neq.
  - unfold process_scp. rewrite Hf. reflexivity.
  - intros E. apply Hw. exists (firstn (Z.to_nat (lenZ input - 4)) input). rewrite <- E. symmetry. apply firstn_skipn.
Qed.
End Program.
