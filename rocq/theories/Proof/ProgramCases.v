(** Concrete runs of the program. *)
From Coq Require Import ZArith String List Bool Lia.
From Verif.Base Require Import Prelude ZMap Lemmas.
From Verif.Spec Require Import AudioSpec PcmSpec TextSpec FbankSpec SttSpec ProgramSpec.
From Verif.Model Require Import Util File Arith Vector Pcm Fbank Nnet Am SymbolTable Pool OLabel Fst Decoder Stt Main.
From Verif.Proof Require Pcm.
From Verif.Proof Require Import Loop DecoderBase Stt SttCut QOps DecoderCases SttCases Program.
Import ListNotations.
Open Scope Z_scope.
Ltac Zify.zify_post_hook ::= Z.div_mod_to_equations.

(** The first frame says "so", any other "what". *)
Definition graph8 : graph trop := mk_graph 0
  [ (Num 0, [mk_arc 1 1 5 (Num 0)]); (Num 0, [mk_arc 1 1 7 (Num 0)]) ].
Definition rc8 : recognizer trop unit := recognizer1 graph8 [0; 0] 1 [Num 0].

(** A chunk of other data. *)
Definition tag : bytes := lit "LIST" ++ encode 4 312 ++ repeat 0 312.

Definition files8 (name : bytes) : option bytes :=
  if str_eqb name (lit "a.wav") then Some (wav 16 836 800 (audio 400))
  else if str_eqb name (lit "b.wav") then Some (wav 16 1156 800 (audio 400 ++ tag))
  else if str_eqb name (lit "c.wav") then Some (wav 16 1156 1120 (audio 560))
  else if str_eqb name (lit "stereo.wav") then Some (pcm_header 836 2 16000 32000 2 16 800 ++ audio 400)
  else if str_eqb name (lit "x.wav") then Some (lit "RIFX")
  else if str_eqb name (lit "good.scp") then Some (list_file [(lit "u1", lit "c.wav"); (lit "u2", lit "a.wav")])
  else if str_eqb name (lit "cut.scp") then Some (list_file [(lit "u1", lit "c.wav")] ++ lit "u2 a.wav")
  else if str_eqb name (lit "bad.scp") then Some (list_file [(lit "u1", lit "c.wav"); (lit "u2", lit "x.wav"); (lit "u3", lit "a.wav")])
  else if str_eqb name (lit "odd.scp") then Some (list_file [(lit "u1", lit "c.wav")] ++ lit "nonsense" ++ [10])
  else None.

Definition load8 (name : bytes) : res (recognizer trop unit + bytes) :=
  if str_eqb name (lit "model") then Ok (inl rc8) else Ok (inr (lit "IOError: Unable to open " ++ name)).

Definition why8 (content : bytes) : bytes := lit "Corruption: RIFF expected".

Notation run8 args := (run_main tops twide (Num 1) 50 files8 load8 why8 args).

Lemma start8 : exists u, forall err, start rc8 err 16 = Ok (Some u, err).
Proof.
  assert (H : match start rc8 [] 16 with Ok (Some _, []) => true | _ => false end = true) by (vm_compute; reflexivity).
  unfold start, utt_init in *. destruct (new_decoder (rc_cache rc8)) as [d0|]; cbn [bind] in *; [|discriminate].
  destruct (initialize _ _ _ _ d0) as [d|]; cbn [bind] in *; [|discriminate].
  cbn [set_format reader_init w_channels w_rate w_bits negb Z.eqb Pos.eqb orb r_buffer]. eauto.
Qed.

Lemma can_start8 : can_start tops twide (Num 1) 50 rc8.
Proof. destruct start8 as (u & E). exists (mk_format 1 16000 16), [], u. apply E. Qed.

Lemma so8 : session_frames rc8 1 = Ok (lit "so" ++ [0], Num 0).
Proof. vm_compute. reflexivity. Qed.
Lemma what8 : session_frames rc8 2 = Ok (lit "so what" ++ [0], Num 0).
Proof. vm_compute. reflexivity. Qed.

Lemma tag_bytes : byte_list tag.
Proof.
  unfold tag. apply Forall_app. split; [repeat constructor; lia|]. apply Forall_app. split; [repeat constructor; lia|].
  apply Forall_forall. intros x I. apply repeat_spec in I. subst. lia.
Qed.

Lemma sizes8 : forall a b, 0 <= a < 2000 -> 0 <= b < 2000 -> wav_sizes 16 a b.
Proof.
  intros a b A B. split; [unfold valid_width; auto|]. split; unfold fits; cbn; lia.
Qed.

Lemma transcript8 : forall chunk size data n hyp, wav_sizes 16 chunk size -> byte_list data -> data <> [] ->
  lenZ data < 5000 -> num_windows 400 160 (Z.to_nat (lenZ data / 2)) = n ->
  session_frames rc8 n = Ok (hyp ++ [0], Num 0) -> ~ In 0 hyp ->
  transcript tops twide (Num 1) 50 rc8 (wav 16 chunk size data) hyp.
Proof.
  intros chunk size data n hyp S1 B N L W R N0. destruct start8 as (u & E).
  assert (P : Forall piece [data]).
  { apply Forall_cons; [|constructor]. split; [exact B|]. split; [exact N|lia]. }
  assert (Cc : concat [data] = data) by (cbn [concat]; apply app_nil_r).
  destruct (session_ok rc8 [data] no_error u no_error (hyp ++ [0]) (Num 0) eq_refl eq_refl (E _) P) as (ns & S2 & _).
  { rewrite Cc, W. exact R. }
  exists 16, chunk, size, data, [data], no_error, u, ns, (hyp ++ [0]), (Num 0).
  repeat (split; [first [assumption|reflexivity|apply E]|]). symmetry. apply cstr_stop. exact N0.
Qed.

Lemma lit_free : forall s, forallb (fun c => negb (c =? 0)) s = true -> ~ In 0 s.
Proof. intros s H I. rewrite forallb_forall in H. apply H in I. discriminate. Qed.

Lemma a8 : transcript tops twide (Num 1) 50 rc8 (wav 16 836 800 (audio 400)) (lit "so").
Proof.
  apply (transcript8 836 800 (audio 400) 1 (lit "so") (sizes8 836 800 ltac:(lia) ltac:(lia)) (audio_bytes 400)).
  - discriminate.
  - reflexivity.
  - reflexivity.
  - exact so8.
  - apply lit_free. reflexivity.
Qed.

Lemma b_bytes : byte_list (audio 400 ++ tag).
Proof. apply Forall_app. split; [apply audio_bytes|apply tag_bytes]. Qed.

Lemma b8 : transcript tops twide (Num 1) 50 rc8 (wav 16 1156 800 (audio 400 ++ tag)) (lit "so what").
Proof.
  apply (transcript8 1156 800 (audio 400 ++ tag) 2 (lit "so what") (sizes8 1156 800 ltac:(lia) ltac:(lia)) b_bytes).
  - discriminate.
  - reflexivity.
  - reflexivity.
  - exact what8.
  - apply lit_free. reflexivity.
Qed.

Lemma c8 : transcript tops twide (Num 1) 50 rc8 (wav 16 1156 1120 (audio 560)) (lit "so what").
Proof.
  apply (transcript8 1156 1120 (audio 560) 2 (lit "so what") (sizes8 1156 1120 ltac:(lia) ltac:(lia)) (audio_bytes 560)).
  - discriminate.
  - reflexivity.
  - reflexivity.
  - exact what8.
  - apply lit_free. reflexivity.
Qed.

Lemma wav_bytes : forall bits chunk size data, byte_list data -> forallb (fun c => (0 <=? c) && (c <? 256)) (wav bits chunk size []) = true ->
  byte_list (wav bits chunk size data).
Proof.
  intros bits chunk size data B H. unfold wav in *. rewrite app_nil_r in H. apply Forall_app. split; [|exact B].
  apply Forall_forall. intros c I. rewrite forallb_forall in H. specialize (H c I). lia.
Qed.

Lemma run_a : run8 [lit "model"; lit "a.wav"] = Ok (lit "so" ++ [10], 0).
Proof.
  apply (main_transcript tops twide (Num 1) 50 files8 load8 why8 (lit "model") (lit "a.wav") rc8 (wav 16 836 800 (audio 400)) (lit "so")); [reflexivity| |reflexivity| |exact a8].
  - exists (lit "a"). reflexivity.
  - apply wav_bytes; [apply audio_bytes|reflexivity].
Qed.

Lemma run_b : run8 [lit "model"; lit "b.wav"] = Ok (lit "so what" ++ [10], 0).
Proof.
  apply (main_transcript tops twide (Num 1) 50 files8 load8 why8 (lit "model") (lit "b.wav") rc8 (wav 16 1156 800 (audio 400 ++ tag)) (lit "so what")); [reflexivity| |reflexivity| |exact b8].
  - exists (lit "b"). reflexivity.
  - apply wav_bytes; [apply b_bytes|reflexivity].
Qed.

Lemma run_c : ready_entry tops twide (Num 1) 50 files8 rc8 (lit "u1", lit "c.wav") (lit "so what").
Proof.
  eexists. split; [reflexivity|]. split; [|exact c8]. apply wav_bytes; [apply audio_bytes|reflexivity].
Qed.

Lemma run_a2 : ready_entry tops twide (Num 1) 50 files8 rc8 (lit "u2", lit "a.wav") (lit "so").
Proof.
  eexists. split; [reflexivity|]. split; [|exact a8]. apply wav_bytes; [apply audio_bytes|reflexivity].
Qed.

Lemma clean_lit : forall s, forallb (fun c => negb ((c =? 0) || (c =? 10) || (c =? 13) || (c =? 32))) s = true -> clean s.
Proof.
  intros s H. rewrite forallb_forall in H. repeat split; intros I; apply H in I; discriminate.
Qed.

Lemma entries8 : Forall entry_ok [(lit "u1", lit "c.wav"); (lit "u2", lit "a.wav")].
Proof.
  repeat (apply Forall_cons; [split; [apply clean_lit; reflexivity|]; split; [apply clean_lit; reflexivity|]; split; [discriminate|reflexivity]|]).
  constructor.
Qed.

Lemma not_wav : forall name p s, name = p ++ s -> lenZ s = 4 -> s <> lit ".wav" -> ~ ends_in name (lit ".wav").
Proof.
  intros name p s E L N [q Q]. apply N. rewrite <- (suffix_take p s L), <- E, Q. rewrite suffix_take by reflexivity. reflexivity.
Qed.

Lemma scp_good : ~ ends_in (lit "good.scp") (lit ".wav") /\ 
  run8 [lit "model"; lit "good.scp"] = Ok (lit "u1 so what" ++ [10] ++ lit "u2 so" ++ [10], 0).
Proof.
  assert (N : ~ ends_in (lit "good.scp") (lit ".wav")).
  { apply (not_wav _ (lit "good") (lit ".scp")); [reflexivity|reflexivity|discriminate]. }
  split; [exact N|].
  exact (main_list tops twide (Num 1) 50 files8 load8 why8 (lit "model") (lit "good.scp") rc8 _ [lit "so what"; lit "so"]
    eq_refl N ltac:(cbv; discriminate) eq_refl entries8 ltac:(constructor; [exact run_c|constructor; [exact run_a2|constructor]])).
Qed.

Lemma scp_cut : files8 (lit "cut.scp") = Some (lit "u1 c.wav" ++ [10] ++ lit "u2 a.wav") /\
  run8 [lit "model"; lit "cut.scp"] =
  Ok (lit "u1 so what" ++ [10] ++ lit "u2 so" ++ [10] ++ lit "pasco: IOError: EOF already reached: cut.scp" ++ [10], 1).
Proof.
  split; [reflexivity|].
  assert (N : ~ ends_in (lit "cut.scp") (lit ".wav")).
  { apply (not_wav _ (lit "cut") (lit ".scp")); [reflexivity|reflexivity|discriminate]. }
  exact (main_list_unfinished tops twide (Num 1) 50 files8 load8 why8 (lit "model") (lit "cut.scp") rc8
    [(lit "u1", lit "c.wav")] (lit "u2", lit "a.wav") [lit "so what"; lit "so"]
    eq_refl N ltac:(cbv; discriminate) eq_refl entries8 ltac:(constructor; [exact run_c|constructor; [exact run_a2|constructor]])).
Qed.

Lemma x8 : unreadable files8 why8 (lit "x.wav") (lit "Corruption: RIFF expected").
Proof.
  eapply (bad_header files8 why8 (lit "x.wav")); reflexivity.
Qed.

Lemma stereo8 : unreadable files8 why8 (lit "stereo.wav")
  (firstn (Z.to_nat 2047) (cstr (set_format_error (mk_format 2 16000 16)))).
Proof.
  eapply (bad_format files8 why8 (lit "stereo.wav")); [reflexivity| |].
  - apply Pcm.header_accepted; try (unfold fits; cbn; lia). split; reflexivity.
  - intros (H & _). cbn in H. lia.
Qed.

Lemma errors8 :
  run8 [lit "model"] = Ok (usage, 1) /\ run8 [lit "model"; lit "wav"] = Ok (usage, 1) /\
  run8 [lit "other"; lit "a.wav"] = Ok (lit "error: IOError: Unable to open other" ++ [10], 22) /\
  run8 [lit "model"; lit "z.wav"] = Ok (lit "error: unable to open: z.wav" ++ [10], 22) /\
  run8 [lit "model"; lit "x.wav"] = Ok (lit "error: Corruption: RIFF expected" ++ [10], 22) /\
  run8 [lit "model"; lit "stereo.wav"] = Ok (lit "error: " ++ set_format_error (mk_format 2 16000 16) ++ [10], 22) /\
  run8 [lit "model"; lit "z.scp"] = Ok (lit "pasco: IOError: Unable to open z.scp" ++ [10], 1) /\
  run8 [lit "model"; lit "bad.scp"] = Ok (lit "u1 so what" ++ [10] ++ lit "error: Corruption: RIFF expected" ++ [10], 22) /\
  run8 [lit "model"; lit "odd.scp"] = Ok (lit "u1 so what" ++ [10] ++ lit "scp: unexpected line: nonsense" ++ [10], 22).
Proof.
  assert (NB : ~ ends_in (lit "bad.scp") (lit ".wav")).
  { apply (not_wav _ (lit "bad") (lit ".scp")); [reflexivity|reflexivity|discriminate]. }
  assert (NO : ~ ends_in (lit "odd.scp") (lit ".wav")).
  { apply (not_wav _ (lit "odd") (lit ".scp")); [reflexivity|reflexivity|discriminate]. }
  assert (NZ : ~ ends_in (lit "z.scp") (lit ".wav")).
  { apply (not_wav _ (lit "z") (lit ".scp")); [reflexivity|reflexivity|discriminate]. }
  split; [reflexivity|]. split; [reflexivity|]. split; [reflexivity|].
  split; [reflexivity|]. split.
  { exact (main_unreadable tops twide (Num 1) 50 files8 load8 why8 (lit "model") (lit "x.wav") rc8 _ eq_refl (ex_intro _ (lit "x") eq_refl) can_start8 x8). }
  split.
  { exact (main_unreadable tops twide (Num 1) 50 files8 load8 why8 (lit "model") (lit "stereo.wav") rc8 _ eq_refl (ex_intro _ (lit "stereo") eq_refl) can_start8 stereo8). }
  split.
  { exact (main_no_list tops twide (Num 1) 50 files8 load8 why8 (lit "model") (lit "z.scp") rc8 eq_refl NZ ltac:(cbv; discriminate) eq_refl). }
  split.
  - refine (main_list_unreadable tops twide (Num 1) 50 files8 load8 why8 (lit "model") (lit "bad.scp") rc8 [(lit "u1", lit "c.wav")]
      [lit "so what"] (lit "u2", lit "x.wav") (lit "u3 a.wav" ++ [10]) _ eq_refl NB _ eq_refl _ _ can_start8 x8).
    + cbv; discriminate.
    + repeat (apply Forall_cons; [split; [apply clean_lit; reflexivity|]; split; [apply clean_lit; reflexivity|]; split; [discriminate|reflexivity]|]).
      constructor.
    + constructor; [exact run_c|constructor].
  - refine (main_list_line tops twide (Num 1) 50 files8 load8 why8 (lit "model") (lit "odd.scp") rc8 [(lit "u1", lit "c.wav")]
      [lit "so what"] (lit "nonsense") [] eq_refl NO _ eq_refl _ _ _ _).
    + cbv; discriminate.
    + repeat (apply Forall_cons; [split; [apply clean_lit; reflexivity|]; split; [apply clean_lit; reflexivity|]; split; [discriminate|reflexivity]|]).
      constructor.
    + constructor; [exact run_c|constructor].
    + apply clean_lit. reflexivity.
    + reflexivity.
Qed.
