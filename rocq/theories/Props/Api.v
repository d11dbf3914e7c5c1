(** Programs that use several recognizers and utterances at once (C93). [O] and
    [X] are the arithmetic of [float] and [double], [loads] is what
    [ce_stt_init] makes of a configuration file; nothing is assumed of them. *)
From Coq Require Import ZArith String List.
From Verif.Base Require Import Prelude.
From Verif.Model Require Import Util File Arith Pcm Decoder Stt Api.
From Verif.Spec Require Import SttSpec ApiSpec.
From Verif.Proof Require Import QOps SttCases.
From Verif.Proof Require Api ApiError ApiSession ApiCases.
Import ListNotations.
Open Scope Z_scope.

(** An utterance cannot tell whether there are others. *)
Theorem utterances_undisturbed : forall F D C (O : fops F) (X : xops F D) tenth fuel
    (loads : bytes -> res (recognizer F C + bytes)) cs t k,
  run O X tenth fuel loads init_state cs = Ok t ->
  run O X tenth fuel loads init_state (alone k cs) = Ok (seen k t).
Proof. exact @Proof.Api.undisturbed. Qed.
Print Assumptions utterances_undisturbed.

(** And a program that goes wrong does so because of a single utterance, or of a
    file with a damaged header. *)
Theorem faults_are_of_one_utterance : forall F D C (O : fops F) (X : xops F D) tenth fuel
    (loads : bytes -> res (recognizer F C + bytes)) cs f,
  run O X tenth fuel loads init_state cs = Fault f ->
  (exists k, run O X tenth fuel loads init_state (alone k cs) = Fault f) \/
  exists file why, In (Header file why) cs /\ read_pcm_header file = Fault f.
Proof. exact @Proof.Api.faults. Qed.
Print Assumptions faults_are_of_one_utterance.

(** Whatever happens around it, a session gives what it gives by itself. *)
Theorem sessions_at_once : forall F D C (O : fops F) (X : xops F D) tenth fuel
    (loads : bytes -> res (recognizer F C + bytes)) k r cs t config rc f ps,
  run O X tenth fuel loads init_state cs = Ok t ->
  nth_error (configs cs) r = Some config -> loads config = Ok (inl rc) -> ~ In (Unload r) cs ->
  filter (of_utt k) cs = whole_session k r f ps ->
  exists u e ns hyp ll,
    utt_init O X tenth fuel (s_err (init_state : state F C)) rc f = Ok (Some u, e) /\
    session O X tenth fuel (s_err (init_state : state F C)) (Some u) ps = Ok (ns, hyp, ll) /\
    map snd (filter (fun x => of_utt k (Datatypes.fst x)) t) =
      Pointer false :: map Number ns ++ [Nothing; Text (cstr hyp) ll].
Proof. exact @Proof.ApiSession.sessions. Qed.
Print Assumptions sessions_at_once.

(** The message shown is that of the last call that failed, cut to 2047 bytes. *)
Theorem last_error_of_program : forall F D C (O : fops F) (X : xops F D) tenth fuel
    (loads : bytes -> res (recognizer F C + bytes)) cs t1 a t2,
  run O X tenth fuel loads init_state cs = Ok (t1 ++ (LastError, a) :: t2) ->
  a = Message (shown [] (messages loads [] t1)).
Proof. exact @Proof.ApiError.last_errors. Qed.
Print Assumptions last_error_of_program.

(** Two sessions whose calls alternate, while a third model is missing. *)
Example sessions_case :
  filter (of_utt 0) ApiCases.two_sessions = whole_session 0 0 ApiCases.mono [audio 3440] /\
  filter (of_utt 1) ApiCases.two_sessions = whole_session 1 0 ApiCases.mono (cut 3440 1 999) /\
  nth_error (configs ApiCases.two_sessions) 0 = Some (lit "model") /\ ~ In (Unload 0) ApiCases.two_sessions /\
  exists t ns, run tops twide (Num 1) 50 ApiCases.loads1 init_state ApiCases.two_sessions = Ok t /\
  map snd (filter (fun x => of_utt 0 (Datatypes.fst x)) t) =
    [Pointer false; Number 3440; Nothing; Text (lit "so what") (Num 0)] /\
  map snd (filter (fun x => of_utt 1 (Datatypes.fst x)) t) =
    Pointer false :: map Number ns ++ [Nothing; Text (lit "so what") (Num 0)] /\ total ns = 3440.
Proof.
  exact (conj (ApiCases.two_zero _ _ _ _) (conj (ApiCases.two_one _ _ _ _) (conj (ApiCases.two_configs _ _ _ _)
    (conj (ApiCases.two_unload _ _ _ _ _) ApiCases.two_answers)))).
Qed.
Print Assumptions sessions_case.

Example last_error_program_case : exists t,
  run tops twide (Num 1) 50 ApiCases.loads1 init_state
    [LastError; Load (lit "none"); LastError; Load (lit "model"); Start 0 1 (mk_format 1 16000 12); LastError;
     Feed 0 None 0; LastError] = Ok t /\
  flat_map (fun x => match snd x with Message m => [m] | _ => [] end) t =
    [[]; lit "IOError: Unable to open none";
     lit "Corruption: bits_per_sample == 8, 16 or 32 expected, but 12 found"; lit "utt is NULL"].
Proof. exact ApiCases.told_run. Qed.
Print Assumptions last_error_program_case.

(** A recognizer has to stay until its utterances have got their text: giving
    them four bytes of audio or ending them after [ce_stt_destroy] is undefined,
    whereas rejected calls, reading the text, destroying the utterance and even
    destroying the recognizer again are not. *)
Theorem early_destruction : forall F D C (O : fops F) (X : xops F D) tenth fuel
    (loads : bytes -> res (recognizer F C + bytes)) k config rc f u e p,
  loads config = Ok (inl rc) ->
  utt_init O X tenth fuel (s_err (init_state : state F C)) rc f = Ok (Some u, e) -> lenZ p = 4 ->
  run O X tenth fuel loads init_state [Load config; Start k 0 f; Unload 0; Feed k (Some p) 4] = Fault Undef /\
  run O X tenth fuel loads init_state [Load config; Start k 0 f; Unload 0; Finish k] = Fault Undef /\
  exists t, run O X tenth fuel loads init_state
              [Load config; Start k 0 f; Unload 0; Unload 0; Feed k None 0; Look k; Stop k] = Ok t.
Proof. exact @Proof.ApiSession.early. Qed.
Print Assumptions early_destruction.
