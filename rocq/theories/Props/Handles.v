(** File objects close what they open (C98), loading leaves no file open (C99),
    the files the program opens (C100). *)
From Coq Require Import ZArith String List.
From Verif.Base Require Import Prelude.
From Verif.Model Require Import Util File Binary Arith Vector Srfft FbankInit Fst Decoder Stt ConstFst Pcm Loading Main Handles.
From Verif.Model Require Ieee IeeeFbank.
From Verif.Spec Require Import AudioSpec TextSpec LoadingSpec ProgramSpec HandleSpec.
From Verif.Proof Require Handles HandleCases ConstFstCases FiniteCases EndCases IeeeCases.
Import ListNotations.

(** * C98 *)

(** Whatever is called, [fclose] is only called for open streams. An object that
    goes out of scope does no harm. [Close] aborts for a borrowed stream only. An
    object with a stream of its own can be read, one without a stream cannot. *)
Theorem file_objects : forall files cs h, do_calls files cs no_files = Ok h ->
  proper (h_log h) /\
  (exists h', do_call files CLeave h = Ok h') /\
  (forall i o, nth_error (h_objs h) i = Some o ->
    (r_owned o = true -> exists h', do_call files (CClose i) h = Ok h') /\
    (r_owned o = false -> do_call files (CClose i) h = Fault Assert) /\
    (r_owned o = true -> do_call files (CUse i) h = match r_fd o with Some _ => Ok h | None => Fault Undef end)).
Proof. exact Proof.Handles.calls_proper. Qed.
Print Assumptions file_objects.

(** Only the user closes the streams of the user. *)
Theorem borrowed_streams : forall files cs, Forall (fun c => forall j, c <> CFclose j) cs ->
  forall h, do_calls files cs no_files = Ok h -> forall n, In n (h_mine h) -> still_open (h_log h) n.
Proof. exact Proof.Handles.borrowed_open. Qed.
Print Assumptions borrowed_streams.

(** Full statement: when no object is left, only streams of the user are open.
    Missing: [Open] for an object that was given a file before and not closed,
    and [Open] for an object with a borrowed stream. *)
Theorem files_closed_partial : forall files cs h, orderly [] cs -> do_calls files cs no_files = Ok h -> h_objs h = [] ->
  forall n, still_open (h_log h) n -> In n (h_mine h).
Proof. exact Proof.Handles.orderly_closes. Qed.
Print Assumptions files_closed_partial.

Theorem files_closed_partial_case : orderly [] Proof.HandleCases.orderly_calls /\
  exists h, do_calls Proof.HandleCases.two_files Proof.HandleCases.orderly_calls no_files = Ok h /\ h_objs h = [] /\
  h_log h = [Opened 0 (lit "a"); Opened 1 (lit "a"); Closed 1; Opened 2 (lit "b"); Closed 2].
Proof. exact Proof.HandleCases.orderly_case. Qed.
Print Assumptions files_closed_partial_case.

Theorem files_closed_refuted : exists h,
  do_calls Proof.HandleCases.two_files [CNew; COpen 0 (lit "a"); COpen 0 (lit "b"); CLeave] no_files = Ok h /\
  h_objs h = [] /\ h_mine h = [] /\ still_open (h_log h) 0.
Proof. exact Proof.HandleCases.leak_twice. Qed.
Print Assumptions files_closed_refuted.

Theorem files_closed_borrowed_refuted : exists h,
  do_calls Proof.HandleCases.two_files [CFopen (lit "a"); CBorrow 0; COpen 0 (lit "b"); CLeave; CFclose 0] no_files = Ok h /\
  h_objs h = [] /\ h_mine h = [0%nat] /\ still_open (h_log h) 1.
Proof. exact Proof.HandleCases.leak_borrowed. Qed.
Print Assumptions files_closed_borrowed_refuted.

(** * C99 *)

(** Whatever was done before, loading gives the result of Model/Loading.v, closes
    all it opens and leaves the rest as it is. *)
Theorem loading_files : forall F (O : fops F) T I junk junk_int junk_char room of_word unknown files why lm_fuel cs h fn,
  do_calls files cs no_files = Ok h ->
  match stt_init O T I junk junk_int of_word unknown files (graph_read junk_char room of_word files) why lm_fuel fn with
  | Fault f => fl_init files O T I junk junk_int of_word unknown (graph_read junk_char room of_word files) why lm_fuel fn h = Fault f
  | Ok (r, ps) => exists h' l,
      fl_init files O T I junk junk_int of_word unknown (graph_read junk_char room of_word files) why lm_fuel fn h = Ok (r, ps, h') /\
      h_log h' = h_log h ++ l /\ proper (h_log h') /\ (forall n, was_opened l n -> In (Closed n) l) /\
      (forall n, still_open (h_log h') n <-> still_open (h_log h) n) /\ at_most 2 l /\
      Forall (model_file files fn) (names l) /\ (forall rc, r = inl rc -> model_files files fn (names l))
  end.
Proof. exact @Proof.HandleCases.init_files. Qed.
Print Assumptions loading_files.

Theorem loading_files_case : forall F (O : fops F) T I junk junk_int of_word unknown why lm_fuel G,
  fl_init Proof.HandleCases.bad_model O T I junk junk_int of_word unknown (fun _ => Ok (Some G)) why lm_fuel (lit "m") no_files =
  Ok (inr (why (lit "n")), [Recognizer],
      mk_hs [] [] [false; false; false]
        [Opened 0 (lit "m"); Closed 0; Opened 1 (lit "g"); Closed 1; Opened 2 (lit "n"); Closed 2]).
Proof. exact Proof.HandleCases.bad_model_files. Qed.
Print Assumptions loading_files_case.

Theorem loading_files_graph_case : forall F (O : fops F) T I junk junk_int junk_char room of_word unknown why lm_fuel,
  fl_init Proof.HandleCases.bad_model O T I junk junk_int of_word unknown
    (graph_read junk_char room of_word Proof.HandleCases.bad_model) why lm_fuel (lit "m") no_files =
  Ok (inr (lit "IOError: g"), [Recognizer],
      mk_hs [] [] [false; false] [Opened 0 (lit "m"); Closed 0; Opened 1 (lit "g"); Closed 1]).
Proof. exact Proof.HandleCases.empty_graph_files. Qed.
Print Assumptions loading_files_graph_case.

Theorem audio_file_closed : forall files cs h name, do_calls files cs no_files = Ok h ->
  match files name with
  | None => exists why h' l, fl_read_16k files name [] h = Ok (inr why, [], h') /\
      h_log h' = h_log h ++ l /\ (forall n, was_opened l n -> In (Closed n) l) /\ at_most 1 l
  | Some content =>
      match read_16k_pcm content with
      | Fault f => fl_read_16k files name [] h = Fault f
      | Ok r => exists h' l, fl_read_16k files name [] h = Ok (inl r, [], h') /\
          h_log h' = h_log h ++ l /\ (forall n, was_opened l n -> In (Closed n) l) /\ at_most 1 l /\ names l = [name]
      end
  end.
Proof. exact Proof.HandleCases.read_16k_files. Qed.
Print Assumptions audio_file_closed.

(** * C100 *)

(** The program prints what Model/Main.v prints; at no time does it have more
    than two files open. If it succeeds it has closed all of them, and it has
    opened the files of the model, the file it was given and the files listed
    there, each once, in this order. *)
Theorem program_files : forall F D (O : fops F) (X : xops F D) T I junk junk_int junk_char room tenth fuel of_word unknown files
    why lm_fuel header_error args,
  let hclg := graph_read junk_char room of_word files in
  let init fn h := bind (fl_init files O T I junk junk_int of_word unknown hclg why lm_fuel fn h)
                        (fun x => let '(r, _, h) := x in Ok (r, h)) in
  match run_main O X tenth fuel files (stt_load O T I junk junk_int of_word unknown files hclg why lm_fuel) header_error args with
  | Fault e => h_main files O X tenth fuel init header_error args no_files = Fault e
  | Ok (out, code) => exists h', h_main files O X tenth fuel init header_error args no_files = Ok (out, code, h') /\
      proper (h_log h') /\ at_most 2 (h_log h') /\
      (code = 0%Z -> (forall n, ~ still_open (h_log h') n) /\
        exists fn input N ws, args = [fn; input] /\ model_files files fn N /\ names (h_log h') = N ++ input :: ws /\
          (ends_in input (lit ".wav") -> ws = []) /\
          (forall entries, ~ ends_in input (lit ".wav") -> files input = Some (list_file entries) -> Forall entry_ok entries ->
             ws = map snd entries))
  end.
Proof. exact @Proof.HandleCases.program_files. Qed.
Print Assumptions program_files.

Theorem program_files_case : forall junk junk_int junk_char unknown why lm_fuel header_error,
  exists fuel h',
  let files := Proof.ConstFstCases.files14 in let O := Ieee.ieee Proof.FiniteCases.rough in
  let hclg := graph_read junk_char Proof.ConstFstCases.plenty Proof.EndCases.bits32 files in
  let init fn h := bind (fl_init files O (IeeeFbank.ieee_trig Proof.FiniteCases.rough_trig)
      (IeeeFbank.ieee_init Proof.FiniteCases.rough_trig)
      junk junk_int Proof.EndCases.bits32 unknown hclg why lm_fuel fn h) (fun x => let '(r, _, h) := x in Ok (r, h)) in
  h_main files O Ieee.ieee_wide (Proof.IeeeCases.tenth 1) fuel init header_error [lit "d/m"; lit "u.wav"] no_files
  = Ok (lit "so what" ++ [10%Z], 0%Z, h') /\
  (forall n, ~ still_open (h_log h') n) /\ exists N, model_files files (lit "d/m") N /\ names (h_log h') = N ++ [lit "u.wav"].
Proof. exact Proof.HandleCases.program_case. Qed.
Print Assumptions program_files_case.
