(** Properties of the command line program (C64-C66, C68). [files] are the
    files that can be opened, [load] is what [ce_stt_init] makes of a
    configuration file, [header_error] the message about a bad header. *)
From Coq Require Import ZArith String List Lia.
From Verif.Base Require Import Prelude.
From Verif.Model Require Import Util File Arith Pcm SymbolTable Fst Decoder Stt Main.
From Verif.Spec Require Import AudioSpec PcmSpec TextSpec SttSpec ProgramSpec.
From Verif.Proof Require Import QOps DecoderCases SttCases Program ProgramCases.
Import ListNotations.
Open Scope Z_scope.

(** * C64 *)
Theorem program_wav : forall F D C (O : fops F) (X : xops F D) tenth fuel files load header_error
    model input (rc : recognizer F C) bits chunk size data err u err0 ps,
  load model = Ok (inl rc) -> ends_in input (lit ".wav") ->
  files input = Some (wav bits chunk size data) -> wav_sizes bits chunk size -> byte_list data ->
  utt_init O X tenth fuel err rc (mk_format 1 16000 bits) = Ok (Some u, err0) ->
  Forall piece ps -> concat ps = data ->
  alike any (fun x y => let '(out, code) := x in let '(_, mem, _) := y in out = cstr mem ++ [10] /\ code = 0)
    (run_main O X tenth fuel files load header_error [model; input]) (session O X tenth fuel err (Some u) ps).
Proof. exact @main_wav. Qed.
Print Assumptions program_wav.

Example program_case_wav : files8 (lit "a.wav") = Some (wav 16 836 800 (audio 400)) /\
  run_main tops twide (Num 1) 50 files8 load8 why8 [lit "model"; lit "a.wav"] = Ok (lit "so" ++ [10], 0).
Proof. exact (conj eq_refl run_a). Qed.

(** * C65 *)
(** Full statement: of every list of names and files, whether or not its last
    line ends in a newline. Proved of lists whose lines all do. *)
Theorem program_list_partial : forall F D C (O : fops F) (X : xops F D) tenth fuel files load header_error
    model input (rc : recognizer F C) entries hyps,
  load model = Ok (inl rc) -> ~ ends_in input (lit ".wav") -> 4 <= lenZ input ->
  files input = Some (list_file entries) -> Forall entry_ok entries ->
  Forall2 (ready_entry O X tenth fuel files rc) entries hyps ->
  run_main O X tenth fuel files load header_error [model; input] = Ok (printed entries hyps, 0).
Proof. exact @main_list. Qed.
Print Assumptions program_list_partial.

Example program_case_list : ~ ends_in (lit "good.scp") (lit ".wav") /\
  run_main tops twide (Num 1) 50 files8 load8 why8 [lit "model"; lit "good.scp"]
  = Ok (lit "u1 so what" ++ [10] ++ lit "u2 so" ++ [10], 0).
Proof. exact scp_good. Qed.

Example program_case_entries : Forall entry_ok [(lit "u1", lit "c.wav"); (lit "u2", lit "a.wav")] /\
  ready_entry tops twide (Num 1) 50 files8 rc8 (lit "u1", lit "c.wav") (lit "so what") /\
  ready_entry tops twide (Num 1) 50 files8 rc8 (lit "u2", lit "a.wav") (lit "so").
Proof. exact (conj entries8 (conj run_c run_a2)). Qed.

(** Without the last newline everything is decoded, and the program fails. *)
Theorem program_list_unfinished : forall F D C (O : fops F) (X : xops F D) tenth fuel files load header_error
    model input (rc : recognizer F C) entries e hyps,
  load model = Ok (inl rc) -> ~ ends_in input (lit ".wav") -> 4 <= lenZ input ->
  files input = Some (list_file entries ++ entry_line e) -> Forall entry_ok (entries ++ [e]) ->
  Forall2 (ready_entry O X tenth fuel files rc) (entries ++ [e]) hyps ->
  run_main O X tenth fuel files load header_error [model; input] =
  Ok (printed (entries ++ [e]) hyps ++ lit "pasco: IOError: EOF already reached: " ++ input ++ [10], 1).
Proof. exact @main_list_unfinished. Qed.
Print Assumptions program_list_unfinished.

Theorem program_list_refuted : files8 (lit "cut.scp") = Some (lit "u1 c.wav" ++ [10] ++ lit "u2 a.wav") /\
  run_main tops twide (Num 1) 50 files8 load8 why8 [lit "model"; lit "cut.scp"] =
  Ok (lit "u1 so what" ++ [10] ++ lit "u2 so" ++ [10] ++ lit "pasco: IOError: EOF already reached: cut.scp" ++ [10], 1).
Proof. exact scp_cut. Qed.
Print Assumptions program_list_refuted.

(** * C66 *)
Theorem program_usage : forall F D C (O : fops F) (X : xops F D) tenth fuel files (load : bytes -> res (recognizer F C + bytes)) header_error args,
  is_usage args -> run_main O X tenth fuel files load header_error args = Ok (usage, 1).
Proof. exact @main_usage. Qed.
Print Assumptions program_usage.

Theorem program_load_error : forall F D C (O : fops F) (X : xops F D) tenth fuel files (load : bytes -> res (recognizer F C + bytes)) header_error
    model input msg,
  4 <= lenZ input -> load model = Ok (inr msg) ->
  run_main O X tenth fuel files load header_error [model; input] =
  Ok (lit "error: " ++ firstn (Z.to_nat 2047) (cstr msg) ++ [10], 22).
Proof. exact @main_load. Qed.
Print Assumptions program_load_error.

Theorem program_unreadable : forall F D C (O : fops F) (X : xops F D) tenth fuel files load header_error
    model input (rc : recognizer F C) msg,
  load model = Ok (inl rc) -> ends_in input (lit ".wav") -> can_start O X tenth fuel rc ->
  unreadable files header_error input msg ->
  run_main O X tenth fuel files load header_error [model; input] = Ok (lit "error: " ++ msg ++ [10], 22).
Proof. exact @main_unreadable. Qed.
Print Assumptions program_unreadable.

Theorem program_no_list : forall F D C (O : fops F) (X : xops F D) tenth fuel files load header_error
    model input (rc : recognizer F C),
  load model = Ok (inl rc) -> ~ ends_in input (lit ".wav") -> 4 <= lenZ input -> files input = None ->
  run_main O X tenth fuel files load header_error [model; input] =
  Ok (lit "pasco: IOError: Unable to open " ++ input ++ [10], 1).
Proof. exact @main_no_list. Qed.
Print Assumptions program_no_list.

(** What was decoded before has been printed. *)
Theorem program_list_stops : forall F D C (O : fops F) (X : xops F D) tenth fuel files load header_error
    model input (rc : recognizer F C) entries hyps e rest msg,
  load model = Ok (inl rc) -> ~ ends_in input (lit ".wav") -> 4 <= lenZ input ->
  files input = Some (list_file entries ++ entry_line e ++ [10] ++ rest) -> Forall entry_ok (entries ++ [e]) ->
  Forall2 (ready_entry O X tenth fuel files rc) entries hyps -> can_start O X tenth fuel rc ->
  unreadable files header_error (Datatypes.snd e) msg ->
  run_main O X tenth fuel files load header_error [model; input] =
  Ok (printed entries hyps ++ lit "error: " ++ msg ++ [10], 22).
Proof. exact @main_list_unreadable. Qed.
Print Assumptions program_list_stops.

Theorem program_list_line : forall F D C (O : fops F) (X : xops F D) tenth fuel files load header_error
    model input (rc : recognizer F C) entries hyps line rest,
  load model = Ok (inl rc) -> ~ ends_in input (lit ".wav") -> 4 <= lenZ input ->
  files input = Some (list_file entries ++ line ++ [10] ++ rest) -> Forall entry_ok entries ->
  Forall2 (ready_entry O X tenth fuel files rc) entries hyps -> clean line -> lenZ line < 4095 ->
  run_main O X tenth fuel files load header_error [model; input] =
  Ok (printed entries hyps ++ lit "scp: unexpected line: " ++ line ++ [10], 22).
Proof. exact @main_list_line. Qed.
Print Assumptions program_list_line.

Example program_case_errors :
  let run args := run_main tops twide (Num 1) 50 files8 load8 why8 args in
  run [lit "model"] = Ok (usage, 1) /\ run [lit "model"; lit "wav"] = Ok (usage, 1) /\
  run [lit "other"; lit "a.wav"] = Ok (lit "error: IOError: Unable to open other" ++ [10], 22) /\
  run [lit "model"; lit "z.wav"] = Ok (lit "error: unable to open: z.wav" ++ [10], 22) /\
  run [lit "model"; lit "x.wav"] = Ok (lit "error: Corruption: RIFF expected" ++ [10], 22) /\
  run [lit "model"; lit "stereo.wav"] = Ok (lit "error: " ++ set_format_error (mk_format 2 16000 16) ++ [10], 22) /\
  run [lit "model"; lit "z.scp"] = Ok (lit "pasco: IOError: Unable to open z.scp" ++ [10], 1) /\
  run [lit "model"; lit "bad.scp"] = Ok (lit "u1 so what" ++ [10] ++ lit "error: Corruption: RIFF expected" ++ [10], 22) /\
  run [lit "model"; lit "odd.scp"] = Ok (lit "u1 so what" ++ [10] ++ lit "scp: unexpected line: nonsense" ++ [10], 22).
Proof. exact errors8. Qed.

Example program_case_unreadable : can_start tops twide (Num 1) 50 rc8 /\
  unreadable files8 why8 (lit "x.wav") (lit "Corruption: RIFF expected") /\
  unreadable files8 why8 (lit "stereo.wav") (firstn (Z.to_nat 2047) (cstr (set_format_error (mk_format 2 16000 16)))).
Proof. exact (conj can_start8 (conj x8 stereo8)). Qed.

(** * C68 *)
(** The size of the data chunk should say where the audio ends. Both files
    declare the same 800 bytes of audio; a chunk behind them is decoded, too. *)
Theorem program_data_chunk_refuted :
  files8 (lit "a.wav") = Some (wav 16 836 800 (audio 400)) /\ lenZ (audio 400) = 800 /\
  files8 (lit "b.wav") = Some (wav 16 1156 800 (audio 400 ++ tag)) /\
  run_main tops twide (Num 1) 50 files8 load8 why8 [lit "model"; lit "a.wav"] = Ok (lit "so" ++ [10], 0) /\
  run_main tops twide (Num 1) 50 files8 load8 why8 [lit "model"; lit "b.wav"] = Ok (lit "so what" ++ [10], 0).
Proof. exact (conj eq_refl (conj eq_refl (conj eq_refl (conj run_a run_b)))). Qed.
Print Assumptions program_data_chunk_refuted.
