(** Model of src/pcm_reader.cc. *)
From Coq Require Import ZArith List Bool.
From Verif.Base Require Import Prelude.
From Verif.Model Require Import Util File Binary Vector.
Import ListNotations.
Open Scope Z_scope.
Open Scope io_scope.

(** src/ce_stt.h:21-25, [ce_wave_format_t]. *)
Record wave_format : Type := mk_format {
  w_channels : Z;
  w_rate : Z;
  w_bits : Z
}.

Definition s_riff : bytes := [82; 73; 70; 70].   (* "RIFF" *)
Definition s_wave : bytes := [87; 65; 86; 69].   (* "WAVE" *)
Definition s_fmt : bytes := [102; 109; 116; 32]. (* "fmt " *)
Definition s_data : bytes := [100; 97; 116; 97]. (* "data" *)

(** src/pcm_reader.cc:40-112, [ReadPcmHeader]. The [int] product of line 87 is
    undefined if it overflows. The fields written to [wave_fmt] before an error
    are not modelled. *)
Definition read_pcm_header : io wave_format :=
  _ <-- io_verify s_riff ;;
  _ <-- io_int 4 ;;                               (* chunk_size *)
  _ <-- io_verify s_wave ;;
  _ <-- io_verify s_fmt ;;
  subchunk1_size <-- io_int 4 ;;
  _ <-- io_check (subchunk1_size =? 16) ;;
  audio_format <-- io_int 2 ;;
  _ <-- io_check (audio_format =? 1) ;;
  num_channels <-- io_int 2 ;;
  sample_rate <-- io_int 4 ;;
  bytes_rate <-- io_int 4 ;;
  block_align <-- io_int 2 ;;
  bits_per_sample <-- io_int 2 ;;
  _ <-- io_assert (in_int32 (sample_rate * bits_per_sample)) Undef ;;
  _ <-- io_check (bytes_rate =? Z.quot (sample_rate * bits_per_sample) 8) ;;
  _ <-- io_check (block_align =? Z.quot bits_per_sample 8) ;;
  _ <-- io_verify s_data ;;
  _ <-- io_int 4 ;;                               (* subchunk2_size *)
  io_ret (mk_format num_channels sample_rate bits_per_sample).

(** src/pcm_reader.h:63-66, the members of [WaveReader]. *)
Record wave_reader : Type := mk_reader {
  r_buffer : bytes;
  r_format : wave_format;
  r_ready : bool
}.

(** src/pcm_reader.cc:114, the constructor. [format_] is not initialised; it is
    only read when [ready_] is set. *)
Definition reader_init : wave_reader := mk_reader [] (mk_format 0 0 0) false.

(** src/pcm_reader.cc:116-146, [SetFormat]; false is an error status. *)
Definition set_format (r : wave_reader) (f : wave_format) : bool * wave_reader :=
  if negb (w_channels f =? 1) then (false, r)
  else if negb (w_rate f =? 16000) then (false, r)
  else if (w_bits f =? 8) || (w_bits f =? 16) || (w_bits f =? 32)
  then (true, mk_reader (r_buffer r) f true)
  else (false, r).

(** src/pcm_reader.cc:14-33, [ReadInt8], [ReadInt16], [ReadInt32] at a pointer
    into the buffer: the value of the next [n] bytes and the rest. *)
Definition read_sample (n : Z) (p : bytes) : res (Z * bytes) :=
  if n <=? lenZ p then Ok (le_signed (firstn (Z.to_nat n) p), skipn (Z.to_nat n) p)
  else Fault Undef.

(** src/pcm_reader.cc:168-182, the decoding loop for [n] samples. Samples are
    integers; their conversion to [float] (exact up to 24 bits) is not
    modelled. *)
Fixpoint read_samples (bits : Z) (n : nat) (p : bytes) : res (list Z) :=
  match n with
  | O => Ok []
  | S n =>
      '(x, p) <- (if bits =? 8 then read_sample 1 p
                  else if bits =? 16 then read_sample 2 p
                  else if bits =? 32 then read_sample 4 p
                  else Fault Assert) ;;
      xs <- read_samples bits n p ;;
      Ok (x :: xs)
  end.

(** src/pcm_reader.cc:148-190, [Process]. [buffer] is [None] for a null pointer;
    otherwise it lists the bytes that may be read. [None] as a result is an
    error status. *)
Definition reader_process (r : wave_reader) (buffer : option bytes) (size : Z)
  : res (option (list Z) * wave_reader) :=
  match buffer with
  | None => Ok (None, r)
  | Some data =>
      if size <=? 0 then Ok (None, r)
      else if negb (r_ready r) then Ok (None, r)
      else
        _ <- check (size <=? lenZ data) Undef ;;
        let buf := r_buffer r ++ firstn (Z.to_nat size) data in
        let bps := Z.quot (w_bits (r_format r)) 8 in
        _ <- check (negb (bps =? 0)) Undef ;;
        let num := lenZ buf / bps in
        _ <- check (in_int32 num) Undef ;;
        _ <- vec_init 4 num ;;
        xs <- read_samples (w_bits (r_format r)) (Z.to_nat num) buf ;;
        let processed := bps * num in
        _ <- check (in_int32 processed) Undef ;;
        _ <- check (processed <=? lenZ buf) Assert ;;
        Ok (Some xs, mk_reader (skipn (Z.to_nat processed) buf) (r_format r) (r_ready r))
  end.

(** src/pcm_reader.h:58-60, [Reset]. *)
Definition reader_reset (r : wave_reader) : wave_reader :=
  mk_reader [] (r_format r) (r_ready r).

(** src/pcm_reader.cc:194-211, [Read16kPcm] of a file with this content; its
    size is known from [Open]. A negative size makes the vector constructor
    throw. *)
Definition read_16k_pcm (content : bytes) : res (option (list Z)) :=
  '(fmt, f) <- read_pcm_header (open content) ;;
  match fmt with
  | None => Ok None
  | Some fmt =>
      let '(ok, r) := set_format reader_init fmt in
      if negb ok then Ok None
      else
        let data_size := wrap32 (lenZ content - 44) in
        _ <- check (0 <=? data_size) Throw ;;
        '(b, _) <- read f data_size ;;
        match b with
        | None => Ok None
        | Some b => '(xs, _) <- reader_process r (Some b) data_size ;; Ok xs
        end
  end.

(** One call on a reader, and a history of calls with their results. *)
Inductive reader_call : Type :=
| CallSetFormat (f : wave_format)
| CallProcess (buffer : option bytes) (size : Z)
| CallReset.

Inductive reader_answer : Type :=
| Status (ok : bool)
| Samples (xs : list Z).

Definition reader_step (r : wave_reader) (c : reader_call) : res (reader_answer * wave_reader) :=
  match c with
  | CallSetFormat f => let '(ok, r) := set_format r f in Ok (Status ok, r)
  | CallProcess b n =>
      '(xs, r) <- reader_process r b n ;;
      Ok (match xs with None => Status false | Some xs => Samples xs end, r)
  | CallReset => Ok (Status true, reader_reset r)
  end.

Fixpoint reader_run (r : wave_reader) (cs : list reader_call)
  : res (list reader_answer * wave_reader) :=
  match cs with
  | [] => Ok ([], r)
  | c :: cs =>
      '(a, r) <- reader_step r c ;;
      '(l, r) <- reader_run r cs ;;
      Ok (a :: l, r)
  end.
