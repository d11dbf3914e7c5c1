(** Properties of the audio reader (C18 to C21, C59). *)
From Coq Require Import ZArith List.
From Verif.Base Require Import Prelude.
From Verif.Model Require Import File Binary Vector Pcm.
From Verif.Spec Require Import AudioSpec PcmSpec.
From Verif.Proof Require Pcm PcmCases PcmHuge.
Import ListNotations.
Open Scope Z_scope.

(** C18, the part that holds: consistent headers are accepted unless the byte
    rate overflows. *)
Theorem header_accepted_partial : forall chunk ch rate brate align bits size rest e,
  fits 4 chunk -> fits 2 ch -> fits 4 rate -> fits 4 brate -> fits 2 align -> fits 2 bits ->
  fits 4 size -> consistent rate brate align bits ->
  -2147483648 <= rate * bits <= 2147483647 ->
  read_pcm_header (mk_file (pcm_header chunk ch rate brate align bits size ++ rest) e)
  = Ok (Some (mk_format ch rate bits), mk_file rest e).
Proof. exact Proof.Pcm.header_accepted. Qed.
Print Assumptions header_accepted_partial.

(** C18: nothing else is accepted, and the position is behind the header. *)
Theorem header_only_canonical : forall content fmt f', byte_list content ->
  read_pcm_header (open content) = Ok (Some fmt, f') ->
  exists chunk brate align size,
    content = pcm_header chunk (w_channels fmt) (w_rate fmt) brate align (w_bits fmt) size ++ f_rest f' /\
    f_eof f' = false /\
    fits 4 chunk /\ fits 2 (w_channels fmt) /\ fits 4 (w_rate fmt) /\ fits 4 brate /\ fits 2 align /\
    fits 2 (w_bits fmt) /\ fits 4 size /\
    consistent (w_rate fmt) brate align (w_bits fmt) /\
    -2147483648 <= w_rate fmt * w_bits fmt <= 2147483647.
Proof. exact Proof.Pcm.header_only. Qed.
Print Assumptions header_only_canonical.

(** C18, the part that holds: every input is answered with a status, except
    when the product of sample rate and sample width overflows. *)
Theorem header_total_partial : forall content, byte_list content ->
  (exists r, read_pcm_header (open content) = Ok r) \/
  (exists chunk ch rate brate align bits rest,
     content = [82; 73; 70; 70] ++ encode 4 chunk ++ [87; 65; 86; 69] ++ [102; 109; 116; 32] ++
       encode 4 16 ++ encode 2 1 ++ encode 2 ch ++ encode 4 rate ++ encode 4 brate ++
       encode 2 align ++ encode 2 bits ++ rest /\
     fits 4 rate /\ fits 2 bits /\ ~ -2147483648 <= rate * bits <= 2147483647).
Proof. exact Proof.Pcm.header_total. Qed.
Print Assumptions header_total_partial.

(** C18 is false in general: a rate of 2^31-1 overflows. *)
Theorem header_total_refuted :
  let content := pcm_header 36 1 2147483647 0 2 16 0 in
  byte_list content /\ read_pcm_header (open content) = Fault Undef.
Proof. exact Proof.PcmCases.header_overflow. Qed.
Print Assumptions header_total_refuted.

Example header_case :
  read_pcm_header (open (pcm_header 40 1 16000 32000 2 16 4 ++ [1; 2; 3; 4]))
    = Ok (Some (mk_format 1 16000 16), mk_file [1; 2; 3; 4] false) /\
  consistent 16000 32000 2 16 /\
  exists f, read_pcm_header (open (pcm_header 40 1 16000 32001 2 16 4)) = Ok (None, f).
Proof. exact Proof.PcmCases.header_case. Qed.

(** C19 for pieces below 2^29 samples: the bytes held back are [r_buffer r]. *)
Theorem sample_decoding_partial : forall bits (ps : list bytes), valid_width bits ->
  Forall (fun p => byte_list p /\ p <> [] /\ lenZ p <= 536870911 * (bits / 8)) ps ->
  exists xss r,
    reader_run reader_init (CallSetFormat (mk_format 1 16000 bits) ::
                            map (fun p => CallProcess (Some p) (lenZ p)) ps)
      = Ok (Status true :: map Samples xss, r) /\
    decodes (Z.to_nat (bits / 8)) (concat ps) (concat xss) (r_buffer r).
Proof. exact Proof.PcmCases.sample_decoding. Qed.
Print Assumptions sample_decoding_partial.

(** C19 is false for a piece of 2^30 bytes: the size of the sample vector wraps
    to 0. *)
Theorem sample_decoding_refuted :
  (exists p, lenZ p = 1073741824 /\ byte_list p) /\
  forall p : bytes, lenZ p = 1073741824 ->
    reader_run reader_init [CallSetFormat (mk_format 1 16000 8); CallProcess (Some p) (lenZ p)] = Fault Undef.
Proof. exact (conj Proof.PcmCases.huge_piece_exists Proof.PcmCases.huge_piece). Qed.
Print Assumptions sample_decoding_refuted.

(** C19: a piece that, with the bytes held back, has 2^29 samples or more is
    never decoded. If the size of the sample vector is negative as an int, an
    exception leaves the call; otherwise the vector is overrun. *)
Theorem piece_limit : forall bits (ps : list bytes) p, valid_width bits ->
  Forall (fun p => byte_list p /\ p <> [] /\ lenZ p <= 536870911 * (bits / 8)) ps ->
  lenZ p <= 2147483647 ->
  let n := (lenZ (concat ps) mod (bits / 8) + lenZ p) / (bits / 8) in 536870912 <= n ->
  reader_run reader_init (CallSetFormat (mk_format 1 16000 bits) ::
                          map (fun p => CallProcess (Some p) (lenZ p)) (ps ++ [p]))
  = Fault (if Z.odd (n / 536870912) then Throw else Undef).
Proof. exact Proof.PcmHuge.piece_limit. Qed.
Print Assumptions piece_limit.

(** The bytes FE FF 02 | 01 | 07: the samples -2 and 258, one byte held back. *)
Example sample_case :
  reader_run reader_init [CallSetFormat (mk_format 1 16000 16);
    CallProcess (Some [254; 255; 2]) 3; CallProcess (Some [1]) 1; CallProcess (Some [7]) 1]
  = Ok ([Status true; Samples [-2]; Samples [258]; Samples []], mk_reader [7] (mk_format 1 16000 16) true) /\
  decodes 2 [254; 255; 2; 1; 7] [-2; 258] [7].
Proof. exact Proof.PcmCases.sample_case. Qed.

(** C20 is false, for every byte: 8-bit data is decoded as signed. *)
Theorem eight_bit_samples_refuted : forall b, 0 <= b < 256 -> exists x r,
  reader_run reader_init [CallSetFormat (mk_format 1 16000 8); CallProcess (Some [b]) 1]
    = Ok ([Status true; Samples [x]], r) /\
  x <> b - 128 /\ x = if b <? 128 then b else b - 256.
Proof. exact Proof.PcmCases.eight_bit. Qed.
Print Assumptions eight_bit_samples_refuted.

(** C21: a call that must be rejected is, and the other answers are those of the
    history without it. *)
Theorem rejected_calls_leave_no_trace : forall cs1 c cs2 l1 l2 r,
  rejected cs1 c -> length l1 = length cs1 ->
  reader_run reader_init (cs1 ++ cs2) = Ok (l1 ++ l2, r) <->
  reader_run reader_init (cs1 ++ c :: cs2) = Ok (l1 ++ Status false :: l2, r).
Proof. exact Proof.PcmCases.rejected_intact. Qed.
Print Assumptions rejected_calls_leave_no_trace.

Example rejected_case :
  rejected [CallSetFormat (mk_format 1 16000 16); CallProcess (Some [1]) 1] (CallProcess None 3) /\
  rejected [CallSetFormat (mk_format 2 16000 16)] (CallProcess (Some [1]) 1) /\
  reader_run reader_init [CallSetFormat (mk_format 1 16000 16); CallProcess (Some [1]) 1;
    CallProcess None 3; CallProcess (Some [1]) 1]
  = Ok ([Status true; Samples []; Status false; Samples [257]], mk_reader [] (mk_format 1 16000 16) true).
Proof. exact Proof.PcmCases.rejected_case. Qed.

(** C19, C21: [Reset] drops the bytes held back and nothing else. What follows
    is answered as by a new reader with the last supported format set, or by a
    new reader if there is none. *)
Theorem reset_starts_afresh : forall cs ds l r, reader_run reader_init cs = Ok (l, r) ->
  (forall f, in_force cs f ->
     reader_run reader_init (cs ++ CallReset :: ds)
     = bind (reader_run reader_init (CallSetFormat f :: ds)) (fun y => Ok (l ++ fst y, snd y))) /\
  ((forall f, In (CallSetFormat f) cs -> ~ supported f) ->
     reader_run reader_init (cs ++ CallReset :: ds)
     = bind (reader_run reader_init ds) (fun y => Ok (l ++ Status true :: fst y, snd y))).
Proof. exact Proof.PcmCases.reset_afresh. Qed.
Print Assumptions reset_starts_afresh.

(** The byte 5 is held back; the reset drops it. *)
Example reset_case :
  let h := [CallSetFormat (mk_format 1 16000 16); CallProcess (Some [9; 1; 5]) 3;
            CallSetFormat (mk_format 2 16000 16)] in
  let ds := [CallProcess (Some [1]) 1; CallProcess (Some [1]) 1] in
  in_force h (mk_format 1 16000 16) /\
  reader_run reader_init h
    = Ok ([Status true; Samples [265]; Status false], mk_reader [5] (mk_format 1 16000 16) true) /\
  reader_run reader_init (h ++ CallReset :: ds)
    = Ok ([Status true; Samples [265]; Status false; Status true; Samples []; Samples [257]],
          mk_reader [] (mk_format 1 16000 16) true) /\
  reader_run reader_init (h ++ ds)
    = Ok ([Status true; Samples [265]; Status false; Samples [261]; Samples []],
          mk_reader [1] (mk_format 1 16000 16) true).
Proof. exact Proof.PcmCases.reset_case. Qed.

(** C59: reading a whole file below 2^29 samples; the declared data size
    is ignored and a file without data is an error. *)
Theorem whole_file_partial : forall bits chunk size xs tail rest,
  valid_width bits -> fits 4 chunk -> fits 4 size ->
  tail = concat (map (encode (Z.to_nat (bits / 8))) xs) ++ rest ->
  Forall (fits (Z.to_nat (bits / 8))) xs -> byte_list rest -> (length rest < Z.to_nat (bits / 8))%nat ->
  lenZ tail < 536870912 * (bits / 8) ->
  read_16k_pcm (pcm_header chunk 1 16000 (16000 * (bits / 8)) (bits / 8) bits size ++ tail)
  = Ok (if tail then None else Some xs).
Proof. exact Proof.PcmCases.whole_file. Qed.
Print Assumptions whole_file_partial.

(** C59 is false for 2^30 bytes of 8-bit data, where the size of the sample
    vector wraps to 0, and from 2^31 bytes on, where the size of the file does
    not fit into an int and an exception leaves the function. *)
Theorem whole_file_refuted :
  (exists tail, lenZ tail = 1073741824 /\ byte_list tail) /\
  (forall chunk size tail, fits 4 chunk -> fits 4 size -> lenZ tail = 1073741824 ->
     read_16k_pcm (pcm_header chunk 1 16000 16000 1 8 size ++ tail) = Fault Undef) /\
  forall bits chunk size tail, valid_width bits -> fits 4 chunk -> fits 4 size ->
    2147483648 <= lenZ tail < 4294967296 ->
    read_16k_pcm (pcm_header chunk 1 16000 (16000 * (bits / 8)) (bits / 8) bits size ++ tail) = Fault Throw.
Proof.
  exact (conj (Proof.PcmHuge.some_bytes 1073741824 ltac:(discriminate))
    (conj Proof.PcmHuge.huge_file Proof.PcmHuge.negative_size)).
Qed.
Print Assumptions whole_file_refuted.

(** C59: no file of 2^29 samples or more is read, up to the 2^31 bytes of the
    theorem above. *)
Theorem file_limit : forall bits chunk size tail, valid_width bits -> fits 4 chunk -> fits 4 size ->
  536870912 * (bits / 8) <= lenZ tail <= 2147483647 ->
  read_16k_pcm (pcm_header chunk 1 16000 (16000 * (bits / 8)) (bits / 8) bits size ++ tail)
  = Fault (if Z.odd (lenZ tail / (bits / 8) / 536870912) then Throw else Undef).
Proof. exact Proof.PcmHuge.file_limit. Qed.
Print Assumptions file_limit.

Example limit_case : exists p q r,
  lenZ p = 536870912 /\ lenZ q = 1073741824 /\ lenZ r = 1610612736 /\
  forall chunk size, fits 4 chunk -> fits 4 size ->
  read_16k_pcm (pcm_header chunk 1 16000 16000 1 8 size ++ p) = Fault Throw /\
  read_16k_pcm (pcm_header chunk 1 16000 16000 1 8 size ++ q) = Fault Undef /\
  read_16k_pcm (pcm_header chunk 1 16000 16000 1 8 size ++ r) = Fault Throw /\
  read_16k_pcm (pcm_header chunk 1 16000 32000 2 16 size ++ q) = Fault Throw.
Proof. exact Proof.PcmHuge.limit_case. Qed.

Example file_case : read_16k_pcm (pcm_header 40 1 16000 32000 2 16 4 ++ [1; 0; 255; 255; 9]) = Ok (Some [1; -1]).
Proof. exact Proof.PcmCases.file_case. Qed.
