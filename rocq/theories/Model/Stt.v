(** Model of src/ce_stt.cc, the C interface; a recognizer is given by its parts.
    [ce_stt_init] with what it calls (lines 68-131, 193-231) and [ce_stt_destroy]
    are in Model/Loading.v. *)
From Coq Require Import ZArith Ascii String List Bool.
From Verif.Base Require Import Prelude.
From Verif.Model Require Import Util File Arith Vector Pcm Fbank Nnet Am SymbolTable OLabel Pool Fst Decoder.
Import ListNotations.
Open Scope Z_scope.

(** A string literal as bytes. *)
Definition lit (s : string) : bytes := map (fun c => Z.of_N (N_of_ascii c)) (list_ascii_of_string s).

(** [std::to_string] of a number: the digits of [n], the last of them in front
    of [rest]. *)
Fixpoint show_digits (fuel : nat) (n : Z) (rest : bytes) : bytes :=
  match fuel with
  | O => rest
  | S fuel => if n <? 10 then 48 + n :: rest
              else show_digits fuel (n / 10) (48 + n mod 10 :: rest)
  end.
Definition to_string (z : Z) : bytes :=
  let digits := show_digits (S (Z.to_nat (Z.log2 (Z.abs z)))) (Z.abs z) [] in
  if z <? 0 then 45 :: digits else digits.

(** src/ce_stt.cc:65, the size of [error_message]. *)
Definition error_size : Z := 2048.

(** [pasco_strlcpy(error_message, msg, sizeof(error_message))]. *)
Definition set_error (err msg : bytes) : res bytes :=
  '(err, _) <- strlcpy err (msg ++ [0]) (Z.to_nat error_size) ;; Ok err.

(** The texts of the statuses returned by [WaveReader::SetFormat] and
    [WaveReader::Process] (src/pcm_reader.cc:116-158) with the prefixes of
    src/status.h:80-102. *)
Definition set_format_error (f : wave_format) : bytes :=
  lit "Corruption: " ++
  (if negb (w_channels f =? 1) then format (lit "num_channels = {} not supported") [to_string (w_channels f)]
   else if negb (w_rate f =? 16000) then format (lit "sample_rate = {} not supported") [to_string (w_rate f)]
   else format (lit "bits_per_sample == 8, 16 or 32 expected, but {} found") [to_string (w_bits f)]).
Definition process_error (data : option bytes) (size : Z) : bytes :=
  lit "RuntimeError: " ++
  match data with
  | None => lit "buffer is nullptr"
  | Some _ => if size <=? 0 then format (lit "unexpected size: {}") [to_string size]
              else lit "WaveReader is not ready"
  end.

Definition failed : Z := -1.   (* CE_STT_FAILED, src/ce_stt.h:18 *)

Section Stt.
Context {F D C : Type}.
Variable O : fops F.
Variable X : xops F D.
Variable tenth : F.            (* 0.1 as a float *)
(** Bound on the steps along arcs without input label (Model/Decoder.v). *)
Variable fuel : nat.

(** src/ce_stt.cc:41-49, [ce_stt_t]. The parts of the acoustic model used by the
    decoder are apart; a language model comes with the contents of a new cache
    for it (src/decoder.cc:60-63). Nothing in it changes. *)
Record recognizer : Type := mk_recognizer {
  rc_graph : graph F;
  rc_am : am F;
  rc_pdf : list Z;
  rc_lm : option (lm_face F C);
  rc_cache : C;
  rc_fbank : fbank F;
  rc_symbols : symtab
}.

(** src/ce_stt.cc:53-60, [ce_utt_internal_t]. *)
Record internal : Type := mk_internal {
  i_recognizer : option recognizer;
  i_reader : wave_reader;
  i_wave : list F;
  i_am : am_inst F;
  i_decoder : decoder F C
}.

(** src/ce_stt.h:34-38, [ce_utt_t]. The text is the allocated memory. A pointer
    to an utterance is an [option]. *)
Record utt : Type := mk_utt {
  u_internal : option internal;
  u_hyp : bytes;
  u_loglik : F
}.

(** The decoder made by [ce_utt_init] (src/ce_stt.cc:260-264). *)
Definition utt_config (rc : recognizer) : config F C :=
  new_config O (rc_graph rc) (rc_pdf rc) tenth (rc_lm rc).

(** src/ce_stt.cc:135-154, [CheckParamUtt]. *)
Definition check_utt (err : bytes) (u : option utt) : res (option (utt * internal * recognizer) * bytes) :=
  match u with
  | None => err <- set_error err (lit "utt is NULL") ;; Ok (None, err)
  | Some u =>
      match u_internal u with
      | None => err <- set_error err (lit "utt->internal is NULL") ;; Ok (None, err)
      | Some i =>
          match i_recognizer i with
          | None => err <- set_error err (lit "utt->internal->recognizer is NULL") ;; Ok (None, err)
          | Some rc => Ok (Some (u, i, rc), err)
          end
      end
  end.

(** src/ce_stt.cc:158-189, [StoreHypText]: the new text and log likelihood, from
    the old ones. Freshly allocated memory contains 170s here. The frame counter
    is an [int] converted to [float]. *)
Definition store_hyp (rc : recognizer) (d : decoder F C) (old : bytes * F) : res (bytes * F) :=
  '(words, weight) <- best_path O X (utt_config rc) d ;;
  match words with
  | [] => Ok ([0], snd old)
  | _ =>
      text <- for_each (rev words) (fun text word =>
                w <- sym_get (rc_symbols rc) word ;; Ok (text ++ w ++ [32])) [] ;;
      '(hyp, _) <- strlcpy (repeat 170 (length text)) (text ++ [0]) (length text) ;;
      Ok (hyp, f_div O weight (f_int O (d_frames d)))
  end.

(** src/ce_stt.cc:256-283, [ce_utt_init]; null pointers as arguments are not
    modelled. *)
Definition utt_init (err : bytes) (rc : recognizer) (f : wave_format) : res (option utt * bytes) :=
  d <- new_decoder (rc_cache rc) ;;
  d <- initialize O X (utt_config rc) fuel d ;;
  let '(ok, r) := set_format reader_init f in
  if ok : bool
  then Ok (Some (mk_utt (Some (mk_internal (Some rc) r [] inst_init d)) [0] (f_zero O)), err)
  else err <- set_error err (set_format_error f) ;; Ok (None, err).

(** src/ce_stt.cc:285-293, [ce_utt_destroy]: a null pointer is dereferenced. *)
Definition utt_destroy (u : option utt) : res unit :=
  match u with None => Fault Undef | Some _ => Ok tt end.

(** src/ce_stt.cc:322-329: one row of log probabilities. *)
Definition decode_row (rc : recognizer) (s : decoder F C * (bytes * F)) (logp : list F)
  : res (decoder F C * (bytes * F)) :=
  let '(d, out) := s in
  '(d, _) <- process O X (utt_config rc) (ogc label_block) fuel d logp ;;
  out <- (if Z.rem (d_frames d) 20 =? 0 then store_hyp rc d out else Ok out) ;;
  Ok (d, out).

(** src/ce_stt.cc:317-331: one frame of features. *)
Definition decode_frame (rc : recognizer) (s : am_inst F * (decoder F C * (bytes * F))) (frame : list F)
  : res (am_inst F * (decoder F C * (bytes * F))) :=
  let '(i, s) := s in
  '(rows, i) <- am_process O (rc_am rc) i frame ;;
  s <- for_each rows (decode_row rc) s ;;
  Ok (i, s).

(** src/ce_stt.cc:295-340, [ce_stt_process]. *)
Definition stt_process (err : bytes) (u : option utt) (data : option bytes) (size : Z)
  : res (Z * option utt * bytes) :=
  '(p, err) <- check_utt err u ;;
  match p with
  | None => Ok (failed, u, err)
  | Some (v, i, rc) =>
      '(samples, r) <- reader_process (i_reader i) data size ;;
      match samples with
      | None => err <- set_error err (process_error data size) ;; Ok (failed, u, err)
      | Some samples =>
          if lenZ samples =? 0
          then Ok (0, Some (mk_utt (Some (mk_internal (i_recognizer i) r (i_wave i) (i_am i) (i_decoder i)))
                              (u_hyp v) (u_loglik v)), err)
          else
            '(feats, wave) <- fbank_process O (rc_fbank rc) (i_wave i) (map (f_int O) samples) ;;
            '(a, (d, (hyp, ll))) <- for_each feats (decode_frame rc)
                                      (i_am i, (i_decoder i, (u_hyp v, u_loglik v))) ;;
            Ok (lenZ samples, Some (mk_utt (Some (mk_internal (i_recognizer i) r wave a d)) hyp ll), err)
      end
  end.

(** src/ce_stt.cc:342-362, [ce_stt_end_of_stream]: line 344 reads through the
    pointer before it is checked. *)
Definition stt_end (err : bytes) (u : option utt) : res (option utt * bytes) :=
  match u with
  | None => Fault Undef
  | Some _ =>
      '(p, err) <- check_utt err u ;;
      match p with
      | None => Ok (u, err)
      | Some (v, i, rc) =>
          '(rows, a) <- am_end O (rc_am rc) (i_am i) ;;
          d <- for_each rows (fun d logp =>
                 '(d, _) <- process O X (utt_config rc) (ogc label_block) fuel d logp ;; Ok d) (i_decoder i) ;;
          let d := end_of_stream d in
          '(hyp, ll) <- store_hyp rc d (u_hyp v, u_loglik v) ;;
          Ok (Some (mk_utt (Some (mk_internal (i_recognizer i) (i_reader i) (i_wave i) a d)) hyp ll), err)
      end
  end.

(** src/ce_stt.cc:364-373, [ce_read_pcm_header] of an open file; [why] is the
    text of the status if it is not ok. *)
Definition pcm_header_of (err : bytes) (f : file) (why : bytes) : res (option wave_format * file * bytes) :=
  '(fmt, f) <- read_pcm_header f ;;
  match fmt with
  | Some fmt => Ok (Some fmt, f, err)
  | None => err <- set_error err why ;; Ok (None, f, err)
  end.

(** src/ce_stt.cc:375-377, [ce_stt_last_error]: the C string shown. *)
Definition last_error (err : bytes) : bytes := cstr err.

(** The pieces of some audio processed one after the other: the values
    returned. *)
Fixpoint process_pieces (err : bytes) (u : option utt) (pieces : list bytes)
  : res (list Z * option utt * bytes) :=
  match pieces with
  | [] => Ok ([], u, err)
  | p :: pieces =>
      '(n, u, err) <- stt_process err u (Some p) (lenZ p) ;;
      '(ns, u, err) <- process_pieces err u pieces ;;
      Ok (n :: ns, u, err)
  end.

(** A whole session: the pieces, then the end of the stream. The values
    returned, the text and the log likelihood. *)
Definition session (err : bytes) (u : option utt) (pieces : list bytes) : res (list Z * bytes * F) :=
  '(ns, u, err) <- process_pieces err u pieces ;;
  '(u, _) <- stt_end err u ;;
  match u with
  | None => Fault Undef
  | Some u => Ok (ns, u_hyp u, u_loglik u)
  end.

(** One call of the interface, for histories: what it does to the error
    buffer. [CallLoad] is [ce_stt_init] (src/ce_stt.cc:193-231) ending with the
    status text [why], or without error. *)
Inductive stt_call : Type :=
| CallLoad (why : option bytes)
| CallInit (rc : recognizer) (f : wave_format)
| CallProcess (u : option utt) (data : option bytes) (size : Z)
| CallEnd (u : option utt)
| CallHeader (f : file) (why : bytes).

Definition call_error (err : bytes) (c : stt_call) : res bytes :=
  match c with
  | CallLoad None => Ok err
  | CallLoad (Some why) => set_error err why
  | CallInit rc f => '(_, err) <- utt_init err rc f ;; Ok err
  | CallProcess u data size => '(_, _, err) <- stt_process err u data size ;; Ok err
  | CallEnd u => '(_, err) <- stt_end err u ;; Ok err
  | CallHeader f why => '(_, _, err) <- pcm_header_of err f why ;; Ok err
  end.

End Stt.

Arguments recognizer : clear implicits. Arguments internal : clear implicits. Arguments utt : clear implicits.
