(** The texts of the errors for damaged files: the readers of src/util.cc,
    src/vector.cc, src/matrix.cc, src/nnet.cc, src/fst.cc, src/configuration.cc,
    src/symbol_table.cc and src/pcm_reader.cc once more, with the messages of
    their statuses, and [ce_stt_init] made of them. Model/Binary.v and the models
    built on it tell an error only as such, and Model/Loading.v takes the texts
    as given. *)
From Coq Require Import ZArith String List Bool.
From Verif.Base Require Import Prelude.
From Verif.Model Require Import Util File Binary Arith Vector Pcm Fbank Srfft FbankInit Nnet Formats Am Configuration
  SymbolTable Fst Decoder Stt Loading.
Import ListNotations.
Open Scope Z_scope.

(** src/status.h:80-102: the prefixes of messages. *)
Definition io_error (msg : bytes) : bytes := lit "IOError: " ++ msg.
Definition corruption (msg : bytes) : bytes := lit "Corruption: " ++ msg.

(** A function that reads from a file and returns a [Status]: the value or the
    message of the status, and the file. *)
Definition mio (A : Type) : Type := file -> res ((A + bytes) * file).

Definition m_ret {A} (a : A) : mio A := fun f => Ok (inl a, f).
Definition m_fail {A} (msg : bytes) : mio A := fun f => Ok (inr msg, f).
Definition m_fault {A} (e : fault) : mio A := fun _ => Fault e.

(** src/status.h, [PK_CHECK_STATUS]: return the status if it is an error. *)
Definition m_bind {A B} (m : mio A) (k : A -> mio B) : mio B := fun f =>
  '(r, f) <- m f ;;
  match r with
  | inl a => k a f
  | inr msg => Ok (inr msg, f)
  end.

Declare Scope mio_scope.
Delimit Scope mio_scope with mio.
Notation "x <<- m ;; k" := (m_bind m (fun x => k))
  (at level 61, m at next level, right associativity) : mio_scope.
Open Scope mio_scope.

(** [if (!b) return Status::Corruption(...)] *)
Definition m_check (b : bool) (msg : bytes) : mio unit := if b then m_ret tt else m_fail msg.
Definition m_assert (b : bool) (e : fault) : mio unit := if b then m_ret tt else m_fault e.

Section Readers.
Variable name : bytes.     (* [filename_]; empty for a borrowed stream (src/util.cc:66-68) *)

(** src/util.cc:120-126, [Read]. *)
Definition failed_read : bytes := io_error (format (lit "failed to read: {}") [name]).
Definition m_read (size : Z) : mio bytes := fun f =>
  '(r, f) <- read f size ;;
  Ok (match r with Some b => inl b | None => inr failed_read end, f).

(** src/util.cc:128-143, [ReadAndVerifyString]. *)
Definition m_verify (expected : bytes) : mio unit :=
  b <<- m_read (lenZ expected) ;;
  m_check (str_eqb expected (cstr b))
    (corruption (format (lit "ReadAndVerifyString: '{}' expected but '{}' found in {}") [expected; cstr b; name])).

(** src/util.h:135-138, [ReadValue<intN_t>] with [n] bytes. *)
Definition m_int (n : Z) : mio Z := b <<- m_read n ;; m_ret (le_signed b).

(** src/vector.cc:272-292: section name, size and dimension. *)
Definition m_vec_header : mio Z :=
  _ <<- m_verify s_vec0 ;;
  section_size <<- m_int 4 ;;
  dim <<- m_int 4 ;;
  _ <<- m_check (size_t (dim * 4 + 4) =? size_t section_size)
          (corruption (format (lit "section_size = {} * {} + 4 expected, but {} found: {}")
             [to_string dim; to_string 4; to_string section_size; name])) ;;
  m_ret dim.

(** src/vector.cc:267-300, [Vector::Read] into a vector that holds [old]: the
    message if there is an error, the new content and the file (see [vec_read] of
    Model/Formats.v). *)
Definition m_vec_read (old : list cell) (f : file) : res (option bytes * list cell * file) :=
  '(h, f) <- m_vec_header f ;;
  match h with
  | inr msg => Ok (Some msg, old, f)
  | inl dim =>
      _ <- vec_init 4 dim ;;
      '(b, f) <- m_read (dim * 4) f ;;
      match b with
      | inr msg => Ok (Some msg, repeat None (Z.to_nat dim), f)
      | inl b => Ok (None, map Some (words (Z.to_nat dim) b), f)
      end
  end.

Definition m_vector : mio (list cell) := fun f =>
  '(e, v, f) <- m_vec_read [] f ;; Ok (match e with None => inl v | Some msg => inr msg end, f).

(** src/matrix.cc:176-189, the loop over [n] rows. The status of
    [row_read.Read] is ignored. *)
Fixpoint m_mat_rows (n : nat) (cols : Z) (old : list cell) (f : file)
  : res ((matrix cell + bytes) * file) :=
  match n with
  | O => Ok (inl [], f)
  | S n =>
      '(_, row, f) <- m_vec_read old f ;;
      if negb (lenZ row =? cols)
      then Ok (inr (corruption (format (lit "Matrix::Read: row_read.Dim() == {} expected, but {} found: {}")
                      [to_string cols; to_string (lenZ row); name])), f)
      else
        '(m, f) <- m_mat_rows n cols row f ;;
        Ok (match m with inr msg => inr msg | inl m => inl (row :: m) end, f)
  end.

(** src/matrix.cc:160-191, [Matrix::Read] into a new matrix. *)
Definition m_mat_read : mio (matrix cell) :=
  _ <<- m_verify s_mat0 ;;
  _ <<- m_int 4 ;;
  num_rows <<- m_int 4 ;;
  num_cols <<- m_int 4 ;;
  fun f =>
    _ <- mat_init num_rows num_cols ;;
    m_mat_rows (Z.to_nat num_rows) num_cols [] f.

(** src/nnet.cc:89-92, [n] indices. *)
Fixpoint m_indices (n : nat) : mio (list Z) :=
  match n with
  | O => m_ret []
  | S n => i <<- m_int 4 ;; l <<- m_indices n ;; m_ret (i :: l)
  end.

(** src/nnet.cc:221-271, [ReadLayer], with the [Read] functions of the layers
    (38-43, 77-95, 119-124, 204-215; the others read nothing). *)
Definition m_layer : mio (layer cell) :=
  _ <<- m_verify s_lay0 ;;
  layer_type <<- m_int 4 ;;
  if layer_type =? 0 then
    W <<- m_mat_read ;; b <<- m_vector ;; m_ret (Linear W b)
  else if layer_type =? 1 then m_ret ReLU
  else if layer_type =? 2 then m_ret Normalize
  else if layer_type =? 3 then m_ret Softmax
  else if layer_type =? 6 then
    n <<- m_int 4 ;;
    _ <<- m_check (negb (n <? 0)) (corruption (lit "SpliceLayer: unexpected num_indcies")) ;;
    idx <<- m_indices (Z.to_nat n) ;;
    m_ret (Splice idx)
  else if layer_type =? 7 then
    s <<- m_vector ;; o <<- m_vector ;; m_ret (BatchNorm s o)
  else if layer_type =? 8 then m_ret LogSoftmax
  else if layer_type =? 9 then
    l <<- m_int 4 ;; r <<- m_int 4 ;; m_ret (Narrow l r)
  else m_fail (corruption (format (lit "read_layer: unexpected layer type: {} ({})") [to_string layer_type; name])).

(** src/nnet.cc:287-290. *)
Fixpoint m_net_layers (n : nat) : mio (list (layer cell)) :=
  match n with
  | O => m_ret []
  | S n => l <<- m_layer ;; ls <<- m_net_layers n ;; m_ret (l :: ls)
  end.

(** src/nnet.cc:273-293, [Nnet::Read] into a new network. *)
Definition m_nnet : mio (Z * Z * list (layer cell)) :=
  _ <<- m_verify s_nn02 ;;
  left_context <<- m_int 4 ;;
  right_context <<- m_int 4 ;;
  num_layers <<- m_int 4 ;;
  ls <<- m_net_layers (Z.to_nat num_layers) ;;
  m_ret (left_context, right_context, ls).

(** src/fst.cc:93-107: [resize] and [Read] of an array (see [io_array] of
    Model/Fst.v). *)
Definition m_array (width n : Z) : mio bytes :=
  if n <? 0 then m_fault Throw
  else
    let size := wrap32 (width * n) in
    if size =? width * n then m_read size
    else fun f =>
      if (size <? 0) && (lenZ (f_rest f) <=? width * n) then Ok (inr failed_read, mk_file [] true)
      else Fault Undef.

(** src/fst.cc:51-111, [Fst::Read] into a new object. *)
Definition m_fst : mio (fst Z) :=
  section <<- m_read 32 ;;
  _ <<- m_check (str_eqb (cstr (firstn 31 section)) s_fst0) (corruption name) ;;
  section_size <<- m_int 4 ;;
  state_number <<- m_int 4 ;;
  arc_number <<- m_int 4 ;;
  start <<- m_int 4 ;;
  let expected := wrap32 (12 + state_number * 8 + arc_number * 16) in
  _ <<- m_check (expected =? section_size)
          (corruption (format (lit "section_size == {} expected, but {} found")
             [to_string expected; to_string section_size])) ;;
  finals <<- m_array 4 state_number ;;
  idx <<- m_array 4 state_number ;;
  a <<- m_array 16 arc_number ;;
  m_ret (mk_fst start (words (Z.to_nat state_number) finals) (words (Z.to_nat state_number) idx)
           (arcs_of (Z.to_nat arc_number) (words (4 * Z.to_nat arc_number) a))).

(** src/pcm_reader.cc:40-112, [ReadPcmHeader]. *)
Definition m_header : mio wave_format :=
  _ <<- m_verify s_riff ;;
  _ <<- m_int 4 ;;
  _ <<- m_verify s_wave ;;
  _ <<- m_verify s_fmt ;;
  subchunk1_size <<- m_int 4 ;;
  _ <<- m_check (subchunk1_size =? 16)
          (corruption (format (lit "subchunk1_size == 16 expected, but {} found: {}")
             [to_string subchunk1_size; name])) ;;
  audio_format <<- m_int 2 ;;
  _ <<- m_check (audio_format =? 1)
          (corruption (format (lit "audio_format == 1 expected, but {} found: {}")
             [to_string audio_format; name])) ;;
  num_channels <<- m_int 2 ;;
  sample_rate <<- m_int 4 ;;
  bytes_rate <<- m_int 4 ;;
  block_align <<- m_int 2 ;;
  bits_per_sample <<- m_int 2 ;;
  _ <<- m_assert (in_int32 (sample_rate * bits_per_sample)) Undef ;;
  _ <<- m_check (bytes_rate =? Z.quot (sample_rate * bits_per_sample) 8)
          (corruption (format (lit "bytes_rate == {} expected, but {} found: {}")
             [to_string (Z.quot (sample_rate * bits_per_sample) 8); to_string bytes_rate; name])) ;;
  _ <<- m_check (block_align =? Z.quot bits_per_sample 8)
          (corruption (format (lit "block_align == {} expected, but {} found: {}")
             [to_string (Z.quot bits_per_sample 8); to_string bytes_rate; name])) ;;
  _ <<- m_verify s_data ;;
  _ <<- m_int 4 ;;
  m_ret (mk_format num_channels sample_rate bits_per_sample).

(** src/util.cc:92-108, the statuses of [ReadLine]. *)
Definition line_error (eof : bool) : bytes :=
  if eof then io_error (format (lit "EOF already reached: {}") [name]) else io_error name.

(** src/configuration.cc:28-50, the body of the loop for one line. The second
    message is called with one argument more than it has places. *)
Definition m_conf_line (t : list (bytes * bytes)) (line : bytes) : res (list (bytes * bytes) + bytes) :=
  let line := trim line in
  match line with
  | [] => Ok (inl t)
  | c :: _ =>
      if c =? 35 then Ok (inl t)
      else
        fields <- split line [61] ;;
        match fields with
        | [k; v] =>
            let key := lower (trim k) in
            let value := trim v in
            match value with
            | [] => Ok (inr (corruption (format (lit "Value cound not be empty: {}") [name; line])))
            | _ => Ok (inl ((key, value) :: t))
            end
        | _ => Ok (inr (corruption (format (lit "Unexpected line in {}: {}") [name; line])))
        end
  end.

(** src/configuration.cc:27-53, the loop. *)
Fixpoint m_conf_loop (fuel : nat) (f : file) (t : list (bytes * bytes))
  : res (list (bytes * bytes) * option bytes) :=
  match fuel with
  | O => Fault Fuel
  | S fuel =>
      if f_eof f then Ok (t, None)
      else match read_line f with
           | (Line s, f) =>
               r <- m_conf_line t s ;;
               match r with
               | inr msg => Ok (t, Some msg)
               | inl t => m_conf_loop fuel f t
               end
           | (NoLine, _) => Ok (t, None)
           | (LineError, _) => Ok (t, Some (line_error (f_eof f)))
           end
  end.

(** src/configuration.cc:14-54, [Read] of an existing file. *)
Definition m_conf_read (c : conf) (content : bytes) : res (conf * option bytes) :=
  '(t, e) <- m_conf_loop (length content + 2) (open content) (c_table c) ;;
  Ok (mk_conf name t, e).

(** src/util.cc:51-60, [StringToLong]. *)
Definition number_error (s : bytes) : bytes :=
  corruption (format (lit "unexpected number string: {}") [trim s]).

(** src/symbol_table.cc:24-38, the body of the loop for one line. *)
Definition m_sym_line (t : symtab) (line : bytes) : res (symtab + bytes) :=
  fields <- split line [32] ;;
  match fields with
  | [word; num] =>
      match string_to_long num with
      | None => Ok (inr (number_error num))
      | Some id => t <- add_word t word id ;; Ok (inl t)
      end
  | _ => Ok (inr (corruption (format (lit "2 column expected but {} found: {}") [to_string (lenZ fields); line])))
  end.

(** src/symbol_table.cc:23-41. *)
Fixpoint m_sym_loop (fuel : nat) (f : file) (t : symtab) : res (symtab * option bytes) :=
  match fuel with
  | O => Fault Fuel
  | S fuel =>
      match read_line f with
      | (Line s, f) =>
          r <- m_sym_line t s ;;
          match r with
          | inr msg => Ok (t, Some msg)
          | inl t => m_sym_loop fuel f t
          end
      | (NoLine, _) => Ok (t, None)
      | (LineError, _) => Ok (t, Some (line_error (f_eof f)))
      end
  end.

(** src/symbol_table.cc:16-51, [Read] of an existing file. *)
Definition m_sym_read (t : symtab) (content : bytes) : res (symtab * option bytes) :=
  '(t, e) <- m_sym_loop (length content + 2) (open content) t ;;
  match e with
  | None =>
      match id_of SymbolTable.bos_symbol (s_ids t), id_of SymbolTable.eos_symbol (s_ids t) with
      | Some b, Some e => Ok (mk_symtab (s_size t) (s_words t) (s_ids t) b e, None)
      | _, _ => Ok (t, Some (corruption (lit "symbol_table: unable to find BOS/EOS symbol")))
      end
  | Some msg => Ok (t, Some msg)
  end.

End Readers.

(** src/ce_stt.cc:364-373, [ce_read_pcm_header] reads from a borrowed stream, which
    has no name (src/util.cc:66-68): the text for the error buffer. *)
Definition header_text (content : bytes) : res (option bytes) :=
  '(r, _) <- m_header [] (open content) ;; Ok (match r with inl _ => None | inr msg => Some msg end).

Section Load.
Context {F : Type}.
Variable O : fops F.
Variable T : trig_ops F.
Variable I : init_ops F.
Variable junk : nat -> F.
Variable junk_int : nat -> Z.
Variable of_word : Z -> F.
Variable unknown : F.
Variable files : bytes -> option bytes.
Variable hclg : bytes -> res (option (graph F)).
Variable lm_fuel : nat.

Notation open_file := (open_file files).

(** A reader applied to an opened file. *)
Definition m_with {A} (m : bytes -> mio A) (name content : bytes) : load A := fun ps =>
  '(r, _) <- m name (open content) ;; Ok (r, ps).

(** The following are [load_conf], [load_am], [load_symbols], [load_lm],
    [load_parts] and [stt_init] of Model/Loading.v with these readers.

    src/configuration.cc:14-54. *)
Definition ml_conf (name : bytes) : load conf :=
  content <~ open_file name ;;
  r <~ load_res (m_conf_read name conf_empty content) ;;
  match snd r with None => load_ret (Datatypes.fst r) | Some msg => load_fail msg end.

(** src/am.cc:26-64. *)
Definition ml_am (c : conf) : load (am F * list Z) :=
  nnet_name <~ load_path c (lit "nnet") ;;
  content <~ open_file nnet_name ;;
  nnet <~ m_with m_nnet nnet_name content ;;
  prior_name <~ load_path c (lit "prior") ;;
  content <~ open_file prior_name ;;
  prior <~ m_with m_vector prior_name content ;;
  log_prior <~ load_res (apply_log O (map (value of_word unknown) prior)) ;;
  left <~ load_int c (lit "left_context") ;;
  right <~ load_int c (lit "right_context") ;;
  chunk <~ load_int c (lit "chunk_size") ;;
  num_pdfs <~ load_int c (lit "num_pdfs") ;;
  pdf_name <~ load_path c (lit "tid2pdf") ;;
  content <~ open_file pdf_name ;;
  pdf <~ m_with m_vector pdf_name content ;;
  load_ret (mk_am left right chunk log_prior
              (nnet_propagate O (map (map_layer (value of_word unknown)) (snd nnet))),
            map (fun w => match w with Some w => w | None => 0 end) pdf).

(** src/ce_stt.cc:68-79. *)
Definition ml_symbols (c : conf) : load symtab :=
  name <~ load_res (get_path c (lit "symbol_table") []) ;;
  if str_eqb name []
  then load_fail (lit "Corruption: " ++ format (lit "Unable to find key 'symbol_table' in {}") [name])
  else
    _ <~ load_new Symbols ;;
    content <~ open_file name ;;
    r <~ load_res (m_sym_read name symtab_init content) ;;
    match snd r with None => load_ret (Datatypes.fst r) | Some msg => load_fail msg end.

(** src/ce_stt.cc:82-113. *)
Definition ml_lm (c : conf) (s : symtab) : load (option (delta_lm F)) :=
  large <~ load_res (get_path c (lit "large_lm") []) ;;
  if str_eqb large [] then load_ret None
  else
    original <~ load_res (get_path c (lit "original_lm") []) ;;
    if str_eqb original []
    then load_fail (lit "Corruption: " ++ format (lit "Unable to find key 'original_lm' in {}") [original])
    else
      content <~ open_file original ;;
      _ <~ load_new OriginalLm ;;
      small <~ m_with m_vector original content ;;
      content <~ open_file large ;;
      _ <~ load_new LargeLm ;;
      g <~ m_with m_fst large content ;;
      let g := float_fst of_word g in
      bucket <~ load_res (init_bucket g) ;;
      _ <~ load_new DeltaLm ;;
      load_ret (Some (mk_delta (map (value of_word unknown) small) g bucket (s_bos s) (s_eos s))).

(** src/ce_stt.cc:193-222. *)
Definition ml_parts (config_file : bytes) : load (recognizer F (list (Z * option (arc F)))) :=
  _ <~ load_new Recognizer ;;
  c <~ ml_conf config_file ;;
  g <~ load_graph hclg c ;;
  _ <~ load_new Acoustic ;;
  a <~ ml_am c ;;
  s <~ ml_symbols c ;;
  d <~ ml_lm c s ;;
  fb <~ load_res (fbank_new O T I junk junk_int) ;;
  _ <~ load_new Features ;;
  cache <~ load_res (match d with Some _ => new_cache 1000000 | None => Ok [] end) ;;
  load_ret (mk_recognizer g (Datatypes.fst a) (snd a)
              (match d with Some d => Some (cached_lm O lm_fuel d) | None => None end) cache fb s).

(** src/ce_stt.cc:193-231, [ce_stt_init]. *)
Definition ml_init (config_file : bytes)
  : res ((recognizer F (list (Z * option (arc F))) + bytes) * list part) :=
  '(r, ps) <- ml_parts config_file [] ;;
  Ok (r, match r with inl _ => ps | inr _ => stt_destroy ps end).

End Load.
