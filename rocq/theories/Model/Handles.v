(** Model of the files that are open: the life of [ReadableFile] objects
    (src/util.cc:63-88, 145-153, src/util.h:105-155) and the places that open
    files: [Configuration::Read] (src/configuration.cc:14-54), [SymbolTable::Read]
    (src/symbol_table.cc:16-49), [AcousticModel::Read] (src/am.cc:26-64),
    [ReadDeltaLmFst] and [ReadHclgFst] (src/ce_stt.cc:82-131), [Read16kPcm]
    (src/pcm_reader.cc:193-212), [ce_read_pcm_header] (src/ce_stt.cc:364-373) and
    the program (src/main.cc). What is read from the files is left to the
    functions of Model/Loading.v, Model/Pcm.v and Model/Main.v. *)
From Coq Require Import ZArith String List Bool.
From Verif.Base Require Import Prelude.
From Verif.Model Require Import Util File Binary Arith Vector Fbank Srfft FbankInit Nnet Formats Am Pcm Configuration
  SymbolTable Fst Decoder Stt Loading Main.
Import ListNotations.
Open Scope Z_scope.

(** What the C library is told. Streams have the numbers 0, 1, ... in the order
    of their opening; a number stands for a [FILE *]. *)
Inductive event : Type :=
| Opened (n : nat) (name : bytes)
| Closed (n : nat).

(** src/util.h:150-153: [fd_], [owned_], [file_size_]. The name is only used in
    messages. *)
Record rf : Type := mk_rf { r_fd : option nat; r_owned : bool; r_size : Z }.

(** The [ReadableFile] objects alive, in the order of their declaration; the
    streams the user of these objects has opened, which only the user knows; for
    each stream whether it is open; the calls of [fopen] that gave a stream and
    of [fclose], the first first. *)
Record hs : Type := mk_hs {
  h_objs : list rf;
  h_mine : list nat;
  h_streams : list bool;
  h_log : list event
}.

Definition no_files : hs := mk_hs [] [] [] [].

Section Handles.
(** The files that can be opened, by name. *)
Variable files : bytes -> option bytes.

(** [fopen]: the stream and, for the model, what is in the file. *)
Definition fopen (name : bytes) (h : hs) : option (nat * bytes) * hs :=
  match files name with
  | None => (None, h)
  | Some content =>
      let n := length (h_streams h) in
      (Some (n, content),
       mk_hs (h_objs h) (h_mine h) (h_streams h ++ [true]) (h_log h ++ [Opened n name]))
  end.

(** [fclose]: undefined for a stream that is not open. *)
Definition fclose (n : nat) (h : hs) : res hs :=
  match nth_error (h_streams h) n with
  | Some true => Ok (mk_hs (h_objs h) (h_mine h) (upd (h_streams h) n false) (h_log h ++ [Closed n]))
  | _ => Fault Undef
  end.

(** [fread], [fgets], [feof], [fseek] and [ftell] as far as the stream is
    concerned. *)
Definition fuse (n : nat) (h : hs) : res unit :=
  match nth_error (h_streams h) n with
  | Some true => Ok tt
  | _ => Fault Undef
  end.

Definition obj (h : hs) (i : nat) : res rf :=
  match nth_error (h_objs h) i with Some o => Ok o | None => Fault Undef end.

Definition set_obj (h : hs) (i : nat) (o : rf) : hs :=
  mk_hs (upd (h_objs h) i o) (h_mine h) (h_streams h) (h_log h).

(** src/util.cc:63-68, the constructors; the new object is the last one. *)
Definition rf_new (h : hs) : hs :=
  mk_hs (h_objs h ++ [mk_rf None true 0]) (h_mine h) (h_streams h) (h_log h).
Definition rf_borrow (n : nat) (h : hs) : hs :=
  mk_hs (h_objs h ++ [mk_rf (Some n) false 0]) (h_mine h) (h_streams h) (h_log h).

(** src/util.cc:70-73, the destructor, of the last object. *)
Definition rf_destroy (h : hs) : res hs :=
  match rev (h_objs h) with
  | [] => Ok h
  | o :: _ =>
      h <- (match r_fd o with
            | Some n => if r_owned o then fclose n h else Ok h
            | None => Ok h
            end) ;;
      Ok (mk_hs (removelast (h_objs h)) (h_mine h) (h_streams h) (h_log h))
  end.

(** src/util.cc:75-88, [Open]: what is in the file, [None] with an error. The
    stream that [fd_] held before is forgotten. *)
Definition rf_open (i : nat) (name : bytes) (h : hs) : res (option bytes * hs) :=
  o <- obj h i ;;
  match fopen name h with
  | (None, h) => Ok (None, set_obj h i (mk_rf None (r_owned o) (r_size o)))
  | (Some (n, content), h) =>
      Ok (Some content, set_obj h i (mk_rf (Some n) (r_owned o) (lenZ content)))
  end.

(** src/util.cc:90-147: a call of [ReadLine], [Read], [ReadAndVerifyString] or
    [Eof] as far as the stream is concerned. *)
Definition rf_use (i : nat) (h : hs) : res unit :=
  o <- obj h i ;;
  match r_fd o with
  | Some n => fuse n h
  | None => Fault Undef
  end.

(** src/util.h:146-149, [file_size]. *)
Definition rf_size (i : nat) (h : hs) : res Z :=
  o <- obj h i ;; _ <- check (r_owned o) Assert ;; Ok (r_size o).

(** src/util.cc:149-153, [Close]. *)
Definition rf_close (i : nat) (h : hs) : res hs :=
  o <- obj h i ;;
  _ <- check (r_owned o) Assert ;;
  h <- (match r_fd o with Some n => fclose n h | None => Ok h end) ;;
  Ok (set_obj h i (mk_rf None (r_owned o) (r_size o))).

(** * Any use of the objects *)

(** All objects in this code are local variables, so they are destroyed in the
    reverse order of their declaration. Objects have the numbers 0, 1, ... of
    their places in [h_objs]; [CBorrow] and [CFclose] speak of the streams of the
    user in the order of their opening. *)
Inductive call : Type :=
| CNew
| CBorrow (j : nat)
| COpen (i : nat) (name : bytes)
| CUse (i : nat)
| CSize (i : nat)
| CClose (i : nat)
| CLeave
| CFopen (name : bytes)
| CFclose (j : nat).

Definition mine (h : hs) (j : nat) : res nat :=
  match nth_error (h_mine h) j with Some n => Ok n | None => Fault Undef end.

Definition do_call (c : call) (h : hs) : res hs :=
  match c with
  | CNew => Ok (rf_new h)
  | CBorrow j => n <- mine h j ;; Ok (rf_borrow n h)
  | COpen i name => '(_, h) <- rf_open i name h ;; Ok h
  | CUse i => _ <- rf_use i h ;; Ok h
  | CSize i => _ <- rf_size i h ;; Ok h
  | CClose i => rf_close i h
  | CLeave => rf_destroy h
  | CFopen name =>
      match fopen name h with
      | (None, h) => Ok h
      | (Some (n, _), h) => Ok (mk_hs (h_objs h) (h_mine h ++ [n]) (h_streams h) (h_log h))
      end
  | CFclose j => n <- mine h j ;; fclose n h
  end.

Fixpoint do_calls (cs : list call) (h : hs) : res hs :=
  match cs with
  | [] => Ok h
  | c :: cs => h <- do_call c h ;; do_calls cs h
  end.

(** * Loading *)

(** As [load] of Model/Loading.v, with the open files. *)
Definition fload (A : Type) : Type := list part -> hs -> res ((A + bytes) * list part * hs).

Definition lift {A} (m : load A) : fload A := fun ps h => '(r, ps) <- m ps ;; Ok (r, ps, h).
Definition fl_bind {A B} (m : fload A) (k : A -> fload B) : fload B := fun ps h =>
  '(r, ps, h) <- m ps h ;;
  match r with
  | inl a => k a ps h
  | inr why => Ok (inr why, ps, h)
  end.

Declare Scope fload_scope.
Delimit Scope fload_scope with fload.
Notation "x <~ m ;; k" := (fl_bind m (fun x => k))
  (at level 61, m at next level, right associativity) : fload_scope.
Open Scope fload_scope.

(** The end of a block: the objects from number [n] on are destroyed, the last
    first. *)
Fixpoint leave (k : nat) (h : hs) : res hs :=
  match k with
  | O => Ok h
  | S k => h <- rf_destroy h ;; leave k h
  end.

(** A block: whether it is left at its end or by a [return], the objects
    declared in it are destroyed. *)
Definition scoped {A} (m : fload A) : fload A := fun ps h =>
  let n := length (h_objs h) in
  '(r, ps, h) <- m ps h ;;
  h <- leave (length (h_objs h) - n) h ;;
  Ok (r, ps, h).

(** [util::ReadableFile fd;] gives the number of the object. *)
Definition fl_new : fload nat := fun ps h => Ok (inl (length (h_objs h)), ps, rf_new h).

Definition fl_open (fd : nat) (name : bytes) : fload bytes := fun ps h =>
  '(c, h) <- rf_open fd name h ;;
  Ok (match c with
      | Some content => inl content
      | None => inr (lit "IOError: " ++ format (lit "Unable to open {}") [name])
      end, ps, h).

Definition fl_close (fd : nat) : fload unit := fun ps h =>
  h <- rf_close fd h ;; Ok (inl tt, ps, h).

(** A reader that gets the object; it uses the stream. *)
Definition with_stream {A} (fd : nat) (m : load A) : fload A := fun ps h =>
  _ <- rf_use fd h ;; lift m ps h.

Section Load.
Context {F : Type}.
Variable O : fops F.
Variable T : trig_ops F.
Variable I : init_ops F.
Variable junk : nat -> F.
Variable junk_int : nat -> Z.
Variable of_word : Z -> F.
Variable unknown : F.
Variable hclg : bytes -> res (option (graph F)).
Variable why : bytes -> bytes.
Variable lm_fuel : nat.

Notation value := (value of_word unknown).

(** src/configuration.cc:14-54. *)
Definition fl_conf (name : bytes) : fload conf := scoped (
  fd <~ fl_new ;;
  content <~ fl_open fd name ;;
  r <~ with_stream fd (load_res (conf_read conf_empty name content)) ;;
  if snd r then lift (load_ret (Datatypes.fst r)) else lift (load_fail (why name))).

(** src/am.cc:26-64. *)
Definition fl_am (c : conf) : fload (am F * list Z) := scoped (
  nnet_name <~ lift (load_path c (lit "nnet")) ;;
  fd <~ fl_new ;;
  content <~ fl_open fd nnet_name ;;
  nnet <~ with_stream fd (read_with why nnet_read nnet_name content) ;;
  _ <~ fl_close fd ;;
  prior_name <~ lift (load_path c (lit "prior")) ;;
  content <~ fl_open fd prior_name ;;
  prior <~ with_stream fd (read_with why io_vector prior_name content) ;;
  log_prior <~ lift (load_res (apply_log O (map value prior))) ;;
  _ <~ fl_close fd ;;
  left <~ lift (load_int c (lit "left_context")) ;;
  right <~ lift (load_int c (lit "right_context")) ;;
  chunk <~ lift (load_int c (lit "chunk_size")) ;;
  num_pdfs <~ lift (load_int c (lit "num_pdfs")) ;;
  pdf_name <~ lift (load_path c (lit "tid2pdf")) ;;
  content <~ fl_open fd pdf_name ;;
  pdf <~ with_stream fd (read_with why io_vector pdf_name content) ;;
  lift (load_ret (mk_am left right chunk log_prior (nnet_propagate O (map (map_layer value) (snd nnet))),
                  map (fun w => match w with Some w => w | None => 0 end) pdf))).

(** src/ce_stt.cc:116-129; the [ifstream] of OpenFst
    (src/openfst/include/fst/expanded-fst.h:136-148) is closed at the end of
    [ConstFst::Read]. *)
Definition fl_graph (c : conf) : fload (graph F) :=
  name <~ lift (load_res (get_path c (lit "fst") [])) ;;
  if str_eqb name []
  then lift (load_fail (lit "Corruption: " ++ format (lit "Unable to find key 'fst' in {}") [name]))
  else
    g <~ (fun ps h =>
            match fopen name h with
            | (None, h) => lift (load_res (hclg name)) ps h
            | (Some (n, _), h) =>
                '(r, ps, h) <- lift (load_res (hclg name)) ps h ;;
                h <- fclose n h ;;
                Ok (r, ps, h)
            end) ;;
    match g with
    | None => lift (load_fail (lit "IOError: " ++ name))
    | Some g => _ <~ lift (load_new Graph) ;; lift (load_ret g)
    end.

(** src/ce_stt.cc:68-79 and src/symbol_table.cc:16-49. *)
Definition fl_symbols (c : conf) : fload symtab :=
  name <~ lift (load_res (get_path c (lit "symbol_table") [])) ;;
  if str_eqb name []
  then lift (load_fail (lit "Corruption: " ++ format (lit "Unable to find key 'symbol_table' in {}") [name]))
  else
    _ <~ lift (load_new Symbols) ;;
    scoped (
      fd <~ fl_new ;;
      content <~ fl_open fd name ;;
      r <~ with_stream fd (load_res (sym_read symtab_init content)) ;;
      if snd r then lift (load_ret (Datatypes.fst r)) else lift (load_fail (why name))).

(** src/ce_stt.cc:82-113. *)
Definition fl_lm (c : conf) (s : symtab) : fload (option (delta_lm F)) := scoped (
  large <~ lift (load_res (get_path c (lit "large_lm") [])) ;;
  if str_eqb large [] then lift (load_ret None)
  else
    original <~ lift (load_res (get_path c (lit "original_lm") [])) ;;
    if str_eqb original []
    then lift (load_fail (lit "Corruption: " ++ format (lit "Unable to find key 'original_lm' in {}") [original]))
    else
      fd_original_lm <~ fl_new ;;
      content <~ fl_open fd_original_lm original ;;
      _ <~ lift (load_new OriginalLm) ;;
      small <~ with_stream fd_original_lm (read_with why io_vector original content) ;;
      fd_large_lm <~ fl_new ;;
      content <~ fl_open fd_large_lm large ;;
      _ <~ lift (load_new LargeLm) ;;
      g <~ with_stream fd_large_lm (read_with why fst_read large content) ;;
      let g := float_fst of_word g in
      bucket <~ lift (load_res (init_bucket g)) ;;
      _ <~ lift (load_new DeltaLm) ;;
      lift (load_ret (Some (mk_delta (map value small) g bucket (s_bos s) (s_eos s))))).

(** src/ce_stt.cc:193-222. *)
Definition fl_parts (config_file : bytes) : fload (recognizer F (list (Z * option (arc F)))) :=
  _ <~ lift (load_new Recognizer) ;;
  c <~ fl_conf config_file ;;
  g <~ fl_graph c ;;
  _ <~ lift (load_new Acoustic) ;;
  a <~ fl_am c ;;
  s <~ fl_symbols c ;;
  d <~ fl_lm c s ;;
  fb <~ lift (load_res (fbank_new O T I junk junk_int)) ;;
  _ <~ lift (load_new Features) ;;
  cache <~ lift (load_res (match d with Some _ => new_cache 1000000 | None => Ok [] end)) ;;
  lift (load_ret (mk_recognizer g (Datatypes.fst a) (snd a)
          (match d with Some d => Some (cached_lm O lm_fuel d) | None => None end) cache fb s)).

(** src/ce_stt.cc:193-231, [ce_stt_init]. *)
Definition fl_init (config_file : bytes) (h : hs)
  : res ((recognizer F (list (Z * option (arc F))) + bytes) * list part * hs) :=
  '(r, ps, h) <- fl_parts config_file [] h ;;
  Ok (r, match r with inl _ => ps | inr _ => stt_destroy ps end, h).

End Load.

(** * Audio *)

(** src/pcm_reader.cc:193-212, [Read16kPcm]: the size of the file comes from the
    object. *)
Definition fl_read_16k (name : bytes) : fload (option (list Z)) := scoped (
  fd <~ fl_new ;;
  content <~ fl_open fd name ;;
  r <~ with_stream fd (load_res (read_pcm_header (open content))) ;;
  match r with
  | (None, _) => lift (load_ret None)
  | (Some fmt, f) =>
      let '(ok, r) := set_format reader_init fmt in
      if negb ok then lift (load_ret None)
      else
        size <~ (fun ps h => n <- rf_size fd h ;; Ok (inl n, ps, h)) ;;
        let data_size := wrap32 (size - 44) in
        _ <~ lift (load_res (check (0 <=? data_size) Throw)) ;;
        b <~ with_stream fd (load_res (read f data_size)) ;;
        match Datatypes.fst b with
        | None => lift (load_ret None)
        | Some b =>
            xs <~ lift (load_res (reader_process r (Some b) data_size)) ;;
            lift (load_ret (Datatypes.fst xs))
        end
  end).

(** * The program *)

Section Program.
Context {F D C : Type}.
Variable O : fops F.
Variable X : xops F D.
Variable tenth : F.
Variable fuel : nat.
(** What [ce_stt_init] does, with the open files. *)
Variable load : bytes -> hs -> res ((recognizer F C + bytes) * hs).
Variable header_error : bytes -> bytes.

(** src/ce_stt.cc:364-373, [ce_read_pcm_header]: the object borrows the stream. *)
Definition h_header (err : bytes) (n : nat) (content : bytes) (h : hs)
  : res (option wave_format * file * bytes * hs) :=
  let h := rf_borrow n h in
  _ <- rf_use (length (h_objs h) - 1) h ;;
  '(fmt, f, err) <- pcm_header_of err (open content) (header_error content) ;;
  h <- rf_destroy h ;;
  Ok (fmt, f, err, h).

(** src/main.cc:28-52, [ProcessAudio]. The loop uses the stream. *)
Definition h_audio (w : world) (rc : recognizer F C) (name : bytes) (h : hs) : res (world * outcome bytes * hs) :=
  match fopen name h with
  | (None, h) => '(w, r) <- fatal w (lit "unable to open: " ++ name) ;; Ok (w, r, h)
  | (Some (n, content), h) =>
      '(fmt, f, err, h) <- h_header (w_err w) n content h ;;
      let w := mk_world (w_out w) err in
      match fmt with
      | None => '(w, r) <- fatal w (last_error err) ;; Ok (w, r, h)
      | Some fmt =>
          '(u, err) <- utt_init O X tenth fuel err rc fmt ;;
          let w := mk_world (w_out w) err in
          match u with
          | None => '(w, r) <- fatal w (last_error err) ;; Ok (w, r, h)
          | Some _ =>
              _ <- fuse n h ;;
              '(u, err) <- audio_loop O X tenth fuel (S (S (length content))) f u err ;;
              '(u, err) <- stt_end O X tenth fuel err u ;;
              let hyp := match u with None => [] | Some u => cstr (u_hyp u) end in
              _ <- utt_destroy u ;;
              h <- fclose n h ;;
              Ok (mk_world (w_out w) err, Go hyp, h)
          end
      end
  end.

(** src/main.cc:62-74. The reading uses the object [fd]. *)
Fixpoint h_scp_loop (n : nat) (w : world) (rc : recognizer F C) (name : bytes) (fd : nat) (f : file) (h : hs)
  : res (world * outcome unit * hs) :=
  match n with
  | 0%nat => Fault Fuel
  | S n =>
      _ <- rf_use fd h ;;
      match read_line f with
      | (Line line, f) =>
          fields <- split line [32] ;;
          match fields with
          | [utt; wav] =>
              '(w, r, h) <- h_audio w rc wav h ;;
              match r with
              | Exit c => Ok (w, Exit c, h)
              | Go hyp => h_scp_loop n (print w (cstr utt ++ [32] ++ cstr hyp ++ [10])) rc name fd f h
              end
          | _ => Ok (print w (lit "scp: unexpected line: " ++ cstr line ++ [10]), Exit 22, h)
          end
      | (NoLine, _) => Ok (w, Go tt, h)
      | (LineError, _) =>
          Ok (print w (lit "pasco: IOError: EOF already reached: " ++ name ++ [10]), Exit 1, h)
      end
  end.

(** src/main.cc:55-75, [process_scp]. [exit] does not destroy local variables. *)
Definition h_scp (w : world) (rc : recognizer F C) (name : bytes) (h : hs) : res (world * outcome unit * hs) :=
  let fd := length (h_objs h) in
  '(c, h) <- rf_open fd name (rf_new h) ;;
  match c with
  | None => Ok (print w (lit "pasco: IOError: Unable to open " ++ name ++ [10]), Exit 1, h)
  | Some content =>
      '(w, r, h) <- h_scp_loop (S (S (length content))) w rc name fd (open content) h ;;
      match r with
      | Exit c => Ok (w, Exit c, h)
      | Go _ => h <- rf_destroy h ;; Ok (w, Go tt, h)
      end
  end.

(** src/main.cc:86-106, [main]. *)
Definition h_main (args : list bytes) (h : hs) : res (bytes * Z * hs) :=
  let w := mk_world [] (repeat 0 (Z.to_nat error_size)) in
  match args with
  | [model; input] =>
      if lenZ input <? 4 then Ok (usage, 1, h)
      else
        '(r, h) <- load model h ;;
        match r with
        | inr msg =>
            err <- set_error (w_err w) msg ;;
            Ok (lit "error: " ++ last_error err ++ [10], 22, h)
        | inl rc =>
            let suffix := skipn (Z.to_nat (lenZ input - 4)) input in
            if str_eqb suffix (lit ".wav")
            then
              '(w, r, h) <- h_audio w rc input h ;;
              match r with
              | Exit c => Ok (w_out w, c, h)
              | Go hyp => Ok (w_out w ++ hyp ++ [10], 0, h)
              end
            else
              '(w, r, h) <- h_scp w rc input h ;;
              match r with
              | Exit c => Ok (w_out w, c, h)
              | Go _ => Ok (w_out w, 0, h)
              end
        end
  | _ => Ok (usage, 1, h)
  end.

End Program.
End Handles.
