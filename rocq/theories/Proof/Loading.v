(** Loading a recognizer. *)
From Coq Require Import ZArith String List Bool Lia.
From Verif.Base Require Import Prelude Lemmas.
From Verif.Model Require Import Util File Binary Arith Vector Fbank Srfft FbankInit Nnet Formats Am Configuration
  SymbolTable Fst Decoder Stt Loading.
From Verif.Spec Require Import AudioSpec AmSpec FormatSpec TextSpec FstSpec LoadingSpec.
From Verif.Proof Require Import Loop Text Number Lines Config Symbols.
From Verif.Proof Require TextCases Formats Fst Lm LinesExact SymbolsExact ConfigExact.
Import ListNotations.
Open Scope Z_scope.

(** * Lists of words as numbers *)

Lemma value_some : forall F (f : Z -> F) u v, map (value f u) (map Some v) = map f v.
Proof. intros F f u v. rewrite map_map. reflexivity. Qed.

Lemma layer_value : forall F (f : Z -> F) u l, map_layer (value f u) (known_layer l) = layer_numbers f l.
Proof.
  intros F f u [W b| | | |idx|s o| |l r]; cbn [map_layer known_layer layer_numbers]; rewrite ?value_some; try reflexivity.
  f_equal. rewrite map_map. apply map_ext. intros v. apply value_some.
Qed.

Lemma back_off_weights : forall A B (f : A -> B) t, back_off_model t -> back_off_model (map_weights f t).
Proof.
  intros A B f t (S & S0 & Ss & W). unfold back_off_model, sized, is_state, number_of_arcs in *.
  cbn [map_weights t_start t_states]. rewrite !map_length. split; [|split; [assumption|split; [assumption|]]].
  - replace (length (flat_map snd (map (fun st => (f (Datatypes.fst st), map (map_arc f) (snd st))) (t_states t))))
      with (length (flat_map snd (t_states t))); [exact S|].
    clear. induction (t_states t) as [|(w, l) r IH]; [reflexivity|]. cbn [map flat_map Datatypes.fst snd].
    rewrite !app_length, map_length, IH. reflexivity.
  - rewrite Forall_forall in *. intros st H. apply in_map_iff in H. destruct H as ((w, l) & <- & H).
    specialize (W _ H). cbn [Datatypes.fst snd] in *. rewrite Forall_forall in *.
    intros a I. apply in_map_iff in I. destruct I as (b & <- & I). cbn. exact (W b I).
Qed.

Lemma float_map : forall F (f : Z -> F) g, float_fst f g = map_fst f g.
Proof. reflexivity. Qed.

Lemma apply_log_ok : forall F (O : fops F) v, Forall (fun x => f_nonneg O x = true) v ->
  apply_log O v = Ok (map (f_log O) v).
Proof.
  intros F O v H. unfold apply_log.
  assert (G : forall out, for_each v (fun out x => _ <- check (f_nonneg O x) Assert ;; Ok (out ++ [f_log O x])) out
                          = Ok (out ++ map (f_log O) v)).
  { induction H as [|x v Hx H IH]; intros out; cbn [for_each map]; [now rewrite app_nil_r|].
    rewrite Hx. cbn [check bind]. rewrite IH, <- app_assoc. reflexivity. }
  exact (G []).
Qed.

Section Loading.
Context {F : Type}.
Variable O : fops F.
Variable T : trig_ops F.
Variable I : init_ops F.
Variable junk : nat -> F.
Variable junk_int : nat -> Z.
Variable of_word : Z -> F.
Variable unknown : F.
Variable files : bytes -> option bytes.
Variable hclg : bytes -> res (option (graph F)).
Variable why : bytes -> bytes.
Variable lm_fuel : nat.

Notation load_am := (load_am O of_word unknown files why).
Notation load_lm := (load_lm of_word unknown files why).
Notation load_symbols := (load_symbols files why).
Notation load_parts := (load_parts O T I junk junk_int of_word unknown files hclg why lm_fuel).
Notation stt_init := (stt_init O T I junk junk_int of_word unknown files hclg why lm_fuel).
Notation stored_at := (stored_at files).
Notation is_prior := (is_prior O of_word).
Notation met := (met files hclg).
Notation needs := (needs O of_word).

(** * The configuration *)

Definition knows (c : conf) (fn : bytes) (lines : list str) : Prop :=
  c_filename c = fn /\
  (forall k r d, lower k = k -> last_value lines k r -> get_string c k d = match r with Some v => v | None => d end).

Lemma conf_known : forall fn content lines, config_lines content lines ->
  exists c, conf_read conf_empty fn content = Ok (c, true) /\ knows c fn lines.
Proof.
  intros fn content lines (ls & l & -> & P & Pl & -> & G).
  rewrite conf_read_fold by assumption. change (match l with [] => ls | _ => ls ++ [l] end) with (file_lines ls l) in *.
  cbn [c_table conf_empty]. rewrite conf_fold_fine by exact G. eexists. split; [reflexivity|]. split; [reflexivity|].
  intros k r d L R. unfold get_string. cbn [c_table]. rewrite L.
  rewrite (conf_fold_lookup _ _ _ R) by now apply conf_fold_fine. destruct r; reflexivity.
Qed.

Lemma value_nonempty : forall lines k v, last_value lines k (Some v) -> v <> [].
Proof.
  intros lines k v H. remember (Some v) as r eqn:E. induction H as [| | |ls l k v' H]; try discriminate; auto.
  injection E as <-. destruct H as (t & a & b & k' & _ & _ & _ & _ & _ & _ & _ & _ & N). exact N.
Qed.

Lemma located_total : forall fn v, exists p, located fn v p.
Proof.
  intros fn v. unfold located. destruct v as [|x v].
  2: destruct (Z.eq_dec x 47) as [->|Nx]; [exists (47 :: v); left; split; [eauto|reflexivity]|].
  1: assert (NS : forall r, [] <> 47 :: r) by discriminate.
  2: assert (NS : forall r, x :: v <> 47 :: r) by congruence.
  1, 2: destruct (in_dec Z.eq_dec 47 fn) as [J|J]; [|eexists; right; split; [exact NS|]; right; split; [exact J|reflexivity]].
  1, 2: assert (S : exists dir base, fn = dir ++ 47 :: base /\ ~ In 47 base)
    by (clear - J; induction fn as [|y fn IH]; [destruct J|];
        destruct (in_dec Z.eq_dec 47 fn) as [J'|J'];
          [destruct (IH J') as (dir & base & -> & N); exists (y :: dir), base; split; [reflexivity|exact N]
          |destruct J as [->|J]; [exists [], fn; split; [reflexivity|exact J']|contradiction]]).
  1, 2: destruct S as (dir & base & E & N); eexists; right; split; [exact NS|]; left; exists dir, base; split; [exact E|]; split; [exact N|reflexivity].
Qed.

Section Known.
Variable c : conf.
Variable fn : bytes.
Variable lines : list str.
Hypothesis K : knows c fn lines.

Lemma path_set : forall key p d, lower key = key -> points_to fn lines key p ->
  get_path c key d = Ok p /\ p <> [] /\ p <> default_string.
Proof.
  intros key p d L (v & (S & R) & P). destruct K as (Kf & Kv).
  assert (G : forall d', get_string c key d' = v) by (intros d'; apply (Kv key (Some v) d' L S)).
  pose proof (value_nonempty _ _ _ S) as Nv. change reserved with default_string in R.
  destruct (get_path_cases c key d v G R) as (A & B). rewrite Kf in B.
  destruct P as [((r & E) & ->)|(NS & [(dir & base & E & N & ->)|(N & ->)])].
  - split; [exact (A r E)|]. split; assumption.
  - split; [apply (proj1 (B Nv NS) dir base E N)|]. split; [destruct dir; discriminate|].
    intros Q. assert (J : In 47 default_string) by (rewrite <- Q; apply in_or_app; right; now left).
    cbn in J. repeat (destruct J as [J|J]; [discriminate J|]). exact J.
  - split; [apply (proj2 (B Nv NS) N)|]. split; assumption.
Qed.

Lemma path_absent : forall key d, lower key = key -> last_value lines key None -> get_path c key d = Ok d.
Proof. intros key d L V. apply get_path_missing. intros d'. apply (proj2 K key None d' L V). Qed.

Lemma load_path_set : forall key p ps, lower key = key -> points_to fn lines key p ->
  load_path c key ps = Ok (inl p, ps).
Proof.
  intros key p ps L P. destruct (path_set key p default_string L P) as (E & _ & N).
  unfold load_path, load_bind, load_res, get_path_status. rewrite E. cbn [bind].
  rewrite str_eqb_neq by exact N. reflexivity.
Qed.

Lemma key_text : forall A key ps, key <> [] -> no_brace key ->
  @key_not_found A c key ps = Ok (inr (no_key_text fn key), ps).
Proof.
  intros A key ps N B. unfold key_not_found, load_fail. rewrite (proj1 K).
  rewrite format_substitute by (cbn [removelast]; constructor; [now split|constructor]).
  unfold no_key_text. cbn. rewrite <- ?app_assoc. reflexivity.
Qed.

Lemma load_path_absent : forall key ps, lower key = key -> key <> [] -> no_brace key -> last_value lines key None ->
  load_path c key ps = Ok (inr (no_key_text fn key), ps).
Proof.
  intros key ps L N B V. unfold load_path, load_bind, load_res, get_path_status. rewrite path_absent by assumption.
  cbn [bind]. rewrite str_eqb_refl. apply key_text; assumption.
Qed.

Lemma load_int_set : forall key z ps, lower key = key -> number lines key z -> load_int c key ps = Ok (inl z, ps).
Proof.
  intros key z ps L (s & (S & R) & D & B). unfold load_int, load_bind, load_res.
  rewrite (get_integer_exact c key z s); [reflexivity| |exact D|exact B].
  intros d. apply (proj2 K key (Some s) d L S).
Qed.

Lemma load_int_absent : forall key ps, lower key = key -> key <> [] -> no_brace key -> last_value lines key None ->
  load_int c key ps = Ok (inr (no_key_text fn key), ps).
Proof.
  intros key ps L N B V. unfold load_int, load_bind, load_res. rewrite get_integer_missing.
  - cbn [bind]. apply key_text; assumption.
  - intros d. apply (proj2 K key None d L V).
Qed.

Lemma open_set : forall p content ps, files p = Some content -> open_file files p ps = Ok (inl content, ps).
Proof. intros p content ps H. unfold open_file. rewrite H. reflexivity. Qed.

Lemma open_absent : forall p ps, files p = None -> open_file files p ps = Ok (inr (no_file_text p), ps).
Proof.
  intros p ps H. unfold open_file. rewrite H. unfold load_fail. 
  rewrite format_substitute by constructor. unfold no_file_text. cbn. rewrite ?app_nil_r. reflexivity.
Qed.

(** * Steps *)

Lemma step : forall A B (m : load A) (k : A -> load B) ps a ps', m ps = Ok (inl a, ps') -> load_bind m k ps = k a ps'.
Proof. intros A B m k ps a ps' H. unfold load_bind. rewrite H. reflexivity. Qed.

Lemma stop : forall A B (m : load A) (k : A -> load B) ps w ps', m ps = Ok (inr w, ps') ->
  load_bind m k ps = Ok (inr w, ps').
Proof. intros A B m k ps w ps' H. unfold load_bind. rewrite H. reflexivity. Qed.

Definition get_data {A B} (key : bytes) (m : io A) (k : A -> load B) : load B :=
  load_bind (load_path c key) (fun p => load_bind (open_file files p) (fun content =>
    load_bind (read_with why m p content) k)).

Lemma data_set : forall A (m : io A) key (good : str -> Prop) (Q : A -> Prop), lower key = key ->
  stored_at fn lines key good ->
  (forall content, good content -> exists a f, m (open content) = Ok (Some a, f) /\ Q a) ->
  exists a, Q a /\ forall B (k : A -> load B) ps, get_data key m k ps = k a ps.
Proof.
  intros A m key good Q L (p & content & P & Fp & G) R. destruct (R content G) as (a & f & E & H).
  exists a. split; [exact H|]. intros B k ps. unfold get_data.
  rewrite (step _ _ _ _ _ _ _ (load_path_set key p ps L P)).
  rewrite (step _ _ _ _ _ _ _ (open_set p content ps Fp)).
  apply step. unfold read_with. rewrite E. reflexivity.
Qed.

Lemma data_no_key : forall A B (m : io A) key (k : A -> load B) ps, lower key = key -> key <> [] -> no_brace key ->
  last_value lines key None -> get_data key m k ps = Ok (inr (no_key_text fn key), ps).
Proof. intros A B m key k ps L N Nb V. apply stop. now apply load_path_absent. Qed.

Lemma data_no_file : forall A B (m : io A) key (k : A -> load B) ps p, lower key = key -> points_to fn lines key p ->
  files p = None -> get_data key m k ps = Ok (inr (no_file_text p), ps).
Proof.
  intros A B m key k ps p L P N. unfold get_data. rewrite (step _ _ _ _ _ _ _ (load_path_set key p ps L P)).
  apply stop. now apply open_absent.
Qed.

(** * Readers *)

Lemma read_network : forall ls content, is_network ls content ->
  exists a f, nnet_read (open content) = Ok (Some a, f) /\
    map (map_layer (value of_word unknown)) (snd a) = map (layer_numbers of_word) ls.
Proof.
  intros ls content (l & r & rest & -> & Fl & Fr & S & N).
  unfold open. rewrite Formats.nnet_read_file by assumption. do 2 eexists. split; [reflexivity|].
  cbn [snd]. rewrite map_map. apply map_ext. intros x. apply layer_value.
Qed.

Lemma read_vector : forall v content, is_vector v content ->
  exists a f, io_vector (open content) = Ok (Some a, f) /\ a = map Some v.
Proof.
  intros v content (rest & -> & S). unfold io_vector, open. rewrite Formats.vec_read_file by assumption.
  do 2 eexists. split; reflexivity.
Qed.

Lemma read_prior : forall v content, is_prior v content ->
  exists a f, io_vector (open content) = Ok (Some a, f) /\
    (a = map Some v /\ apply_log O (map (value of_word unknown) a) = Ok (map (fun w => f_log O (of_word w)) v)).
Proof.
  intros v content (V & N). destruct (read_vector v content V) as (a & f & E & ->).
  exists (map Some v), f. split; [exact E|]. split; [reflexivity|]. rewrite value_some, apply_log_ok.
  - now rewrite map_map.
  - rewrite Forall_map. exact N.
Qed.

Lemma read_lm : forall t content, is_lm t content ->
  exists g f, fst_read (open content) = Ok (Some g, f) /\
    (float_fst of_word g = laid_out (map_weights of_word t) /\
     exists table, init_bucket (laid_out (map_weights of_word t)) = Ok table).
Proof.
  intros t content (rest & -> & S & W). destruct (Fst.file_round_trip t rest false S) as (g & E & _).
  exists g, (mk_file rest false). split; [exact E|]. split.
  - rewrite float_map. eapply Fst.file_as_weights; eassumption.
  - destruct (Lm.init_spec (map_weights of_word t)) as (table & H & _); [now apply back_off_weights|]. eauto.
Qed.

(** * Parts *)

Lemma graph_set : forall p g ps, points_to fn lines (lit "fst") p -> hclg p = Ok (Some g) ->
  load_graph hclg c ps = Ok (inl g, Graph :: ps).
Proof.
  intros p g ps P H. destruct (path_set (lit "fst") p [] eq_refl P) as (E & N & _).
  unfold load_graph, load_bind, load_res. rewrite E. cbn [bind]. rewrite str_eqb_neq by exact N. rewrite H. reflexivity.
Qed.

Lemma words_set : forall es b e ps, stored_at fn lines (lit "symbol_table") (words_file es b e) ->
  exists s, load_symbols c ps = Ok (inl s, Symbols :: ps) /\
    (forall w i, In (w, i) es -> sym_get s i = Ok w /\ sym_id s w = i) /\
    (forall w, ~ In w (map Datatypes.fst es) -> sym_id s w = -1) /\ s_bos s = b /\ s_eos s = e.
Proof.
  intros es b e ps (p & content & P & Fp & ls & -> & E2 & Pl & R & N1 & N2 & B & E).
  destruct (TextCases.symbol_table es ls b e E2 Pl R N1 N2 B E) as (s & Es & H).
  exists s. split; [|exact H]. destruct (path_set (lit "symbol_table") p [] eq_refl P) as (Ep & Np & _).
  unfold Loading.load_symbols, load_bind, load_res. rewrite Ep. cbn [bind]. rewrite str_eqb_neq by exact Np.
  cbn [load_new bind]. rewrite (open_set p _ _ Fp). cbn [bind]. rewrite Es. reflexivity.
Qed.

Lemma am_shape : forall ps, load_am c ps =
  get_data (lit "nnet") nnet_read (fun nnet => get_data (lit "prior") io_vector (fun prior =>
  load_bind (load_res (apply_log O (map (value of_word unknown) prior))) (fun log_prior =>
  load_bind (load_int c (lit "left_context")) (fun left => load_bind (load_int c (lit "right_context")) (fun right =>
  load_bind (load_int c (lit "chunk_size")) (fun chunk => load_bind (load_int c (lit "num_pdfs")) (fun _ =>
  get_data (lit "tid2pdf") io_vector (fun pdf =>
  load_ret (mk_am left right chunk log_prior (nnet_propagate O (map (map_layer (value of_word unknown)) (snd nnet))),
            map (fun w => match w with Some w => w | None => 0 end) pdf))))))))) ps.
Proof. reflexivity. Qed.

Lemma res_step : forall A B (m : res A) (k : A -> load B) ps a, m = Ok a -> load_bind (load_res m) k ps = k a ps.
Proof. intros A B m k ps a ->. reflexivity. Qed.

Lemma int_step : forall B key z (k : Z -> load B) ps, lower key = key -> number lines key z ->
  load_bind (load_int c key) k ps = k z ps.
Proof. intros B key z k ps L N. apply step. now apply load_int_set. Qed.

Lemma am_set : forall ls prior l r ch n pdf ps,
  stored_at fn lines (lit "nnet") (is_network ls) -> stored_at fn lines (lit "prior") (is_prior prior) ->
  number lines (lit "left_context") l -> number lines (lit "right_context") r ->
  number lines (lit "chunk_size") ch -> number lines (lit "num_pdfs") n ->
  stored_at fn lines (lit "tid2pdf") (is_vector pdf) ->
  load_am c ps = Ok (inl (mk_am l r ch (map (fun w => f_log O (of_word w)) prior)
                            (nnet_propagate O (map (layer_numbers of_word) ls)), pdf), ps).
Proof.
  intros ls prior l r ch n pdf ps Hn Hp Hl Hr Hc Hu Ht. rewrite am_shape.
  destruct (data_set _ nnet_read (lit "nnet") _ _ eq_refl Hn (read_network ls)) as (a & Ea & E). rewrite E. clear E.
  destruct (data_set _ io_vector (lit "prior") _ _ eq_refl Hp (read_prior prior)) as (b & (_ & Eb) & E). rewrite E. clear E.
  rewrite (res_step _ _ _ _ _ _ Eb).
  rewrite (int_step _ _ l) by (reflexivity || assumption). rewrite (int_step _ _ r) by (reflexivity || assumption).
  rewrite (int_step _ _ ch) by (reflexivity || assumption). rewrite (int_step _ _ n) by (reflexivity || assumption).
  destruct (data_set _ io_vector (lit "tid2pdf") _ _ eq_refl Ht (read_vector pdf)) as (d & -> & E). rewrite E. clear E.
  rewrite Ea. unfold load_ret. rewrite map_map, map_id. reflexivity.
Qed.

Lemma lm_absent : forall s ps, last_value lines (lit "large_lm") None -> load_lm c s ps = Ok (inl None, ps).
Proof.
  intros s ps V. unfold Loading.load_lm, load_bind, load_res. rewrite (path_absent (lit "large_lm") [] eq_refl V). reflexivity.
Qed.

Lemma lm_set : forall costs t s ps, stored_at fn lines (lit "original_lm") (is_vector costs) ->
  stored_at fn lines (lit "large_lm") (is_lm t) ->
  exists table, init_bucket (laid_out (map_weights of_word t)) = Ok table /\
    load_lm c s ps = Ok (inl (Some (mk_delta (map of_word costs) (laid_out (map_weights of_word t)) table (s_bos s) (s_eos s))),
                         DeltaLm :: LargeLm :: OriginalLm :: ps).
Proof.
  intros costs t s ps (p & co & P & Fp & Gp) (q & cq & Q & Fq & Gq).
  destruct (read_vector costs co Gp) as (a & f & Ea & ->). destruct (read_lm t cq Gq) as (g & f' & Eg & Eq & table & Et).
  exists table. split; [exact Et|].
  destruct (path_set (lit "original_lm") p [] eq_refl P) as (Ep & Np & _).
  destruct (path_set (lit "large_lm") q [] eq_refl Q) as (Eq' & Nq & _).
  unfold Loading.load_lm. rewrite (res_step _ _ _ _ _ _ Eq'). rewrite str_eqb_neq by exact Nq.
  rewrite (res_step _ _ _ _ _ _ Ep). rewrite str_eqb_neq by exact Np.
  rewrite (step _ _ _ _ _ _ _ (open_set p co ps Fp)). rewrite (step _ _ _ _ _ tt (OriginalLm :: ps)) by reflexivity.
  rewrite (step _ _ _ _ _ (map Some costs) (OriginalLm :: ps)) by (unfold read_with; rewrite Ea; reflexivity).
  rewrite (step _ _ _ _ _ _ _ (open_set q cq _ Fq)). rewrite (step _ _ _ _ _ tt (LargeLm :: OriginalLm :: ps)) by reflexivity.
  rewrite (step _ _ _ _ _ g (LargeLm :: OriginalLm :: ps)) by (unfold read_with; rewrite Eg; reflexivity).
  cbv zeta. rewrite Eq. rewrite (res_step _ _ _ _ _ _ Et).
  rewrite (step _ _ _ _ _ tt (DeltaLm :: LargeLm :: OriginalLm :: ps)) by reflexivity.
  unfold load_ret. rewrite value_some. reflexivity.
Qed.

(** * Missing keys and files *)

Definition unnamed (key : bytes) : bytes := lit "Corruption: Unable to find key '" ++ key ++ lit "' in ".

Definition unnamed_keys : list bytes := [lit "fst"; lit "symbol_table"; lit "original_lm"].

Definition absent_text (key : bytes) : bytes :=
  if existsb (str_eqb key) unnamed_keys then unnamed key else no_key_text fn key.

Definition problem (n : need) (msg : bytes) : Prop :=
  last_value lines (Datatypes.fst n) None /\ msg = absent_text (Datatypes.fst n) \/ no_file files hclg fn lines n msg.

Ltac no_braces := split; cbn; intros NB; repeat (destruct NB as [NB|NB]; [discriminate NB|]); exact NB.

Lemma graph_fails : forall msg ps, problem (lit "fst", GraphFile) msg -> load_graph hclg c ps = Ok (inr msg, ps).
Proof.
  intros msg ps [(V & ->)|(p & P & H & ->)]; cbn [Datatypes.fst snd] in *; unfold load_graph.
  - rewrite (res_step _ _ _ _ _ _ (path_absent (lit "fst") [] eq_refl V)). reflexivity.
  - destruct (path_set (lit "fst") p [] eq_refl P) as (E & N & _). rewrite (res_step _ _ _ _ _ _ E).
    rewrite str_eqb_neq by exact N. rewrite H. reflexivity.
Qed.

Lemma words_fails : forall good msg ps, problem (lit "symbol_table", DataFile good) msg ->
  exists ps', load_symbols c ps = Ok (inr msg, ps').
Proof.
  intros good msg ps [(V & ->)|(p & P & H & ->)]; cbn [Datatypes.fst snd] in *; unfold Loading.load_symbols.
  - rewrite (res_step _ _ _ _ _ _ (path_absent (lit "symbol_table") [] eq_refl V)). exists ps. reflexivity.
  - destruct (path_set (lit "symbol_table") p [] eq_refl P) as (E & N & _). rewrite (res_step _ _ _ _ _ _ E).
    rewrite str_eqb_neq by exact N. rewrite (step _ _ _ _ _ tt (Symbols :: ps)) by reflexivity.
    exists (Symbols :: ps). apply stop. now apply open_absent.
Qed.

Definition am_needs : list need := firstn 7 (skipn 1 needs).

Lemma am_met : Forall (met fn lines) am_needs -> exists a, forall ps, load_am c ps = Ok (inl a, ps).
Proof.
  intros M. unfold am_needs in M. cbn [needs LoadingSpec.needs skipn firstn] in M.
  repeat match goal with H : Forall _ (_ :: _) |- _ => inversion H; clear H; subst end.
  unfold LoadingSpec.met in *. cbn [Datatypes.fst snd] in *.
  repeat match goal with
  | H : LoadingSpec.stored_at _ _ _ _ (fun c => exists v, _) |- _ =>
      let p := fresh "p" in let x := fresh "x" in let v := fresh "v" in let G := fresh "G" in let P := fresh "P" in let Q := fresh "Q" in
      destruct H as (p & x & P & Q & v & G)
  | H : exists z, number _ _ z |- _ => destruct H
  end.
  eexists. intros ps. eapply am_set; try eassumption; do 2 eexists; (split; [eassumption|]; split; eassumption).
Qed.

Lemma data_fails : forall A B (m : io A) key good (k : A -> load B) ps msg, lower key = key -> key <> [] -> no_brace key ->
  existsb (str_eqb key) unnamed_keys = false ->
  problem (key, DataFile good) msg -> get_data key m k ps = Ok (inr msg, ps).
Proof.
  intros A B m key good k ps msg L N Nb U [(V & ->)|(p & P & H & ->)]; cbn [Datatypes.fst snd] in *.
  - unfold absent_text. rewrite U. now apply data_no_key.
  - now apply data_no_file.
Qed.

Lemma int_fails : forall B key (k : Z -> load B) ps msg, lower key = key -> key <> [] -> no_brace key ->
  existsb (str_eqb key) unnamed_keys = false ->
  problem (key, Number) msg -> load_bind (load_int c key) k ps = Ok (inr msg, ps).
Proof.
  intros B key k ps msg L N Nb U [(V & ->)|(p & P & H)]; cbn [Datatypes.fst snd] in *; [|destruct H].
  unfold absent_text. rewrite U. apply stop. now apply load_int_absent.
Qed.

Lemma data_met : forall A B key (m : io A) (P : B -> str -> Prop) (Q : B -> A -> Prop), lower key = key ->
  met fn lines (key, DataFile (fun x => exists v, P v x)) ->
  (forall v content, P v content -> exists a f, m (open content) = Ok (Some a, f) /\ Q v a) ->
  exists v a, Q v a /\ forall X (k : A -> load X) ps, get_data key m k ps = k a ps.
Proof.
  intros A B key m P Q L (p & x & Pp & Fp & v & G) R. cbn [Datatypes.fst snd] in *.
  destruct (data_set A m key (P v) (Q v) L) as (a & H & E); [exists p, x; auto|apply R|eauto].
Qed.

Lemma am_fails : forall before n after msg, am_needs = before ++ n :: after -> Forall (met fn lines) before ->
  problem n msg -> forall ps, load_am c ps = Ok (inr msg, ps).
Proof.
  intros before n after msg E M H ps. rewrite am_shape.
  unfold am_needs in E. cbn [LoadingSpec.needs skipn firstn] in E.
  Ltac done_data := eapply data_fails; [reflexivity|discriminate|no_braces|reflexivity|eassumption].
  Ltac done_int := eapply int_fails; [reflexivity|discriminate|no_braces|reflexivity|eassumption].
  Ltac next_int H := let z := fresh "z" in destruct H as (z & H); cbn [Datatypes.fst] in H; rewrite (int_step _ _ z) by (reflexivity || exact H).
  destruct before as [|b1 before]; injection E as <- E; [done_data|]. inversion M as [|? ? M1 M']; clear M; subst.
  destruct (data_met _ _ (lit "nnet") nnet_read _ _ eq_refl M1 read_network) as (v1 & a1 & _ & E1). rewrite E1.
  destruct before as [|b2 before]; injection E as <- E; [done_data|]. inversion M' as [|? ? M2 M3]; clear M'; subst.
  destruct (data_met _ _ (lit "prior") io_vector _ _ eq_refl M2 read_prior) as (v2 & a2 & (_ & Q2) & E2). rewrite E2.
  rewrite (res_step _ _ _ _ _ _ Q2).
  destruct before as [|b3 before]; injection E as <- E; [done_int|]. inversion M3 as [|? ? M4 M5]; clear M3; subst.
  next_int M4.
  destruct before as [|b4 before]; injection E as <- E; [done_int|]. inversion M5 as [|? ? M6 M7]; clear M5; subst.
  next_int M6.
  destruct before as [|b5 before]; injection E as <- E; [done_int|]. inversion M7 as [|? ? M8 M9]; clear M7; subst.
  next_int M8.
  destruct before as [|b6 before]; injection E as <- E; [done_int|]. inversion M9 as [|? ? M10 M11]; clear M9; subst.
  next_int M10.
  destruct before as [|b7 before]; injection E as <- E; [done_data|]. destruct before; discriminate E.
Qed.

Lemma lm_fails : forall v before n after msg s ps, setting lines (lit "large_lm") v ->
  lm_needs = before ++ n :: after -> Forall (met fn lines) before ->
  problem n msg -> exists ps', load_lm c s ps = Ok (inr msg, ps').
Proof.
  intros v before n after msg s ps S E M H. destruct (located_total fn v) as (q & Lq).
  assert (Q : points_to fn lines (lit "large_lm") q) by (exists v; auto).
  destruct (path_set (lit "large_lm") q [] eq_refl Q) as (Eq & Nq & _).
  unfold Loading.load_lm. rewrite (res_step _ _ _ _ _ _ Eq). rewrite str_eqb_neq by exact Nq.
  destruct before as [|b1 before]; injection E as <- E.
  - destruct H as [(V & ->)|(p & P & H & ->)]; cbn [Datatypes.fst snd] in *.
    + rewrite (res_step _ _ _ _ _ _ (path_absent (lit "original_lm") [] eq_refl V)). exists ps. reflexivity.
    + destruct (path_set (lit "original_lm") p [] eq_refl P) as (Ep & Np & _). rewrite (res_step _ _ _ _ _ _ Ep).
      rewrite str_eqb_neq by exact Np. exists ps. apply stop. now apply open_absent.
  - inversion M as [|? ? M1 M']; clear M; subst. destruct before as [|b2 before]; [|destruct before; discriminate E].
    injection E as <- <-. destruct M1 as (p & co & P & Fp & w & G). cbn [Datatypes.fst snd] in *.
    destruct (path_set (lit "original_lm") p [] eq_refl P) as (Ep & Np & _). rewrite (res_step _ _ _ _ _ _ Ep).
    rewrite str_eqb_neq by exact Np. rewrite (step _ _ _ _ _ _ _ (open_set p co ps Fp)).
    rewrite (step _ _ _ _ _ tt (OriginalLm :: ps)) by reflexivity. destruct (read_vector w co G) as (a & f & Ea & _).
    rewrite (step _ _ _ _ _ a (OriginalLm :: ps)) by (unfold read_with; rewrite Ea; reflexivity).
    destruct H as [(V & _)|(p' & P' & H & ->)]; cbn [Datatypes.fst snd] in *.
    + exfalso. pose proof (path_absent (lit "large_lm") [] eq_refl V) as Z0. rewrite Eq in Z0. injection Z0 as Z0. contradiction.
    + destruct (path_set (lit "large_lm") p' [] eq_refl P') as (Ep' & _). rewrite Eq in Ep'. injection Ep' as <-.
      exists (OriginalLm :: ps). apply stop. now apply open_absent.
Qed.

End Known.

(** * Loading succeeds *)

Definition all_parts (with_lm : bool) : list part :=
  Features :: (if with_lm then [DeltaLm; LargeLm; OriginalLm] else []) ++ [Symbols; Acoustic; Graph; Recognizer].

Lemma conf_step : forall content lines name, files name = Some content -> config_lines content lines ->
  exists c, knows c name lines /\ forall B (k : conf -> load B) ps, load_bind (load_conf files why name) k ps = k c ps.
Proof.
  intros content lines name Fn L. destruct (conf_known name content lines L) as (c & E & Kc).
  exists c. split; [exact Kc|]. intros B k ps. apply step. unfold load_conf.
  rewrite (step _ _ _ _ _ _ _ (open_set name content ps Fn)). rewrite (res_step _ _ _ _ _ _ E). reflexivity.
Qed.

Lemma loaded : forall fn m fb, stored O of_word files hclg fn m -> fbank_new O T I junk junk_int = Ok fb ->
  exists rc, stt_init fn = Ok (inl rc, all_parts (match m_lm m with Some _ => true | None => false end)) /\
    made_of O of_word T I junk junk_int lm_fuel m rc.
Proof.
  intros fn m fb (content & lines & Fn & L & (p & Pg & Hg) & Hn & Hp & Hl & Hr & Hc & Hu & Ht & Hw & Hm) Efb.
  unfold Loading.stt_init, Loading.load_parts. rewrite (step _ _ _ _ _ tt [Recognizer]) by reflexivity.
  destruct (conf_step content lines fn Fn L) as (c & Kc & E). rewrite E. clear E.
  rewrite (step _ _ _ _ _ _ _ (graph_set c fn lines Kc p (m_graph m) _ Pg Hg)).
  rewrite (step _ _ _ _ _ tt [Acoustic; Graph; Recognizer]) by reflexivity.
  rewrite (step _ _ _ _ _ _ _ (am_set c fn lines Kc _ _ _ _ _ _ _ _ Hn Hp Hl Hr Hc Hu Ht)).
  destruct (words_set c fn lines Kc _ _ _ [Acoustic; Graph; Recognizer] Hw) as (s & Es & Hs1 & Hs2 & Hb & He).
  rewrite (step _ _ _ _ _ _ _ Es).
  assert (G : exists d ps, load_lm c s [Symbols; Acoustic; Graph; Recognizer] = Ok (inl d, ps) /\
    Features :: ps = all_parts (match m_lm m with Some _ => true | None => false end) /\
    match m_lm m with
    | None => d = None
    | Some (costs, t) => exists table, init_bucket (laid_out (map_weights of_word t)) = Ok table /\
        d = Some (mk_delta (map of_word costs) (laid_out (map_weights of_word t)) table (m_bos m) (m_eos m))
    end).
  { destruct (m_lm m) as [(costs & t)|].
    - destruct Hm as (Ho & Hlm). destruct (lm_set c fn lines Kc costs t s [Symbols; Acoustic; Graph; Recognizer] Ho Hlm) as (table & Et & E).
      rewrite Hb, He in E. do 2 eexists. split; [exact E|]. split; [reflexivity|]. exists table. split; [exact Et|reflexivity].
    - do 2 eexists. split; [apply (lm_absent c fn lines Kc); exact Hm|]. split; reflexivity. }
  destruct G as (d & ps & Ed & Eps & Hd). rewrite (step _ _ _ _ _ _ _ Ed).
  rewrite (res_step _ _ _ _ _ _ Efb). rewrite (step _ _ _ _ _ tt (Features :: ps)) by reflexivity.
  assert (G : exists cache : list (Z * option (arc F)), match d with Some _ => new_cache 1000000 | None => Ok [] end = Ok cache /\
    (forall x, d = Some x -> new_cache 1000000 = Ok cache)).
  { destruct d as [x|]; [|exists []; split; [reflexivity|discriminate]]. unfold new_cache.
    change (0 <=? 1000000) with true. cbn [check bind]. eexists. split; [reflexivity|]. intros; reflexivity. }
  destruct G as (cache & Ec & Hcache). rewrite (res_step _ _ _ _ _ _ Ec).
  cbn [load_ret bind]. eexists. rewrite Eps. split; [reflexivity|].
  unfold made_of. cbn [rc_graph rc_am rc_pdf rc_lm rc_cache rc_fbank rc_symbols am_left am_right am_chunk am_prior am_nnet
    Datatypes.fst snd].
  repeat (split; [reflexivity || assumption|]). 
  destruct (m_lm m) as [(costs & t)|]; [|now rewrite Hd].
  destruct Hd as (table & Et & ->). cbv zeta. exists table. split; [exact Et|]. split; [reflexivity|].
  apply (Hcache _ eq_refl).
Qed.


(** * What is left *)

Definition keeps {A} (m : load A) : Prop := forall ps r ps', m ps = Ok (r, ps') -> stt_destroy ps' = stt_destroy ps.

Lemma keeps_bind : forall A B (m : load A) (k : A -> load B), keeps m -> (forall a, keeps (k a)) -> keeps (load_bind m k).
Proof.
  intros A B m k Hm Hk ps r ps' E. unfold load_bind in E. destruct (m ps) as [(r1 & ps1)|] eqn:E1; [|discriminate].
  cbn [bind] in E. specialize (Hm _ _ _ E1). destruct r1 as [a|w].
  - rewrite (Hk a _ _ _ E). exact Hm.
  - injection E as <- <-. exact Hm.
Qed.

Lemma keeps_ret : forall A (a : A), keeps (load_ret a).
Proof. intros A a ps r ps' E. injection E as _ <-. reflexivity. Qed.

Lemma keeps_fail : forall A w, keeps (@load_fail A w).
Proof. intros A w ps r ps' E. injection E as _ <-. reflexivity. Qed.

Lemma keeps_new : forall p, p <> Recognizer -> keeps (load_new p).
Proof. intros p N ps r ps' E. injection E as _ <-. destruct p; try reflexivity. contradiction. Qed.

Lemma keeps_res : forall A (m : res A), keeps (load_res m).
Proof. intros A [a|] ps r ps' E; [|discriminate]. injection E as _ <-. reflexivity. Qed.

Lemma keeps_read : forall A (m : io A) name content, keeps (read_with why m name content).
Proof.
  intros A m name content ps r ps' E. unfold read_with in E. destruct (m (open content)) as [(x & f)|]; [|discriminate].
  injection E as _ <-. reflexivity.
Qed.

Lemma keeps_open : forall name, keeps (open_file files name).
Proof. intros name. unfold open_file. destruct (files name); [apply keeps_ret|apply keeps_fail]. Qed.

Ltac keep :=
  repeat first
    [ apply keeps_bind; [|intros]
    | apply keeps_ret | apply keeps_fail | apply keeps_res | apply keeps_read | apply keeps_open
    | apply keeps_new; discriminate
    | match goal with |- keeps (if ?b then _ else _) => destruct b end
    | match goal with |- keeps (match ?b with _ => _ end) => destruct b end ].

Lemma keeps_path : forall c key, keeps (load_path c key).
Proof. intros c key. unfold load_path, key_not_found. keep. Qed.

Lemma keeps_int : forall c key, keeps (load_int c key).
Proof. intros c key. unfold load_int, key_not_found. keep. Qed.

Lemma init_leaves : forall fn r ps, stt_init fn = Ok (r, ps) ->
  stt_destroy ps = [Recognizer] /\ forall w, r = inr w -> ps = [Recognizer].
Proof.
  intros fn r ps E. unfold Loading.stt_init in E. destruct (load_parts fn []) as [(r1 & ps1)|] eqn:E1; [|discriminate].
  cbn [bind] in E.
  assert (D : stt_destroy ps1 = [Recognizer]).
  { unfold Loading.load_parts in E1. rewrite (step _ _ _ _ _ tt [Recognizer]) in E1 by reflexivity.
    match type of E1 with ?m _ = _ => assert (H : keeps m) end.
    { unfold load_conf, load_graph, Loading.load_am, Loading.load_symbols, Loading.load_lm.
      keep; first [apply keeps_path|apply keeps_int|idtac]. }
    rewrite (H _ _ _ E1). reflexivity. }
  destruct r1 as [rc|w]; injection E as <- <-.
  - split; [exact D|discriminate].
  - split; [|intros; exact D]. rewrite D. reflexivity.
Qed.

(** * Loading fails *)

Lemma init_fails : forall fn w ps, load_parts fn [] = Ok (inr w, ps) -> stt_init fn = Ok (inr w, [Recognizer]).
Proof.
  intros fn w ps E. assert (G : stt_init fn = Ok (inr w, stt_destroy ps)) by (unfold Loading.stt_init; rewrite E; reflexivity).
  rewrite G. destruct (init_leaves _ _ _ G) as (_ & H). rewrite (H w eq_refl). reflexivity.
Qed.

Lemma no_config : forall fn, files fn = None -> stt_init fn = Ok (inr (no_file_text fn), [Recognizer]).
Proof.
  intros fn N. apply (init_fails _ _ [Recognizer]). unfold Loading.load_parts.
  rewrite (step _ _ _ _ _ tt [Recognizer]) by reflexivity. apply stop. unfold load_conf. apply stop. now apply open_absent.
Qed.

Lemma split_at : forall A (l r before : list A) n after, l ++ r = before ++ n :: after ->
  (exists after', l = before ++ n :: after') \/ exists before', before = l ++ before' /\ r = before' ++ n :: after.
Proof.
  induction l as [|a l IH]; intros r before n after E.
  - right. exists before. split; [reflexivity|exact E].
  - destruct before as [|b q]; cbn [app] in E; injection E as <- E; [left; exists l; reflexivity|].
    destruct (IH r q n after E) as [(x & H)|(y & H & E')].
    + left. exists x. cbn [app]. now rewrite <- H.
    + right. exists y. split; [cbn [app]; now rewrite H|exact E'].
Qed.

Lemma load_problem : forall fn content lines ns before n after msg, files fn = Some content -> config_lines content lines ->
  all_needs O of_word lines ns -> ns = before ++ n :: after -> Forall (met fn lines) before ->
  problem fn lines n msg -> stt_init fn = Ok (inr msg, [Recognizer]).
Proof.
  intros fn content lines ns before n after msg Fn L A E M H.
  assert (G : exists ps, load_parts fn [] = Ok (inr msg, ps)); [|destruct G as (ps & G); exact (init_fails _ _ _ G)].
  unfold Loading.load_parts. rewrite (step _ _ _ _ _ tt [Recognizer]) by reflexivity.
  destruct (conf_step content lines fn Fn L) as (c & Kc & Ec). rewrite Ec. clear Ec.
  (* the shape of the list *)
  assert (N : exists rest, ns = (lit "fst", GraphFile) :: am_needs ++
            (lit "symbol_table", DataFile (fun c => exists es b e, words_file es b e c)) :: rest /\
            (rest = [] \/ (exists v, setting lines (lit "large_lm") v) /\ rest = lm_needs)).
  { destruct A as [(_ & ->)|(S & ->)]; [exists []; split; [reflexivity|now left]|exists lm_needs].
    split; [reflexivity|]. right. now split. }
  destruct N as (rest & -> & R).
  destruct before as [|b1 before]; injection E as <- E.
  { eexists. apply stop. apply (graph_fails c fn lines Kc _ _ H). }
  inversion M as [|? ? M1 M2]; clear M; subst. destruct M1 as (p & g & P & Hg). cbn [Datatypes.fst snd] in *.
  rewrite (step _ _ _ _ _ _ _ (graph_set c fn lines Kc p g _ P Hg)).
  rewrite (step _ _ _ _ _ tt [Acoustic; Graph; Recognizer]) by reflexivity.
  (* in the acoustic model or behind it *)
  assert (Sp : (exists after', am_needs = before ++ n :: after') \/
               exists before', before = am_needs ++ before' /\
                 (lit "symbol_table", DataFile (fun c => exists es b e, words_file es b e c)) :: rest = before' ++ n :: after).
  { exact (split_at _ am_needs _ before n after E). }
  destruct Sp as [(after' & Ea)|(before' & -> & E')].
  { eexists. apply stop. apply (am_fails c fn lines Kc _ _ _ _ Ea M2 H). }
  apply Forall_app in M2. destruct M2 as (M2 & M3). destruct (am_met c fn lines Kc M2) as (a & Ea).
  rewrite (step _ _ _ _ _ _ _ (Ea _)).
  destruct before' as [|b1 before']; injection E' as <- E'.
  { destruct (words_fails c fn lines Kc _ _ [Acoustic; Graph; Recognizer] H) as (ps & Ew). exists ps. now apply stop. }
  pose proof (Forall_inv M3) as M4. pose proof (Forall_inv_tail M3) as M5. destruct M4 as (q & x & Q & Fq & es & b & e & W). cbn [Datatypes.fst snd] in *.
  destruct (words_set c fn lines Kc es b e [Acoustic; Graph; Recognizer]) as (s & Es & _); [exists q, x; auto|].
  rewrite (step _ _ _ _ _ _ _ Es).
  destruct R as [R|((v & S) & R)]; rewrite R in E'; [destruct before'; discriminate E'|].
  destruct (lm_fails c fn lines Kc v _ _ _ _ s [Symbols; Acoustic; Graph; Recognizer] S E' M5 H) as (ps & El).
  exists ps. now apply stop.
Qed.


(** * Nothing is overlooked *)

Lemma bind_inv : forall A B (m : load A) (k : A -> load B) ps b ps', load_bind m k ps = Ok (inl b, ps') ->
  exists a ps1, m ps = Ok (inl a, ps1) /\ k a ps1 = Ok (inl b, ps').
Proof.
  intros A B m k ps b ps' E. unfold load_bind in E. destruct (m ps) as [([a|w] & ps1)|]; [|discriminate|discriminate].
  exists a, ps1. split; [reflexivity|exact E].
Qed.

Lemma res_inv : forall A (m : res A) ps a ps1, load_res m ps = Ok (inl a, ps1) -> m = Ok a.
Proof. intros A [x|] ps a ps1 E; [|discriminate]. injection E as <- _. reflexivity. Qed.

Lemma open_inv : forall p x ps ps1, open_file files p ps = Ok (inl x, ps1) -> files p = Some x.
Proof. intros p x ps ps1 E. unfold open_file in E. destruct (files p); [injection E as <- _; reflexivity|discriminate]. Qed.

Lemma read_inv : forall A (m : io A) p x ps a ps1, read_with why m p x ps = Ok (inl a, ps1) ->
  exists f, m (open x) = Ok (Some a, f).
Proof.
  intros A m p x ps a ps1 E. unfold read_with in E. destruct (m (open x)) as [([b|] & f)|]; try discriminate.
  injection E as <- _. eauto.
Qed.

Lemma vector_inv : forall x a f, byte_list x -> io_vector (open x) = Ok (Some a, f) -> exists v, is_vector v x.
Proof.
  intros x a f B E. unfold io_vector in E. destruct (vec_read [] (open x)) as [((b & v) & g)|] eqn:V; [|discriminate].
  destruct b; [|discriminate]. injection E as <- <-. apply Formats.vec_read_only in V; [|exact B].
  destruct V as (w & S & _ & E & _). exists w, (f_rest g). split; assumption.
Qed.

Section Checked.
Variable c : conf.
Variable fn : bytes.
Variable lines : list str.
Hypothesis K : knows c fn lines.
Hypothesis Fl : Forall fine lines.

Lemma set_or_not : forall key, lower key = key ->
  (exists v, setting lines key v) \/ forall d, get_path c key d = Ok d /\ get_integer c key = Ok None.
Proof.
  intros key L. destruct (last_value_total lines key Fl) as (r & R). destruct K as (_ & Kv).
  pose proof (Kv key r default_string L R) as G. destruct r as [v|].
  - destruct (list_eq_dec Z.eq_dec v default_string) as [->|N]; [|left; exists v; split; assumption].
    right. intros d. unfold get_path, get_integer, get_integer_or_else. rewrite G, str_eqb_refl. split; reflexivity.
  - right. intros d. unfold get_path, get_integer, get_integer_or_else. rewrite G, str_eqb_refl. split; reflexivity.
Qed.

Lemma path_found : forall key p, lower key = key -> get_path c key [] = Ok p -> p <> [] -> points_to fn lines key p.
Proof.
  intros key p L E N. destruct (set_or_not key L) as [(v & S)|H].
  - destruct (located_total fn v) as (p' & P). assert (Q : points_to fn lines key p') by (exists v; auto).
    destruct (path_set c fn lines K key p' [] L Q) as (E' & _). rewrite E in E'. injection E' as ->. exact Q.
  - rewrite (proj1 (H [])) in E. congruence.
Qed.

Lemma path_read : forall key p ps ps1, lower key = key -> load_path c key ps = Ok (inl p, ps1) -> points_to fn lines key p.
Proof.
  intros key p ps ps1 L E. destruct (set_or_not key L) as [(v & S)|H].
  - destruct (located_total fn v) as (p' & P). assert (Q : points_to fn lines key p') by (exists v; auto).
    rewrite (load_path_set c fn lines K key p' ps L Q) in E. injection E as <- _. exact Q.
  - unfold load_path, load_bind, load_res, get_path_status in E. rewrite (proj1 (H _)) in E. cbn [bind] in E.
    rewrite str_eqb_refl in E. discriminate E.
Qed.

Lemma int_read : forall key z ps ps1, lower key = key -> load_int c key ps = Ok (inl z, ps1) -> exists s, setting lines key s.
Proof.
  intros key z ps ps1 L E. destruct (set_or_not key L) as [S|H]; [exact S|].
  unfold load_int, load_bind, load_res in E. rewrite (proj2 (H [])) in E. discriminate E.
Qed.

Lemma data_read : forall A B key (m : io A) (k : A -> load B) ps b ps', lower key = key ->
  get_data c key m k ps = Ok (inl b, ps') ->
  exists p x a f ps1, points_to fn lines key p /\ files p = Some x /\ m (open x) = Ok (Some a, f) /\ k a ps1 = Ok (inl b, ps').
Proof.
  intros A B key m k ps b ps' L E. unfold get_data in E.
  apply bind_inv in E. destruct E as (p & ps1 & E1 & E). apply (path_read key) in E1; [|exact L].
  apply bind_inv in E. destruct E as (x & ps2 & E2 & E). apply open_inv in E2.
  apply bind_inv in E. destruct E as (a & ps3 & E3 & E). apply read_inv in E3. destruct E3 as (f & E3).
  exists p, x, a, f, ps3. auto.
Qed.

Definition has_file (key : bytes) : Prop := exists p x, points_to fn lines key p /\ files p = Some x.
Definition has_vector (key : bytes) : Prop :=
  exists p x, points_to fn lines key p /\ files p = Some x /\ (byte_list x -> exists v, is_vector v x).

Lemma am_read : forall a ps ps', load_am c ps = Ok (inl a, ps') ->
  has_file (lit "nnet") /\ has_vector (lit "prior") /\
  (forall key, In key [lit "left_context"; lit "right_context"; lit "chunk_size"; lit "num_pdfs"] -> exists s, setting lines key s) /\
  has_vector (lit "tid2pdf").
Proof.
  intros a ps ps' E. rewrite am_shape in E.
  apply data_read in E; [|reflexivity]. destruct E as (p & x & b & f & ps1 & P & X & _ & E).
  split; [exists p, x; auto|]. clear p x f P X.
  apply data_read in E; [|reflexivity]. destruct E as (p & x & b2 & f & ps2 & P & X & V & E).
  split; [exists p, x; split; [exact P|]; split; [exact X|]; intros B; exact (vector_inv x b2 f B V)|]. clear p x f P X V.
  apply bind_inv in E. destruct E as (lp & ps3 & _ & E).
  apply bind_inv in E. destruct E as (z1 & ps4 & E1 & E). apply int_read in E1; [|reflexivity].
  apply bind_inv in E. destruct E as (z2 & ps5 & E2 & E). apply int_read in E2; [|reflexivity].
  apply bind_inv in E. destruct E as (z3 & ps6 & E3 & E). apply int_read in E3; [|reflexivity].
  apply bind_inv in E. destruct E as (z4 & ps7 & E4 & E). apply int_read in E4; [|reflexivity].
  split; [intros key [<-|[<-|[<-|[<-|[]]]]]; assumption|].
  apply data_read in E; [|reflexivity]. destruct E as (p & x & d & f & ps8 & P & X & V & E).
  exists p, x. split; [exact P|]. split; [exact X|]. intros B. exact (vector_inv x d f B V).
Qed.

Lemma graph_read : forall g ps ps', load_graph hclg c ps = Ok (inl g, ps') ->
  exists p, points_to fn lines (lit "fst") p /\ hclg p = Ok (Some g).
Proof.
  intros g ps ps' E. unfold load_graph in E. apply bind_inv in E. destruct E as (p & ps1 & E1 & E). apply res_inv in E1.
  destruct (list_eq_dec Z.eq_dec p []) as [->|N]; [discriminate E|]. rewrite str_eqb_neq in E by exact N.
  exists p. split; [apply path_found; auto; reflexivity|]. unfold load_bind, load_res in E.
  destruct (hclg p) as [[g'|]|]; [|discriminate E|discriminate E]. injection E as <- _. reflexivity.
Qed.

Lemma words_read : forall s ps ps', load_symbols c ps = Ok (inl s, ps') -> has_file (lit "symbol_table").
Proof.
  intros s ps ps' E. unfold Loading.load_symbols in E. apply bind_inv in E. destruct E as (p & ps1 & E1 & E). apply res_inv in E1.
  destruct (list_eq_dec Z.eq_dec p []) as [->|N]; [discriminate E|]. rewrite str_eqb_neq in E by exact N.
  apply bind_inv in E. destruct E as (_ & ps2 & _ & E). apply bind_inv in E. destruct E as (x & ps3 & E2 & E).
  apply open_inv in E2. exists p, x. split; [apply path_found; auto; reflexivity|exact E2].
Qed.

Lemma lm_read : forall v s d ps ps', setting lines (lit "large_lm") v -> load_lm c s ps = Ok (inl d, ps') ->
  has_vector (lit "original_lm") /\ has_file (lit "large_lm").
Proof.
  intros v s d ps ps' S E. unfold Loading.load_lm in E.
  destruct (located_total fn v) as (q & Lq). assert (Q : points_to fn lines (lit "large_lm") q) by (exists v; auto).
  destruct (path_set c fn lines K (lit "large_lm") q [] eq_refl Q) as (Eq & Nq & _).
  rewrite (res_step _ _ _ _ _ _ Eq) in E. rewrite str_eqb_neq in E by exact Nq.
  apply bind_inv in E. destruct E as (p & ps1 & E1 & E). apply res_inv in E1.
  destruct (list_eq_dec Z.eq_dec p []) as [->|N]; [discriminate E|]. rewrite str_eqb_neq in E by exact N.
  apply bind_inv in E. destruct E as (x & ps3 & E2 & E). apply open_inv in E2.
  apply bind_inv in E. destruct E as (_ & ps4 & _ & E). apply bind_inv in E. destruct E as (a & ps5 & E3 & E).
  apply read_inv in E3. destruct E3 as (f & E3).
  apply bind_inv in E. destruct E as (y & ps6 & E4 & E). apply open_inv in E4.
  split; [|exists q, y; auto]. exists p, x. split; [apply path_found; auto; reflexivity|]. split; [exact E2|].
  intros B. exact (vector_inv x a f B E3).
Qed.

End Checked.

Lemma only_complete : forall fn rc ps, stt_init fn = Ok (inl rc, ps) ->
  exists content, files fn = Some content /\
  forall lines, config_lines content lines -> forall ns, all_needs O of_word lines ns ->
  Forall (available files hclg fn lines) ns /\
  forall key good, In (key, DataFile good) ns -> In key [lit "prior"; lit "tid2pdf"; lit "original_lm"] ->
  exists p x, points_to fn lines key p /\ files p = Some x /\ (byte_list x -> exists v, is_vector v x).
Proof.
  intros fn rc ps E. unfold Loading.stt_init in E. destruct (load_parts fn []) as [([rc1|w] & ps1)|] eqn:E1; try discriminate.
  clear E. unfold Loading.load_parts in E1. rewrite (step _ _ _ _ _ tt [Recognizer]) in E1 by reflexivity.
  pose proof E1 as E0. apply bind_inv in E0. destruct E0 as (c0 & psx & E0 & _). unfold load_conf in E0.
  apply bind_inv in E0. destruct E0 as (content & psy & E0 & _). apply open_inv in E0.
  exists content. split; [exact E0|]. intros lines L ns A.
  destruct (conf_step content lines fn E0 L) as (c & Kc & Ec). rewrite Ec in E1. clear Ec.
  assert (Fl : Forall fine lines) by (destruct L as (ls & l & _ & _ & _ & _ & G); exact G).
  apply bind_inv in E1. destruct E1 as (g & ps2 & G & E1). destruct (graph_read c fn lines Kc Fl _ _ _ G) as (p & Pg & Hg).
  apply bind_inv in E1. destruct E1 as (_ & ps3 & _ & E1).
  apply bind_inv in E1. destruct E1 as (a & ps4 & Ea & E1). destruct (am_read c fn lines Kc Fl _ _ _ Ea) as (Hn & Hp & Hi & Ht).
  apply bind_inv in E1. destruct E1 as (s & ps5 & Es & E1). pose proof (words_read c fn lines Kc Fl _ _ _ Es) as Hs.
  apply bind_inv in E1. destruct E1 as (d & ps6 & Ed & E1).
  assert (V : forall key, has_vector fn lines key -> has_file fn lines key) by (intros key (x & y & H1 & H2 & _); exists x, y; auto).
  assert (Nd : Forall (available files hclg fn lines) needs).
  { repeat constructor; unfold available; cbn [Datatypes.fst snd].
    - exists p, g. auto.
    - exact Hn.
    - exact (V _ Hp).
    - apply Hi. now left.
    - apply Hi. right. now left.
    - apply Hi. do 2 right. now left.
    - apply Hi. do 3 right. now left.
    - exact (V _ Ht).
    - exact Hs. }
  destruct A as [(_ & ->)|((v & S) & ->)].
  - split; [exact Nd|]. intros key good J [<-|[<-|[<-|[]]]]; [exact Hp|exact Ht|].
    exfalso. cbn in J. repeat (destruct J as [J|J]; [discriminate J|]). exact J.
  - destruct (lm_read c fn lines Kc Fl v _ _ _ _ S Ed) as (Ho & Hl). split.
    + apply Forall_app. split; [exact Nd|]. repeat constructor; [exact (V _ Ho)|exact Hl].
    + intros key good _ [<-|[<-|[<-|[]]]]; [exact Hp|exact Ht|exact Ho].
Qed.


(** * Crashes *)

Lemma apply_log_bad : forall v, Exists (fun x => f_nonneg O x = false) v -> apply_log O v = Fault Assert.
Proof.
  intros v H. unfold apply_log. 
  assert (G : forall out, for_each v (fun out x => _ <- check (f_nonneg O x) Assert ;; Ok (out ++ [f_log O x])) out = Fault Assert);
    [|exact (G [])].
  induction v as [|x v IH]; intros out; [inversion H|].
  cbn [for_each]. destruct (f_nonneg O x) eqn:E; cbn [check bind]; [|reflexivity].
  inversion H as [? ? H1|? ? H1]; subst; [congruence|]. apply IH, H1.
Qed.

Lemma crash_am : forall fn content lines, files fn = Some content -> config_lines content lines ->
  Forall (met fn lines) (firstn 1 needs) ->
  exists c, knows c fn lines /\ forall e, load_am c [Acoustic; Graph; Recognizer] = Fault e -> stt_init fn = Fault e.
Proof.
  intros fn content lines Fn L M. unfold Loading.stt_init, Loading.load_parts.
  rewrite (step _ _ _ _ _ tt [Recognizer]) by reflexivity.
  destruct (conf_step content lines fn Fn L) as (c & Kc & Ec). rewrite Ec. clear Ec. exists c. split; [exact Kc|].
  apply Forall_inv in M. destruct M as (p & g & P & Hg). cbn [Datatypes.fst snd] in *.
  rewrite (step _ _ _ _ _ _ _ (graph_set c fn lines Kc p g _ P Hg)).
  rewrite (step _ _ _ _ _ tt [Acoustic; Graph; Recognizer]) by reflexivity.
  intros e E. unfold load_bind at 1. rewrite E. reflexivity.
Qed.

Lemma negative_prior : forall fn content lines v, files fn = Some content -> config_lines content lines ->
  Forall (met fn lines) (firstn 2 needs) -> stored_at fn lines (lit "prior") (is_vector v) ->
  Exists (fun w => f_nonneg O (of_word w) = false) v -> stt_init fn = Fault Assert.
Proof.
  intros fn content lines v Fn L M P N. inversion M as [|? ? M1 M2]; clear M; subst.
  destruct (crash_am fn content lines Fn L) as (c & Kc & H); [constructor; [exact M1|constructor]|]. apply H.
  rewrite am_shape. apply Forall_inv in M2.
  destruct (data_met c fn lines Kc _ _ (lit "nnet") nnet_read _ _ eq_refl M2 read_network) as (v1 & a1 & _ & E1). rewrite E1.
  destruct (data_set c fn lines Kc _ io_vector (lit "prior") _ _ eq_refl P (read_vector v)) as (a & -> & E). rewrite E.
  unfold load_bind at 1. unfold load_res at 1. rewrite value_some, apply_log_bad; [reflexivity|]. now apply Exists_map.
Qed.

Lemma no_number : forall fn content lines s x, files fn = Some content -> config_lines content lines ->
  Forall (met fn lines) (firstn 3 needs) -> setting lines (lit "left_context") (x :: s) -> 65 <= x ->
  stt_init fn = Fault Throw.
Proof.
  intros fn content lines s x Fn L M (S & R) X. inversion M as [|? ? M1 M2]; clear M; subst.
  destruct (crash_am fn content lines Fn L) as (c & Kc & H); [constructor; [exact M1|constructor]|]. apply H.
  rewrite am_shape. pose proof (Forall_inv M2) as M3. pose proof (Forall_inv (Forall_inv_tail M2)) as M4.
  destruct (data_met c fn lines Kc _ _ (lit "nnet") nnet_read _ _ eq_refl M3 read_network) as (v1 & a1 & _ & E1). rewrite E1.
  destruct (data_met c fn lines Kc _ _ (lit "prior") io_vector _ _ eq_refl M4 read_prior) as (v2 & a2 & (_ & Q2) & E2). rewrite E2.
  rewrite (res_step _ _ _ _ _ _ Q2). unfold load_bind at 1. unfold load_int, load_bind, load_res, get_integer, get_integer_or_else.
  rewrite (proj2 Kc (lit "left_context") _ default_string eq_refl S).
  rewrite str_eqb_neq by exact R. unfold stoi. cbn [skip_space]. rewrite (proj2 (isspace_not x)) by (unfold white; lia).
  destruct (Z.eqb_spec x 45); [lia|]. destruct (Z.eqb_spec x 43); [lia|]. rewrite digit10_none by lia. reflexivity.
Qed.

(** * Damaged text files *)

Lemma damaged_config : forall fn content ps e rs bad, files fn = Some content -> pieces content ps e -> Forall2 shown ps rs ->
  In bad rs -> ~ no_effect bad -> (forall k v, ~ taken bad k v) -> stt_init fn = Ok (inr (why fn), [Recognizer]).
Proof.
  intros fn content ps e rs bad Fn P S J N1 N2. apply (init_fails _ _ [Recognizer]). unfold Loading.load_parts.
  rewrite (step _ _ _ _ _ tt [Recognizer]) by reflexivity. apply stop. unfold load_conf.
  rewrite (step _ _ _ _ _ _ _ (open_set fn content _ Fn)).
  destruct (ConfigExact.config_exact fn content ps e rs P S) as (c & ok & E & A & _).
  rewrite (res_step _ _ _ _ _ _ E). destruct ok; [|reflexivity]. exfalso. pose proof (proj1 A eq_refl) as G.
  rewrite Forall_forall in G. destruct (G _ J) as [G'|(k & v & G')]; [contradiction|exact (N2 _ _ G')].
Qed.

Lemma loaded_words : forall fn rc ps, stt_init fn = Ok (inl rc, ps) ->
  exists content, files fn = Some content /\
  (forall cs e rs, pieces content cs e -> Forall2 shown cs rs -> Forall (fun l => no_effect l \/ exists k v, taken l k v) rs) /\
  forall lines, config_lines content lines ->
  exists p x es, points_to fn lines (lit "symbol_table") p /\ files p = Some x /\ words_entries x es /\
    SymbolsExact.tells (rc_symbols rc) es.
Proof.
  intros fn rc ps E. unfold Loading.stt_init in E. destruct (load_parts fn []) as [([rc1|w] & ps1)|] eqn:E1; try discriminate.
  cbn [bind] in E. injection E as -> _. unfold Loading.load_parts in E1. rewrite (step _ _ _ _ _ tt [Recognizer]) in E1 by reflexivity.
  pose proof E1 as E0. apply bind_inv in E0. destruct E0 as (c0 & psx & E0 & _). unfold load_conf in E0.
  apply bind_inv in E0. destruct E0 as (content & psy & E0 & E2). apply open_inv in E0.
  exists content. split; [exact E0|]. split.
  { intros cs e rs P S. destruct (ConfigExact.config_exact fn content cs e rs P S) as (c & ok & E & A & _).
    rewrite (res_step _ _ _ _ _ _ E) in E2. destruct ok; [now apply A|discriminate]. }
  intros lines L.
  destruct (conf_step content lines fn E0 L) as (c & Kc & Ec). rewrite Ec in E1. clear Ec.
  assert (Fl : Forall fine lines) by (destruct L as (ls & l & _ & _ & _ & _ & G); exact G).
  apply bind_inv in E1. destruct E1 as (g & ps2 & _ & E1). apply bind_inv in E1. destruct E1 as (_ & ps3 & _ & E1).
  apply bind_inv in E1. destruct E1 as (a & ps4 & _ & E1). apply bind_inv in E1. destruct E1 as (s & ps5 & Es & E1).
  assert (R : rc_symbols rc = s).
  { apply bind_inv in E1. destruct E1 as (d & ps6 & _ & E1). apply bind_inv in E1. destruct E1 as (fb & ps7 & _ & E1).
    apply bind_inv in E1. destruct E1 as (_ & ps8 & _ & E1). apply bind_inv in E1. destruct E1 as (cache & ps9 & _ & E1).
    unfold load_ret in E1. injection E1 as <- _. reflexivity. }
  rewrite R. unfold Loading.load_symbols in Es. apply bind_inv in Es. destruct Es as (p & ps6 & E3 & Es). apply res_inv in E3.
  destruct (list_eq_dec Z.eq_dec p []) as [->|N]; [discriminate Es|]. rewrite str_eqb_neq in Es by exact N.
  apply bind_inv in Es. destruct Es as (_ & ps7 & _ & Es). apply bind_inv in Es. destruct Es as (x & ps8 & E4 & Es).
  apply open_inv in E4. apply bind_inv in Es. destruct Es as ((t & ok) & ps9 & E5 & Es). apply res_inv in E5. cbn [Datatypes.fst snd] in Es.
  destruct ok; [|discriminate]. unfold load_ret in Es. injection Es as -> _.
  destruct (SymbolsExact.words_accepted _ _ E5) as (es & W & H).
  exists p, x, es. split; [|split; [exact E4|split; [exact W|exact H]]].
  apply (path_found c fn lines Kc Fl); auto; reflexivity.
Qed.

Lemma damaged_words : forall fn content lines p x ps e rs, files fn = Some content -> config_lines content lines ->
  Forall (met fn lines) (firstn 8 needs) -> points_to fn lines (lit "symbol_table") p -> files p = Some x ->
  pieces x ps e -> Forall2 shown ps rs ->
  (forall l w id, In l rs -> word_entry l w id -> 0 <= id < 288230376151711743) ->
  (forall es, ~ words_entries x es) -> stt_init fn = Ok (inr (why p), [Recognizer]).
Proof.
  intros fn content lines p x ps e rs Fn L M P Fp Pi S R N.
  assert (G : exists ps, load_parts fn [] = Ok (inr (why p), ps)); [|destruct G as (qs & G); exact (init_fails _ _ _ G)].
  unfold Loading.load_parts. rewrite (step _ _ _ _ _ tt [Recognizer]) by reflexivity.
  destruct (conf_step content lines fn Fn L) as (c & Kc & Ec). rewrite Ec. clear Ec.
  pose proof (Forall_inv M) as M1. pose proof (Forall_inv_tail M) as M2. destruct M1 as (q & g & Q & Hg). cbn [Datatypes.fst snd] in *.
  rewrite (step _ _ _ _ _ _ _ (graph_set c fn lines Kc q g _ Q Hg)).
  rewrite (step _ _ _ _ _ tt [Acoustic; Graph; Recognizer]) by reflexivity.
  destruct (am_met c fn lines Kc M2) as (a & Ea). rewrite (step _ _ _ _ _ _ _ (Ea _)).
  eexists. apply stop. unfold Loading.load_symbols. destruct (path_set c fn lines Kc (lit "symbol_table") p [] eq_refl P) as (E & Np & _).
  rewrite (res_step _ _ _ _ _ _ E). rewrite str_eqb_neq by exact Np.
  rewrite (step _ _ _ _ _ tt [Symbols; Acoustic; Graph; Recognizer]) by reflexivity.
  rewrite (step _ _ _ _ _ _ _ (open_set p x _ Fp)).
  destruct (SymbolsExact.words_rejected x ps e rs Pi S R N) as (t & Et). rewrite (res_step _ _ _ _ _ _ Et). reflexivity.
Qed.

End Loading.
