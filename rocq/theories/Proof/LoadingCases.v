(** A model in files and what is made of it. *)
From Coq Require Import ZArith Reals String List Bool Lia Lra.
From Verif.Base Require Import Prelude Lemmas.
From Verif.Model Require Import Util File Arith Srfft FbankInit Nnet Am Configuration SymbolTable Fst Decoder Stt Loading Exact.
From Verif.Spec Require Import AudioSpec AmSpec FormatSpec TextSpec FstSpec LoadingSpec.
From Verif.Proof Require Import Text Lines Config Loading.
From Verif.Proof Require TextCases Lm Mel.
Import ListNotations.
Open Scope Z_scope.

(** * Reading configuration lines by computation *)

Fixpoint cut (t : str) : option (str * str) :=
  match t with
  | [] => None
  | x :: r => if x =? 61 then Some ([], r)
              else match cut r with Some (a, b) => Some (x :: a, b) | None => None end
  end.

Lemma cut_sound : forall t a b, cut t = Some (a, b) -> t = a ++ [61] ++ b /\ ~ In 61 a.
Proof.
  induction t as [|x t IH]; intros a b E; [discriminate|]. cbn [cut] in E. destruct (Z.eqb_spec x 61) as [->|N].
  - injection E as <- <-. split; [reflexivity|intros []].
  - destruct (cut t) as [(a' & b')|]; [|discriminate]. injection E as <- <-.
    destruct (IH a' b' eq_refl) as (-> & N'). split; [reflexivity|]. intros [J|J]; [congruence|contradiction].
Qed.

Definition classify (l : str) : option (option (str * str)) :=
  match trim l with
  | [] => Some None
  | x :: r =>
      if x =? 35 then Some None
      else match cut (x :: r) with
           | Some (a, b) => if in_dec Z.eq_dec 61 b then None
                            else match trim b with [] => None | v => Some (Some (lower (trim a), v)) end
           | None => None
           end
  end.

Lemma classify_none : forall l, classify l = Some None -> no_effect l.
Proof.
  intros l E. exists (trim l). split; [apply trim_trimmed|]. unfold classify in E. destruct (trim l) as [|x r]; [now left|].
  destruct (Z.eqb_spec x 35) as [->|]; [right; eauto|]. destruct (cut (x :: r)) as [(a & b)|]; [|discriminate].
  destruct (in_dec Z.eq_dec 61 b); [discriminate|]. destruct (trim b); discriminate.
Qed.

Lemma classify_some : forall l k v, classify l = Some (Some (k, v)) -> entry l k v.
Proof.
  intros l k v E. unfold classify in E. pose proof (trim_trimmed l) as Tl. destruct (trim l) as [|x r]; [discriminate|].
  destruct (Z.eqb_spec x 35) as [|Nx]; [discriminate|].
  destruct (cut (x :: r)) as [(a & b)|] eqn:C; [|discriminate]. apply cut_sound in C. destruct C as (C & Na).
  destruct (in_dec Z.eq_dec 61 b) as [|Nb]; [discriminate|]. pose proof (trim_trimmed b) as Tb.
  destruct (trim b) as [|y w]; [discriminate|]. injection E as <- <-.
  exists (x :: r), a, b, (trim a). split; [exact Tl|]. split; [exact C|]. split; [exact Na|]. split; [exact Nb|].
  split; [intros q Q; injection Q as Q _; contradiction|]. split; [apply trim_trimmed|]. split; [apply lower_lower_case|].
  split; [exact Tb|discriminate].
Qed.

Fixpoint look (rls : list str) (k : str) : option (option str) :=
  match rls with
  | [] => Some None
  | l :: r =>
      match classify l with
      | None => None
      | Some None => look r k
      | Some (Some (k', v)) => if list_eq_dec Z.eq_dec k' k then Some (Some v) else look r k
      end
  end.

Lemma look_sound : forall rls k r, look rls k = Some r -> last_value (rev rls) k r.
Proof.
  induction rls as [|l rls IH]; intros k r E; cbn [look rev] in *; [injection E as <-; constructor|].
  destruct (classify l) as [[(k' & v)|]|] eqn:C; [| |discriminate].
  - apply classify_some in C. destruct (list_eq_dec Z.eq_dec k' k) as [->|N].
    + injection E as <-. now apply LVhere.
    + eapply LVother; [exact C|exact N|now apply IH].
  - apply classify_none in C. apply LVskip; [exact C|now apply IH].
Qed.

Lemma plain_by l : forallb (fun c => negb (c =? 10) && negb (c =? 0)) l && (Z.of_nat (length l) <? 4095) = true -> plain_line l.
Proof.
  intros E. apply andb_prop in E. destruct E as (E & L). apply TextCases.plain_dec; [|now apply Z.ltb_lt].
  rewrite Forall_forall. rewrite forallb_forall in E. intros c J. specialize (E c J). apply andb_prop in E.
  destruct E as (A & B). split; intros ->; discriminate.
Qed.

Ltac plain9 := apply plain_by; vm_compute; reflexivity.

(** * The model *)

Definition lines9 : list str := map lit
  ["# a model"; ""; "fst = g"; "Nnet=/n"; "prior=p"; "left_context=1"; "right_context = 1"; "chunk_size=2";
   "num_pdfs=2"; "tid2pdf=t"; "symbol_table=w"; "large_lm=l"]%string.
Definition last9 : str := lit "original_lm=o".

Definition layers9 : list (layer Z) := [Splice [-1; 0; 1]; Linear [[1; 2]; [3; 4]] [5; 6]; LogSoftmax].
Definition words9 : list (str * Z) := [(lit "<eps>", 0); (lit "so", 1); (lit "what", 2); (lit "</s>", 3); (lit "<s>", 4)].
Definition word_lines9 : list str := map lit ["<eps> 0"; "so 1"; "what 2"; "</s> 3"; "<s> 4"]%string.

Definition files9 (content : str) (prior : list Z) (name : str) : option str :=
  match List.find (fun e => str_eqb name (Datatypes.fst e))
    [(lit "d/m", content);
     (lit "/n", network_file 1 1 layers9);
     (lit "d/p", vector_file prior);
     (lit "d/t", vector_file [0; 1; 1]);
     (lit "d/w", text word_lines9);
     (lit "d/o", vector_file [0; 20; 10; 30; 0]);
     (lit "d/l", fst_file Lm.example_lm)] with
  | Some e => Some (snd e)
  | None => None
  end.

Definition graph9 : graph R := mk_graph 0 [(0%R, [])].
Definition hclg9 (name : str) : res (option (graph R)) := Ok (if str_eqb name (lit "d/g") then Some graph9 else None).

Definition model9 : model (graph R) :=
  mk_model graph9 layers9 [7; 0] 1 1 2 2 [0; 1; 1] words9 4 3 (Some ([0; 20; 10; 30; 0], Lm.example_lm)).

Definition all9 : list str := lines9 ++ [last9].

Ltac config9 ls l := exists ls, l; (split; [reflexivity|]); (split; [cbn [map lines9]; repeat (constructor; [plain9|]); constructor|]);
  (split; [plain9|]); (split; [reflexivity|]);
  repeat (constructor; [first [left; apply classify_none; vm_compute; reflexivity
                              |right; do 2 eexists; apply classify_some; vm_compute; reflexivity]|]); constructor.

Lemma config9 : config_lines (text lines9 ++ last9) all9.
Proof. config9 lines9 last9. Qed.

Lemma setting9 : forall ls k v, look (rev ls) k = Some (Some v) -> str_eqb v reserved = false -> setting ls k v.
Proof.
  intros ls k v E N. split; [rewrite <- (rev_involutive ls); now apply look_sound|].
  intros ->. rewrite str_eqb_refl in N. discriminate.
Qed.

Lemma absent9 : forall ls k, look (rev ls) k = Some None -> last_value ls k None.
Proof. intros ls k E. rewrite <- (rev_involutive ls). now apply look_sound. Qed.

Ltac set9 v := apply (setting9 _ _ v); vm_compute; reflexivity.

Lemma points9 : forall ls k v, look (rev ls) k = Some (Some v) -> str_eqb v reserved = false ->
  (forall r, v <> 47 :: r) -> points_to (lit "d/m") ls k (lit "d/" ++ v).
Proof.
  intros ls k v E N S. exists v. split; [now apply setting9|]. right. split; [exact S|]. left.
  exists (lit "d"), (lit "m"). split; [reflexivity|]. split; [|reflexivity]. intros [J|[]]; discriminate J.
Qed.

Lemma digit_decimal : forall d, 0 <= d <= 9 -> decimal d [48 + d].
Proof. intros d H. apply DPos, DD1, H. Qed.

Lemma number9 : forall ls k d, look (rev ls) k = Some (Some [48 + d]) -> 0 <= d <= 9 -> number ls k d.
Proof.
  intros ls k d E D. exists [48 + d]. split; [|split; [now apply digit_decimal|lia]].
  apply setting9; [exact E|]. apply str_eqb_neq. discriminate.
Qed.

Lemma fits_small : forall z, -1000 <= z <= 100000000 -> fits 4 z.
Proof. intros z H. unfold fits. cbn. lia. Qed.

Ltac fit := apply fits_small; lia.
Ltac fit_all := repeat (constructor; [fit|]); constructor.

Lemma storable_small : forall v, v <> [] -> Forall (fun z => -1000 <= z <= 100000000) v -> (length v < 1000)%nat -> storable v.
Proof.
  intros v N A L. split; [exact N|]. split; [eapply Forall_impl; [|exact A]; exact fits_small|]. lia.
Qed.

Ltac small := apply storable_small; [discriminate|repeat (constructor; [lia|]); constructor|cbn; lia].

Lemma network9 : is_network layers9 (network_file 1 1 layers9).
Proof.
  exists 1, 1, []. rewrite app_nil_r. split; [reflexivity|]. split; [fit|]. split; [fit|]. split; [|cbn; lia].
  unfold layers9. constructor; [split; [fit_all|cbn; lia]|]. constructor.
  - split; [|small]. split; [discriminate|]. split; [repeat (constructor; [small|]); constructor|].
    split; [|cbn; lia]. exists 2. unfold uniform. repeat (constructor; [reflexivity|]); constructor.
  - constructor; [exact Logic.I|constructor].
Qed.

Lemma words9_file : words_file words9 4 3 (text word_lines9).
Proof.
  exists word_lines9. split; [reflexivity|].
  split.
  { repeat (constructor; [match goal with |- exists s, decimal (snd (_, ?d)) s /\ _ =>
      exists [48 + d]; split; [apply digit_decimal; cbn; lia|reflexivity] end|]). constructor. }
  split; [unfold word_lines9; cbn [map]; repeat (constructor; [plain9|]); constructor|].
  split; [repeat (constructor; [split; [cbn; intuition discriminate|cbn; lia]|]); constructor|].
  split; [unfold words9; cbn [map Datatypes.fst]; repeat (constructor; [cbn; intuition discriminate|]); constructor|].
  split; [unfold words9; cbn [map snd]; repeat (constructor; [cbn; intuition discriminate|]); constructor|].
  split; cbn; tauto.
Qed.

Lemma lm9 : is_lm Lm.example_lm (fst_file Lm.example_lm).
Proof.
  exists []. rewrite app_nil_r. split; [reflexivity|]. split; [|exact Lm.example_wf].
  assert (Forall (fun e => fits 4 (Datatypes.fst e) /\
            Forall (fun a => fits 4 (next_state a) /\ fits 4 (input_label a) /\ fits 4 (output_label a) /\ fits 4 (weight a)) (snd e))
            (t_states Lm.example_lm)) as S.
  { repeat constructor; cbn; lia. }
  split; [vm_compute; discriminate|]. split; [reflexivity|]. split; [apply fits_small; cbn; lia|exact S].
Qed.

Lemma vector9 : forall v, storable v -> is_vector v (vector_file v).
Proof. intros v S. exists []. rewrite app_nil_r. split; [reflexivity|exact S]. Qed.

Ltac data9 v := exists (lit "d/" ++ lit v); eexists; (split; [apply points9; [vm_compute; reflexivity|reflexivity|discriminate]|]);
  (split; [reflexivity|]).

Lemma nnet9 : forall ls content prior, look (rev ls) (lit "nnet") = Some (Some (lit "/n")) ->
  stored_at (files9 content prior) (lit "d/m") ls (lit "nnet") (is_network layers9).
Proof.
  intros ls content prior E. exists (lit "/n"). eexists. split; [|split; [reflexivity|exact network9]].
  exists (lit "/n"). split; [now apply setting9|]. left. split; [eexists; reflexivity|reflexivity].
Qed.

Lemma graph9_set : forall ls, look (rev ls) (lit "fst") = Some (Some (lit "g")) ->
  points_to (lit "d/m") ls (lit "fst") (lit "d/g").
Proof. intros ls E. change (lit "d/g") with (lit "d/" ++ lit "g"). apply points9; [exact E|reflexivity|discriminate]. Qed.

Lemma prior9 : is_prior rops IZR [7; 0] (vector_file [7; 0]).
Proof.
  split; [apply vector9; small|].
  repeat (constructor; [cbn; unfold real_le; destruct (Rle_dec _ _); [reflexivity|exfalso; lra]|]); constructor.
Qed.

Definition config9_text : str := text lines9 ++ last9.

Lemma stored9 : stored rops IZR (files9 config9_text [7; 0]) hclg9 (lit "d/m") model9.
Proof.
  exists config9_text, all9. split; [reflexivity|]. split; [exact config9|].
  split; [exists (lit "d/g"); split; [apply graph9_set; vm_compute; reflexivity|reflexivity]|].
  split; [apply nnet9; vm_compute; reflexivity|].
  split; [data9 "p"%string; exact prior9|].
  split; [apply (number9 _ _ 1); [vm_compute; reflexivity|cbn; lia]|].
  split; [apply (number9 _ _ 1); [vm_compute; reflexivity|cbn; lia]|].
  split; [apply (number9 _ _ 2); [vm_compute; reflexivity|cbn; lia]|].
  split; [apply (number9 _ _ 2); [vm_compute; reflexivity|cbn; lia]|].
  split; [data9 "t"%string; apply vector9; small|].
  split; [data9 "w"%string; exact words9_file|].
  cbn [m_lm model9]. split; [data9 "o"%string; apply vector9; small|data9 "l"%string; exact lm9].
Qed.

(** * What is made of it *)

Section Cases.
Variable junk : nat -> R.
Variable junk_int : nat -> Z.
Variable unknown : R.
Variable why : str -> str.
Variable lm_fuel : nat.

Definition init9 content prior := stt_init rops rtrig rinit junk junk_int IZR unknown (files9 content prior) hclg9 why lm_fuel (lit "d/m").

Lemma loaded9 : exists rc ps, init9 config9_text [7; 0] = Ok (inl rc, ps) /\
  made_of rops IZR rtrig rinit junk junk_int lm_fuel model9 rc.
Proof.
  destruct (Mel.log_mel_features junk junk_int) as (fb & E & _).
  destruct (loaded rops rtrig rinit junk junk_int IZR unknown (files9 config9_text [7; 0]) hclg9 why lm_fuel _ _ _ stored9 E)
    as (rc & H & M). exists rc. eexists. split; [exact H|exact M].
Qed.

(** An entry behind the others replaces a value. *)
Definition changed (l : string) : str := text lines9 ++ lit l.
Definition lines10 (l : string) : list str := lines9 ++ [lit l].

Lemma before9 : forall ls content prior, look (rev ls) (lit "fst") = Some (Some (lit "g")) ->
  look (rev ls) (lit "nnet") = Some (Some (lit "/n")) ->
  Forall (met (files9 content prior) hclg9 (lit "d/m") ls) (firstn 2 (needs rops IZR)).
Proof.
  intros ls content prior E1 E2. constructor; [exists (lit "d/g"), graph9; split; [now apply graph9_set|reflexivity]|].
  constructor; [|constructor]. cbn [met Datatypes.fst snd]. destruct (nnet9 ls content prior E2) as (p & c & H1 & H2 & H3).
  exists p, c. split; [exact H1|]. split; [exact H2|]. exists layers9. exact H3.
Qed.

Lemma config10 : forall l, l = "prior=q"%string \/ l = "left_context=one"%string -> config_lines (changed l) (lines10 l).
Proof. intros l [-> | ->]; [config9 lines9 (lit "prior=q")|config9 lines9 (lit "left_context=one")]. Qed.

Lemma no_file9 : init9 (changed "prior=q") [7; 0] = Ok (inr (lit "IOError: Unable to open d/q"), [Recognizer]).
Proof.
  eapply (load_problem rops rtrig rinit junk junk_int IZR unknown _ hclg9 why lm_fuel (lit "d/m") _ _ _ (firstn 2 (needs rops IZR)) _ _ _ eq_refl
    (config10 "prior=q" (or_introl eq_refl))).
  - right. split; [|reflexivity]. exists (lit "l"). apply setting9; vm_compute; reflexivity.
  - reflexivity.
  - apply before9; vm_compute; reflexivity.
  - right. exists (lit "d/" ++ lit "q"). split; [apply points9; [vm_compute; reflexivity|reflexivity|discriminate]|].
    split; reflexivity.
Qed.

Lemma no_key9 : init9 (text [lit "fst=g"] ++ lit "nnet=/n") [7; 0]
  = Ok (inr (lit "Corruption: Unable to find key 'prior' in 'd/m'"), [Recognizer]).
Proof.
  assert (L : config_lines (text [lit "fst=g"] ++ lit "nnet=/n") [lit "fst=g"; lit "nnet=/n"]).
  { config9 [lit "fst=g"] (lit "nnet=/n"). }
  eapply (load_problem rops rtrig rinit junk junk_int IZR unknown _ hclg9 why lm_fuel (lit "d/m") _ _ _ (firstn 2 (needs rops IZR)) _ _ _ eq_refl L).
  - left. split; [apply absent9; vm_compute; reflexivity|reflexivity].
  - reflexivity.
  - apply before9; vm_compute; reflexivity.
  - left. split; [apply absent9; vm_compute; reflexivity|reflexivity].
Qed.

Lemma negative9 : init9 config9_text [7; -1] = Fault Assert.
Proof.
  eapply (negative_prior rops rtrig rinit junk junk_int IZR unknown _ hclg9 why lm_fuel (lit "d/m") _ _ [7; -1] eq_refl config9).
  - apply before9; vm_compute; reflexivity.
  - data9 "p"%string. apply vector9; small.
  - right. left. cbn. unfold real_le. destruct (Rle_dec _ _); [exfalso; lra|reflexivity].
Qed.

Lemma no_number9 : init9 (changed "left_context=one") [7; 0] = Fault Throw.
Proof.
  eapply (no_number rops rtrig rinit junk junk_int IZR unknown _ hclg9 why lm_fuel (lit "d/m") _ _ (lit "ne") 111 eq_refl
    (config10 "left_context=one" (or_intror eq_refl))).
  - change (firstn 3 (needs rops IZR)) with (firstn 2 (needs rops IZR) ++ [nth 2 (needs rops IZR) (lit "", Number)]).
    apply Forall_app. split; [apply before9; vm_compute; reflexivity|]. constructor; [|constructor].
    cbn [met nth needs Datatypes.fst snd]. data9 "p"%string. exists [7; 0]. exact prior9.
  - apply setting9; vm_compute; reflexivity.
  - lia.
Qed.

Lemma config11 : config_lines (changed "symbol_table=p") (lines10 "symbol_table=p").
Proof. config9 lines9 (lit "symbol_table=p"). Qed.

Lemma damaged_words9 : init9 (changed "symbol_table=p") [7; 0] = Ok (inr (why (lit "d/p")), [Recognizer]).
Proof.
  assert (Pi : pieces (vector_file [7; 0]) [vector_file [7; 0]] true).
  { apply P_rest; [discriminate|cbn; intuition discriminate|cbn; lia]. }
  pose proof (LinesExact.show_shown (vector_file [7; 0])) as Sh.
  set (r := LinesExact.show (vector_file [7; 0])) in Sh. vm_compute in r.
  eapply (damaged_words rops rtrig rinit junk junk_int IZR unknown _ hclg9 why lm_fuel (lit "d/m") _ _ (lit "d/" ++ lit "p")
    (vector_file [7; 0]) _ _ [r] eq_refl config11).
  - change (firstn 8 (needs rops IZR)) with (firstn 2 (needs rops IZR) ++ firstn 6 (skipn 2 (needs rops IZR))).
    apply Forall_app. split; [apply before9; vm_compute; reflexivity|]. cbn [firstn skipn needs].
    constructor; [cbn [met Datatypes.fst snd]; data9 "p"%string; exists [7; 0]; exact prior9|].
    constructor; [exists 1; apply (number9 _ _ 1); [vm_compute; reflexivity|cbn; lia]|].
    constructor; [exists 1; apply (number9 _ _ 1); [vm_compute; reflexivity|cbn; lia]|].
    constructor; [exists 2; apply (number9 _ _ 2); [vm_compute; reflexivity|cbn; lia]|].
    constructor; [exists 2; apply (number9 _ _ 2); [vm_compute; reflexivity|cbn; lia]|].
    constructor; [|constructor]. cbn [met Datatypes.fst snd]. data9 "t"%string. exists [0; 1; 1]. apply vector9; small.
  - apply points9; [vm_compute; reflexivity|reflexivity|discriminate].
  - reflexivity.
  - exact Pi.
  - constructor; [exact Sh|constructor].
  - intros l w id [<-|[]] (num & _ & _ & _ & [(X & _)|X]); apply (f_equal (fun x => existsb (Z.eqb 32) x)) in X;
      rewrite existsb_app in X; cbn [existsb Z.eqb Pos.eqb orb] in X; rewrite orb_true_r in X; discriminate X.
  - intros es (ps & rs & P & _).
    destruct (LinesExact.read_pieces _ _ _ Pi) as (L1 & R1). destruct (LinesExact.read_pieces _ _ _ P) as (L2 & R2).
    destruct (R1 (S (S (length (vector_file [7; 0])))) ltac:(lia)) as (A1 & _).
    destruct (R2 (S (S (length (vector_file [7; 0])))) ltac:(lia)) as (A2 & _).
    rewrite A1 in A2. discriminate A2.
Qed.

Lemma damaged_config9 : init9 (changed "nonsense") [7; 0] = Ok (inr (why (lit "d/m")), [Recognizer]).
Proof. vm_compute. reflexivity. Qed.

End Cases.

(** * A configuration without entries *)

Lemma empty_config : forall F (O : fops F) T I junk junk_int of_word unknown hclg why lm_fuel fn,
  stt_init O T I junk junk_int of_word unknown (fun _ => Some []) hclg why lm_fuel fn
  = Ok (inr (lit "Corruption: Unable to find key 'fst' in "), [Recognizer]).
Proof.
  intros. assert (L : config_lines [] []) by (exists [], []; repeat split; try constructor; cbn; auto; lia).
  eapply (load_problem O T I junk junk_int of_word unknown (fun _ => Some []) hclg why lm_fuel fn [] [] _ [] _ _ _ eq_refl L).
  - left. split; [constructor|reflexivity].
  - reflexivity.
  - constructor.
  - left. split; [constructor|reflexivity].
Qed.

(** * The statements of Props/Loading.v *)

Lemma stored_loaded9 : forall junk junk_int unknown why lm_fuel,
  stored rops IZR (files9 config9_text [7; 0]) hclg9 (lit "d/m") model9 /\
  exists rc ps, init9 junk junk_int unknown why lm_fuel config9_text [7; 0] = Ok (inl rc, ps) /\
    made_of rops IZR rtrig rinit junk junk_int lm_fuel model9 rc.
Proof. intros. split; [exact stored9|apply loaded9]. Qed.

Lemma crashes9 : forall junk junk_int unknown why lm_fuel,
  init9 junk junk_int unknown why lm_fuel config9_text [7; -1] = Fault Assert /\
  init9 junk junk_int unknown why lm_fuel (changed "left_context=one") [7; 0] = Fault Throw.
Proof. intros. split; [apply negative9|apply no_number9]. Qed.

Lemma damaged9 : forall junk junk_int unknown why lm_fuel,
  init9 junk junk_int unknown why lm_fuel (changed "nonsense") [7; 0] = Ok (inr (why (lit "d/m")), [Recognizer]) /\
  init9 junk junk_int unknown why lm_fuel (changed "symbol_table=p") [7; 0] = Ok (inr (why (lit "d/p")), [Recognizer]).
Proof. intros. split; [apply damaged_config9|apply damaged_words9]. Qed.

Section Statements.
Context {F : Type}.
Variable O : fops F.
Variable T : trig_ops F.
Variable I : init_ops F.
Variable junk : nat -> F.
Variable junk_int : nat -> Z.
Variable of_word : Z -> F.
Variable unknown : F.
Variable files : bytes -> option bytes.
Variable hclg : bytes -> res (option (graph F)).
Variable why : bytes -> bytes.
Variable lm_fuel : nat.

Notation init := (stt_init O T I junk junk_int of_word unknown files hclg why lm_fuel).

Lemma loaded_parts : forall fn m fb, stored O of_word files hclg fn m -> fbank_new O T I junk junk_int = Ok fb ->
  exists rc ps, init fn = Ok (inl rc, ps) /\ made_of O of_word T I junk junk_int lm_fuel m rc.
Proof.
  intros fn m fb S E. destruct (loaded O T I junk junk_int of_word unknown files hclg why lm_fuel fn m fb S E) as (rc & H & M).
  eauto.
Qed.

Lemma something_left : forall fn r ps, init fn = Ok (r, ps) -> stt_destroy ps <> [] /\ forall msg, r = inr msg -> ps <> [].
Proof.
  intros fn r ps E. destruct (init_leaves _ _ _ _ _ _ _ _ _ _ _ _ _ _ E) as (H & K).
  split; [rewrite H; discriminate|]. intros msg R. rewrite (K msg R). discriminate.
Qed.

Lemma missing_file : forall fn content lines ns before n after msg, files fn = Some content -> config_lines content lines ->
  all_needs O of_word lines ns -> ns = before ++ n :: after -> Forall (met files hclg fn lines) before ->
  no_file files hclg fn lines n msg -> init fn = Ok (inr msg, [Recognizer]).
Proof. intros. eapply load_problem; eauto. now right. Qed.

Lemma missing : forall fn content lines ns before key k after, files fn = Some content -> config_lines content lines ->
  all_needs O of_word lines ns -> ns = before ++ (key, k) :: after -> Forall (met files hclg fn lines) before ->
  last_value lines key None -> init fn = Ok (inr (absent_text fn key), [Recognizer]).
Proof. intros. eapply load_problem; eauto. left. split; [assumption|reflexivity]. Qed.

Lemma named : forall key, existsb (str_eqb key) unnamed_keys = true <-> In key [lit "fst"; lit "symbol_table"; lit "original_lm"].
Proof.
  intros key. rewrite existsb_exists. split.
  - intros (x & J & E). apply str_eqb_eq in E. subst x. exact J.
  - intros J. exists key. split; [exact J|apply str_eqb_refl].
Qed.

Lemma missing_key : forall fn content lines ns before key k after, files fn = Some content -> config_lines content lines ->
  all_needs O of_word lines ns -> ns = before ++ (key, k) :: after -> Forall (met files hclg fn lines) before ->
  last_value lines key None -> ~ In key [lit "fst"; lit "symbol_table"; lit "original_lm"] ->
  init fn = Ok (inr (no_key_text fn key), [Recognizer]).
Proof.
  intros fn content lines ns before key k after Fn L A E M V N.
  rewrite (missing fn content lines ns before key k after Fn L A E M V). unfold absent_text.
  destruct (existsb _ _) eqn:B; [|reflexivity]. apply named in B. contradiction.
Qed.

Lemma missing_unnamed : forall fn content lines ns before key k after, files fn = Some content -> config_lines content lines ->
  all_needs O of_word lines ns -> ns = before ++ (key, k) :: after -> Forall (met files hclg fn lines) before ->
  last_value lines key None -> In key [lit "fst"; lit "symbol_table"; lit "original_lm"] ->
  init fn = Ok (inr (lit "Corruption: Unable to find key '" ++ key ++ lit "' in "), [Recognizer]).
Proof.
  intros fn content lines ns before key k after Fn L A E M V N.
  rewrite (missing fn content lines ns before key k after Fn L A E M V). unfold absent_text.
  apply named in N. rewrite N. reflexivity.
Qed.

End Statements.
