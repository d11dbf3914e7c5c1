(** Open files: the final statements and examples. *)
From Coq Require Import ZArith String List Bool Lia Permutation.
From Verif.Base Require Import Prelude Lemmas.
From Verif.Model Require Import Util File Binary Arith Vector Fbank Srfft FbankInit Nnet Formats Am Pcm Configuration
  SymbolTable Fst Decoder Stt ConstFst Loading Main Handles.
From Verif.Spec Require Import AudioSpec TextSpec LoadingSpec LoadFaultSpec ProgramSpec HandleSpec.
From Verif.Proof Require Import Handles HandlesInit HandlesMain.
From Verif.Proof Require Lines Program ConstFstCases ConstFstText IeeeCases EndCases FiniteCases.
From Verif.Model Require Ieee IeeeFbank.
Import ListNotations.

(** All that was opened is closed again. *)
Lemma st_closed h U K A N h' : log_ok h -> holds h U -> st h U K A N [] h' ->
  exists l, h_log h' = h_log h ++ l /\ proper (h_log h') /\ at_most K l /\ names l = N /\ Forall A N /\
    (forall n, was_opened l n -> In (Closed n) l) /\
    (forall n, still_open (h_log h') n <-> still_open (h_log h) n) /\ h_objs h' = h_objs h /\ h_mine h' = h_mine h.
Proof.
  intros L H (L' & H' & O' & M' & l & G & X & Nm & Al & C). rewrite app_nil_r in O'.
  assert (S : forall n, still_open (h_log h') n <-> still_open (h_log h) n).
  { intros n. destruct L as (_ & _ & _ & _ & S0), L' as (_ & _ & _ & _ & S1). rewrite S0, S1, <- !in_live. unfold holds in H, H'.
    rewrite O' in H'. split; intros J.
    - apply (Permutation_in n (Permutation_sym H)). now apply (Permutation_in n H').
    - apply (Permutation_in n (Permutation_sym H')). now apply (Permutation_in n H). }
  exists l. split; [exact G|]. split; [apply L'|]. split; [exact X|]. split; [exact Nm|]. split; [exact Al|]. split; [|split; [exact S|split; [exact O'|exact M']]].
  intros n (x & J).
  assert (New : ~ was_opened (h_log h) n).
  { apply in_split in J. destruct J as (p & q & ->). destruct L' as (P & _). intros Wo.
    specialize (P (h_log h ++ p) (Opened n x) q). cbn beta iota in P. apply P; [rewrite G; now rewrite <- app_assoc|].
    destruct Wo as (y & Wo). exists y. apply in_app_iff. now left. }
  assert (D : In (Closed n) (h_log h') \/ ~ In (Closed n) (h_log h')).
  { destruct (in_dec (fun a b : event => ltac:(repeat decide equality) : {a = b} + {a <> b}) (Closed n) (h_log h')); [now left|now right]. }
  destruct D as [D|D].
  - rewrite G in D. apply in_app_iff in D. destruct D as [D|D]; [|exact D]. exfalso. apply New.
    apply in_split in D. destruct D as (p & q & D). destruct L as (P & _). specialize (P p (Closed n) q D). cbn beta iota in P.
    destruct P as ((y & P) & _). exists y. rewrite D. apply in_app_iff. now left.
  - exfalso. apply New. apply S. split; [|exact D]. exists x. rewrite G. apply in_app_iff. now right.
Qed.

Section Final.
Context {F : Type}.
Variable O : fops F.
Variable T : trig_ops F.
Variable I : init_ops F.
Variable junk : nat -> F.
Variable junk_int : nat -> Z.
Variable junk_char : nat -> Z.
Variable room : Z -> bool.
Variable of_word : Z -> F.
Variable unknown : F.
Variable files : bytes -> option bytes.
Variable why : bytes -> bytes.
Variable lm_fuel : nat.
Notation hclg := (graph_read junk_char room of_word files).

Lemma graph_there p g : hclg p = Ok (Some g) -> files p <> None.
Proof. unfold graph_read. destruct (files p); [discriminate|]. intros E. discriminate. Qed.

Lemma init_same fn h U : log_ok h -> holds h U ->
  match stt_init O T I junk junk_int of_word unknown files hclg why lm_fuel fn with
  | Fault f => fl_init files O T I junk junk_int of_word unknown hclg why lm_fuel fn h = Fault f
  | Ok (r, ps) => exists h' N, fl_init files O T I junk junk_int of_word unknown hclg why lm_fuel fn h = Ok (r, ps, h') /\
      st h U 2 (model_file files fn) N [] h' /\ (forall rc, r = inl rc -> model_files files fn N)
  end.
Proof.
  intros L H. unfold stt_init, fl_init.
  assert (T0 : st h U 2 (model_file files fn) [] [] h).
  { destruct (st_refl h U 2 L H) as (A1 & A2 & A3 & A4 & l & B1 & B2 & B3 & _ & B5). split; [exact A1|]. split; [exact A2|].
    split; [exact A3|]. split; [exact A4|]. exists l. split; [exact B1|]. split; [exact B2|]. split; [exact B3|]. split; [constructor|exact B5]. }
  pose proof (parts_sim O T I junk junk_int of_word unknown files hclg why lm_fuel fn graph_there h U [] h T0) as P.
  destruct (load_parts O T I junk junk_int of_word unknown files hclg why lm_fuel fn []) as [[[rc|w] ps]|f]; cbn [bind].
  - destruct P as (h' & -> & N & S & M). cbn [bind]. exists h', N. split; [reflexivity|]. split; [exact S|]. intros _ _. exact M.
  - destruct P as (h' & -> & N & S). cbn [bind]. exists h', N. split; [reflexivity|]. split; [exact S|]. discriminate.
  - now rewrite P.
Qed.

Theorem init_files cs h fn : do_calls files cs no_files = Ok h ->
  match stt_init O T I junk junk_int of_word unknown files hclg why lm_fuel fn with
  | Fault f => fl_init files O T I junk junk_int of_word unknown hclg why lm_fuel fn h = Fault f
  | Ok (r, ps) => exists h' l, fl_init files O T I junk junk_int of_word unknown hclg why lm_fuel fn h = Ok (r, ps, h') /\
      h_log h' = h_log h ++ l /\ proper (h_log h') /\ (forall n, was_opened l n -> In (Closed n) l) /\
      (forall n, still_open (h_log h') n <-> still_open (h_log h) n) /\ at_most 2 l /\
      Forall (model_file files fn) (names l) /\ (forall rc, r = inl rc -> model_files files fn (names l))
  end.
Proof.
  intros E. apply (calls_inv files cs _ _ inv_none) in E. destruct E as (L & (U & H) & _).
  pose proof (init_same fn h U L H) as Q.
  destruct (stt_init O T I junk junk_int of_word unknown files hclg why lm_fuel fn) as [[r ps]|f]; [|exact Q].
  destruct Q as (h' & N & E & S & M). destruct (st_closed _ _ _ _ _ _ L H S) as (l & G & P & X & Nm & Al & Cl & So & _).
  exists h', l. split; [exact E|]. split; [exact G|]. split; [exact P|]. split; [exact Cl|]. split; [exact So|]. split; [exact X|].
  rewrite Nm. split; [exact Al|exact M].
Qed.

End Final.

(** ** [Read16kPcm] *)

Section Audio.
Variable files : bytes -> option bytes.

Theorem read_16k_files cs h name : do_calls files cs no_files = Ok h ->
  match files name with
  | None => exists why h' l, fl_read_16k files name [] h = Ok (inr why, [], h') /\
      h_log h' = h_log h ++ l /\ (forall n, was_opened l n -> In (Closed n) l) /\ at_most 1 l
  | Some content =>
      match read_16k_pcm content with
      | Fault f => fl_read_16k files name [] h = Fault f
      | Ok r => exists h' l, fl_read_16k files name [] h = Ok (inl r, [], h') /\
          h_log h' = h_log h ++ l /\ (forall n, was_opened l n -> In (Closed n) l) /\ at_most 1 l /\ names l = [name]
      end
  end.
Proof.
  intros E. apply (calls_inv files cs _ _ inv_none) in E. destruct E as (L & (U & H) & _).
  set (m := load_bind (open_file files name) (fun content => load_res (read_16k_pcm content))).
  assert (S : sim (st h U 1 (fun p => p = name) [] []) m (fl_read_16k files name)
    (fun _ h' => exists N', st h U 1 (fun p => p = name) N' [] h' /\ N' = [name]) (fun h' => exists N', st h U 1 (fun p => p = name) N' [] h')).
  { apply (sim_scoped h U 1 (fun p => p = name) [] _ _ (fun _ N' => N' = [name])). unfold m. apply sim_new.
    eapply sim_bind; [apply (sim_open h U 1 (fun p => p = name) files [] [] 0 [] name eq_refl); cbn; lia|].
    intros content. apply sim_fact. intros Fc. apply sim_ex. intros n. cbn [app].
    set (s1 := st h U 1 (fun p => p = name) [name] [slot (Some n) (lenZ content)]).
    assert (K : forall (A : Type) (a : A), sim s1 (load_ret a) (lift (load_ret a))
       (fun _ h' => exists N' loc, st h U 1 (fun p => p = name) N' loc h' /\ N' = [name]) (some_st h U 1 (fun p => p = name))).
    { intros A a. apply sim_ret. intros k Hk. exists [name], [slot (Some n) (lenZ content)]. now split. }
    assert (W : forall A B (x : res A) (k : A -> load B) fk R, (forall a, sim s1 (k a) (fk a) R (some_st h U 1 (fun p => p = name))) ->
       sim s1 (load_bind (load_res x) k) (fl_bind (with_stream (length (h_objs h) + 0) (load_res x)) fk) R (some_st h U 1 (fun p => p = name))).
    { intros A B x k fk R Hk. eapply sim_bind; [exact (sim_with h U 1 (fun p => p = name) [name] [] n (lenZ content) [] (load_res x))|].
      intros a. apply sim_fact. intros _. apply Hk. }
    assert (V : forall A B (x : res A) (k : A -> load B) fk R, (forall a, sim s1 (k a) (fk a) R (some_st h U 1 (fun p => p = name))) ->
       sim s1 (load_bind (load_res x) k) (fl_bind (lift (load_res x)) fk) R (some_st h U 1 (fun p => p = name))).
    { intros A B x k fk R Hk. eapply sim_bind; [exact (sim_lift_st h U 1 (fun p => p = name) [name] [slot (Some n) (lenZ content)] (load_res x))|].
      intros a. apply sim_fact. intros _. apply Hk. }
    assert (Eq : forall ps, load_res (read_16k_pcm content) ps =
      load_bind (load_res (read_pcm_header (open content))) (fun r =>
        match r with
        | (None, _) => load_ret None
        | (Some fmt, f) =>
            let '(ok, r) := set_format reader_init fmt in
            if negb ok then load_ret None
            else
              let data_size := wrap32 (lenZ content - 44) in
              load_bind (load_res (check (0 <=? data_size)%Z Throw)) (fun _ =>
              load_bind (load_res (read f data_size)) (fun b =>
              match Datatypes.fst b with
              | None => load_ret None
              | Some b => load_bind (load_res (reader_process r (Some b) data_size)) (fun xs => load_ret (Datatypes.fst xs))
              end))
        end) ps).
    { intros ps. unfold read_16k_pcm, load_bind, load_res, load_ret. destruct (read_pcm_header (open content)) as [[[fmt|] f]|]; cbn [bind]; try reflexivity.
      destruct (set_format reader_init fmt) as [ok r]. destruct ok; cbn [negb]; [|reflexivity]. cbn zeta.
      destruct (check _ _); cbn [bind]; [|reflexivity]. destruct (read f _) as [[[b|] f']|]; cbn [bind Datatypes.fst]; try reflexivity.
      destruct (reader_process r (Some b) _) as [[xs r']|]; reflexivity. }
    intros ps k Hk. rewrite Eq. revert ps k Hk. change (sim s1
      (load_bind (load_res (read_pcm_header (open content))) (fun r =>
        match r with
        | (None, _) => load_ret None
        | (Some fmt, f) =>
            let '(ok, r) := set_format reader_init fmt in
            if negb ok then load_ret None
            else
              let data_size := wrap32 (lenZ content - 44) in
              load_bind (load_res (check (0 <=? data_size)%Z Throw)) (fun _ =>
              load_bind (load_res (read f data_size)) (fun b =>
              match Datatypes.fst b with
              | None => load_ret None
              | Some b => load_bind (load_res (reader_process r (Some b) data_size)) (fun xs => load_ret (Datatypes.fst xs))
              end))
        end))
      (fl_bind (with_stream (length (h_objs h) + 0) (load_res (read_pcm_header (open content)))) (fun r =>
        match r with
        | (None, _) => lift (load_ret None)
        | (Some fmt, f) =>
            let '(ok, r) := set_format reader_init fmt in
            if negb ok then lift (load_ret None)
            else
              fl_bind (fun ps h1 => bind (rf_size (length (h_objs h) + 0) h1) (fun n => Ok (inl n, ps, h1))) (fun size =>
              let data_size := wrap32 (size - 44) in
              fl_bind (lift (load_res (check (0 <=? data_size)%Z Throw))) (fun _ =>
              fl_bind (with_stream (length (h_objs h) + 0) (load_res (read f data_size))) (fun b =>
              match Datatypes.fst b with
              | None => lift (load_ret None)
              | Some b => fl_bind (lift (load_res (reader_process r (Some b) data_size))) (fun xs => lift (load_ret (Datatypes.fst xs)))
              end)))
        end))
      (fun _ h' => exists N' loc, st h U 1 (fun p => p = name) N' loc h' /\ N' = [name]) (some_st h U 1 (fun p => p = name))).
    apply W. intros [[fmt|] f]; [|apply K]. destruct (set_format reader_init fmt) as [ok r]. destruct (negb ok); [apply K|].
    apply (sim_step s1 s1 _ (lenZ content)).
    { intros ps k Hk. exists k. split; [|exact Hk]. unfold rf_size, obj. destruct Hk as (_ & _ & Ob & _).
      rewrite Ob, nth_error_app2, Nat.add_0_r, Nat.sub_diag by lia. reflexivity. }
    cbn zeta. apply V. intros _. apply W. intros [[b|] f']; cbn [Datatypes.fst]; [|apply K]. apply V. intros xs. apply K. }
  assert (T0 : st h U 1 (fun p => p = name) [] [] h).
  { destruct (st_refl h U 1 L H) as (A1 & A2 & A3 & A4 & l & B1 & B2 & B3 & _ & B5). split; [exact A1|]. split; [exact A2|].
    split; [exact A3|]. split; [exact A4|]. exists l. split; [exact B1|]. split; [exact B2|]. split; [exact B3|]. split; [constructor|exact B5]. }
  specialize (S [] h T0). unfold m in S.
  destruct (files name) as [content|] eqn:Fn.
  - unfold load_bind, open_file in S. rewrite Fn in S. cbn [load_ret bind] in S. unfold load_res in S.
    destruct (read_16k_pcm content) as [r|f]; cbn [bind] in S; [|exact S].
    destruct S as (h' & E & N' & Sx & ->). exists h'. destruct (st_closed _ _ _ _ _ _ L H Sx) as (l & G & P & X & Nm & _ & Cl & _).
    exists l. auto.
  - unfold load_bind, open_file in S. rewrite Fn in S. cbn [load_fail bind] in S.
    destruct S as (h' & E & N' & Sx). eexists _, h'. destruct (st_closed _ _ _ _ _ _ L H Sx) as (l & G & P & X & Nm & _ & Cl & _).
    exists l. split; [exact E|]. auto.
Qed.
End Audio.

(** ** The program *)

Lemma walks_list entries : Forall entry_ok entries -> forall ws, walks (open (list_file entries)) ws -> ws = map snd entries.
Proof.
  intros K. unfold open. induction K as [|e es Ke K IH]; intros ws Wk.
  - inversion Wk as [f f' E|f line f' utt wav ws' E Sp Wk']; subst; [reflexivity|]. exfalso. vm_compute in E. discriminate.
  - destruct (@Program.entry_plain unit unit (fun _ => None) (fun _ => Fault Undef) (fun b => b) e Ke) as (P1 & P2 & _).
    assert (R : read_line (mk_file (list_file (e :: es)) false) = (Line (entry_line e), mk_file (list_file es) false)).
    { unfold list_file. cbn [map]. rewrite Lines.text_cons, Lines.read_line_line by exact P1. now rewrite Lines.chomp_newline, P2. }
    inversion Wk as [f f' E|f line f' utt wav ws' E Sp Wk']; subst; rewrite R in E; [discriminate|].
    assert (Q : line = entry_line e /\ f' = mk_file (list_file es) false) by (clear -E; inversion E; auto). destruct Q as (-> & ->).
    rewrite Program.entry_split in Sp by exact Ke. injection Sp as <- <-. cbn [map]. f_equal. now apply IH.
Qed.

Section Whole.
Context {F D : Type}.
Variable O : fops F.
Variable X : xops F D.
Variable T : trig_ops F.
Variable I : init_ops F.
Variable junk : nat -> F.
Variable junk_int : nat -> Z.
Variable junk_char : nat -> Z.
Variable room : Z -> bool.
Variable tenth : F.
Variable fuel : nat.
Variable of_word : Z -> F.
Variable unknown : F.
Variable files : bytes -> option bytes.
Variable why : bytes -> bytes.
Variable lm_fuel : nat.
Variable header_error : bytes -> bytes.
Notation hclg := (graph_read junk_char room of_word files).

Theorem program_files args :
  let init fn h := bind (fl_init files O T I junk junk_int of_word unknown hclg why lm_fuel fn h) (fun x => let '(r, _, h) := x in Ok (r, h)) in
  match run_main O X tenth fuel files (stt_load O T I junk junk_int of_word unknown files hclg why lm_fuel) header_error args with
  | Fault e => h_main files O X tenth fuel init header_error args no_files = Fault e
  | Ok (out, code) => exists h', h_main files O X tenth fuel init header_error args no_files = Ok (out, code, h') /\
      proper (h_log h') /\ at_most 2 (h_log h') /\
      (code = 0%Z -> (forall n, ~ still_open (h_log h') n) /\
        exists fn input N ws, args = [fn; input] /\ model_files files fn N /\ names (h_log h') = N ++ input :: ws /\
          (ends_in input (lit ".wav") -> ws = []) /\
          (forall entries, ~ ends_in input (lit ".wav") -> files input = Some (list_file entries) -> Forall entry_ok entries ->
             ws = map snd entries))
  end.
Proof.
  intros init.
  assert (LF : forall fn, match stt_load O T I junk junk_int of_word unknown files hclg why lm_fuel fn with
    | Fault e => init fn no_files = Fault e
    | Ok r => exists h' N, init fn no_files = Ok (r, h') /\ st no_files [] 2 anything N [] h' /\ (forall rc, r = inl rc -> model_files files fn N)
    end).
  { intros fn. unfold stt_load, init.
    pose proof (init_same O T I junk junk_int junk_char room of_word unknown files why lm_fuel fn no_files [] none_ok (perm_nil nat)) as Q.
    destruct (stt_init O T I junk junk_int of_word unknown files hclg why lm_fuel fn) as [[r ps]|f]; cbn [bind]; [|now rewrite Q].
    destruct Q as (h' & N & -> & S & M). cbn [bind]. exists h', N. split; [reflexivity|]. split; [exact (st_any _ _ _ _ _ _ _ S)|exact M]. }
  pose proof (main_files O X tenth fuel files header_error (stt_load O T I junk junk_int of_word unknown files hclg why lm_fuel) init (model_files files) LF args) as M.
  destruct (run_main O X tenth fuel files (stt_load O T I junk junk_int of_word unknown files hclg why lm_fuel) header_error args) as [[out code]|e]; [|exact M].
  destruct M as (h' & E & (L & l & G & A) & Z0). exists h'. split; [exact E|]. cbn [no_files h_log app] in G. split; [apply L|]. rewrite G at 1. split; [exact A|].
  intros C0. destruct (Z0 C0) as (fn & input & N & ws & -> & S & Pt & W).
  destruct (st_closed _ _ _ _ _ _ none_ok (perm_nil nat) S) as (l' & G' & P & _ & Nm & _ & Cl & So & _). cbn [no_files h_log app] in G'.
  split; [intros n J; apply So in J; destruct J as ((x & []) & _)|]. exists fn, input, N, ws. split; [reflexivity|]. split; [exact Pt|].
  split; [rewrite G'; exact Nm|]. split.
  - intros Wv. destruct W as [(_ & ->)|(Nw & _)]; [reflexivity|tauto].
  - intros entries Nw Fi Ok. destruct W as [(Wv & _)|(_ & content & Fc & Wk)]; [tauto|]. rewrite Fi in Fc. injection Fc as <-.
    now apply (walks_list entries Ok).
Qed.
End Whole.

(** ** Examples *)

Definition two_files (name : bytes) : option bytes :=
  if str_eqb name (lit "a") then Some [1%Z] else if str_eqb name (lit "b") then Some [2%Z] else None.

(** [Open] twice. *)
Lemma leak_twice : exists h, do_calls two_files [CNew; COpen 0 (lit "a"); COpen 0 (lit "b"); CLeave] no_files = Ok h /\
  h_objs h = [] /\ h_mine h = [] /\ still_open (h_log h) 0.
Proof.
  eexists. split; [vm_compute; reflexivity|]. split; [reflexivity|]. split; [reflexivity|]. split; [eexists; left; reflexivity|].
  cbn. intros [J|[J|[J|[]]]]; discriminate.
Qed.

(** [Open] on an object with a borrowed stream. *)
Lemma leak_borrowed : exists h, do_calls two_files [CFopen (lit "a"); CBorrow 0; COpen 0 (lit "b"); CLeave; CFclose 0] no_files = Ok h /\
  h_objs h = [] /\ h_mine h = [0%nat] /\ still_open (h_log h) 1.
Proof.
  eexists. split; [vm_compute; reflexivity|]. split; [reflexivity|]. split; [reflexivity|]. split; [eexists; right; left; reflexivity|].
  cbn. intros [J|[J|[J|[]]]]; discriminate.
Qed.

Definition orderly_calls : list call :=
  [CFopen (lit "a"); CNew; COpen 0 (lit "a"); CUse 0; CSize 0; CClose 0; COpen 0 (lit "b"); CBorrow 0; CUse 1; CNew; COpen 2 (lit "c"); CLeave;
   CLeave; CLeave].

Lemma orderly_case : orderly [] orderly_calls /\ exists h, do_calls two_files orderly_calls no_files = Ok h /\ h_objs h = [] /\
  h_log h = [Opened 0 (lit "a"); Opened 1 (lit "a"); Closed 1; Opened 2 (lit "b"); Closed 2].
Proof.
  split.
  - unfold orderly_calls. apply ord_fopen, ord_new. apply (ord_open [] []); [reflexivity|]. apply ord_use, ord_size.
    apply (ord_close [] true []); [reflexivity|]. apply (ord_open [] []); [reflexivity|]. apply ord_borrow, ord_use, ord_new.
    apply (ord_open [(true, true); (false, false)] []); [reflexivity|].
    apply (ord_leave [(true, true); (false, false)]), (ord_leave [(true, true)]), (ord_leave []), ord_end.
  - eexists. split; [vm_compute; reflexivity|]. split; reflexivity.
Qed.

(** A model whose network is damaged: three files are opened and closed. *)
Definition bad_model (name : bytes) : option bytes :=
  if str_eqb name (lit "m") then Some (text [lit "fst=g"; lit "nnet=n"])
  else if str_eqb name (lit "g") then Some []
  else if str_eqb name (lit "n") then Some [1%Z] else None.

Lemma bad_model_files : forall F (O : fops F) T I junk junk_int of_word unknown why lm_fuel G,
  fl_init bad_model O T I junk junk_int of_word unknown (fun _ => Ok (Some G)) why lm_fuel (lit "m") no_files =
  Ok (inr (why (lit "n")), [Recognizer],
      mk_hs [] [] [false; false; false]
        [Opened 0 (lit "m"); Closed 0; Opened 1 (lit "g"); Closed 1; Opened 2 (lit "n"); Closed 2]).
Proof. intros. vm_compute. reflexivity. Qed.

Lemma empty_graph_files : forall F (O : fops F) T I junk junk_int junk_char room of_word unknown why lm_fuel,
  fl_init bad_model O T I junk junk_int of_word unknown (graph_read junk_char room of_word bad_model) why lm_fuel (lit "m") no_files =
  Ok (inr (lit "IOError: g"), [Recognizer],
      mk_hs [] [] [false; false] [Opened 0 (lit "m"); Closed 0; Opened 1 (lit "g"); Closed 1]).
Proof. intros. vm_compute. reflexivity. Qed.

(** The program on the model and the recording of C96. *)
Lemma program_case : forall junk junk_int junk_char unknown why lm_fuel header_error,
  exists fuel h',
  let files := ConstFstCases.files14 in let O := Ieee.ieee FiniteCases.rough in
  let hclg := graph_read junk_char ConstFstCases.plenty EndCases.bits32 files in
  let init fn h := bind (fl_init files O (IeeeFbank.ieee_trig FiniteCases.rough_trig) (IeeeFbank.ieee_init FiniteCases.rough_trig)
      junk junk_int EndCases.bits32 unknown hclg why lm_fuel fn h) (fun x => let '(r, _, h) := x in Ok (r, h)) in
  h_main files O Ieee.ieee_wide (IeeeCases.tenth 1) fuel init header_error [lit "d/m"; lit "u.wav"] no_files
  = Ok (lit "so what" ++ [10%Z], 0%Z, h') /\
  (forall n, ~ still_open (h_log h') n) /\ exists N, model_files files (lit "d/m") N /\ names (h_log h') = N ++ [lit "u.wav"].
Proof.
  intros. destruct (ConstFstCases.printed14 junk junk_int junk_char unknown why lm_fuel header_error) as (fuel & E).
  exists fuel. specialize (E fuel (le_n _)). cbn zeta.
  match type of E with run_main ?O ?X ?t ?f ?fs ?ld ?he ?a = _ =>
    pose proof (program_files O X (IeeeFbank.ieee_trig FiniteCases.rough_trig) (IeeeFbank.ieee_init FiniteCases.rough_trig) junk junk_int junk_char
      ConstFstCases.plenty t f EndCases.bits32 unknown fs why lm_fuel he a) as P end.
  cbn zeta in P. rewrite E in P. destruct P as (h' & Q & _ & _ & R). exists h'. split; [exact Q|].
  destruct (R eq_refl) as (So & fn & input & N & ws & Ea & M & Nm & W & _). split; [exact So|].
  assert (X0 : fn = lit "d/m" /\ input = lit "u.wav") by (clear -Ea; inversion Ea; auto). destruct X0 as (-> & ->).
  exists N. split; [exact M|]. rewrite Nm, W; [reflexivity|]. exists (lit "u"). reflexivity.
Qed.
