(** The files that loading opens and closes. *)
From Coq Require Import ZArith String List Bool Lia Permutation.
From Verif.Base Require Import Prelude Lemmas.
From Verif.Model Require Import Util File Binary Arith Vector Fbank Srfft FbankInit Nnet Formats Am Pcm Configuration
  SymbolTable Fst Decoder Stt Loading Handles.
From Verif.Spec Require Import AudioSpec TextSpec LoadingSpec LoadFaultSpec HandleSpec.
From Verif.Proof Require Import LoadFaultInit Handles.
Import ListNotations.

(** ** Simulation of [load] *)

Definition sim {A} (P : hs -> Prop) (m : load A) (fm : fload A) (Q : A -> hs -> Prop) (E : hs -> Prop) : Prop :=
  forall ps h, P h ->
    match m ps with
    | Fault f => fm ps h = Fault f
    | Ok (inl a, ps') => exists h', fm ps h = Ok (inl a, ps', h') /\ Q a h'
    | Ok (inr w, ps') => exists h', fm ps h = Ok (inr w, ps', h') /\ E h'
    end.

Lemma sim_lift {A} (P : hs -> Prop) (m : load A) (E : hs -> Prop) : (forall h, P h -> E h) ->
  sim P m (lift m) (fun a h => P h /\ exists ps ps', m ps = Ok (inl a, ps')) E.
Proof.
  intros PE ps h H. unfold lift. destruct (m ps) as [[[a|w] ps']|f] eqn:X; cbn [bind]; [|eauto|reflexivity].
  exists h. split; [reflexivity|]. split; [exact H|]. eauto.
Qed.

Lemma sim_bind {A B} P (m : load A) fm Q E (k : A -> load B) fk R : sim P m fm Q E ->
  (forall a, sim (Q a) (k a) (fk a) R E) -> sim P (load_bind m k) (fl_bind fm fk) R E.
Proof.
  intros S T ps h H. unfold load_bind, fl_bind. specialize (S ps h H). destruct (m ps) as [[[a|w] ps']|f]; cbn [bind].
  - destruct S as (h' & -> & q). cbn [bind]. exact (T a ps' h' q).
  - destruct S as (h' & -> & q). cbn [bind]. eauto.
  - now rewrite S.
Qed.

Lemma sim_fact {A} (P : hs -> Prop) (X : Prop) (m : load A) fm Q E : (X -> sim P m fm Q E) -> sim (fun h => P h /\ X) m fm Q E.
Proof. intros S ps h (H & x). exact (S x ps h H). Qed.

Lemma sim_ex {A X} (P : X -> hs -> Prop) (m : load A) fm Q E : (forall x, sim (P x) m fm Q E) -> sim (fun h => exists x, P x h) m fm Q E.
Proof. intros S ps h (x & H). exact (S x ps h H). Qed.

Lemma sim_weak {A} (P P' : hs -> Prop) (m : load A) fm (Q Q' : A -> hs -> Prop) (E E' : hs -> Prop) : sim P' m fm Q' E' -> (forall h, P h -> P' h) ->
  (forall a h, Q' a h -> Q a h) -> (forall h, E' h -> E h) -> sim P m fm Q E.
Proof.
  intros S A1 A2 A3 ps h H. specialize (S ps h (A1 h H)). destruct (m ps) as [[[a|w] ps']|f]; [| |exact S];
    destruct S as (h' & -> & q); exists h'; auto.
Qed.

(** A step that only the new functions take. *)
Lemma sim_step {A B} (P P' : hs -> Prop) (m : load A) (x : B) (s : fload B) k Q E :
  (forall ps h, P h -> exists h', s ps h = Ok (inl x, ps, h') /\ P' h') -> sim P' m (k x) Q E -> sim P m (fl_bind s k) Q E.
Proof.
  intros S T ps h H. unfold fl_bind. destruct (S ps h H) as (h' & -> & H'). cbn [bind]. exact (T ps h' H').
Qed.

Section Files.
(** The state before, the number of files allowed and the names allowed. *)
Variable h0 : hs.
Variable U : list nat.
Variable K : nat.
Variable allowed : bytes -> Prop.

Definition st (N : list bytes) (loc : list rf) (h : hs) : Prop :=
  log_ok h /\ holds h U /\ h_objs h = h_objs h0 ++ loc /\ h_mine h = h_mine h0 /\
  exists l, h_log h = h_log h0 ++ l /\ at_most K l /\ names l = N /\ Forall allowed N /\
    opens l = (closes l + length (owned_fds loc))%nat.

Definition some_st (h : hs) : Prop := exists N loc, st N loc h.

Lemma st_some N loc h : st N loc h -> some_st h.
Proof. intros H. now exists N, loc. Qed.

Lemma owned_app a b : owned_fds (a ++ b) = owned_fds a ++ owned_fds b.
Proof. unfold owned_fds. apply flat_map_app. Qed.

Lemma sim_new {B} N loc (m : load B) k Q E :
  sim (st N (loc ++ [mk_rf None true 0])) m (k (length (h_objs h0) + length loc)%nat) Q E ->
  sim (st N loc) m (fl_bind fl_new k) Q E.
Proof.
  apply sim_step. intros ps h (L & H & O & M & l & G & X & Nm & Al & C). unfold fl_new. eexists. split.
  - rewrite O, app_length. reflexivity.
  - unfold rf_new, st. cbn [h_objs h_mine h_log]. split; [exact L|]. split.
    + unfold holds in *. cbn [h_objs h_streams]. rewrite (owned_mid _ _ []). cbn. now rewrite app_nil_r.
    + split; [rewrite O; now rewrite app_assoc|]. split; [exact M|]. exists l. split; [exact G|]. split; [exact X|]. split; [exact Nm|].
      split; [exact Al|]. rewrite owned_app, app_length. cbn. lia.
Qed.

Definition slot (fd : option nat) (s : Z) : rf := mk_rf fd true s.

Lemma sim_open files N a s b name : allowed name -> (length (owned_fds (a ++ b)) < K)%nat ->
  sim (st N (a ++ slot None s :: b)) (open_file files name) (fl_open files (length (h_objs h0) + length a) name)
    (fun c h => (exists n, st (N ++ [name]) (a ++ slot (Some n) (lenZ c) :: b) h) /\ files name = Some c) some_st.
Proof.
  intros Aw Lt ps h (L & H & O & M & l & G & X & Nm & Al & C). unfold fl_open, open_file.
  rewrite app_assoc in O. destruct (open_ok files h U _ _ _ name L H O) as (h' & R & L' & M' & P).
  rewrite app_length in R. rewrite R. cbn [bind]. destruct (files name) as [c|].
  - unfold load_ret. cbn zeta in P. destruct P as (O' & S' & G' & H'). exists h'. split; [reflexivity|]. split; [|reflexivity].
    exists (length (h_streams h)). split; [exact L'|]. cbn in H'. split; [exact H'|]. split; [rewrite O', <- app_assoc; reflexivity|].
    split; [congruence|]. exists (l ++ [Opened (length (h_streams h)) name]). split; [rewrite G', G; now rewrite app_assoc|].
    assert (Q : opens (l ++ [Opened (length (h_streams h)) name]) =
      (closes (l ++ [Opened (length (h_streams h)) name]) + S (length (owned_fds (a ++ b))))%nat).
    { rewrite opens_app, closes_app, C, owned_mid, owned_app. rewrite !app_length. cbn. lia. }
    split; [apply at_most_snoc; [exact X|lia]|]. split; [rewrite names_app, Nm; reflexivity|].
    split; [apply Forall_app; split; [exact Al|constructor; [exact Aw|constructor]]|].
    rewrite Q, owned_mid, owned_app, !app_length. cbn. lia.
  - unfold load_fail. destruct P as (O' & S' & G' & H'). exists h'. split; [reflexivity|]. exists N, (a ++ slot None s :: b).
    cbn in H'. split; [exact L'|]. split; [exact H'|]. split; [rewrite O', <- app_assoc; reflexivity|].
    split; [congruence|]. exists l. rewrite G'. split; [exact G|]. split; [exact X|]. split; [exact Nm|]. split; [exact Al|exact C].
Qed.

Lemma sim_close {B} N a n s b (m : load B) k Q E :
  sim (st N (a ++ slot None s :: b)) m (k tt) Q E ->
  sim (st N (a ++ slot (Some n) s :: b)) m (fl_bind (fl_close (length (h_objs h0) + length a)) k) Q E.
Proof.
  apply sim_step. intros ps h (L & H & O & M & l & G & X & Nm & Al & C). unfold fl_close. rewrite app_assoc in O.
  destruct (close_ok h U _ _ _ L H O eq_refl) as (h' & R & L' & O' & M' & H' & _ & G'). rewrite app_length in R. rewrite R. cbn [bind].
  exists h'. split; [reflexivity|]. split; [exact L'|]. split; [exact H'|]. split; [rewrite O', <- app_assoc; reflexivity|].
  split; [congruence|]. cbn [slot r_fd] in G'. exists (l ++ [Closed n]). split; [rewrite G', G; now rewrite app_assoc|].
  assert (Q' : opens (l ++ [Closed n]) = (closes (l ++ [Closed n]) + length (owned_fds (a ++ slot None s :: b)))%nat).
  { rewrite opens_app, closes_app, C, !owned_mid, !app_length. cbn. lia. }
  split; [apply at_most_snoc; [exact X|]|].
  - rewrite opens_app, closes_app. specialize (X l [] (eq_sym (app_nil_r l))). cbn. lia.
  - split; [rewrite names_app, Nm; cbn; apply app_nil_r|]. split; [exact Al|exact Q'].
Qed.

Lemma sim_with {B} N a n s b (m : load B) :
  sim (st N (a ++ slot (Some n) s :: b)) m (with_stream (length (h_objs h0) + length a) m)
    (fun x h => st N (a ++ slot (Some n) s :: b) h /\ exists ps ps', m ps = Ok (inl x, ps')) some_st.
Proof.
  intros ps h H. unfold with_stream.
  assert (R : rf_use (length (h_objs h0) + length a) h = Ok tt).
  { destruct H as (L & H & O & _). rewrite app_assoc in O. unfold rf_use, obj. rewrite O, nth_error_app2 by (rewrite app_length; lia).
    rewrite app_length, Nat.sub_diag. cbn [nth_error bind slot r_fd]. unfold fuse. rewrite (holds_in h U n H); [reflexivity|].
    rewrite O, owned_mid. apply in_app_iff. right. now left. }
  rewrite R. cbn [bind]. exact (sim_lift _ m some_st (fun h H => st_some _ _ _ H) ps h H).
Qed.

Lemma leave_ok N loc : forall h, st N loc h -> exists h', leave (length loc) h = Ok h' /\ st N [] h'.
Proof.
  induction loc as [|o loc IH] using rev_ind; intros h H; [exists h; now split|].
  rewrite app_length, Nat.add_comm. cbn [length Nat.add leave]. destruct H as (L & H & O & M & l & G & X & Nm & Al & C).
  rewrite app_assoc in O. destruct (destroy_ok h U _ _ L H O) as (h' & -> & L' & O' & M' & H' & _ & G'). cbn [bind]. apply IH.
  split; [exact L'|]. split; [exact H'|]. split; [exact O'|]. split; [congruence|].
  rewrite owned_mid, app_length in C. cbn [owned_fds flat_map] in C. rewrite app_nil_r in C.
  exists (l ++ match fds o with [] => [] | n :: _ => [Closed n] end). split; [rewrite G', G; now rewrite app_assoc|].
  assert (F : fds o = [] \/ exists n, fds o = [n]). { unfold fds. destruct (r_owned o), (r_fd o); eauto. }
  destruct F as [F|(n & F)]; rewrite F in *.
  - rewrite app_nil_r. split; [exact X|]. split; [exact Nm|]. split; [exact Al|]. cbn in C. lia.
  - cbn [length] in C. split; [apply at_most_snoc; [exact X|]|].
    + rewrite opens_app, closes_app. specialize (X l [] (eq_sym (app_nil_r l))). cbn. lia.
    + split; [rewrite names_app, Nm; cbn; apply app_nil_r|]. split; [exact Al|]. rewrite opens_app, closes_app. cbn. lia.
Qed.

Lemma sim_scoped {A} N (m : load A) fm (Q : A -> list bytes -> Prop) :
  sim (st N []) m fm (fun a h => exists N' loc, st N' loc h /\ Q a N') some_st ->
  sim (st N []) m (scoped fm) (fun a h => exists N', st N' [] h /\ Q a N') (fun h => exists N', st N' [] h).
Proof.
  intros S ps h H. unfold scoped. assert (O : h_objs h = h_objs h0) by (destruct H as (_ & _ & O & _); now rewrite app_nil_r in O).
  specialize (S ps h H). rewrite O. destruct (m ps) as [[[a|w] ps']|f]; [| |now rewrite S].
  - destruct S as (h' & -> & N' & loc & T & q). cbn [bind]. assert (O' := T). destruct O' as (_ & _ & O' & _).
    rewrite O', app_length. replace (length (h_objs h0) + length loc - length (h_objs h0))%nat with (length loc) by lia.
    destruct (leave_ok N' loc h' T) as (k & -> & T'). cbn [bind]. exists k. split; [reflexivity|]. now exists N'.
  - destruct S as (h' & -> & N' & loc & T). cbn [bind]. assert (O' := T). destruct O' as (_ & _ & O' & _).
    rewrite O', app_length. replace (length (h_objs h0) + length loc - length (h_objs h0))%nat with (length loc) by lia.
    destruct (leave_ok N' loc h' T) as (k & -> & T'). cbn [bind]. exists k. split; [reflexivity|]. now exists N'.
Qed.

Lemma sim_lift_st {A} N loc (m : load A) :
  sim (st N loc) m (lift m) (fun a h => st N loc h /\ exists ps ps', m ps = Ok (inl a, ps')) some_st.
Proof. apply sim_lift. intros h. apply st_some. Qed.
End Files.

Lemma sim_ret {A} (P : hs -> Prop) (a : A) (Q : A -> hs -> Prop) E : (forall h, P h -> Q a h) -> sim P (load_ret a) (lift (load_ret a)) Q E.
Proof. intros H ps h p. exists h. split; [reflexivity|auto]. Qed.
Lemma sim_err {A} (P : hs -> Prop) w (Q : A -> hs -> Prop) (E : hs -> Prop) : (forall h, P h -> E h) -> sim P (load_fail w) (lift (load_fail w)) Q E.
Proof. intros H ps h p. exists h. split; [reflexivity|auto]. Qed.

Section Load.
Context {F : Type}.
Variable O : fops F.
Variable T : trig_ops F.
Variable I : init_ops F.
Variable junk : nat -> F.
Variable junk_int : nat -> Z.
Variable of_word : Z -> F.
Variable unknown : F.
Variable files : bytes -> option bytes.
Variable hclg : bytes -> res (option (graph F)).
Variable why : bytes -> bytes.
Variable lm_fuel : nat.
Variable fn : bytes.
Hypothesis Hg : forall p g, hclg p = Ok (Some g) -> files p <> None.
Variable h0 : hs.
Variable U : list nat.

Notation st := (st h0 U 2 (model_file files fn)).
Notation some_st := (some_st h0 U 2 (model_file files fn)).
Definition out (h : hs) : Prop := exists N, st N [] h.
Notation reads := (reads_from files fn).

Lemma named_ok key p : In key [lit "fst"; lit "nnet"; lit "prior"; lit "tid2pdf"; lit "symbol_table"; lit "original_lm"; lit "large_lm"] ->
  named files fn key p -> model_file files fn p.
Proof. intros J H. right. now exists key. Qed.

Lemma lift_named {B} N loc c key (k : bytes -> load B) fk R : reads c -> lower key = key ->
  (forall p, named files fn key p -> sim (st N loc) (k p) (fk p) R some_st) ->
  sim (st N loc) (load_bind (load_path c key) k) (fl_bind (lift (load_path c key)) fk) R some_st.
Proof.
  intros Rd L H. eapply sim_bind; [apply sim_lift_st|]. intros p. apply sim_fact. intros (ps & ps' & E). apply H.
  exact (path_value files fn c key ps p ps' Rd L E).
Qed.

Lemma lift_any {A B} N loc (m : load A) (k : A -> load B) fk R :
  (forall a, sim (st N loc) (k a) (fk a) R some_st) ->
  sim (st N loc) (load_bind m k) (fl_bind (lift m) fk) R some_st.
Proof. intros H. eapply sim_bind; [apply sim_lift_st|]. intros a. apply sim_fact. intros _. apply H. Qed.

Lemma open_named {B} N a s b name i (k : bytes -> load B) fk R : i = (length (h_objs h0) + length a)%nat ->
  model_file files fn name -> (length (owned_fds (a ++ b)) < 2)%nat ->
  (forall c n, files name = Some c -> sim (st (N ++ [name]) (a ++ slot (Some n) (lenZ c) :: b)) (k c) (fk c) R some_st) ->
  sim (st N (a ++ slot None s :: b)) (load_bind (open_file files name) k) (fl_bind (fl_open files i name) fk) R some_st.
Proof.
  intros -> A L H. eapply sim_bind; [apply sim_open; assumption|]. intros c. apply sim_fact. intros Fc. apply sim_ex. intros n. now apply H.
Qed.

Lemma with_any {A B} N a n s b i (m : load A) (k : A -> load B) fk R : i = (length (h_objs h0) + length a)%nat ->
  (forall x, (exists ps ps', m ps = Ok (inl x, ps')) -> sim (st N (a ++ slot (Some n) s :: b)) (k x) (fk x) R some_st) ->
  sim (st N (a ++ slot (Some n) s :: b)) (load_bind m k) (fl_bind (with_stream i m) fk) R some_st.
Proof. intros -> H. eapply sim_bind; [apply sim_with|]. intros x. apply sim_fact. intros E. now apply H. Qed.

Lemma conf_sim N : sim (st N []) (load_conf files why fn) (fl_conf files why fn)
  (fun c h => exists N', st N' [] h /\ (reads c /\ N' = N ++ [fn])) out.
Proof.
  apply (sim_scoped h0 U 2 (model_file files fn) N _ _ (fun c N' => reads c /\ N' = N ++ [fn])). unfold load_conf.
  apply sim_new. apply (open_named N [] 0 []); [reflexivity|now left|cbn; lia|]. intros c n Fc.
  apply (with_any _ [] n _ []); [reflexivity|]. intros [r ok] (ps & ps' & E). cbn [snd Datatypes.fst]. destruct ok.
  - apply sim_ret. intros h H. eexists _, _. split; [exact H|]. split; [|reflexivity]. apply (conf_reads files fn c r Fc).
    unfold load_res in E. destruct (conf_read conf_empty fn c) as [x|]; [|discriminate]. cbn [bind] in E. injection E as -> _. reflexivity.
  - apply sim_err. intros h. apply st_some.
Qed.

Lemma am_sim N c : reads c -> sim (st N []) (load_am O of_word unknown files why c) (fl_am files O of_word unknown why c)
  (fun _ h => exists N', st N' [] h /\ exists nn pr td, N' = N ++ [nn; pr; td] /\
     named files fn (lit "nnet") nn /\ named files fn (lit "prior") pr /\ named files fn (lit "tid2pdf") td) out.
Proof.
  intros Rd. apply (sim_scoped h0 U 2 (model_file files fn) N _ _ (fun _ N' => exists nn pr td, N' = N ++ [nn; pr; td] /\
     named files fn (lit "nnet") nn /\ named files fn (lit "prior") pr /\ named files fn (lit "tid2pdf") td)). unfold load_am.
  apply lift_named; [exact Rd|reflexivity|]. intros nn Hn.
  apply sim_new. apply (open_named N [] 0 []); [reflexivity|eapply named_ok; [|exact Hn]; cbn [In]; tauto|cbn; lia|]. intros c1 n1 F1.
  apply (with_any _ [] n1 _ []); [reflexivity|]. intros net _.
  apply (sim_close h0 U 2 (model_file files fn) (N ++ [nn]) [] n1 (lenZ c1) []).
  apply lift_named; [exact Rd|reflexivity|]. intros pr Hp.
  apply (open_named _ [] (lenZ c1) []); [reflexivity|eapply named_ok; [|exact Hp]; cbn [In]; tauto|cbn; lia|]. intros c2 n2 F2.
  apply (with_any _ [] n2 _ []); [reflexivity|]. intros prior _.
  apply lift_any. intros lp.
  apply (sim_close h0 U 2 (model_file files fn) ((N ++ [nn]) ++ [pr]) [] n2 (lenZ c2) []).
  apply lift_any. intros left. apply lift_any. intros right. apply lift_any. intros chunk. apply lift_any. intros pdfs.
  apply lift_named; [exact Rd|reflexivity|]. intros td Ht.
  apply (open_named _ [] (lenZ c2) []); [reflexivity|eapply named_ok; [|exact Ht]; cbn [In]; tauto|cbn; lia|]. intros c3 n3 F3.
  apply (with_any _ [] n3 _ []); [reflexivity|]. intros pdf _.
  apply sim_ret. intros h H. eexists _, _. split; [exact H|]. exists nn, pr, td. split; [now rewrite <- !app_assoc|]. now split.
Qed.

Lemma out_some h : out h -> some_st h.
Proof. intros (N & H). now exists N, []. Qed.

Lemma graph_read_sim N name : model_file files fn name ->
  sim (st N []) (load_res (hclg name))
    (fun ps h =>
       match fopen files name h with
       | (None, h) => lift (load_res (hclg name)) ps h
       | (Some (n, _), h) =>
           (' (r, ps, h) <- lift (load_res (hclg name)) ps h ;; h <- fclose n h ;; Ok (r, ps, h))%res
       end)
    (fun g h => exists N', st N' [] h /\ (g <> None -> N' = N ++ [name])) out.
Proof.
  intros A ps h (L & H & Ob & M & l & G & X & Nm & Al & C). unfold load_res.
  destruct (fopen files name h) as [[[n c]|] k] eqn:P.
  - apply fopen_ok in P; [|exact L]. destruct P as (L' & _ & -> & S & O' & M' & G').
    assert (Nn : nth_error (h_streams k) (length (h_streams h)) = Some true) by (rewrite S, nth_error_app2, Nat.sub_diag by lia; reflexivity).
    destruct (fclose_ok k _ L' Nn) as (k' & Fc & L2 & S2 & O2 & M2 & G2).
    destruct (hclg name) as [g|f]; cbn [bind]; [|reflexivity]. unfold lift. cbn [bind]. rewrite Fc. cbn [bind]. exists k'. split; [reflexivity|].
    exists (N ++ [name]). split; [|reflexivity]. split; [exact L2|]. split.
    + unfold holds in *. rewrite O2, O', S2, S. rewrite S in Nn.
      assert (Q : Permutation (length (h_streams h) :: live (upd (h_streams h ++ [true]) (length (h_streams h)) false)) (length (h_streams h) :: owned_fds (h_objs h) ++ U)).
      { rewrite <- (live_upd _ _ Nn), live_app, H. perm. }
      now apply Permutation_cons_inv in Q.
    + split; [congruence|]. split; [congruence|].
      exists ((l ++ [Opened (length (h_streams h)) name]) ++ [Closed (length (h_streams h))]).
      split; [rewrite G2, G', G; now rewrite <- !app_assoc|]. cbn in C.
      split; [|split; [|split]].
      * apply at_most_snoc; [apply at_most_snoc; [exact X|]|]; rewrite ?opens_app, ?closes_app; cbn; lia.
      * rewrite !names_app, Nm. cbn. now rewrite app_nil_r.
      * apply Forall_app. split; [exact Al|]. constructor; [exact A|constructor].
      * rewrite !opens_app, !closes_app. cbn. lia.
  - apply fopen_none in P. destruct P as (-> & Fn). unfold lift. destruct (hclg name) as [g|f] eqn:Eg; cbn [bind]; [|reflexivity].
    exists h. split; [reflexivity|]. exists N. split.
    + split; [exact L|]. split; [exact H|]. split; [exact Ob|]. split; [exact M|]. exists l. auto.
    + destruct g as [g|]; [intros _|congruence]. now elim (Hg name g Eg).
Qed.

Lemma graph_sim N c : reads c -> sim (st N []) (load_graph hclg c) (fl_graph files hclg c)
  (fun _ h => exists N', st N' [] h /\ exists g, N' = N ++ [g] /\ named files fn (lit "fst") g) out.
Proof.
  intros Rd. unfold load_graph, fl_graph.
  eapply sim_bind; [apply (sim_lift (st N [])); intros h H; now exists N|]. intros name. apply sim_fact. intros (ps & ps' & E).
  destruct (str_eqb name []) eqn:Em; [apply sim_err; intros h H; now exists N|].
  assert (Nd : named files fn (lit "fst") name) by exact (path_named files fn c (lit "fst") ps name ps' Rd eq_refl E Em).
  eapply sim_bind; [apply graph_read_sim; eapply named_ok; [|exact Nd]; cbn [In]; tauto|]. intros g. apply sim_ex. intros N'. apply sim_fact. intros Q.
  destruct g as [g|]; [|apply sim_err; intros h H; now exists N'].
  eapply sim_bind; [apply (sim_lift (st N' [])); intros h H; now exists N'|]. intros u. apply sim_fact. intros _.
  apply sim_ret. intros h H. exists N'. split; [exact H|]. exists name. split; [apply Q; discriminate|exact Nd].
Qed.

Lemma symbols_sim N c : reads c -> sim (st N []) (load_symbols files why c) (fl_symbols files why c)
  (fun _ h => exists N', st N' [] h /\ exists s, N' = N ++ [s] /\ named files fn (lit "symbol_table") s) out.
Proof.
  intros Rd. unfold load_symbols, fl_symbols.
  eapply sim_bind; [apply (sim_lift (st N [])); intros h H; now exists N|]. intros name. apply sim_fact. intros (ps & ps' & E).
  destruct (str_eqb name []) eqn:Em; [apply sim_err; intros h H; now exists N|].
  assert (Nd : named files fn (lit "symbol_table") name) by exact (path_named files fn c (lit "symbol_table") ps name ps' Rd eq_refl E Em).
  eapply sim_bind; [apply (sim_lift (st N [])); intros h H; now exists N|]. intros u. apply sim_fact. intros _.
  apply (sim_scoped h0 U 2 (model_file files fn) N _ _ (fun _ N' => exists s, N' = N ++ [s] /\ named files fn (lit "symbol_table") s)).
  apply sim_new. apply (open_named N [] 0 []); [reflexivity|eapply named_ok; [|exact Nd]; cbn [In]; tauto|cbn; lia|]. intros c1 n Fc.
  apply (with_any _ [] n _ []); [reflexivity|]. intros [r ok] _. cbn [snd Datatypes.fst]. destruct ok.
  - apply sim_ret. intros h H. eexists _, _. split; [exact H|]. now exists name.
  - apply sim_err. intros h. apply st_some.
Qed.

Lemma lm_sim N c s : reads c -> sim (st N []) (load_lm of_word unknown files why c s) (fl_lm files of_word unknown why c s)
  (fun _ h => exists N', st N' [] h /\ exists lm, N' = N ++ lm /\
     (lm = [] \/ exists o b, lm = [o; b] /\ named files fn (lit "original_lm") o /\ named files fn (lit "large_lm") b)) out.
Proof.
  intros Rd. apply (sim_scoped h0 U 2 (model_file files fn) N _ _ (fun _ N' => exists lm, N' = N ++ lm /\
     (lm = [] \/ exists o b, lm = [o; b] /\ named files fn (lit "original_lm") o /\ named files fn (lit "large_lm") b))). unfold load_lm.
  eapply sim_bind; [apply sim_lift_st|]. intros large. apply sim_fact. intros (ps & ps' & E).
  destruct (str_eqb large []) eqn:Em.
  { apply sim_ret. intros h H. exists N, []. split; [exact H|]. exists []. split; [now rewrite app_nil_r|now left]. }
  assert (Nl : named files fn (lit "large_lm") large) by exact (path_named files fn c (lit "large_lm") ps large ps' Rd eq_refl E Em). clear ps ps' E.
  eapply sim_bind; [apply sim_lift_st|]. intros orig. apply sim_fact. intros (ps & ps' & E).
  destruct (str_eqb orig []) eqn:Eo; [apply sim_err; intros h; apply st_some|].
  assert (No : named files fn (lit "original_lm") orig) by exact (path_named files fn c (lit "original_lm") ps orig ps' Rd eq_refl E Eo).
  apply sim_new. apply (open_named N [] 0 []); [reflexivity|eapply named_ok; [|exact No]; cbn [In]; tauto|cbn; lia|]. intros c1 n1 F1.
  apply lift_any. intros u1.
  apply (with_any _ [] n1 _ []); [reflexivity|]. intros small _.
  apply sim_new. apply (open_named _ [slot (Some n1) (lenZ c1)] 0 []); [reflexivity|eapply named_ok; [|exact Nl]; cbn [In]; tauto|cbn; lia|].
  intros c2 n2 F2. apply lift_any. intros u2.
  apply (with_any _ [slot (Some n1) (lenZ c1)] n2 _ []); [reflexivity|]. intros g _. cbn zeta.
  apply lift_any. intros bucket. apply lift_any. intros u3.
  apply sim_ret. intros h H. eexists _, _. split; [exact H|]. exists [orig; large]. split; [now rewrite <- !app_assoc|]. right. now exists orig, large.
Qed.

Lemma lift_out {A B} N (m : load A) (k : A -> load B) fk R :
  (forall a, sim (st N []) (k a) (fk a) R out) -> sim (st N []) (load_bind m k) (fl_bind (lift m) fk) R out.
Proof. intros H. eapply sim_bind; [apply (sim_lift (st N [])); intros h X; now exists N|]. intros a. apply sim_fact. intros _. apply H. Qed.

Lemma parts_sim : sim (st [] []) (load_parts O T I junk junk_int of_word unknown files hclg why lm_fuel fn)
    (fl_parts files O T I junk junk_int of_word unknown hclg why lm_fuel fn)
    (fun _ h => exists N, st N [] h /\ model_files files fn N) out.
Proof.
  unfold load_parts, fl_parts. apply lift_out. intros u.
  eapply sim_bind; [apply conf_sim|]. intros c. apply sim_ex. intros N1. apply sim_fact. intros (Rd & ->).
  eapply sim_bind; [apply graph_sim; exact Rd|]. intros g. apply sim_ex. intros N2. apply sim_fact. intros (pg & -> & Ng).
  apply lift_out. intros u2.
  eapply sim_bind; [apply am_sim; exact Rd|]. intros a. apply sim_ex. intros N3. apply sim_fact. intros (nn & pr & td & -> & Nn & Np & Nt).
  eapply sim_bind; [apply symbols_sim; exact Rd|]. intros s. apply sim_ex. intros N4. apply sim_fact. intros (sy & -> & Ns).
  eapply sim_bind; [apply lm_sim; exact Rd|]. intros d. apply sim_ex. intros N5. apply sim_fact. intros (lm & -> & Nl).
  apply lift_out. intros fb. apply lift_out. intros u3. apply lift_out. intros cache.
  apply sim_ret. intros h H. eexists. split; [exact H|]. exists pg, nn, pr, td, sy, lm. split; [reflexivity|]. auto 10.
Qed.
End Load.
