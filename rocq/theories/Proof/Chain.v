(** From what Kaldi leaves to a stored model. *)
From Coq Require Import ZArith String List Lia.
From Verif.Base Require Import Prelude Lemmas.
From Verif.Model Require Import Arith File Nnet Fst Decoder Stt Python Tools ConvertAm ConvertFst.
From Verif.Spec Require Import TextSpec AudioSpec AmSpec FormatSpec ToolSpec NnetSpec AmTextSpec FstSpec ConvertFstSpec LoadingSpec EndSpec ChainSpec.
From Verif.Proof Require Tools ConvertCases ConvertFst.
Import ListNotations.
Open Scope Z_scope.

(** * Networks *)

Lemma runs_columns : forall N c (ls : list (layer N)) c', runs_on c ls c' -> (0 < c)%nat ->
  forall o, o = None \/ o = Some c -> columns_agree o ls.
Proof.
  intros N c ls c' H. induction H as [c|c W b ls c' E R B H IH|c idx ls c' NI H IH|c s o ls c' E1 E2 H IH|c l r ls c' L R H IH|c l ls c' K H IH];
    intros Pc o' Ho.
  - constructor.
  - assert (Hh : length (hd [] W) = length b).
    { destruct W as [|w W]; [cbn in E; lia|]. inversion R; subst. assumption. }
    apply ALinear.
    + intros k Ek. destruct Ho as [-> | ->]; [discriminate|]. injection Ek as <-. congruence.
    + apply IH; [destruct b; [congruence|cbn; lia]|]. right. congruence.
  - apply ASplice. apply IH; [destruct idx; [congruence|cbn; nia]|]. destruct Ho as [-> | ->]; [now left|]. right. cbn [option_map]. f_equal. lia.
  - apply AOther; [exact I|]. now apply IH.
  - apply AOther; [exact I|]. now apply IH.
  - apply AOther; [destruct K as [-> | [-> | [-> | ->]]]; exact I|]. now apply IH.
Qed.

Lemma stored_rows : forall N (S : N -> Z -> Prop) W W', Forall2 (Forall2 S) W W' -> forall n,
  Forall (fun r => length r = n) W -> Forall (fun r => length r = n) W'.
Proof.
  intros N S W W' H n. induction H as [|r r' W W' R H IH]; intros K; inversion K; subst; constructor; auto.
  symmetry. eapply ConvertFst.Forall2_len, R.
Qed.

Lemma stored_runs : forall N (S : N -> Z -> Prop) c ls c', runs_on c ls c' ->
  forall ls', Forall2 (stored_layer S) ls ls' -> runs_on c ls' c'.
Proof.
  intros N S c ls c' H. induction H as [c|c W b ls c' E R B H IH|c idx ls c' NI H IH|c s o ls c' E1 E2 H IH|c l r ls c' L R H IH|c l ls c' K H IH];
    intros ls2 Q; inversion Q as [|? l2 ? lsr Q1 Q2]; subst.
  - constructor.
  - inversion Q1 as [? ? W' b' QW Qb| | | | | | |]; subst. pose proof (ConvertFst.Forall2_len _ _ _ _ _ QW) as LW.
    pose proof (ConvertFst.Forall2_len _ _ _ _ _ Qb) as Lb. apply RunLinear.
    + congruence.
    + rewrite <- Lb. eapply stored_rows; eassumption.
    + intros ->. destruct b; [congruence|discriminate Lb].
    + rewrite <- Lb. now apply IH.
  - inversion Q1; subst. apply RunSplice; [exact NI|]. now apply IH.
  - inversion Q1 as [| | | | |? ? s' o' Qs Qo| |]; subst. pose proof (ConvertFst.Forall2_len _ _ _ _ _ Qs).
    pose proof (ConvertFst.Forall2_len _ _ _ _ _ Qo). apply RunNorm; [congruence|congruence|]. now apply IH.
  - inversion Q1; subst. apply RunNarrow; auto.
  - apply RunRow; [|now apply IH]. destruct K as [-> | [-> | [-> | ->]]]; inversion Q1; subst; tauto.
Qed.

Lemma stored_blocks : forall N (S : N -> Z -> Prop) (blocks : list (block N)) ls', Forall well_formed blocks ->
  Forall2 (stored_layer S) (flat_map block_layers blocks) ls' ->
  exists blocks', ls' = flat_map block_layers blocks' /\ Forall well_formed blocks' /\
    left_context blocks' = left_context blocks /\ right_context blocks' = right_context blocks.
Proof.
  intros N S. induction blocks as [|b blocks IH]; intros ls' W H.
  - inversion H; subst. exists []. repeat split; constructor.
  - inversion W as [|? ? Wb Wr]; subst. destruct b as [l|idx]; cbn [flat_map block_layers app] in H.
    + inversion H as [|? l' ? lr Q1 Q2]; subst. destruct (IH _ Wr Q2) as (bs & -> & B1 & B2 & B3).
      exists (Single l' :: bs). split; [reflexivity|]. split.
      { constructor; [|exact B1]. inversion Q1; subst; exact Wb || exact Logic.I. }
      split; unfold left_context, right_context in *; cbn [map block_left block_right list_sum fold_right]; [exact B2|exact B3].
    + inversion H as [|? l1 ? lr Q1 Q2]; subst. inversion Q2 as [|? l2 ? lr2 Q3 Q4]; subst. destruct (IH _ Wr Q4) as (bs & -> & B1 & B2 & B3).
      inversion Q1; subst. inversion Q3; subst. exists (Context idx :: bs). split; [reflexivity|]. split; [constructor; [exact Wb|exact B1]|].
      unfold left_context, right_context in *. cbn [map block_left block_right list_sum fold_right].
      unfold list_sum in B2, B3. rewrite B2, B3. split; reflexivity.
Qed.

Definition plain_layer {N} (l : layer N) : Prop := match l with Splice _ | Narrow _ _ => False | _ => True end.

Lemma component_plain : forall N number zero sc off kind s (l : layer N), component_text number zero sc off kind s l -> plain_layer l.
Proof. intros N number zero sc off kind s l H. destruct H; exact Logic.I. Qed.

Lemma components_plain : forall N number zero sc off s (cs : list (str * layer N)), components_text number zero sc off s cs ->
  Forall (fun c => plain_layer (snd c)) cs.
Proof.
  intros N number zero sc off s cs H. induction H; constructor; [|assumption]. eapply component_plain. eassumption.
Qed.

Lemma offsets_some : forall prev ks s, offsets_text prev ks s -> ks <> [].
Proof. intros prev ks s H. destruct H; discriminate. Qed.

Lemma nodes_some : forall prev ls ns, nodes_text prev ls ns -> Forall (fun n => forall ks, snd (snd n) = Some ks -> ks <> []) ns.
Proof.
  intros prev ls ns H. induction H as [| | |prev l name comp input text ls ns H1 H2 H3 H4 H IH]; auto. constructor; [|exact IH].
  cbn [snd]. intros ks ->. inversion H3; subst. eapply offsets_some. eassumption.
Qed.

Lemma node_blocks_formed : forall N (layer_of : str -> layer N) nodes comps,
  assembled layer_of nodes comps -> Forall (fun c => plain_layer (snd c)) comps ->
  Forall (fun n => forall ks, snd (snd n) = Some ks -> ks <> []) nodes -> Forall well_formed (node_blocks layer_of nodes).
Proof.
  intros N layer_of nodes comps (_ & _ & A & _) PC PN. unfold node_blocks. apply Forall_flat_map.
  apply Forall_forall. intros (name, (c, input)) I. apply Forall_app. split.
  - destruct input as [ks|]; [|constructor]. constructor; [|constructor]. cbn [well_formed].
    rewrite Forall_forall in PN. exact (PN _ I ks eq_refl).
  - constructor; [|constructor]. assert (In (c, layer_of c) comps).
    { apply (A c input). apply in_map_iff. exists (name, (c, input)). auto. }
    rewrite Forall_forall in PC. specialize (PC _ H). cbn [snd] in PC. destruct (layer_of c); auto.
Qed.

Section Chain.
Context {F N : Type}.
Variable O : fops F.
Variable of_word : Z -> F.
Variable P : py_float N.
Variable sc : N -> N -> N -> N.
Variable off : N -> N -> N.
Variable files : str -> option str.
Variable hclg : str -> res (option (graph F)).

Lemma acoustic_formed : forall s blocks prior ls' prior', acoustic P sc off s blocks prior ls' prior' -> Forall well_formed blocks.
Proof.
  intros s blocks prior ls' prior' (nodes & comps & layer_of & M & _ & _ & A & -> & _).
  destruct M as (a1 & t1 & body & r1 & lines & t2 & w & n & d & w' & cs & a3 & t3 & more & r3 & _ & _ & _ & _ & _ & HN & _ & _ & _ & _ & _ & _ & HC & _).
  eapply node_blocks_formed; [exact A|eapply components_plain; exact HC|eapply nodes_some; exact HN].
Qed.

Lemma acoustic_converted : forall s blocks prior ls' prior', acoustic P sc off s blocks prior ls' prior' ->
  runs_on 40 (flat_map block_layers blocks) (length prior) ->
  convert_am P sc off s = Ok (network_file (Z.of_nat (left_context blocks)) (Z.of_nat (right_context blocks)) ls', vector_file prior').
Proof.
  intros s blocks prior ls' prior' (nodes & comps & layer_of & M & N13 & SN & A & -> & ST & SB & SP & SBP & MO) R.
  assert (CA : columns_agree None (flat_map block_layers (node_blocks layer_of nodes))).
  { eapply runs_columns; [exact R|clear; repeat constructor|now left]. }
  exact (ConvertCases.converted P sc off nodes comps prior s layer_of ls' prior' M N13 SN A CA ST SB SP SBP MO).
Qed.

Lemma back_off_packed : forall t t', packed (n_pack P) t t' -> back_off_model t -> sized t' -> back_off_model t'.
Proof.
  intros t t' (E & H) (_ & S0 & S1 & B) S. pose proof (ConvertFst.Forall2_len _ _ _ _ _ H) as L. unfold back_off_model, is_state in *. rewrite E, <- L.
  split; [exact S|]. split; [exact S0|]. split; [exact S1|]. clear - H B. revert B.
  generalize (Z.of_nat (length (t_states t))) as n. intros n. generalize dependent (t_states t'). generalize (t_states t).
  intros l l' H. induction H as [|st st' l l' (_ & Q) H IH]; intros B; constructor; inversion B; subst; auto.
  clear - Q H2. revert H2. induction Q as [|a a' k k' (Q1 & Q2 & _) Q IH]; intros G; constructor; inversion G; subst; auto. rewrite Q1, Q2. assumption.
Qed.

Lemma scripts_store : forall fn k blocks m, made_by_scripts P sc off files hclg fn k blocks -> meant O of_word P sc off k blocks m ->
  stored O of_word files hclg fn m /\
  exists blocks', network_fits m blocks' /\ left_context blocks' = left_context blocks /\ right_context blocks' = right_context blocks.
Proof.
  intros fn k blocks m (content & lines & Fc & Cl & Hg & (network & prior_file & Ham & Hn & Hp) & Hl & Hr & Hch & Hnp & (table & Ht & Htp) & Hs & Hlm) M.
  destruct M as [Mg (prior & Ma & Mr) Mp Ml Mri (Mc & Mc1) Msm Mnp (Mt & Mts) (Mw & Mb & Me) Mlm].
  pose proof (acoustic_formed _ _ _ _ _ Ma) as Wf. rewrite (acoustic_converted _ _ _ _ _ Ma Mr) in Ham. injection Ham as <- <-.
  destruct Ma as (nodes & comps & layer_of & _ & _ & _ & _ & _ & ST & SB & SP & SBP & (MO1 & MO2 & MO3)).
  pose proof (ConvertFst.Forall2_len _ _ _ _ _ ST) as LS. pose proof (ConvertFst.Forall2_len _ _ _ _ _ SP) as LP.
  split.
  - exists content, lines. split; [exact Fc|]. split; [exact Cl|]. rewrite Mg. split; [exact Hg|].
    split.
    { destruct Hn as (p & c & Hp1 & Hp2 & <-). exists p, (network_file (Z.of_nat (left_context blocks)) (Z.of_nat (right_context blocks)) (m_layers m)).
      split; [exact Hp1|]. split; [exact Hp2|]. do 2 eexists. exists []. rewrite app_nil_r. split; [reflexivity|].
      split; [apply ConvertFst.fits_4; lia|]. split; [apply ConvertFst.fits_4; lia|]. split; [exact SB|]. rewrite <- LS. exact MO3. }
    split.
    { destruct Hp as (p & c & Hp1 & Hp2 & <-). exists p, (vector_file (m_prior m)). split; [exact Hp1|]. split; [exact Hp2|].
      split; [|exact Mp]. exists []. rewrite app_nil_r. split; [reflexivity|exact SBP]. }
    rewrite Ml, Mri, Mc, Mnp, Mt, Mw, Mb, Me. split; [exact Hl|]. split; [exact Hr|]. split; [exact Hch|]. split; [exact Hnp|].
    split.
    { rewrite (Tools.extract_convert _ _ Mts) in Ht. injection Ht as <-. destruct Htp as (p & c & Hp1 & Hp2 & <-).
      exists p, (vector_file (k_pdfs k)). split; [exact Hp1|]. split; [exact Hp2|]. exists []. rewrite app_nil_r. split; [reflexivity|exact Mts]. }
    split; [exact Hs|]. destruct (k_lm k) as [((lm, vocab), t)|], (m_lm m) as [(costs, t')|]; try contradiction; [|exact Hlm].
    destruct Hlm as ((cf & Hc1 & Hc2) & (large & Hg1 & Hg2)). destruct Mlm as (MU & MP & MF & MA & MB).
    destruct MU as (ls & vl & es & higher & vs & xs & cs & U1 & U2 & U3 & U4 & U5 & U6 & U7 & U8 & U9 & U10 & U11 & U12 & U13 & U14).
    rewrite (Tools.convert_unigram_ok P lm vocab ls vl es higher vs xs cs costs U1 U2 U3 U4 U5 U6 U7 U8 U9 U10 U11 U12 U13 U14) in Hc1.
    injection Hc1 as <-. rewrite (ConvertFst.converted P t t' MP MF) in Hg1. injection Hg1 as <-. split.
    + destruct Hc2 as (p & c & Hp1 & Hp2 & <-). exists p, (vector_file costs). split; [exact Hp1|]. split; [exact Hp2|].
      exists []. rewrite app_nil_r. split; [reflexivity|exact U14].
    + destruct Hg2 as (p & c & Hp1 & Hp2 & <-). exists p, (fst_file t'). split; [exact Hp1|]. split; [exact Hp2|].
      exists []. rewrite app_nil_r. split; [reflexivity|]. destruct MF as (F1 & F2 & F3). split; [|eapply back_off_packed; eassumption].
      split; [exact F1|]. split; [rewrite (ConvertFst.packed_count _ _ _ _ MP); exact MA|]. split; assumption.
  - destruct (stored_blocks _ _ _ _ Wf ST) as (bs & E & B1 & B2 & B3). exists bs. split; [|split; assumption]. constructor.
    + exact E.
    + exact B1.
    + rewrite <- LP. eapply stored_runs; [exact Mr|exact ST].
    + rewrite B2. exact Ml.
    + rewrite B3. exact Mri.
    + rewrite Mc. exact Mc1.
    + exact Msm.
Qed.
End Chain.
