From Coq Require Import List ZArith Bool Lia.
From Verif Require Import Model.CharTok Spec.CharTokSpec.
Import ListNotations.
Open Scope Z_scope.

Lemma read_line : forall l cur s, no_newline l ->
  read_lines cur (l ++ 10 :: s) = (rev cur ++ l ++ [10]) :: read_lines [] s.
Proof.
  induction l as [|c l IH]; intros cur s Hn; cbn.
  - reflexivity.
  - destruct (Z.eqb_spec c 10) as [->|_]; [exfalso; apply Hn; now left|].
    rewrite IH by (intro; apply Hn; now right). cbn. now rewrite <- app_assoc.
Qed.

Lemma read_file : forall ls s, Forall no_newline ls ->
  read_lines [] (file_of ls ++ s) = map (fun l => l ++ [10]) ls ++ read_lines [] s.
Proof.
  induction ls as [|l ls IH]; intros s H; [reflexivity|]. inversion H; subst.
  unfold file_of in *. cbn. rewrite <- !app_assoc. cbn. rewrite read_line by assumption.
  cbn. now rewrite IH.
Qed.

Lemma read_last : forall l cur, no_newline l -> l <> [] \/ cur <> [] ->
  read_lines cur l = [rev cur ++ l].
Proof.
  induction l as [|c l IH]; intros cur Hn H; cbn.
  - rewrite app_nil_r. destruct cur; [destruct H; now elim H|reflexivity].
  - destruct (Z.eqb_spec c 10) as [->|_]; [exfalso; apply Hn; now left|].
    rewrite IH; [cbn; now rewrite <- app_assoc|intro; apply Hn; now right|right; discriminate].
Qed.

Lemma split_blanks : forall b s, all_blank is_space b ->
  split_fields [] (b ++ s) = split_fields [] s.
Proof.
  induction b as [|c b IH]; intros s H; [reflexivity|]. cbn.
  rewrite (H c) by now left. apply IH. intros d Hd. apply H. now right.
Qed.

Lemma split_word : forall w cur s, none_blank is_space w ->
  split_fields cur (w ++ s) = split_fields (rev w ++ cur) s.
Proof.
  induction w as [|c w IH]; intros cur s H; [reflexivity|]. cbn.
  rewrite (H c) by now left. rewrite IH by (intros d Hd; apply H; now right).
  now rewrite <- app_assoc.
Qed.

Lemma split_end : forall cur s, cur <> [] ->
  (forall c r, s = c :: r -> is_space c = true) ->
  split_fields cur s = rev cur :: split_fields [] s.
Proof.
  intros cur s Hc H. destruct s as [|c r]; cbn.
  - now destruct cur.
  - rewrite (H c r eq_refl). now destruct cur.
Qed.

Lemma split_line_of : forall ws l, line_of is_space ws l -> split_fields [] l = ws.
Proof.
  induction 1 as [b Hb|b w ws rest Hb Hw Hn Hr _ IH].
  - rewrite <- (app_nil_r b). now rewrite split_blanks.
  - rewrite split_blanks, split_word by assumption. rewrite app_nil_r.
    rewrite split_end, rev_involutive, IH; auto.
    intro E. apply Hw. rewrite <- (rev_involutive w), E. reflexivity.
Qed.

Lemma span_blank : forall s, exists b r, s = b ++ r /\ all_blank is_space b
  /\ (forall c t, r = c :: t -> is_space c = false).
Proof.
  induction s as [|c s (b & r & -> & Hb & Hr)].
  - exists [], []. repeat split; [intros d []|discriminate].
  - destruct (is_space c) eqn:E.
    + exists (c :: b), r. repeat split; auto. intros d [<-|Hd]; auto.
    + exists [], (c :: b ++ r). repeat split; [intros d []|].
      intros d t H. now inversion H; subst.
Qed.

Lemma span_word : forall s, exists w r, s = w ++ r /\ none_blank is_space w
  /\ (forall c t, r = c :: t -> is_space c = true).
Proof.
  induction s as [|c s (b & r & -> & Hb & Hr)].
  - exists [], []. repeat split; [intros d []|discriminate].
  - destruct (is_space c) eqn:E.
    + exists [], (c :: b ++ r). repeat split; [intros d []|].
      intros d t H. now inversion H; subst.
    + exists (c :: b), r. repeat split; auto. intros d [<-|Hd]; auto.
Qed.

Lemma line_exists : forall l, exists ws, line_of is_space ws l.
Proof.
  intro l. remember (length l) as n eqn:E. revert l E.
  induction n as [n IH] using (well_founded_induction lt_wf). intros l ->.
  destruct (span_blank l) as (b & r & -> & Hb & Hr).
  destruct (span_word r) as (w & t & -> & Hw & Ht).
  destruct w as [|c w].
  - destruct t as [|c t].
    + exists []. cbn. rewrite app_nil_r. now constructor.
    + specialize (Hr c t eq_refl). rewrite (Ht c t eq_refl) in Hr. discriminate.
  - destruct (IH (length t)) with (l := t) as (ws & Hws); [|reflexivity|].
    + rewrite !app_length. cbn. lia.
    + exists ((c :: w) :: ws). constructor; auto. discriminate.
Qed.

Lemma star_then_spec : forall b s, ~ In 10 s ->
  star_then b s = true <-> exists y z, s = y ++ [b] ++ z.
Proof.
  induction s as [|c s IH]; intros Hn; cbn.
  - split; [discriminate|]. intros (y & z & E). now destruct y.
  - destruct (Z.eqb_spec c 10) as [->|_]; [exfalso; apply Hn; now left|].
    cbn. rewrite orb_true_iff, IH by (intro; apply Hn; now right). split.
    + intros [(y & z & ->)|E].
      * now exists (c :: y), z.
      * apply Z.eqb_eq in E as ->. now exists [], s.
    + intros (y & z & E). destruct y as [|d y]; inversion E; subst.
      * right. apply Z.eqb_refl.
      * left. now exists y, z.
Qed.

Lemma match_between_spec : forall a b s, ~ In 10 s ->
  match_between a b s = true <-> exists x y z, s = x ++ [a] ++ y ++ [b] ++ z.
Proof.
  induction s as [|c s IH]; intros Hn; cbn.
  - split; [discriminate|]. intros (x & y & z & E). now destruct x.
  - assert (Hs : ~ In 10 s) by (intro; apply Hn; now right).
    rewrite orb_true_iff, andb_true_iff, IH, star_then_spec by assumption. split.
    + intros [[E (y & z & ->)]|(x & y & z & ->)].
      * apply Z.eqb_eq in E as ->. now exists [], y, z.
      * now exists (c :: x), y, z.
    + intros (x & y & z & E). destruct x as [|d x]; inversion E; subst.
      * left. split; [apply Z.eqb_refl|]. now exists y, z.
      * right. now exists x, y, z.
Qed.

Lemma starts_with_spec : forall p s, starts_with p s = true <-> exists z, s = p ++ z.
Proof.
  induction p as [|a p IH]; intros s; cbn.
  - split; eauto.
  - destruct s as [|c s].
    + split; [discriminate|]. now intros (z & E).
    + rewrite andb_true_iff, IH, Z.eqb_eq. split.
      * intros [-> (z & ->)]. now exists z.
      * intros (z & E). inversion E; subst. split; eauto.
Qed.

Lemma match_literal_spec : forall p s, p <> [] ->
  match_literal p s = true <-> exists x z, s = x ++ p ++ z.
Proof.
  intros p s Hp. induction s as [|c s IH]; cbn [match_literal];
    rewrite orb_true_iff, starts_with_spec.
  - split.
    + intros [(z & E)|]; [|discriminate]. now exists [], z.
    + intros (x & z & E). left. exists z. destruct x; [exact E|discriminate].
  - rewrite IH. split.
    + intros [(z & E)|(x & z & ->)]; [now exists [], z|now exists (c :: x), z].
    + intros (x & z & E). destruct x as [|d x]; [left; now exists z|].
      inversion E; subst. right. now exists x, z.
Qed.

Lemma kept_whole_spec : forall w, none_blank is_space w ->
  kept_whole w = true <-> mark w.
Proof.
  intros w Hw. assert (Hn : ~ In 10 w) by (intro H; now specialize (Hw 10 H)).
  unfold kept_whole, mark.
  rewrite !orb_true_iff, !match_between_spec by assumption.
  rewrite match_literal_spec by discriminate. unfold sil. tauto.
Qed.

Lemma line_words : forall ws l, line_of is_space ws l ->
  Forall (fun w => w <> [] /\ none_blank is_space w) ws.
Proof. induction 1; constructor; auto. Qed.

Lemma print_pieces : forall ws ps, pieces ws ps ->
  Forall (fun w => w <> [] /\ none_blank is_space w) ws ->
  flat_map print_field ws = concat (map (fun p => 32 :: p) ps).
Proof.
  induction 1 as [|w ws ps Hm _ IH|w ws ps Hm _ IH]; intros Hf; [reflexivity| |];
    inversion Hf as [|? ? [_ Hw] Hws]; subst; cbn [flat_map]; rewrite (IH Hws);
    unfold print_field.
  - now rewrite (proj2 (kept_whole_spec w Hw) Hm).
  - destruct (kept_whole w) eqn:E; [elim Hm; now apply kept_whole_spec|].
    rewrite map_app, concat_app. f_equal. clear.
    induction w as [|c w IH]; [reflexivity|]. cbn. now rewrite IH.
Qed.

Lemma pieces_exist : forall ws, Forall (fun w => w <> [] /\ none_blank is_space w) ws ->
  exists ps, pieces ws ps.
Proof.
  induction 1 as [|w ws [_ Hw] _ (ps & Hp)]; [exists []; constructor|].
  destruct (kept_whole w) eqn:E.
  - exists (w :: ps). constructor; auto. now apply kept_whole_spec.
  - exists (map (fun c => [c]) w ++ ps). constructor; auto.
    intro Hm. apply kept_whole_spec in Hm; [congruence|assumption].
Qed.

Lemma line_newline : forall ws l, line_of is_space ws l ->
  line_of is_space ws (l ++ [10]).
Proof.
  induction 1 as [b Hb|b w ws rest Hb Hw Hn Hr _ IH].
  - constructor. intros c Hc. apply in_app_or in Hc as [Hc|[<-|[]]]; auto.
  - rewrite <- !app_assoc. constructor; auto.
    intros c r E. destruct rest as [|d rest]; cbn in E; inversion E; subst; eauto.
Qed.

Lemma print_split : forall l o, split_line is_space l o -> print_line l = o ++ [10].
Proof.
  intros l o [l' Hl|l' name ws ps Hl Hp]; unfold print_line;
    rewrite (split_line_of _ _ Hl); [reflexivity|].
  apply line_words in Hl. inversion Hl; subst.
  rewrite (print_pieces _ _ Hp) by assumption. now rewrite app_assoc.
Qed.

Lemma split_newline : forall l o, split_line is_space l o ->
  split_line is_space (l ++ [10]) o.
Proof.
  intros l o [l' Hl|l' name ws ps Hl Hp].
  - apply split_blank. now apply line_newline.
  - eapply split_words; [apply line_newline; eassumption|assumption].
Qed.

Lemma split_exists : forall l, exists o, split_line is_space l o.
Proof.
  intro l. destruct (line_exists l) as ([|name ws] & Hl).
  - exists []. now constructor.
  - pose proof (line_words _ _ Hl) as Hw. inversion Hw; subst.
    destruct (pieces_exist ws) as (ps & Hp); [assumption|].
    eexists. econstructor; eassumption.
Qed.

Lemma split_unique : forall l o o', split_line is_space l o ->
  split_line is_space l o' -> o = o'.
Proof.
  intros l o o' H H'. apply print_split in H, H'. rewrite H in H'.
  now apply app_inj_tail in H' as [-> _].
Qed.

Lemma flat_lines : forall ls os, Forall2 (split_line is_space) ls os ->
  flat_map print_line (map (fun l => l ++ [10]) ls) = file_of os.
Proof.
  induction 1 as [|l o ls os H _ IH]; [reflexivity|]. cbn. rewrite IH.
  rewrite (print_split _ _ (split_newline _ _ H)). reflexivity.
Qed.

Lemma chartok_file : forall ls os, Forall no_newline ls ->
  Forall2 (split_line is_space) ls os -> conv_chartok (file_of ls) = file_of os.
Proof.
  intros ls os Hn H. unfold conv_chartok.
  rewrite <- (app_nil_r (file_of ls)), read_file by assumption.
  cbn. rewrite app_nil_r. now apply flat_lines.
Qed.

Lemma chartok_last : forall ls last os o, Forall no_newline ls -> no_newline last ->
  last <> [] -> Forall2 (split_line is_space) ls os -> split_line is_space last o ->
  conv_chartok (file_of ls ++ last) = file_of (os ++ [o]).
Proof.
  intros ls last os o Hn Hl He H Ho. unfold conv_chartok.
  rewrite read_file, read_last by (try assumption; now left).
  rewrite flat_map_app. 
  pose proof (flat_lines _ _ H) as E. unfold text in E. rewrite E. clear E. unfold file_of.
  rewrite map_app, concat_app. cbn. rewrite !app_nil_r. f_equal.
  now apply print_split.
Qed.

Lemma file_exists : forall s, exists ls last, s = file_of ls ++ last
  /\ Forall no_newline ls /\ no_newline last.
Proof.
  induction s as [|c s (ls & last & -> & Hn & Hl)].
  - exists [], []. repeat split; [constructor|intros []].
  - destruct (Z.eqb_spec c 10) as [->|Hc].
    + exists ([] :: ls), last. repeat split; auto. constructor; auto. intros [].
    + destruct ls as [|l ls].
      * exists [], (c :: last). repeat split; auto. intros [E|E]; auto.
      * exists ((c :: l) :: ls), last. repeat split; auto. inversion Hn; subst.
        constructor; auto. intros [E|E]; auto.
Qed.

Lemma splits_exist : forall ls, exists os, Forall2 (split_line is_space) ls os.
Proof.
  induction ls as [|l ls (os & H)]; [now exists []|].
  destruct (split_exists l) as (o & Ho). exists (o :: os). now constructor.
Qed.

Lemma chartok_result : forall s, exists ls last os,
  s = file_of ls ++ last /\ Forall no_newline ls /\ no_newline last
  /\ Forall2 (split_line is_space)
       (ls ++ match last with [] => [] | _ => [last] end) os
  /\ conv_chartok s = file_of os.
Proof.
  intro s. destruct (file_exists s) as (ls & last & -> & Hn & Hl).
  destruct (splits_exist ls) as (os & H).
  destruct last as [|c last].
  - exists ls, [], os. rewrite !app_nil_r. repeat split; auto. now apply chartok_file.
  - destruct (split_exists (c :: last)) as (o & Ho).
    exists ls, (c :: last), (os ++ [o]). repeat split; auto.
    + apply Forall2_app; auto.
    + apply chartok_last; auto. discriminate.
Qed.

(** Splitting twice. *)

Lemma mark_length : forall w, mark w -> (2 <= length w)%nat.
Proof.
  intros w [(x & y & z & ->)|[(x & y & z & ->)|(x & z & ->)]];
    rewrite !app_length; cbn; rewrite ?app_length; cbn; lia.
Qed.

Lemma pieces_again : forall ws ps, pieces ws ps -> pieces ps ps.
Proof.
  induction 1 as [|w ws ps Hm _ IH|w ws ps Hm _ IH]; [constructor|now constructor|].
  clear Hm. induction w as [|c w IHw]; [exact IH|]. cbn.
  apply (pieces_word [c] _ _); [|exact IHw].
  intro H. apply mark_length in H. cbn in H. lia.
Qed.

Lemma pieces_words : forall ws ps, pieces ws ps ->
  Forall (fun w => w <> [] /\ none_blank is_space w) ws ->
  Forall (fun w => w <> [] /\ none_blank is_space w) ps.
Proof.
  induction 1 as [|w ws ps Hm _ IH|w ws ps Hm _ IH]; intros Hf; auto;
    inversion Hf as [|? ? Hw Hws]; subst.
  - constructor; auto.
  - apply Forall_app. split; auto. destruct Hw as [_ Hw]. clear - Hw.
    induction w as [|c w IH]; constructor.
    + split; [discriminate|]. intros d [<-|[]]. apply Hw. now left.
    + apply IH. intros d Hd. apply Hw. now right.
Qed.

Lemma line_join : forall ws b, all_blank is_space b ->
  Forall (fun w => w <> [] /\ none_blank is_space w) ws ->
  line_of is_space ws (concat (map (fun p => 32 :: p) ws)).
Proof.
  intros ws b _ H. induction H as [|w ws [Hw Hn] _ IH].
  - constructor. intros c [].
  - cbn. apply (line_word is_space [32] w ws _); auto.
    + intros c [<-|[]]. reflexivity.
    + intros c r E. destruct ws; cbn in E; inversion E. reflexivity.
Qed.

Lemma split_again : forall l o, split_line is_space l o -> split_line is_space o o.
Proof.
  intros l o [l' Hl|l' name ws ps Hl Hp].
  - apply split_blank. constructor. intros c [].
  - pose proof (line_words _ _ Hl) as Hw. inversion Hw as [|? ? [Hne Hnb] Hws]; subst.
    pose proof (pieces_words _ _ Hp Hws) as Hps.
    eapply split_words; [|eapply pieces_again; exact Hp].
    apply (line_word is_space [] name ps); auto.
    + intros c [].
    + intros c r E. destruct ps; cbn in E; inversion E. reflexivity.
    + apply (line_join ps []); auto. intros c [].
Qed.

Lemma blank_word : forall w, none_blank is_space w -> no_newline w.
Proof. intros w H E. now specialize (H 10 E). Qed.

Lemma split_no_newline : forall l o, split_line is_space l o -> no_newline o.
Proof.
  intros l o [l' Hl|l' name ws ps Hl Hp]; [intros []|].
  pose proof (line_words _ _ Hl) as Hw. inversion Hw as [|? ? [Hne Hnb] Hws]; subst.
  pose proof (pieces_words _ _ Hp Hws) as Hps. intro H. apply in_app_or in H as [H|H].
  - now apply (blank_word _ Hnb).
  - apply in_concat in H as (x & Hx & Hi). apply in_map_iff in Hx as (p & <- & Hi').
    rewrite Forall_forall in Hps. destruct (Hps _ Hi') as [_ Hq].
    destruct Hi as [E|Hi]; [discriminate|]. now apply (blank_word _ Hq).
Qed.

Lemma chartok_twice : forall s, conv_chartok (conv_chartok s) = conv_chartok s.
Proof.
  intro s. destruct (chartok_result s) as (ls & last & os & _ & _ & _ & H & ->).
  apply chartok_file.
  - induction H; constructor; auto. eapply split_no_newline; eassumption.
  - induction H; constructor; auto. eapply split_again; eassumption.
Qed.

(** No character but blanks is lost. *)

Lemma seen_app : forall a b, seen is_space (a ++ b) = seen is_space a ++ seen is_space b.
Proof. intros. apply filter_app. Qed.

Lemma seen_blank : forall b, all_blank is_space b -> seen is_space b = [].
Proof.
  induction b as [|c b IH]; intro H; [reflexivity|]. cbn. rewrite (H c) by now left.
  apply IH. intros d Hd. apply H. now right.
Qed.

Lemma seen_word : forall b, none_blank is_space b -> seen is_space b = b.
Proof.
  induction b as [|c b IH]; intro H; [reflexivity|]. cbn. rewrite (H c) by now left.
  cbn. f_equal. apply IH. intros d Hd. apply H. now right.
Qed.

Lemma seen_line : forall ws l, line_of is_space ws l -> seen is_space l = concat ws.
Proof.
  induction 1 as [b Hb|b w ws rest Hb Hw Hn Hr _ IH]; [now apply seen_blank|].
  rewrite !seen_app, seen_blank, seen_word, IH by assumption. reflexivity.
Qed.

Lemma pieces_concat : forall ws ps, pieces ws ps -> concat ps = concat ws.
Proof.
  induction 1 as [|w ws ps Hm _ IH|w ws ps Hm _ IH]; [reflexivity|cbn; now rewrite IH|].
  rewrite concat_app, IH. cbn. f_equal. clear. induction w as [|c w IH]; [reflexivity|].
  cbn. now rewrite IH.
Qed.

Lemma seen_split : forall l o, split_line is_space l o -> seen is_space o = seen is_space l.
Proof.
  intros l o H. pose proof H as H'. destruct H as [l' Hl|l' name ws ps Hl Hp].
  - now rewrite (seen_line _ _ Hl).
  - rewrite (seen_line _ _ Hl). apply split_again in H'.
    pose proof (line_words _ _ Hl) as Hw. inversion Hw as [|? ? [Hne Hnb] Hws]; subst.
    pose proof (pieces_words _ _ Hp Hws) as Hps.
    rewrite seen_app, (seen_word _ Hnb). cbn. f_equal.
    rewrite <- (pieces_concat _ _ Hp).
    apply (seen_line ps). apply (line_join ps []); auto. intros c [].
Qed.

Lemma seen_file : forall ls os, Forall2 (split_line is_space) ls os ->
  seen is_space (file_of os) = seen is_space (file_of ls).
Proof.
  induction 1 as [|l o ls os H _ IH]; [reflexivity|]. unfold file_of in *. cbn [map concat].
  rewrite !seen_app, IH, (seen_split _ _ H). reflexivity.
Qed.

Lemma chartok_seen : forall s, seen is_space (conv_chartok s) = seen is_space s.
Proof.
  intro s. destruct (chartok_result s) as (ls & last & os & -> & _ & _ & H & ->).
  rewrite (seen_file _ _ H). unfold file_of. rewrite map_app, concat_app, !seen_app.
  f_equal. destruct last; [reflexivity|]. cbn [map concat]. rewrite app_nil_r, seen_app.
  cbn [seen filter is_space]. now rewrite app_nil_r.
Qed.

(** The blanks of the specification and those of the program. *)

Lemma white_space : forall c, white c = is_space c.
Proof.
  intro c. apply eq_iff_eq_true. unfold white, is_space. rewrite existsb_exists.
  rewrite !orb_true_iff, !andb_true_iff, !Z.leb_le, !Z.eqb_eq. split.
  - intros (d & Hd & E). apply Z.eqb_eq in E as ->. cbn in Hd.
    repeat (destruct Hd as [<-|Hd]; [lia|]). destruct Hd.
  - intro H. exists c. split; [|apply Z.eqb_refl]. cbn. lia.
Qed.

Lemma line_ext : forall f g : Z -> bool, (forall c, f c = g c) ->
  forall ws l, line_of f ws l -> line_of g ws l.
Proof.
  intros f g E. induction 1 as [b Hb|b w ws rest Hb Hw Hn Hr _ IH].
  - constructor. intros c Hc. rewrite <- E. auto.
  - constructor; auto.
    + intros c Hc. rewrite <- E. auto.
    + intros c Hc. rewrite <- E. auto.
    + intros c r Hc. rewrite <- E. eauto.
Qed.

Lemma split_ext : forall f g : Z -> bool, (forall c, f c = g c) ->
  forall l o, split_line f l o -> split_line g l o.
Proof.
  intros f g E l o [l' Hl|l' name ws ps Hl Hp].
  - apply split_blank. eapply line_ext; eassumption.
  - eapply split_words; [eapply line_ext; eassumption|assumption].
Qed.

Lemma splits_ext : forall f g : Z -> bool, (forall c, f c = g c) ->
  forall ls os, Forall2 (split_line f) ls os -> Forall2 (split_line g) ls os.
Proof.
  intros f g E ls os H. induction H; constructor; auto. eapply split_ext; eassumption.
Qed.

Lemma seen_white : forall s, seen white s = seen is_space s.
Proof. intro s. apply filter_ext. intro c. now rewrite white_space. Qed.

Lemma space_white : forall c, is_space c = white c.
Proof. intro. symmetry. apply white_space. Qed.

Lemma lines_split : forall ls os, Forall no_newline ls ->
  Forall2 (split_line white) ls os -> conv_chartok (file_of ls) = file_of os.
Proof.
  intros ls os Hn H. apply chartok_file; auto. eapply splits_ext; [exact white_space|exact H].
Qed.

Lemma last_split : forall ls last os o, Forall no_newline ls -> no_newline last ->
  last <> [] -> Forall2 (split_line white) ls os -> split_line white last o ->
  conv_chartok (file_of ls ++ last) = file_of (os ++ [o]).
Proof.
  intros ls last os o Hn Hl He H Ho. apply chartok_last; auto.
  - eapply splits_ext; [exact white_space|exact H].
  - eapply split_ext; [exact white_space|exact Ho].
Qed.

Lemma every_text : forall s, exists ls last os,
  s = file_of ls ++ last /\ Forall no_newline ls /\ no_newline last
  /\ Forall2 (split_line white)
       (ls ++ match last with [] => [] | _ => [last] end) os
  /\ conv_chartok s = file_of os.
Proof.
  intro s. destruct (chartok_result s) as (ls & last & os & A & B & C & D & E).
  exists ls, last, os. repeat split; auto. eapply splits_ext; [exact space_white|exact D].
Qed.

Lemma white_unique : forall l o o', split_line white l o -> split_line white l o' -> o = o'.
Proof.
  intros l o o' H H'. apply split_unique with l;
    (eapply split_ext; [exact white_space|eassumption]).
Qed.

Lemma seen_kept : forall s, seen white (conv_chartok s) = seen white s.
Proof. intro s. rewrite !seen_white. apply chartok_seen. Qed.

(** Cases. *)

Ltac not_in := let H := fresh in intros H; cbn in H; repeat (destruct H as [H|H]; [discriminate|]); destruct H.
Ltac are_blank := let H := fresh in intros ? H; cbn in H;
  repeat (destruct H as [<-|H]; [reflexivity|]); destruct H.
Ltac next_blank := intros c r E; inversion E; reflexivity.

Lemma not_mark_so : ~ mark [115; 111].
Proof. intro H. apply kept_whole_spec in H; [discriminate|are_blank]. Qed.

Lemma line_so :
  line_of white [[118; 49]; [115; 111]; [60; 117; 110; 107; 62]]
    [118; 49; 32; 115; 111; 32; 60; 117; 110; 107; 62].
Proof.
  apply (line_word white [] [118; 49] _ [32; 115; 111; 32; 60; 117; 110; 107; 62]);
    [are_blank|discriminate|are_blank|next_blank|].
  apply (line_word white [32] [115; 111] _ [32; 60; 117; 110; 107; 62]);
    [are_blank|discriminate|are_blank|next_blank|].
  apply (line_word white [32] [60; 117; 110; 107; 62] _ []);
    [are_blank|discriminate|are_blank|next_blank|].
  constructor. are_blank.
Qed.

Lemma case_so :
  Forall no_newline [[118; 49; 32; 115; 111; 32; 60; 117; 110; 107; 62]; [9]]
  /\ Forall2 (split_line white)
       [[118; 49; 32; 115; 111; 32; 60; 117; 110; 107; 62]; [9]]
       [[118; 49; 32; 115; 32; 111; 32; 60; 117; 110; 107; 62]; []]
  /\ conv_chartok [118; 49; 32; 115; 111; 32; 60; 117; 110; 107; 62; 10; 9; 10]
     = [118; 49; 32; 115; 32; 111; 32; 60; 117; 110; 107; 62; 10; 10].
Proof.
  split; [|split; [|reflexivity]].
  - repeat constructor; not_in.
  - constructor; [|constructor; [|constructor]].
    + apply (split_words white _ [118; 49] [[115; 111]; [60; 117; 110; 107; 62]]
               [[115]; [111]; [60; 117; 110; 107; 62]]); [exact line_so|].
      apply (pieces_word [115; 111] [[60; 117; 110; 107; 62]] [[60; 117; 110; 107; 62]]);
        [exact not_mark_so|].
      constructor; [|constructor]. right. left. now exists [], [117; 110; 107], [].
    + apply split_blank. constructor. are_blank.
Qed.

Lemma case_last :
  split_line white [118; 50; 32; 32; 12288; 97; 91; 98; 93; 99]
    [118; 50; 32; 97; 91; 98; 93; 99]
  /\ conv_chartok [118; 50; 32; 32; 12288; 97; 91; 98; 93; 99]
     = [118; 50; 32; 97; 91; 98; 93; 99; 10].
Proof.
  split; [|reflexivity].
  apply (split_words white _ [118; 50] [[97; 91; 98; 93; 99]] [[97; 91; 98; 93; 99]]).
  - apply (line_word white [] [118; 50] _ [32; 32; 12288; 97; 91; 98; 93; 99]);
      [are_blank|discriminate|are_blank|next_blank|].
    apply (line_word white [32; 32; 12288] [97; 91; 98; 93; 99] _ []);
      [are_blank|discriminate|are_blank|next_blank|].
    constructor. are_blank.
  - constructor; [|constructor]. left. now exists [97], [98], [99].
Qed.
