From Coq Require Import List ZArith Bool Lia.
From Verif.Base Require Import Prelude.
From Verif.Spec Require Import TextSpec ProgramSpec CharTokSpec.
From Verif.Model Require Import CharTok.
From Verif.Proof Require Import CharTok CharTokList.
Import ListNotations.
Open Scope Z_scope.

Ltac bool_cases := repeat match goal with
  | |- context [?a <=? ?b] => destruct (Z.leb_spec a b); try lia
  | |- context [?a <? ?b] => destruct (Z.ltb_spec a b); try lia
  end; cbn [andb].

Lemma encode_utf8 : forall c bs, utf8_char c bs -> encode_char c = bs.
Proof.
  intros c bs H. unfold encode_char.
  destruct H as [a H|a b H Hb|a b c H Hb Hc L|a b c d H Hb Hc Hd L]; unfold six_bits in *;
    change (2 ^ 6) with 64 in *; change (2 ^ 11) with 2048 in *; change (2 ^ 12) with 4096 in *;
    change (2 ^ 16) with 65536 in *; change (2 ^ 18) with 262144 in *; bool_cases;
    repeat f_equal; try (clear; Z.div_mod_to_equations; lia); try (Z.div_mod_to_equations; lia).
Qed.

Lemma decode_char : forall c bs rest, utf8_char c bs -> decode (bs ++ rest) = option_map (cons c) (decode rest).
Proof.
  intros c bs rest H.
  destruct H as [a H|a b H Hb|a b c H Hb Hc L|a b c d H Hb Hc Hd L]; unfold six_bits in *;
    change (2 ^ 6) with 64 in *; change (2 ^ 11) with 2048 in *; change (2 ^ 12) with 4096 in *;
    change (2 ^ 16) with 65536 in *; change (2 ^ 18) with 262144 in *;
    cbn [app decode]; unfold inner; bool_cases; repeat f_equal; lia.
Qed.

Lemma decode_utf8 : forall s bs, utf8 s bs -> decode bs = Some s.
Proof.
  induction 1 as [|c b s rest Hc _ IH]; [reflexivity|]. rewrite (decode_char _ _ _ Hc), IH. reflexivity.
Qed.

Lemma encode_text : forall s, Forall (fun c => exists bs, utf8_char c bs) s -> utf8 s (encode s).
Proof.
  induction 1 as [|c s (bs & H) _ IH]; [constructor|]. cbn [encode flat_map].
  rewrite (encode_utf8 _ _ H). now constructor.
Qed.

Lemma utf8_chars : forall s bs, utf8 s bs -> Forall (fun c => exists bs, utf8_char c bs) s.
Proof. induction 1; constructor; eauto. Qed.

Lemma utf8_app : forall s bs t bt, utf8 s bs -> utf8 t bt -> utf8 (s ++ t) (bs ++ bt).
Proof.
  induction 1 as [|c b s rest Hc _ IH]; intro H; [exact H|]. cbn [app]. rewrite <- app_assoc. constructor; auto.
Qed.

Lemma utf8_ascii : forall c, 0 <= c < 128 -> utf8 [c] [c].
Proof. intros c H. apply (utf8_cons c [c] [] []); constructor. exact H. Qed.

(** Where the characters of the result come from. *)

Lemma split_in : forall s cur f c, In f (split_fields cur s) -> In c f -> In c cur \/ In c s.
Proof.
  induction s as [|d s IH]; intros cur f c Hf Hc; cbn in Hf.
  - destruct cur; [destruct Hf|]. destruct Hf as [<-|[]]. left. now apply in_rev.
  - destruct (is_space d).
    + destruct cur.
      * destruct (IH _ _ _ Hf Hc) as [[]|H]. right. now right.
      * destruct Hf as [<-|Hf]; [left; now apply in_rev|].
        destruct (IH _ _ _ Hf Hc) as [[]|H]. right. now right.
    + destruct (IH _ _ _ Hf Hc) as [[<-|H]|H]; [right; now left|now left|right; now right].
Qed.

Lemma read_in : forall s cur l c, In l (read_lines cur s) -> In c l -> In c cur \/ In c s.
Proof.
  induction s as [|d s IH]; intros cur l c Hl Hc; cbn [read_lines] in Hl.
  - destruct cur; [destruct Hl|]. destruct Hl as [<-|[]]. left. now apply in_rev.
  - destruct (d =? 10).
    + destruct Hl as [<-|Hl].
      * apply in_rev in Hc. destruct Hc as [<-|Hc]; [right; now left|now left].
      * destruct (IH _ _ _ Hl Hc) as [[]|H]. right. now right.
    + destruct (IH _ _ _ Hl Hc) as [[<-|H]|H]; [right; now left|now left|right; now right].
Qed.

Lemma print_in : forall f c, In c (print_field f) -> c = 32 \/ In c f.
Proof.
  intros f c H. unfold print_field in H. destruct (kept_whole f).
  - destruct H as [<-|H]; auto.
  - apply in_flat_map in H as (d & Hd & [<-|[<-|[]]]); auto.
Qed.

Lemma chartok_in : forall s c, In c (conv_chartok s) -> c = 32 \/ c = 10 \/ In c s.
Proof.
  intros s c H. apply in_flat_map in H as (l & Hl & H). unfold print_line in H.
  assert (L : forall d, In d l -> In d s) by (intros d Hd; now destruct (read_in _ _ _ _ Hl Hd) as [[]|]).
  assert (F : forall f d, In f (split_fields [] l) -> In d f -> In d s).
  { intros f d Hf Hd. apply L. now destruct (split_in _ _ _ _ Hf Hd) as [[]|]. }
  destruct (split_fields [] l) as [|f fs].
  - destruct H as [<-|[]]. auto.
  - apply in_app_or in H as [H|H]; [right; right; apply (F f); [now left|exact H]|].
    apply in_app_or in H as [H|[<-|[]]]; [|auto].
    apply in_flat_map in H as (g & Hg & H). apply print_in in H as [->|H]; [auto|].
    right. right. apply (F g); [now right|exact H].
Qed.

Lemma file_utf8 : forall s bs, utf8 s bs -> exists out, conv_file bs = Some out /\ utf8 (conv_chartok s) out.
Proof.
  intros s bs H. exists (encode (conv_chartok s)). unfold conv_file. rewrite (decode_utf8 _ _ H).
  split; [reflexivity|]. apply encode_text. apply utf8_chars in H. rewrite Forall_forall in *.
  intros c Hc. apply chartok_in in Hc as [->|[->|Hc]]; [|  |auto]; eexists; apply utf8_1; lia.
Qed.

Lemma utf8_unique : forall s bs bs', utf8 s bs -> utf8 s bs' -> bs = bs'.
Proof.
  intros s bs bs' H. revert bs'. induction H as [|c b s rest Hc _ IH]; intros bs' H'; inversion H'; subst; [reflexivity|].
  f_equal; auto. apply encode_utf8 in Hc. subst. now apply encode_utf8.
Qed.

(** What the program prints for a list. *)

Lemma utf8_join : forall bs ws, Forall2 (fun b w => utf8 w b) bs ws -> utf8 (join [32] ws) (join [32] bs).
Proof.
  induction 1 as [|b w bs ws H Hs IH]; [constructor|]. destruct Hs as [|b' w' bs ws H' Hs]; [exact H|].
  change (join [32] (b :: b' :: bs)) with (b ++ [32] ++ join [32] (b' :: bs)).
  change (join [32] (w :: w' :: ws)) with (w ++ [32] ++ join [32] (w' :: ws)).
  repeat apply utf8_app; auto. apply utf8_ascii. lia.
Qed.

Lemma list_utf8 : forall entries names namess wordss pss,
  Forall2 (fun (e : bytes * bytes) name => utf8 name (fst e) /\ a_word name) entries names ->
  Forall2 (Forall2 (fun b w => utf8 w b /\ a_word w)) namess wordss ->
  length entries = length namess -> Forall2 pieces wordss pss ->
  exists out, conv_file (printed entries (map (join [32]) namess)) = Some out /\
    utf8 (file_of (map (fun p => fst p ++ concat (map (fun q => 32 :: q) (snd p))) (combine names pss))) out.
Proof.
  intros entries names namess wordss pss He Hn Hl Hp.
  set (es := map (fun n : list Z => (n, [] : bytes)) names).
  assert (P : utf8 (printed es (map (join [32]) wordss)) (printed entries (map (join [32]) namess))).
  { subst es. unfold printed. clear pss Hp. revert namess wordss Hn Hl.
    induction He as [|e n entries names [He _] _ IH]; intros namess wordss Hn Hl; [constructor|].
    destruct Hn as [|bs ws namess wordss H Hn]; [discriminate|]. cbn [map combine concat fst snd].
    cbn [length] in Hl. apply utf8_app; [|apply IH; auto].
    repeat apply utf8_app; [exact He|apply utf8_ascii; lia| |apply utf8_ascii; lia].
    apply utf8_join. clear - H. induction H as [|b w bs ws [H _] _ IH]; constructor; auto. }
  destruct (file_utf8 _ _ P) as (out & E & U). exists out. split; [exact E|].
  rewrite (printed_split es wordss pss) in U; try assumption.
  - subst es. replace (map (fun p => fst p ++ concat (map (fun q => 32 :: q) (snd p))) (combine names pss))
      with (map (fun p : bytes * bytes * list (list Z) => fst (fst p) ++ concat (map (fun q => 32 :: q) (snd p)))
              (combine (map (fun n : list Z => (n, [] : bytes)) names) pss)); [exact U|].
    clear. revert pss. induction names as [|n names IH]; intros [|ps pss]; cbn; try reflexivity. now rewrite IH.
  - subst es. rewrite map_length. clear - He Hn Hl.
    assert (A : length entries = length names) by (clear - He; induction He; cbn; congruence).
    assert (B : length namess = length wordss) by (clear - Hn; induction Hn; cbn; congruence). congruence.
  - subst es. clear - He. induction He as [|e n entries names [_ H] _ IH]; constructor; auto.
  - clear - Hn. induction Hn as [|bs ws namess wordss H _ IH]; constructor; auto.
    clear - H. induction H as [|b w bs ws [_ H] _ IH]; constructor; auto.
Qed.

(** The name v1 and the word with U+4F60 and U+597D. *)
Lemma case_hello :
  let name := [118; 49] in
  let word := [20320; 22909] in
  let bytes := [228; 189; 160; 229; 165; 189] in
  utf8 name name /\ a_word name /\ utf8 word bytes /\ a_word word /\ pieces [word] [[20320]; [22909]] /\
  conv_file (printed [(name, [97])] (map (join [32]) [[bytes]]))
    = Some [118; 49; 32; 228; 189; 160; 32; 229; 165; 189; 10].
Proof.
  cbv zeta. split; [|split; [|split; [|split; [|split]]]].
  - apply (utf8_app [118] [118] [49] [49]); apply utf8_ascii; lia.
  - split; [discriminate|are_blank].
  - apply (utf8_cons 20320 [228; 189; 160] [22909] [229; 165; 189]).
    + apply (utf8_3 4 61 32); unfold six_bits; lia.
    + apply (utf8_cons 22909 [229; 165; 189] [] []); [|constructor].
      apply (utf8_3 5 37 61); unfold six_bits; lia.
  - split; [discriminate|are_blank].
  - apply (pieces_word [20320; 22909] [] []); [|constructor].
    intro H. apply kept_whole_spec in H; [discriminate|are_blank].
  - reflexivity.
Qed.
