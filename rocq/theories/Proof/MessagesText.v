(** The messages of the single readers. *)
From Coq Require Import ZArith String List Bool Lia.
From Verif.Base Require Import Prelude Lemmas.
From Verif.Model Require Import Util File Binary Arith Vector Pcm Fbank Srfft FbankInit Nnet Formats Am Configuration
  SymbolTable Fst Decoder Stt Loading Messages.
From Verif.Spec Require Import AudioSpec FormatSpec TextSpec FstSpec LoadingSpec LoadFaultSpec MessageSpec.
From Verif.Proof Require Import Text Lines LinesExact Config ConfigExact Symbols SymbolsExact Messages.
From Verif.Proof Require Python NumberExact.
Import ListNotations.
Open Scope Z_scope.

(** * Numbers in messages *)

Lemma number_text z : to_string z <> [] /\ no_brace (to_string z).
Proof.
  pose proof (Python.to_string_decimal z) as D. split.
  - intros E. rewrite E in D. inversion D as [? ? H|]; subst. inversion H. now destruct s.
  - split; eapply decimal_no; try exact D; lia.
Qed.

Lemma name_text fmt n p : format fmt [to_string n; p] = substitute fmt [to_string n; p].
Proof. apply format_substitute. constructor; [apply number_text|constructor]. Qed.
Lemma name_text2 fmt a b p : format fmt [to_string a; to_string b; p] = substitute fmt [to_string a; to_string b; p].
Proof. apply format_substitute. constructor; [apply number_text|]. constructor; [apply number_text|constructor]. Qed.
Lemma name_text3 fmt a b c p : format fmt [to_string a; to_string b; to_string c; p] = substitute fmt [to_string a; to_string b; to_string c; p].
Proof. apply format_substitute. constructor; [apply number_text|]. constructor; [apply number_text|]. constructor; [apply number_text|constructor]. Qed.
Lemma one_text fmt p : format fmt [p] = substitute fmt [p].
Proof. apply format_substitute. constructor. Qed.

(** * What binary readers say *)

Definition texts {A} (P : bytes -> Prop) (m : mio A) : Prop := forall f t f', m f = Ok (inr t, f') -> P t.

Lemma texts_bind A B (P : bytes -> Prop) (m : mio A) (k : A -> mio B) : texts P m -> (forall a, texts P (k a)) -> texts P (m_bind m k).
Proof.
  intros H K f t f' E. unfold m_bind in E. destruct (m f) as [[[a|w] f1]|e] eqn:Em; cbn [bind] in E; [|injection E as <- <-|discriminate].
  - exact (K a f1 t f' E).
  - exact (H f w f1 Em).
Qed.
Lemma texts_ret A (P : bytes -> Prop) (a : A) : texts P (m_ret a).
Proof. intros f t f' E. discriminate. Qed.
Lemma texts_fault A (P : bytes -> Prop) e : texts P (@m_fault A e).
Proof. intros f t f' E. discriminate. Qed.
Lemma texts_fail A (P : bytes -> Prop) msg : P msg -> texts P (@m_fail A msg).
Proof. intros H f t f' E. unfold m_fail in E. now injection E as <- _. Qed.
Lemma texts_check (P : bytes -> Prop) b msg : P msg -> texts P (m_check b msg).
Proof. intros H. destruct b; [apply texts_ret|now apply texts_fail]. Qed.
Lemma texts_assert (P : bytes -> Prop) b e : texts P (m_assert b e).
Proof. destruct b; [apply texts_ret|apply texts_fault]. Qed.

Section Names.
Variable name : bytes.
Notation says := (fun t : bytes => contains t name).

Lemma says_last pre fmt args : holes (S (length args)) fmt -> contains (pre ++ format fmt (args ++ [name])) name.
Proof. intros H. apply contains_app. now apply format_holds. Qed.

Lemma h_one a b : holes 1 (a ++ [123; 125] ++ b).
Proof. constructor. constructor. Qed.
Lemma h_two a b c : holes 2 (a ++ [123; 125] ++ b ++ [123; 125] ++ c).
Proof. constructor. apply h_one. Qed.
Lemma h_three a b c d : holes 3 (a ++ [123; 125] ++ b ++ [123; 125] ++ c ++ [123; 125] ++ d).
Proof. constructor. apply h_two. Qed.
Lemma h_four a b c d e : holes 4 (a ++ [123; 125] ++ b ++ [123; 125] ++ c ++ [123; 125] ++ d ++ [123; 125] ++ e).
Proof. constructor. apply h_three. Qed.

Lemma failed_says : says (failed_read name).
Proof. apply (says_last (lit "IOError: ") _ []). exact (h_one (lit "failed to read: ") []). Qed.

Lemma verify_says s b : contains (corruption (format (lit "ReadAndVerifyString: '{}' expected but '{}' found in {}") [s; b; name])) name.
Proof.
  apply (says_last _ _ [s; b]). exact (h_three (lit "ReadAndVerifyString: '") (lit "' expected but '") (lit "' found in ") []).
Qed.

Lemma says_read n : texts says (m_read name n).
Proof.
  intros f t f' E. unfold m_read in E. destruct (read f n) as [[[b|] f1]|e]; cbn [bind] in E; [discriminate| |discriminate].
  injection E as <- _. apply failed_says.
Qed.
Lemma says_verify s : texts says (m_verify name s).
Proof. apply texts_bind; [apply says_read|]. intros b. apply texts_check. apply verify_says. Qed.
Lemma says_int n : texts says (m_int name n).
Proof. apply texts_bind; [apply says_read|]. intros b. apply texts_ret. Qed.

Lemma says_vec_header : texts says (m_vec_header name).
Proof.
  apply texts_bind; [apply says_verify|]. intros _. apply texts_bind; [apply says_int|]. intros s.
  apply texts_bind; [apply says_int|]. intros d. apply texts_bind; [|intros _; apply texts_ret].
  apply texts_check. apply (says_last _ _ [to_string d; to_string 4; to_string s]).
  exact (h_four (lit "section_size = ") (lit " * ") (lit " + 4 expected, but ") (lit " found: ") []).
Qed.

Lemma says_vec old f t v f' : m_vec_read name old f = Ok (Some t, v, f') -> says t.
Proof.
  unfold m_vec_read. intros E. destruct (m_vec_header name f) as [[[d|w] f1]|e] eqn:H; cbn [bind] in E; [| |discriminate].
  - destruct (vec_init 4 d); cbn [bind] in E; [|discriminate]. destruct (m_read name (d * 4) f1) as [[[b|w] f2]|e] eqn:R; cbn [bind] in E;
      [discriminate| |discriminate]. injection E as <- _ _. exact (says_read _ _ _ _ R).
  - injection E as <- _ _. exact (says_vec_header _ _ _ H).
Qed.

Lemma says_vector : texts says (m_vector name).
Proof.
  intros f t f' E. unfold m_vector in E. destruct (m_vec_read name [] f) as [[[[w|] v] f1]|e] eqn:H; cbn [bind] in E; [|discriminate|discriminate].
  injection E as <- _. exact (says_vec _ _ _ _ _ H).
Qed.

Lemma says_rows cols : forall n old, texts says (m_mat_rows name n cols old).
Proof.
  induction n as [|n IH]; intros old f t f' E; cbn [m_mat_rows] in E; [discriminate|].
  destruct (m_vec_read name old f) as [[[w row] f1]|e]; cbn [bind] in E; [|discriminate].
  destruct (negb (lenZ row =? cols)).
  - injection E as <- _.
    exact (says_last (lit "Corruption: ") (lit "Matrix::Read: row_read.Dim() == {} expected, but {} found: {}") [to_string cols; to_string (lenZ row)]
      (h_three (lit "Matrix::Read: row_read.Dim() == ") (lit " expected, but ") (lit " found: ") [])).
  - destruct (m_mat_rows name n cols row f1) as [[[m|w'] f2]|e] eqn:H; cbn [bind] in E; [discriminate| |discriminate].
    injection E as <- _. exact (IH _ _ _ _ H).
Qed.

Lemma says_matrix : texts says (m_mat_read name).
Proof.
  apply texts_bind; [apply says_verify|]. intros _. apply texts_bind; [apply says_int|]. intros _.
  apply texts_bind; [apply says_int|]. intros r. apply texts_bind; [apply says_int|]. intros c f t f' E.
  destruct (mat_init r c); cbn [bind] in E; [|discriminate]. exact (says_rows _ _ _ _ _ _ E).
Qed.

Lemma says_indices : forall n, texts says (m_indices name n).
Proof.
  induction n as [|n IH]; [apply texts_ret|]. cbn [m_indices]. apply texts_bind; [apply says_int|]. intros i.
  apply texts_bind; [exact IH|]. intros l. apply texts_ret.
Qed.

Definition splice_text : bytes := lit "Corruption: SpliceLayer: unexpected num_indcies".
Notation says_or := (fun t : bytes => contains t name \/ t = splice_text).

Lemma texts_weaker A (P Q : bytes -> Prop) (m : mio A) : (forall t, P t -> Q t) -> texts P m -> texts Q m.
Proof. intros I H f t f' E. apply I. exact (H f t f' E). Qed.
Lemma or_l A (m : mio A) : texts says m -> texts says_or m.
Proof. apply texts_weaker. auto. Qed.

Lemma says_layer : texts says_or (m_layer name).
Proof.
  apply texts_bind; [apply or_l, says_verify|]. intros _. apply texts_bind; [apply or_l, says_int|]. intros t.
  destruct (t =? 0); [apply texts_bind; [apply or_l, says_matrix|]; intros W; apply texts_bind; [apply or_l, says_vector|]; intros b; apply texts_ret|].
  destruct (t =? 1); [apply texts_ret|]. destruct (t =? 2); [apply texts_ret|]. destruct (t =? 3); [apply texts_ret|].
  destruct (t =? 6); [apply texts_bind; [apply or_l, says_int|]; intros n; apply texts_bind; [apply texts_check; now right|]; intros _;
    apply texts_bind; [apply or_l, says_indices|]; intros l; apply texts_ret|].
  destruct (t =? 7); [apply texts_bind; [apply or_l, says_vector|]; intros s; apply texts_bind; [apply or_l, says_vector|]; intros o; apply texts_ret|].
  destruct (t =? 8); [apply texts_ret|].
  destruct (t =? 9); [apply texts_bind; [apply or_l, says_int|]; intros l; apply texts_bind; [apply or_l, says_int|]; intros r; apply texts_ret|].
  apply texts_fail. left. apply (says_last _ _ [to_string t]). exact (h_two (lit "read_layer: unexpected layer type: ") (lit " (") (lit ")")).
Qed.

Lemma says_layers : forall n, texts says_or (m_net_layers name n).
Proof.
  induction n as [|n IH]; [apply texts_ret|]. cbn [m_net_layers]. apply texts_bind; [apply says_layer|]. intros i.
  apply texts_bind; [exact IH|]. intros l. apply texts_ret.
Qed.

Lemma says_nnet : texts says_or (m_nnet name).
Proof.
  apply texts_bind; [apply or_l, says_verify|]. intros _. apply texts_bind; [apply or_l, says_int|]. intros l.
  apply texts_bind; [apply or_l, says_int|]. intros r. apply texts_bind; [apply or_l, says_int|]. intros n.
  apply texts_bind; [apply says_layers|]. intros ls. apply texts_ret.
Qed.

Definition section_text (t : bytes) : Prop := exists a b x y, decimal a x /\ decimal b y /\ a <> b /\
  t = lit "Corruption: section_size == " ++ x ++ lit " expected, but " ++ y ++ lit " found".
Notation says_fst := (fun t : bytes => contains t name \/ section_text t).
Lemma or_f A (m : mio A) : texts says m -> texts says_fst m.
Proof. apply texts_weaker. auto. Qed.

Lemma says_array w n : texts says (m_array name w n).
Proof.
  unfold m_array. destruct (n <? 0); [apply texts_fault|]. cbv zeta. destruct (wrap32 (w * n) =? w * n); [apply says_read|].
  intros f t f' E. destruct ((wrap32 (w * n) <? 0) && (lenZ (f_rest f) <=? w * n)); [|discriminate]. injection E as <- _. apply failed_says.
Qed.

Lemma section_says a b : a <> b ->
  section_text (corruption (format (lit "section_size == {} expected, but {} found") [to_string a; to_string b])).
Proof.
  intros N. exists a, b, (to_string a), (to_string b). split; [apply Python.to_string_decimal|]. split; [apply Python.to_string_decimal|].
  split; [exact N|]. rewrite format_substitute by (constructor; [apply number_text|constructor]). reflexivity.
Qed.

Lemma says_lm : texts says_fst (m_fst name).
Proof.
  apply texts_bind; [apply or_f, says_read|]. intros s. apply texts_bind.
  { apply texts_check. left. unfold corruption. apply contains_app. exists [], []. now rewrite app_nil_r. }
  intros _. apply texts_bind; [apply or_f, says_int|]. intros z. apply texts_bind; [apply or_f, says_int|]. intros n.
  apply texts_bind; [apply or_f, says_int|]. intros a. apply texts_bind; [apply or_f, says_int|]. intros st.
  cbv zeta. apply texts_bind.
  { unfold m_check. destruct (Z.eqb_spec (wrap32 (12 + n * 8 + a * 16)) z) as [|N]; [apply texts_ret|]. apply texts_fail. right. now apply section_says. }
  intros _. apply texts_bind; [apply or_f, says_array|]. intros x.
  apply texts_bind; [apply or_f, says_array|]. intros y. apply texts_bind; [apply or_f, says_array|]. intros u. apply texts_ret.
Qed.

End Names.

(** * Configurations *)

Lemma leftmost_find s k : leftmost s [123; 125] k -> find s [123; 125] 0 = Some k.
Proof.
  intros L. rewrite find_zero. destruct (find_from [123; 125] s 0) as [k'|] eqn:E.
  - apply find_from_some in E. rewrite Z.sub_0_r in E. f_equal. exact (leftmost_fun _ _ _ _ E L).
  - apply find_from_none in E. exfalso. apply E. destruct L as (_ & (u & v & -> & _) & _). now exists u, v.
Qed.

Lemma find_absent s : ~ contains s [123; 125] -> find s [123; 125] 0 = None.
Proof.
  intros N. rewrite find_zero. destruct (find_from [123; 125] s 0) as [k|] eqn:E; [|reflexivity]. exfalso.
  apply find_from_some in E. destruct E as (_ & (u & v & -> & _) & _). apply N. now exists u, v.
Qed.

(** Where the braces can be. *)
Lemma behind_name : forall fn rest u v, ~ contains fn [123; 125] -> (forall r, rest <> 125 :: r) -> fn ++ rest = u ++ [123; 125] ++ v ->
  (length fn <= length u)%nat.
Proof.
  induction fn as [|c fn IH]; intros rest u v N R E; [cbn; lia|].
  destruct u as [|d u]; cbn [app] in E.
  - injection E as -> E. exfalso. destruct fn as [|d fn]; cbn [app] in E; [now apply (R v)|]. injection E as -> E. apply N. now exists [], fn.
  - injection E as -> E. cbn [length]. apply le_n_S. apply (IH rest u v); [|exact R|exact E].
    intros (x & y & ->). apply N. now exists (d :: x), y.
Qed.

Lemma behind_text : forall pre rest u v, ~ In 123 pre -> pre ++ rest = u ++ [123; 125] ++ v -> exists u', u = pre ++ u' /\ rest = u' ++ [123; 125] ++ v.
Proof.
  induction pre as [|c pre IH]; intros rest u v N E; [now exists u|].
  destruct u as [|d u]; cbn [app] in E.
  - injection E as -> E. exfalso. apply N. now left.
  - injection E as -> E. destruct (IH rest u v) as (u' & -> & ->); [intros J; apply N; now right|exact E|]. now exists u'.
Qed.

Lemma fill_name pre fn post : ~ In 123 pre ->
  forall args, format (pre ++ [123; 125] ++ post) (fn :: args) = format (pre ++ fn ++ post) args.
Proof.
  intros Np args. cbn [format]. rewrite (leftmost_find _ (lenZ pre)).
  - f_equal. unfold sub, lenZ. rewrite Z.sub_0_r, !Nat2Z.id. cbn [skipn Z.to_nat]. rewrite firstn_app, firstn_all, Nat.sub_diag. cbn [firstn].
    rewrite app_nil_r. do 2 f_equal. replace (Z.to_nat (Z.of_nat (length pre) + 2)) with (length pre + 2)%nat by lia.
    rewrite skipn_app, skipn_all2 by lia. replace (length pre + 2 - length pre)%nat with 2%nat by lia. reflexivity.
  - split; [unfold lenZ; lia|]. split; [now exists pre, post|]. intros u v E. destruct (behind_text _ _ _ _ Np E) as (u' & -> & _).
    unfold lenZ. rewrite app_length. lia.
Qed.

Lemma empty_text fn l : ~ contains fn [123; 125] ->
  corruption (format (lit "Value cound not be empty: {}") [fn; l]) = lit "Corruption: Value cound not be empty: " ++ fn.
Proof.
  intros N. unfold corruption. change (lit "Value cound not be empty: {}") with (lit "Value cound not be empty: " ++ [123; 125] ++ []).
  assert (Np : ~ In 123 (lit "Value cound not be empty: ")) by (cbn; intuition discriminate).
  rewrite fill_name by exact Np. rewrite app_nil_r. cbn [format]. rewrite find_absent; [reflexivity|].
  intros (u & v & E). destruct (behind_text _ _ _ _ Np E) as (u' & _ & ->). apply N. now exists u', v.
Qed.

Lemma unexpected_text fn l : ~ contains fn [123; 125] ->
  corruption (format (lit "Unexpected line in {}: {}") [fn; l]) = lit "Corruption: Unexpected line in " ++ fn ++ lit ": " ++ l.
Proof.
  intros N. unfold corruption. set (a := lit "Unexpected line in ").
  change (lit "Unexpected line in {}: {}") with (a ++ [123; 125] ++ lit ": {}").
  assert (Na : ~ In 123 a) by (cbn; intuition discriminate). rewrite fill_name by exact Na.
  set (b := lit ": "). change (lit ": {}") with (b ++ [123; 125]).
  cbn [format]. rewrite (leftmost_find _ (lenZ (a ++ fn ++ b))).
  - unfold sub, lenZ. rewrite Z.sub_0_r, !Nat2Z.id. cbn [skipn Z.to_nat].
    replace (a ++ fn ++ b ++ [123; 125]) with ((a ++ fn ++ b) ++ [123; 125]) by now rewrite <- !app_assoc.
    rewrite firstn_app, firstn_all, Nat.sub_diag. cbn [firstn]. rewrite app_nil_r.
    replace (Z.to_nat (Z.of_nat (length (a ++ fn ++ b)) + 2)) with (length ((a ++ fn ++ b) ++ [123; 125])) by (rewrite (app_length (a ++ fn ++ b)); cbn [length]; lia).
    rewrite skipn_all, app_nil_r. rewrite <- !app_assoc. reflexivity.
  - split; [unfold lenZ; lia|]. split; [exists (a ++ fn ++ b), []; split; [now rewrite <- !app_assoc|reflexivity]|].
    intros u v E. destruct (behind_text _ _ _ _ Na E) as (u' & -> & E').
    assert (L : (length fn <= length u')%nat) by (eapply behind_name; [exact N| |exact E']; intros r; discriminate).
    assert (X : exists u2, u' = fn ++ u2 /\ b ++ [123; 125] = u2 ++ [123; 125] ++ v).
    { exists (skipn (length fn) u'). assert (Q : fn = firstn (length fn) u').
      { apply (f_equal (firstn (length fn))) in E'. rewrite !firstn_app, Nat.sub_diag, firstn_all in E'. cbn [firstn] in E'. rewrite app_nil_r in E'.
        replace (length fn - length u')%nat with 0%nat in E' by lia. cbn [firstn] in E'. now rewrite app_nil_r in E'. }
      split; [rewrite Q at 1; symmetry; apply firstn_skipn|].
      apply (f_equal (skipn (length fn))) in E'. rewrite !skipn_app, Nat.sub_diag, skipn_all in E'. cbn [skipn app] in E'.
      replace (length fn - length u')%nat with 0%nat in E' by lia. exact E'. }
    destruct X as (u2 & -> & X). apply behind_text in X; [|cbn; intuition discriminate]. destruct X as (u3 & -> & _).
    unfold lenZ. rewrite !app_length. lia.
Qed.

Lemma inr_ok (A B : Type) (x y : B) : Ok (inr (A := A) x) = Ok (inr y) -> x = y.
Proof. congruence. Qed.

Lemma line_says fn t l : ~ contains fn [123; 125] ->
  match m_conf_line fn t l with
  | Ok (inl _) => config_line l
  | Ok (inr msg) => ~ config_line l /\ exists x, trimmed l x /\
      (empty_entry x /\ msg = lit "Corruption: Value cound not be empty: " ++ fn \/
       ~ empty_entry x /\ msg = lit "Corruption: Unexpected line in " ++ fn ++ lit ": " ++ x)
  | Fault _ => False
  end.
Proof.
  intros N. pose proof (same_conf_line fn t l) as S.
  destruct (m_conf_line fn t l) as [[t'|msg]|e] eqn:E; cbn [bind] in S.
  - destruct (conf_line_exact t l) as [(H & _)|[(k & v & H & _)|(_ & _ & H)]]; [now left|right; eauto|rewrite S in H; discriminate].
  - destruct (conf_line_exact t l) as [(_ & H)|[(k & v & _ & H)|(Hn & H & _)]]; [rewrite S in H; discriminate|rewrite S in H; discriminate|].
    split; [intros [J|(k & v & J)]; [now apply Hn|now apply (H k v)]|]. clear S H Hn.
    exists (trim l). pose proof (trim_trimmed l) as T. split; [exact T|].
    unfold m_conf_line in E. destruct (trim l) as [|c r] eqn:Tl; [discriminate|]. destruct (c =? 35); [discriminate|].
    destruct (split_fields (c :: r) [61] ltac:(discriminate)) as (fs & Es & _).
    assert (K : forall k b, c :: r = k ++ [61] ++ b ++ [61] -> ~ In 61 k -> all_white b -> fs = [k; b]).
    { intros k b Q Nk W. assert (Q2 : split (c :: r) [61] = Ok [k; b]).
      { apply two_fields. split; [exact Nk|]. split; [|right; exact Q]. intros J. eapply Forall_forall in W; [|exact J]. unfold white in W. lia. }
      rewrite Es in Q2. now injection Q2. }
    rewrite Es in E. cbn [bind] in E.
    assert (Bad : (forall k v, fs <> [k; v]) -> ~ empty_entry (c :: r)).
    { intros M (k & b & Q & Nk & W). exact (M k b (K k b Q Nk W)). }
    destruct fs as [|k [|v [|x fs]]]; [| |destruct (trim v) as [|y z] eqn:Tv|].
    + right. split; [apply Bad; discriminate|]. apply inr_ok in E. rewrite <- E. exact (unexpected_text fn _ N).
    + right. split; [apply Bad; discriminate|]. apply inr_ok in E. rewrite <- E. exact (unexpected_text fn _ N).
    + left. split; [|apply inr_ok in E; rewrite <- E; exact (empty_text fn (c :: r) N)].
      apply two_fields in Es. destruct Es as (Nk & _ & D).
      assert (W : all_white v) by (apply (trimmed_white v []); [rewrite <- Tv; apply trim_trimmed|reflexivity]).
      destruct D as [(Q & Nv)|Q]; [|exists k, v; now split].
      exfalso. destruct (exists_last Nv) as (v' & d & ->). destruct T as (_ & _ & T). apply (T d (k ++ 61 :: v')).
      * rewrite Q, <- app_assoc. reflexivity.
      * apply Forall_app in W. destruct W as (_ & W). now inversion W.
    + discriminate.
    + right. split; [apply Bad; discriminate|]. apply inr_ok in E. rewrite <- E. exact (unexpected_text fn _ N).
  - destruct (conf_line_exact t l) as [(_ & H)|[(k & v & _ & H)|(_ & _ & H)]]; rewrite S in H; discriminate.
Qed.

Fixpoint m_conf_fold (fn : bytes) (t : list (bytes * bytes)) (rs : list str) : res (list (bytes * bytes) * option bytes) :=
  match rs with
  | [] => Ok (t, None)
  | s :: rs => r <- m_conf_line fn t s ;; match r with inr msg => Ok (t, Some msg) | inl t => m_conf_fold fn t rs end
  end.

Lemma m_conf_lines fn : forall fuel f t rs, read_lines_eof fuel f = Ok (rs, true) -> m_conf_loop fn fuel f t = m_conf_fold fn t rs.
Proof.
  induction fuel as [|fuel IH]; intros f t rs R; [discriminate|]. cbn [read_lines_eof m_conf_loop] in *.
  destruct (f_eof f); [now injection R as <-|].
  destruct (read_line f) as [[s| |] f']; [|now injection R as <-|discriminate].
  destruct (read_lines_eof fuel f') as [(rs', b')|] eqn:E; [|discriminate]. cbn [bind] in R. injection R as <- ->.
  cbn [m_conf_fold]. destruct (m_conf_line fn t s) as [[t'|w]|]; try reflexivity. cbn [bind]. now apply IH.
Qed.

Lemma conf_fold_says fn : ~ contains fn [123; 125] -> forall rs t t' msg, m_conf_fold fn t rs = Ok (t', Some msg) ->
  exists good bad rest x, rs = good ++ bad :: rest /\ Forall config_line good /\ ~ config_line bad /\ trimmed bad x /\
    (empty_entry x /\ msg = lit "Corruption: Value cound not be empty: " ++ fn \/
     ~ empty_entry x /\ msg = lit "Corruption: Unexpected line in " ++ fn ++ lit ": " ++ x).
Proof.
  intros N. induction rs as [|l rs IH]; intros t t' msg E; cbn [m_conf_fold] in E; [discriminate|].
  pose proof (line_says fn t l N) as L. destruct (m_conf_line fn t l) as [[t1|w]|e]; cbn [bind] in E; [| |contradiction].
  - destruct (IH _ _ _ E) as (good & bad & rest & x & -> & G & R). exists (l :: good), bad, rest, x. split; [reflexivity|]. split; [now constructor|exact R].
  - injection E as <- <-. destruct L as (B & x & L). exists [], l, rs, x. split; [reflexivity|]. split; [constructor|]. now split.
Qed.

Lemma shown_map ps : Forall2 shown ps (map show ps).
Proof. induction ps; constructor; [apply show_shown|assumption]. Qed.

Lemma config_says fn content c msg : ~ contains fn [123; 125] -> m_conf_read fn conf_empty content = Ok (c, Some msg) ->
  config_text fn content msg.
Proof.
  intros N E. destruct (pieces_exist content) as (ps & e & P). destruct (read_pieces _ _ _ P) as (L & R).
  destruct (R (length content + 2)%nat ltac:(lia)) as (_ & R2). unfold m_conf_read, open in E. rewrite (m_conf_lines _ _ _ _ _ R2) in E.
  destruct (m_conf_fold fn (c_table conf_empty) (map show ps)) as [[t w]|] eqn:Q; cbn [bind] in E; [|discriminate]. injection E as <- ->.
  destruct (conf_fold_says fn N _ _ _ _ Q) as (good & bad & rest & x & H).
  exists ps, e, (map show ps), good, bad, rest, x. split; [exact P|]. split; [apply shown_map|exact H].
Qed.

(** * Words files *)

Lemma fields_end d s fs : fields_of [d] s fs -> s = join [d] fs /\ (forall r f, fs = r ++ [f] -> f <> []) \/ fs <> [] /\ s = join [d] (fs ++ [[]]).
Proof.
  induction 1 as [|s N C|f s fs M F IH].
  - left. split; [reflexivity|]. intros [|x r] g Q; discriminate.
  - left. split; [reflexivity|]. intros r g Q. destruct r as [|x [|y r]]; [now injection Q as <-|discriminate|discriminate].
  - destruct fs as [|g fs].
    + right. split; [discriminate|]. inversion F; subst. reflexivity.
    + destruct IH as [(-> & L)|(_ & ->)].
      * left. split; [reflexivity|]. intros [|x r] h Q; [discriminate|]. injection Q as -> Q. exact (L r h Q).
      * right. split; [discriminate|reflexivity].
Qed.

Lemma split_columns l fs : split l [32] = Ok fs -> columns l (lenZ fs).
Proof.
  intros E. destruct (split_fields l [32] ltac:(discriminate)) as (fs' & E' & F). rewrite E in E'. injection E' as <-.
  exists fs. split; [reflexivity|]. split; [|exact (fields_end _ _ _ F)].
  apply fields_clean in F; [|discriminate]. eapply Forall_impl; [|exact F]. intros f H J. apply H. now apply contains_one.
Qed.

Lemma word_line_says t l :
  match m_sym_line t l with
  | Ok (inl _) => entry_line l
  | Ok (inr msg) => ~ entry_line l /\ line_text l msg
  | Fault _ => True
  end.
Proof.
  pose proof (same_sym_line t l) as S.
  destruct (m_sym_line t l) as [[t'|msg]|e] eqn:E; cbn [bind] in S; [| |exact Logic.I].
  - apply sym_line_exact in S. destruct S as [(w & id & H & _)|(_ & H)]; [now exists w, id|discriminate].
  - assert (N : ~ entry_line l).
    { intros (w & id & H). assert (X : sym_line t l = (t' <- add_word t w id ;; Ok (Some t'))) by (apply sym_line_exact; left; eauto).
      rewrite S in X. destruct (add_word t w id); discriminate. }
    split; [exact N|]. unfold m_sym_line in E. destruct (split l [32]) as [fs|] eqn:Es; [|discriminate]. cbn [bind] in E.
    pose proof (split_columns _ _ Es) as C.
    assert (Other : lenZ fs <> 2 -> Ok (inr (A := symtab) (corruption (format (lit "2 column expected but {} found: {}") [to_string (lenZ fs); l]))) = Ok (inr msg) -> line_text l msg).
    { intros M Q. left. exists (lenZ fs), (to_string (lenZ fs)). split; [exact C|]. split; [exact M|]. split; [apply Python.to_string_decimal|].
      apply inr_ok in Q. rewrite <- Q. unfold corruption. rewrite name_text.
      change (substitute (lit "2 column expected but {} found: {}") [to_string (lenZ fs); l])
        with (lit "2 column expected but " ++ to_string (lenZ fs) ++ lit " found: " ++ l ++ []).
      now rewrite app_nil_r. }
    destruct fs as [|w [|num [|x fs]]]; [| |destruct (string_to_long num) as [id|] eqn:Sl|].
    + apply Other; [discriminate|exact E].
    + apply Other; [discriminate|exact E].
    + destruct (add_word t w id); discriminate.
    + right. apply inr_ok in E. rewrite <- E. clear E. apply two_fields in Es. destruct Es as (Nw & Nn & D). exists w, num, (trim num). split; [exact C|].
      split; [destruct D as [(D & _)|D]; [now left|now right]|]. split; [exact Nw|]. split; [exact Nn|].
      split; [intros id H; apply NumberExact.number_exact in H; congruence|]. split; [apply trim_trimmed|]. unfold number_error, corruption. rewrite one_text.
      change (substitute (lit "unexpected number string: {}") [trim num]) with (lit "unexpected number string: " ++ trim num ++ []). now rewrite app_nil_r.
    + apply Other; [cbn [length lenZ]; unfold lenZ; cbn [length]; lia|exact E].
Qed.

Fixpoint m_sym_fold (t : symtab) (rs : list str) (last : option bytes) : res (symtab * option bytes) :=
  match rs with
  | [] => Ok (t, last)
  | s :: rs => r <- m_sym_line t s ;; match r with inr msg => Ok (t, Some msg) | inl t => m_sym_fold t rs last end
  end.

Lemma error_at_end f f' : read_line f = (LineError, f') -> f_eof f = true.
Proof.
  unfold read_line. destruct (f_eof f); [reflexivity|]. destruct (fgets chunk f) as [[s|] f1] eqn:E; [discriminate|].
  destruct (f_eof f1) eqn:Q; [discriminate|]. intros _. exfalso. unfold fgets in E.
  destruct (fgets_bytes chunk (f_rest f)) as [[l rest] e] eqn:B.
  destruct l as [|c l]; [|discriminate]. injection E as <-. cbn [f_eof] in Q.
  assert (N : chunk <> 0%nat) by (unfold chunk; lia). destruct (f_rest f) as [|c r] eqn:R.
  - destruct chunk as [|n]; [now apply N|]. cbn in B. injection B as _ <-. rewrite orb_true_r in Q. discriminate.
  - apply fgets_bytes_split in B. destruct B as (_ & B). now apply (B N).
Qed.

Lemma m_sym_lines p : forall fuel f t rs b, read_lines fuel f = Ok (rs, b) ->
  m_sym_loop p fuel f t = m_sym_fold t rs (if b then None else Some (line_error p true)).
Proof.
  induction fuel as [|fuel IH]; intros f t rs b R; [discriminate|]. cbn [read_lines m_sym_loop] in *.
  destruct (read_line f) as [[s| |] f'] eqn:L; [|now injection R as <- <-|].
  - destruct (read_lines fuel f') as [(rs', b')|] eqn:E; [|discriminate]. cbn [bind] in R. injection R as <- <-.
    cbn [m_sym_fold]. destruct (m_sym_line t s) as [[t'|w]|]; try reflexivity. cbn [bind]. now apply IH.
  - injection R as <- <-. apply error_at_end in L. rewrite L. reflexivity.
Qed.

Lemma sym_fold_says : forall rs t last t' w, m_sym_fold t rs last = Ok (t', w) ->
  (exists good bad rest msg, rs = good ++ bad :: rest /\ Forall entry_line good /\ ~ entry_line bad /\ line_text bad msg /\ w = Some msg) \/
  (Forall entry_line rs /\ w = last).
Proof.
  induction rs as [|l rs IH]; intros t last t' w E; cbn [m_sym_fold] in E.
  - right. injection E as <- <-. split; [constructor|reflexivity].
  - pose proof (word_line_says t l) as L. destruct (m_sym_line t l) as [[t1|msg]|e]; cbn [bind] in E; [| |discriminate].
    + destruct (IH _ _ _ _ E) as [(good & bad & rest & msg & -> & G & R)|(G & ->)].
      * left. exists (l :: good), bad, rest, msg. split; [reflexivity|]. split; [now constructor|exact R].
      * right. split; [now constructor|reflexivity].
    + injection E as <- <-. left. exists [], l, rs, msg. split; [reflexivity|]. split; [constructor|]. destruct L as (A & B). now split.
Qed.

Lemma same_fold : forall rs t last, sym_fold t rs (fine_status last) = ('(t, e) <- m_sym_fold t rs last ;; Ok (t, fine_status e)).
Proof.
  induction rs as [|l rs IH]; intros t last; cbn [sym_fold m_sym_fold]; [reflexivity|]. rewrite same_sym_line.
  destruct (m_sym_line t l) as [[t'|w]|e]; cbn [bind]; [apply IH|reflexivity|reflexivity].
Qed.

Lemma entry_fun l w id w' id' : word_entry l w id -> word_entry l w' id' -> w = w' /\ id = id'.
Proof.
  intros (num & A & B & N & D) (num' & A' & B' & N' & D').
  assert (Q : split l [32] = Ok [w; num]) by now apply two_fields.
  assert (Q' : split l [32] = Ok [w'; num']) by now apply two_fields.
  rewrite Q in Q'. injection Q' as <- <-. split; [reflexivity|]. apply NumberExact.number_exact in N, N'. congruence.
Qed.

Lemma words_says p content t msg : m_sym_read p symtab_init content = Ok (t, Some msg) -> words_text p content msg.
Proof.
  intros E. destruct (pieces_exist content) as (ps & e & P). destruct (read_pieces _ _ _ P) as (L & R).
  destruct (R (length content + 2)%nat ltac:(lia)) as (R1 & _). unfold m_sym_read, open in E. rewrite (m_sym_lines _ _ _ _ _ _ R1) in E.
  destruct (m_sym_fold symtab_init (map show ps) _) as [[t1 w]|] eqn:Q; cbn [bind] in E; [|discriminate].
  exists ps, e, (map show ps). split; [exact P|]. split; [apply shown_map|].
  destruct (sym_fold_says _ _ _ _ _ Q) as [(good & bad & rest & msg' & Er & G & B & T & ->)|(G & W)].
  - left. injection E as _ <-. exists good, bad, rest. now split.
  - right. destruct e; cbn [negb] in *.
    + left. subst w. assert (Q' : line_error p true = msg) by congruence. rewrite <- Q'. split; [exact G|]. split; [reflexivity|]. unfold line_error, io_error. rewrite one_text.
      change (substitute (lit "EOF already reached: {}") [p]) with (lit "EOF already reached: " ++ p ++ []). now rewrite app_nil_r.
    + right. subst w. pose proof (same_fold (map show ps) symtab_init None) as S. cbn [fine_status] in S. rewrite Q in S. cbn [bind fine_status] in S.
      destruct (fold_ok _ _ _ _ holds_init S) as (es & Fe & _ & H). cbn [app] in H.
      split; [exact G|]. split; [reflexivity|].
      assert (X : forall s, id_of s (s_ids t1) = None -> forall l id, In l (map show ps) -> ~ word_entry l s id).
      { intros s Ns l id J W. assert (I : In s (map Datatypes.fst es)).
        { clear - Fe J W. induction Fe as [|l' x rs es Hx Fe IH]; [contradiction|]. cbn [map]. destruct J as [->|J]; [left|right; now apply IH].
          pose proof (entry_fun _ _ _ _ _ W Hx) as (-> & _). reflexivity. }
        apply (id_known _ _ _ H) in I. destruct I as (i & I). congruence. }
      destruct (id_of SymbolTable.bos_symbol (s_ids t1)) as [b|] eqn:B; [destruct (id_of SymbolTable.eos_symbol (s_ids t1)) as [x|] eqn:Ex; [discriminate|]|];
        injection E as _ <-; (split; [|reflexivity]).
      * exists (lit "</s>"). split; [now right|]. exact (X _ Ex).
      * exists (lit "<s>"). split; [now left|]. exact (X _ B).
Qed.
