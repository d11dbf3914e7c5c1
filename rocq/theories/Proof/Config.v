(** The configuration parser. *)
From Coq Require Import ZArith List Bool Lia.
From Verif.Base Require Import Prelude Lemmas.
From Verif.Model Require Import Util File Configuration.
From Verif.Spec Require Import TextSpec.
From Verif.Proof Require Import Text Number Lines.
Import ListNotations.
Open Scope Z_scope.

Lemma lower_lower_case s : lower_case s (lower s).
Proof.
  induction s as [|c s IH]; constructor; [|exact IH].
  unfold tolower. destruct (Z.leb_spec 65 c); destruct (Z.leb_spec c 90); cbn [andb]; lia.
Qed.

Lemma lower_case_eq a b : lower_case a b -> b = lower a.
Proof.
  induction 1 as [|x y a b H _ IH]; [reflexivity|]. cbn [lower map]. fold (lower a). rewrite <- IH.
  f_equal. unfold tolower. destruct (Z.leb_spec 65 x); destruct (Z.leb_spec x 90); cbn [andb]; lia.
Qed.

(** Trimming hides what [ReadLine] already removed. *)
Lemma trimmed_suffix s v t : all_white v -> (trimmed (s ++ v) t <-> trimmed s t).
Proof.
  intros V. 
  assert (F : trimmed (s ++ v) (trim s)).
  { pose proof (trim_trimmed s) as ((x & y & E & X & Y) & A & B).
    split; [|split; assumption]. exists x, (y ++ v).
    split; [rewrite E at 1; now rewrite <- !app_assoc|]. split; [exact X|].
    apply Forall_app. now split. }
  split; intros H.
  - rewrite (trimmed_unique _ _ _ H F). apply trim_trimmed.
  - rewrite (trimmed_unique _ _ _ H (trim_trimmed s)). exact F.
Qed.

Lemma trim_chomp l : trim (chomp l) = trim l.
Proof.
  destruct (drop_trailing_chomped l) as ((v & E & V) & _). fold (chomp l) in E.
  symmetry. apply trim_eq. rewrite E at 1. apply trimmed_suffix; [|apply trim_trimmed].
  eapply Forall_impl; [|exact V]. cbn beta. unfold white. intros; lia.
Qed.

Lemma conf_line_chomp t l : conf_line t (chomp l) = conf_line t l.
Proof. unfold conf_line. now rewrite trim_chomp. Qed.

(** An entry followed by one more "=". *)
Definition loose_entry (l k v : str) : Prop :=
  exists t a b k',
    trimmed l t /\ t = a ++ [61] ++ b ++ [61] /\ ~ In 61 a /\ ~ In 61 b /\
    (forall r, t <> 35 :: r) /\
    trimmed a k' /\ lower_case k' k /\ trimmed b v /\ v <> [].

Lemma conf_line_no_effect t l : no_effect l -> conf_line t l = Ok (Some t).
Proof.
  intros (x & T & H). unfold conf_line. rewrite (trim_eq _ _ T).
  destruct H as [->|(r & ->)]; reflexivity.
Qed.

Lemma conf_line_entry t l k v : entry l k v -> conf_line t l = Ok (Some ((k, v) :: t)).
Proof.
  intros (x & a & b & k' & T & E & Na & Nb & NC & Ta & Lk & Tb & Nv).
  unfold conf_line. rewrite (trim_eq _ _ T).
  assert (S : split x [61] = Ok [a; b]).
  { rewrite E. apply (split_join 61 [a; b]); [repeat constructor; assumption|].
    intros r f Q. destruct r as [|? [|? [|]]]; try discriminate. injection Q as _ <-.
    intros ->. apply Nv. apply (trimmed_white _ _ Tb). constructor. }
  destruct x as [|c x]; [now destruct a|].
  destruct (Z.eqb_spec c 35) as [->|]; [exfalso; now apply (NC x)|].
  rewrite S. cbn [bind].
  rewrite (trim_eq _ _ Ta), (trim_eq _ _ Tb), <- (lower_case_eq _ _ Lk).
  destruct v; [congruence|reflexivity].
Qed.

Lemma fields_two t a b : fields_of [61] t [a; b] ->
  ~ In 61 a /\ ~ In 61 b /\ (t = a ++ [61] ++ b \/ t = a ++ [61] ++ b ++ [61]).
Proof.
  intros F. pose proof (fields_clean [61] _ _ ltac:(discriminate) F) as C.
  inversion C as [|? ? Ca C']; subst. inversion C' as [|? ? Cb _]; subst.
  rewrite contains_one in Ca, Cb. split; [exact Ca|]. split; [exact Cb|].
  destruct (fields_join _ _ _ F) as [->| ->]; [now left|right]. reflexivity.
Qed.

Lemma conf_line_inv t l r : conf_line t l = Ok (Some r) ->
  (no_effect l /\ r = t) \/
  exists k v, (entry l k v \/ loose_entry l k v) /\ r = (k, v) :: t.
Proof.
  unfold conf_line. pose proof (trim_trimmed l) as T.
  destruct (trim l) as [|c x].
  { intros [= <-]. left. split; [|reflexivity]. exists []. auto. }
  destruct (Z.eqb_spec c 35) as [->|Nc].
  { intros [= <-]. left. split; [|reflexivity]. exists (35 :: x). split; [exact T|]. right. eauto. }
  destruct (split_fields (c :: x) [61] ltac:(discriminate)) as (fs & -> & F). cbn [bind].
  destruct fs as [|a [|b [|]]]; try discriminate.
  destruct (trim b) as [|d y] eqn:Eb; [discriminate|]. intros [= <-].
  right. exists (lower (trim a)), (d :: y). split; [|reflexivity].
  destruct (fields_two _ _ _ F) as (Na & Nb & H).
  destruct H as [H|H]; [left|right]; exists (c :: x), a, b, (trim a);
    (split; [exact T|]); (split; [exact H|]); (split; [exact Na|]); (split; [exact Nb|]);
    (split; [intros r [= -> _]; congruence|]); (split; [apply trim_trimmed|]);
    (split; [apply lower_lower_case|]); (split; [rewrite <- Eb; apply trim_trimmed|]);
    discriminate.
Qed.

Lemma conf_line_total t l : exists r, conf_line t l = Ok r.
Proof.
  unfold conf_line. destruct (trim l) as [|c x]; [eauto|].
  destruct (c =? 35); [eauto|].
  destruct (split_fields (c :: x) [61] ltac:(discriminate)) as (fs & -> & F). cbn [bind].
  destruct fs as [|a [|b [|]]]; try eauto. destruct (trim b); eauto.
Qed.

(** The loop as a fold over the lines. *)
Fixpoint conf_fold (t : list (str * str)) (ls : list str) : list (str * str) * bool :=
  match ls with
  | [] => (t, true)
  | l :: r => match conf_line t l with
              | Ok (Some t) => conf_fold t r
              | _ => (t, false)
              end
  end.

Definition file_lines (ls : list str) (l : str) : list str :=
  match l with [] => ls | _ => ls ++ [l] end.

Lemma conf_loop_fold : forall ls l fuel t,
  Forall plain_line ls -> plain_line l -> (S (length ls) < fuel)%nat ->
  conf_loop fuel (mk_file (text ls ++ l) false) t = Ok (conf_fold t (file_lines ls l)).
Proof.
  induction ls as [|x ls IH]; intros l fuel t F P L; (destruct fuel as [|fuel]; [lia|]).
  - cbn [length] in L. destruct fuel as [|fuel]; [lia|].
    cbn [text map concat app]. destruct l as [|c l]; [reflexivity|].
    cbn [file_lines app]. cbn [conf_fold]. cbn [conf_loop f_eof].
    rewrite read_line_last by (auto; discriminate). fold (chomp (c :: l)). rewrite conf_line_chomp.
    destruct (conf_line_total t (c :: l)) as (r & ->). cbn [bind].
    destruct r; reflexivity.
  - inversion F; subst. cbn [length] in L.
    cbn [conf_loop f_eof]. rewrite text_cons, <- app_assoc. cbn [app].
    rewrite read_line_line by assumption. rewrite chomp_newline, conf_line_chomp.
    assert (E : file_lines (x :: ls) l = x :: file_lines ls l) by (destruct l; reflexivity).
    rewrite E. cbn [conf_fold].
    destruct (conf_line_total t x) as (r & ->). cbn [bind].
    destruct r as [t'|]; [|reflexivity]. apply IH; auto. lia.
Qed.

Lemma conf_read_fold c fn ls l :
  Forall plain_line ls -> plain_line l ->
  conf_read c fn (text ls ++ l)
  = Ok (mk_conf fn (fst (conf_fold (c_table c) (file_lines ls l))),
        snd (conf_fold (c_table c) (file_lines ls l))).
Proof.
  intros F P. unfold conf_read.
  unfold open. rewrite conf_loop_fold; auto.
  - cbn [bind]. now destruct (conf_fold _ _).
  - pose proof (text_length ls). rewrite app_length. lia.
Qed.

Definition fine (l : str) : Prop := no_effect l \/ exists k v, entry l k v.

Lemma conf_fold_app : forall a b t,
  conf_fold t (a ++ b) =
  (if snd (conf_fold t a) then conf_fold (fst (conf_fold t a)) b else conf_fold t a).
Proof.
  induction a as [|l a IH]; intros b t; [reflexivity|].
  cbn [app conf_fold]. destruct (conf_line_total t l) as (r & ->).
  destruct r as [t'|]; [|reflexivity]. apply IH.
Qed.

Lemma conf_fold_fine : forall ls t, Forall fine ls -> snd (conf_fold t ls) = true.
Proof.
  induction ls as [|l ls IH]; intros t F; [reflexivity|]. inversion F as [|? ? H F']; subst.
  cbn [conf_fold]. destruct H as [H|(k & v & H)].
  - rewrite conf_line_no_effect by exact H. now apply IH.
  - rewrite (conf_line_entry _ _ _ _ H). now apply IH.
Qed.

Lemma conf_fold_good : forall ls t, snd (conf_fold t ls) = true ->
  Forall (fun l => fine l \/ exists k v, loose_entry l k v) ls.
Proof.
  induction ls as [|l ls IH]; intros t H; [constructor|]. cbn [conf_fold] in H.
  destruct (conf_line_total t l) as (r & E). rewrite E in H.
  destruct r as [t'|]; [|discriminate].
  constructor; [|eapply IH; exact H].
  apply conf_line_inv in E. destruct E as [(E & _)|(k & v & [E|E] & _)]; unfold fine; eauto.
Qed.

(** Looking up after a fold over good lines. *)
Lemma conf_fold_lookup ls k r : last_value ls k r -> forall t,
  snd (conf_fold t ls) = true ->
  assoc k (fst (conf_fold t ls)) = match r with Some v => Some v | None => assoc k t end.
Proof.
  induction 1 as [k|ls l k r N H IH|ls l k k' v r E Nk H IH|ls l k v E]; intros t S.
  - reflexivity.
  - rewrite conf_fold_app in *. destruct (snd (conf_fold t ls)) eqn:Q; [|congruence].
    cbn [conf_fold] in *. rewrite conf_line_no_effect by exact N. cbn [fst]. now apply IH.
  - rewrite conf_fold_app in *. destruct (snd (conf_fold t ls)) eqn:Q; [|congruence].
    cbn [conf_fold] in *. rewrite (conf_line_entry _ _ _ _ E). cbn [fst assoc].
    rewrite str_eqb_neq by congruence. now apply IH.
  - rewrite conf_fold_app in *. destruct (snd (conf_fold t ls)) eqn:Q; [|congruence].
    cbn [conf_fold] in *. rewrite (conf_line_entry _ _ _ _ E). cbn [fst assoc].
    now rewrite str_eqb_refl.
Qed.

(** Every file of good lines has a last value for every key. *)
Lemma last_value_total : forall ls k, Forall fine ls -> exists r, last_value ls k r.
Proof.
  induction ls as [|l ls IH] using rev_ind; intros k F; [eexists; constructor|].
  apply Forall_app in F. destruct F as (F & Fl). inversion Fl as [|? ? H _]; subst.
  destruct (IH k F) as (r & R).
  destruct H as [H|(k' & v & H)].
  - exists r. now apply LVskip.
  - destruct (str_eqb k' k) eqn:E.
    + apply str_eqb_eq in E. subst. exists (Some v). now apply LVhere.
    + exists r. eapply LVother; eauto. intros ->. now rewrite str_eqb_refl in E.
Qed.

(** * Paths *)

Lemma conf_loop_nonempty : forall fuel f t t' b,
  Forall (fun e => snd e <> []) t -> conf_loop fuel f t = Ok (t', b) ->
  Forall (fun e => snd e <> []) t'.
Proof.
  induction fuel as [|fuel IH]; intros f t t' b F E; [discriminate|]. cbn [conf_loop] in E.
  destruct (f_eof f); [injection E as <- <-; exact F|].
  destruct (read_line f) as [[s| |] f']; [|injection E as <- <-; exact F|injection E as <- <-; exact F].
  destruct (conf_line_total t s) as (r & Q). rewrite Q in E. cbn [bind] in E.
  destruct r as [t1|]; [|injection E as <- <-; exact F].
  eapply IH; [|exact E].
  apply conf_line_inv in Q. destruct Q as [(_ & ->)|(k & v & H & ->)]; [exact F|].
  constructor; [|exact F]. cbn [snd].
  destruct H as [(x & a & c & k' & H)|(x & a & c & k' & H)]; tauto.
Qed.

Lemma rfind_from_none c s : forall pos, rfind_from c s pos = None <-> ~ In c s.
Proof.
  induction s as [|x s IH]; intros pos; cbn [rfind_from]; [split; [auto|reflexivity]|].
  specialize (IH (pos + 1)). destruct (rfind_from c s (pos + 1)) as [p|].
  - split; [discriminate|]. intros H. exfalso.
    assert (~ In c s) by (intros Q; apply H; now right). apply IH in H0. discriminate.
  - destruct (Z.eqb_spec x c) as [->|N].
    + split; [discriminate|]. intros H. exfalso. apply H. now left.
    + split; [|reflexivity]. intros _ [Q|Q]; [congruence|]. now apply IH.
Qed.

Lemma rfind_from_app c a b : ~ In c b -> forall pos,
  rfind_from c (a ++ c :: b) pos = Some (pos + lenZ a).
Proof.
  intros N. induction a as [|x a IH]; intros pos; cbn [app rfind_from].
  - rewrite (proj2 (rfind_from_none c b (pos + 1)) N), Z.eqb_refl. f_equal. unfold lenZ.
    cbn [length]. lia.
  - rewrite IH. f_equal. unfold lenZ. cbn [length]. lia.
Qed.

Lemma get_path_cases c key d p :
  (forall d', get_string c key d' = p) -> p <> default_string ->
  (forall r, p = 47 :: r -> get_path c key d = Ok p) /\
  (p <> [] -> (forall r, p <> 47 :: r) ->
   (forall dir base, c_filename c = dir ++ 47 :: base -> ~ In 47 base ->
      get_path c key d = Ok (dir ++ 47 :: p)) /\
   (~ In 47 (c_filename c) -> get_path c key d = Ok p)).
Proof.
  intros G N. unfold get_path. rewrite G, str_eqb_neq by exact N.
  split; [intros r ->; reflexivity|].
  intros Np NS. destruct p as [|x p]; [congruence|].
  destruct (Z.eqb_spec x 47) as [->|]; [exfalso; now apply (NS p)|].
  split.
  - intros dir base E Nb. rewrite E, rfind_from_app by exact Nb. f_equal.
    replace (dir ++ 47 :: base) with ([] ++ (dir ++ [47]) ++ base)
      by (cbn [app]; now rewrite <- app_assoc).
    rewrite sub_app; [now rewrite <- app_assoc|reflexivity|].
    unfold lenZ. rewrite app_length. cbn [length]. lia.
  - intros H. now rewrite (proj2 (rfind_from_none 47 _ 0) H).
Qed.

Lemma get_path_missing c key d :
  (forall d', get_string c key d' = d') -> get_path c key d = Ok d.
Proof. intros G. unfold get_path. now rewrite G, str_eqb_refl. Qed.

Lemma get_path_safe c key d : Forall (fun e => snd e <> []) (c_table c) -> is_ok (get_path c key d) = true.
Proof.
  intros F. unfold get_path, get_string.
  assert (N : match assoc (lower key) (c_table c) with Some v => v | None => default_string end <> []).
  { destruct (assoc (lower key) (c_table c)) as [v|] eqn:E; [|discriminate].
    revert E F. generalize (c_table c) as t. induction t as [|(k & w) t IH]; cbn [assoc]; [discriminate|].
    intros E F. inversion F; subst. destruct (str_eqb _ k); [injection E as <-; assumption|auto]. }
  destruct (str_eqb _ _); [reflexivity|].
  destruct (match assoc _ _ with Some v => v | None => default_string end) as [|x p]; [congruence|].
  destruct (x =? 47); [reflexivity|]. destruct (rfind_from _ _ _); reflexivity.
Qed.

(** * Integers *)

Lemma stoi_decimal z s t : decimal z s -> (forall c r, t = c :: r -> ~ 48 <= c <= 57) ->
  stoi (s ++ t) = if in_int32 z then Ok z else Fault Throw.
Proof.
  intros D S.
  assert (U : forall n u, decimal_digits n u -> fst (digits 10 0 (u ++ t)) = n).
  { intros n u Du. rewrite (digits_decimal _ _ Du), digits_stop; [cbn [fst]; lia|].
    intros c r E. apply digit10_none. eapply S; eassumption. }
  unfold stoi. destruct D as [n s D|n s P D].
  - destruct (decimal_digits_head _ _ D) as (N0 & c & r & E & C & _).
    pose proof (U _ _ D) as Q.
    rewrite E in *. cbn [app skip_space] in *. rewrite not_space by lia.
    destruct (Z.eqb_spec c 45); [lia|]. destruct (Z.eqb_spec c 43); [lia|].
    rewrite digit10 by exact C. rewrite Q. reflexivity.
  - destruct (decimal_digits_head _ _ D) as (N0 & c & r & E & C & _).
    pose proof (U _ _ D) as Q.
    cbn [app skip_space]. rewrite not_space by lia. cbn [Z.eqb Pos.eqb].
    rewrite E in *. cbn [app] in *. rewrite digit10 by exact C. rewrite Q. reflexivity.
Qed.

Lemma decimal_not_default z s : decimal z s -> s <> default_string.
Proof.
  intros D E. destruct (decimal_ends _ _ D) as (_ & F). rewrite Forall_forall in F.
  specialize (F 126). rewrite E in F. destruct F; [now left|lia|lia].
Qed.

Lemma get_integer_exact c key z s :
  (forall d, get_string c key d = s) -> decimal z s -> int_min < z <= int_max ->
  get_integer c key = Ok (Some z).
Proof.
  intros G D R. unfold get_integer, get_integer_or_else.
  rewrite G, str_eqb_neq by (eapply decimal_not_default; eassumption).
  pose proof (stoi_decimal z s [] D ltac:(discriminate)) as Q.
  rewrite app_nil_r in Q. rewrite Q.
  assert (I : in_int32 z = true) by (apply in_int32_iff; unfold int_min, int_max in *; lia).
  rewrite I. cbn [bind].
  destruct (Z.eqb_spec z int_min); [lia|reflexivity].
Qed.

Lemma get_integer_missing c key :
  (forall d, get_string c key d = d) -> get_integer c key = Ok None.
Proof.
  intros G. unfold get_integer, get_integer_or_else. rewrite G, str_eqb_refl. reflexivity.
Qed.
