(** Streams and [ReadableFile] objects: for all calls. *)
From Coq Require Import ZArith List Bool Lia Permutation.
From Verif.Base Require Import Prelude Lemmas.
From Verif.Model Require Import Handles.
From Verif.Spec Require Import HandleSpec.
Import ListNotations.

(** ** Lists of flags *)

Definition live (s : list bool) : list nat := filter (fun n => nth n s false) (seq 0 (length s)).

Lemma in_live s n : In n (live s) <-> nth_error s n = Some true.
Proof.
  unfold live. rewrite filter_In, in_seq. split.
  - intros (A & B). rewrite (nth_error_nth' s false) by lia. now rewrite B.
  - intros H. assert (n < length s)%nat by (apply nth_error_Some; congruence). split; [lia|].
    apply nth_error_nth with (d := false) in H. exact H.
Qed.

Lemma live_nodup s : NoDup (live s).
Proof. apply NoDup_filter, seq_NoDup. Qed.

Lemma live_app s : live (s ++ [true]) = live s ++ [length s].
Proof.
  unfold live. rewrite app_length, seq_app, filter_app. f_equal.
  - apply filter_ext_in. intros n J. apply in_seq in J. now rewrite app_nth1 by lia.
  - cbn [length seq filter]. now rewrite app_nth2, Nat.sub_diag by lia.
Qed.

Lemma live_upd s n : nth_error s n = Some true -> Permutation (live s) (n :: live (upd s n false)).
Proof.
  intros H. assert (L : (n < length s)%nat) by (apply nth_error_Some; congruence).
  apply NoDup_Permutation; [apply live_nodup| |].
  - constructor; [|apply live_nodup]. rewrite in_live, nth_error_upd. rewrite Nat.eqb_refl.
    destruct (Nat.ltb_spec n (length s)); [discriminate|lia].
  - intros k. cbn [In]. rewrite !in_live, nth_error_upd. destruct (Nat.eqb_spec n k) as [->|N].
    + split; [now left|intros _; exact H].
    + split; [now right|]. intros [X|X]; [congruence|exact X].
Qed.

(** ** The log *)

Definition log_ok (h : hs) : Prop :=
  proper (h_log h) /\ opens (h_log h) = length (h_streams h) /\
  opens (h_log h) = (closes (h_log h) + length (live (h_streams h)))%nat /\
  (forall n, was_opened (h_log h) n <-> (n < length (h_streams h))%nat) /\
  (forall n, still_open (h_log h) n <-> nth_error (h_streams h) n = Some true).

Lemma opens_app a b : opens (a ++ b) = (opens a + opens b)%nat.
Proof. unfold opens. now rewrite filter_app, app_length. Qed.
Lemma closes_app a b : closes (a ++ b) = (closes a + closes b)%nat.
Proof. unfold closes. now rewrite filter_app, app_length. Qed.
Lemma names_app a b : names (a ++ b) = names a ++ names b.
Proof. induction a as [|[n x|n] a IH]; cbn; [reflexivity| |]; now rewrite IH. Qed.

Lemma last_split {A} (l p q : list A) e x : l ++ [e] = p ++ x :: q ->
  (q = [] /\ p = l /\ x = e) \/ exists q', q = q' ++ [e] /\ l = p ++ x :: q'.
Proof.
  intros H. assert (D : q = [] \/ q <> []) by (destruct q; [now left|now right]). destruct D as [->|N].
  - left. apply app_inj_tail in H. destruct H as (-> & ->). auto.
  - right. destruct (exists_last N) as (q' & y & ->). exists q'.
    replace (p ++ x :: q' ++ [y]) with ((p ++ x :: q') ++ [y]) in H by (now rewrite <- app_assoc).
    apply app_inj_tail in H. destruct H as (-> & ->). auto.
Qed.

Lemma proper_snoc l e : proper l ->
  match e with Opened n _ => ~ was_opened l n | Closed n => still_open l n end -> proper (l ++ [e]).
Proof.
  intros P H p x q E. apply last_split in E. destruct E as [(-> & -> & ->)|(q' & -> & E)]; [exact H|]. exact (P p x q' E).
Qed.

Lemma at_most_snoc k l e : at_most k l -> (opens (l ++ [e]) <= closes (l ++ [e]) + k)%nat -> at_most k (l ++ [e]).
Proof.
  intros P H p q E. destruct (rev q) as [|y r] eqn:R.
  - assert (Q : q = []) by (rewrite <- (rev_involutive q), R; reflexivity). subst q. rewrite app_nil_r in E. now subst p.
  - assert (Q : q = rev r ++ [y]) by (rewrite <- (rev_involutive q), R; reflexivity). subst q. rewrite app_assoc in E.
    apply app_inj_tail in E. destruct E as (E & _). exact (P p _ E).
Qed.

Lemma at_most_more k k' l : (k <= k')%nat -> at_most k l -> at_most k' l.
Proof. intros L H p q E. specialize (H p q E). lia. Qed.

Lemma was_opened_snoc l e n : was_opened (l ++ [e]) n <-> was_opened l n \/ exists name, e = Opened n name.
Proof.
  split.
  - intros (x & J). apply in_app_iff in J. destruct J as [J|[J|[]]]; [left; now exists x|right; now exists x].
  - intros [(x & J)|(x & ->)]; exists x; apply in_app_iff; [now left|right; now left].
Qed.

Lemma closed_snoc l e n : In (Closed n) (l ++ [e]) <-> In (Closed n) l \/ e = Closed n.
Proof. rewrite in_app_iff. cbn [In]. tauto. Qed.

Lemma nth_snoc {A} (s : list A) x n : nth_error (s ++ [x]) n = if Nat.eqb n (length s) then Some x else nth_error s n.
Proof.
  destruct (Nat.eqb_spec n (length s)) as [->|N].
  - now rewrite nth_error_app2, Nat.sub_diag by lia.
  - destruct (Nat.lt_ge_cases n (length s)); [now rewrite nth_error_app1|].
    rewrite nth_error_app2 by lia. destruct (n - length s)%nat as [|k] eqn:K; [lia|]. cbn. destruct k; cbn;
    symmetry; apply nth_error_None; lia.
Qed.

Ltac perm := apply (Permutation_count_occ Nat.eq_dec); let x := fresh in intros x; rewrite ?count_occ_app; cbn [count_occ];
  rewrite ?count_occ_app; repeat match goal with |- context [Nat.eq_dec ?a ?b] => destruct (Nat.eq_dec a b) end; lia.

Section Calls.
Variable files : list Z -> option (list Z).

Lemma fopen_ok h name n c h' : log_ok h -> fopen files name h = (Some (n, c), h') ->
  log_ok h' /\ files name = Some c /\ n = length (h_streams h) /\ h_streams h' = h_streams h ++ [true] /\
  h_objs h' = h_objs h /\ h_mine h' = h_mine h /\ h_log h' = h_log h ++ [Opened n name].
Proof.
  intros (P & A & B & W & S) E. unfold fopen in E. destruct (files name) as [c0|]; [|discriminate]. injection E as <- <- <-.
  cbn [h_streams h_objs h_mine h_log]. split; [|repeat split; reflexivity]. unfold log_ok. cbn [h_streams h_log].
  set (l := h_log h) in *. set (s := h_streams h) in *. clearbody l s. split; [|split; [|split; [|split]]].
  - apply proper_snoc; [exact P|]. rewrite W. lia.
  - rewrite opens_app, app_length, A. reflexivity.
  - rewrite opens_app, closes_app, live_app, app_length. cbn. lia.
  - intros n. rewrite was_opened_snoc, W, app_length. cbn [length]. split.
    + intros [X|(x & X)]; [lia|injection X as -> _; lia].
    + intros X. destruct (Nat.eq_dec n (length s)) as [->|N]; [right; now exists name|left; lia].
  - intros n. unfold still_open. rewrite was_opened_snoc, closed_snoc, nth_snoc. destruct (Nat.eqb_spec n (length s)) as [->|N].
    + split; [reflexivity|]. intros _. split; [right; now exists name|]. intros [J|J]; [|discriminate].
      apply in_split in J. destruct J as (p & q & J). specialize (P p (Closed (length s)) q J). cbn beta iota in P.
      destruct P as (O1 & _). assert (O2 : was_opened l (length s)) by (destruct O1 as (x & O1); exists x; rewrite J; apply in_app_iff; now left).
      apply W in O2. lia.
    + rewrite <- S. unfold still_open. split.
      * intros ([X|(x & X)] & Y); [tauto|]. injection X as X _. congruence.
      * intros (X & Y). split; [now left|]. intros [Z|Z]; [tauto|discriminate].
Qed.

Lemma fopen_none h name h' : fopen files name h = (None, h') -> h' = h /\ files name = None.
Proof. unfold fopen. destruct (files name); [discriminate|]. intros E. injection E as <-. auto. Qed.

Lemma fclose_ok h n : log_ok h -> nth_error (h_streams h) n = Some true ->
  exists h', fclose n h = Ok h' /\ log_ok h' /\ h_streams h' = upd (h_streams h) n false /\
    h_objs h' = h_objs h /\ h_mine h' = h_mine h /\ h_log h' = h_log h ++ [Closed n].
Proof.
  intros (P & A & B & W & S) N. unfold fclose. rewrite N. eexists. split; [reflexivity|].
  cbn [h_streams h_objs h_mine h_log]. split; [|repeat split; reflexivity]. unfold log_ok. cbn [h_streams h_log].
  set (l := h_log h) in *. set (s := h_streams h) in *. clearbody l s.
  assert (L : (n < length s)%nat) by (apply nth_error_Some; congruence).
  split; [|split; [|split; [|split]]].
  - apply proper_snoc; [exact P|]. now apply S.
  - rewrite opens_app, upd_length. cbn. lia.
  - rewrite opens_app, closes_app. pose proof (Permutation_length (live_upd s n N)) as Q. cbn [length] in Q. cbn. lia.
  - intros k. rewrite was_opened_snoc, W, upd_length. split; [intros [X|(x & X)]; [exact X|discriminate]|now left].
  - intros k. unfold still_open. rewrite was_opened_snoc, closed_snoc, nth_error_upd. destruct (Nat.eqb_spec n k) as [<-|K].
    + destruct (Nat.ltb_spec n (length s)); [|lia]. split; [|discriminate]. intros (_ & X). exfalso. apply X. now right.
    + rewrite <- S. unfold still_open. split.
      * intros ([X|(x & X)] & Y); [tauto|discriminate].
      * intros (X & Y). split; [now left|]. intros [Z|Z]; [tauto|]. congruence.
Qed.

Lemma fclose_only h n h' : fclose n h = Ok h' -> nth_error (h_streams h) n = Some true.
Proof. unfold fclose. destruct (nth_error (h_streams h) n) as [[|]|]; congruence. Qed.

(** ** Objects *)

Definition fds (o : rf) : list nat := if r_owned o then match r_fd o with Some n => [n] | None => [] end else [].
Definition owned_fds (os : list rf) : list nat := flat_map fds os.

Lemma owned_mid a o b : owned_fds (a ++ o :: b) = owned_fds a ++ fds o ++ owned_fds b.
Proof. unfold owned_fds. now rewrite flat_map_app. Qed.

Lemma obj_split h i o : obj h i = Ok o -> exists a b, h_objs h = a ++ o :: b /\ length a = i.
Proof. unfold obj. destruct (nth_error (h_objs h) i) eqn:E; [|discriminate]. intros X. injection X as <-. now apply nth_error_split. Qed.

Lemma upd_mid {A} (a : list A) x y b : upd (a ++ x :: b) (length a) y = a ++ y :: b.
Proof. induction a as [|z a IH]; cbn; [reflexivity|now rewrite IH]. Qed.

Definition holds (h : hs) (U : list nat) : Prop := Permutation (live (h_streams h)) (owned_fds (h_objs h) ++ U).

Lemma holds_in h U n : holds h U -> In n (owned_fds (h_objs h)) -> nth_error (h_streams h) n = Some true.
Proof. intros H J. apply in_live. apply (Permutation_in n (Permutation_sym H)). apply in_app_iff. now left. Qed.

(** Closing the stream of an object. *)
Lemma close_mid h U a o b n : log_ok h -> holds h U -> h_objs h = a ++ o :: b -> fds o = [n] ->
  exists h', fclose n h = Ok h' /\ log_ok h' /\ h_objs h' = h_objs h /\ h_mine h' = h_mine h /\
    length (h_streams h') = length (h_streams h) /\ h_log h' = h_log h ++ [Closed n] /\
    Permutation (live (h_streams h')) (owned_fds a ++ owned_fds b ++ U).
Proof.
  intros L H E F.
  assert (N : nth_error (h_streams h) n = Some true).
  { apply (holds_in h U n H). rewrite E, owned_mid, F. apply in_app_iff. right. now left. }
  destruct (fclose_ok h n L N) as (h' & C & L' & S & O & M & G). exists h'. split; [exact C|]. split; [exact L'|]. split; [exact O|].
  split; [exact M|]. split; [rewrite S; apply upd_length|]. split; [exact G|].
  rewrite S. apply (Permutation_cons_inv (a := n)). rewrite <- (live_upd _ _ N). unfold holds in H. rewrite H, E, owned_mid, F.
  rewrite <- !app_assoc. cbn [app]. symmetry. apply Permutation_middle.
Qed.

Lemma rev_last {A} (l : list A) x r : rev l = x :: r -> l = rev r ++ [x].
Proof. intros H. rewrite <- (rev_involutive l), H. reflexivity. Qed.

(** Destroying the last object. *)
Lemma destroy_ok h U a o : log_ok h -> holds h U -> h_objs h = a ++ [o] ->
  exists h', rf_destroy h = Ok h' /\ log_ok h' /\ h_objs h' = a /\ h_mine h' = h_mine h /\ holds h' U /\
    length (h_streams h') = length (h_streams h) /\
    h_log h' = h_log h ++ match fds o with [] => [] | n :: _ => [Closed n] end.
Proof.
  intros L H E. unfold rf_destroy. rewrite E, rev_app_distr. cbn [rev app].
  assert (P : fds o = [] /\ (match r_fd o with Some n => if r_owned o then fclose n h else Ok h | None => Ok h end) = Ok h \/
              exists n, fds o = [n] /\ (match r_fd o with Some n => if r_owned o then fclose n h else Ok h | None => Ok h end) = fclose n h).
  { unfold fds. destruct (r_owned o), (r_fd o) as [n|]; [right; exists n; now split|now left|now left|now left]. }
  destruct P as [(F & ->)|(n & F & ->)]; rewrite F.
  - cbn [bind]. rewrite E, removelast_last. eexists. split; [reflexivity|]. cbn [h_objs h_mine h_streams h_log]. split; [exact L|].
    split; [reflexivity|]. split; [reflexivity|]. split; [|split; [reflexivity|now rewrite app_nil_r]].
    unfold holds in *. cbn [h_objs h_streams]. rewrite H, E. rewrite (owned_mid a o []), F. cbn. now rewrite app_nil_r.
  - destruct (close_mid h U a o [] n L H E F) as (h' & -> & L' & O & M & S & G & Q). cbn [bind]. rewrite O, E, removelast_last.
    eexists. split; [reflexivity|]. cbn [h_objs h_mine h_streams h_log]. split; [exact L'|]. split; [reflexivity|]. split; [exact M|].
    split; [exact Q|]. split; [exact S|exact G].
Qed.

Lemma destroy_none h : h_objs h = [] -> rf_destroy h = Ok h.
Proof. intros E. unfold rf_destroy. now rewrite E. Qed.

(** [Close] of an object that owns its file. *)
Lemma close_ok h U a o b : log_ok h -> holds h U -> h_objs h = a ++ o :: b -> r_owned o = true ->
  exists h', rf_close (length a) h = Ok h' /\ log_ok h' /\ h_objs h' = a ++ mk_rf None true (r_size o) :: b /\
    h_mine h' = h_mine h /\ holds h' U /\ length (h_streams h') = length (h_streams h) /\
    h_log h' = h_log h ++ match r_fd o with Some n => [Closed n] | None => [] end.
Proof.
  intros L H E W. unfold rf_close, obj. rewrite E, nth_error_app2, Nat.sub_diag by lia. cbn [nth_error bind]. rewrite W.
  unfold check. cbn [bind]. unfold holds in H. destruct (r_fd o) as [n|] eqn:F.
  - assert (F' : fds o = [n]) by (unfold fds; now rewrite W, F).
    destruct (close_mid h U a o b n L H E F') as (h' & -> & L' & O & M & S & G & Q). cbn [bind]. eexists. split; [reflexivity|].
    unfold set_obj, holds. cbn [h_objs h_mine h_streams h_log]. rewrite O, E, upd_mid. split; [exact L'|]. split; [reflexivity|].
    split; [exact M|]. split; [|split; [exact S|exact G]]. rewrite Q, owned_mid. cbn. now rewrite <- app_assoc.
  - cbn [bind]. eexists. split; [reflexivity|]. unfold set_obj, holds. cbn [h_objs h_mine h_streams h_log]. rewrite E, upd_mid.
    split; [exact L|]. split; [reflexivity|]. split; [reflexivity|]. split; [|split; [reflexivity|now rewrite app_nil_r]].
    rewrite H, E, !owned_mid. unfold fds. rewrite W, F. reflexivity.
Qed.

Lemma open_ok h U a o b name : log_ok h -> holds h U -> h_objs h = a ++ o :: b ->
  exists h', rf_open files (length a) name h = Ok (files name, h') /\ log_ok h' /\ h_mine h' = h_mine h /\
    match files name with
    | None => h_objs h' = a ++ mk_rf None (r_owned o) (r_size o) :: b /\ h_streams h' = h_streams h /\
        h_log h' = h_log h /\ holds h' (fds o ++ U)
    | Some c =>
        let n := length (h_streams h) in
        h_objs h' = a ++ mk_rf (Some n) (r_owned o) (lenZ c) :: b /\ h_streams h' = h_streams h ++ [true] /\
        h_log h' = h_log h ++ [Opened n name] /\ holds h' (fds o ++ (if r_owned o then U else n :: U))
    end.
Proof.
  intros L H E. unfold rf_open, obj. rewrite E, nth_error_app2, Nat.sub_diag by lia. cbn [nth_error bind].
  destruct (fopen files name h) as [[[n c]|] h'] eqn:P.
  - apply fopen_ok in P; [|exact L]. destruct P as (L' & Fn & -> & S & O & M & G). rewrite Fn. eexists. split; [reflexivity|].
    unfold set_obj. cbn [h_objs h_mine h_streams h_log]. rewrite O, E, upd_mid. split; [exact L'|]. split; [exact M|].
    cbn zeta. split; [reflexivity|]. split; [exact S|]. split; [exact G|].
    unfold holds in *. cbn [h_objs h_streams]. rewrite S, live_app, H, E, !owned_mid. unfold fds at 2. cbn [r_owned r_fd].
    destruct (r_owned o); perm.
  - apply fopen_none in P. destruct P as (-> & Fn). rewrite Fn. eexists. split; [reflexivity|].
    unfold set_obj. cbn [h_objs h_mine h_streams h_log]. rewrite E, upd_mid. split; [exact L|]. split; [reflexivity|].
    split; [reflexivity|]. split; [reflexivity|]. split; [reflexivity|].
    unfold holds in *. cbn [h_objs h_streams]. rewrite H, E, !owned_mid. unfold fds at 2. cbn [r_owned r_fd].
    assert (X : (if r_owned o then @nil nat else []) = []) by (destruct (r_owned o); reflexivity). rewrite X. cbn [app].
    perm.
Qed.

(** ** Any calls *)

Definition inv (h : hs) : Prop :=
  log_ok h /\ (exists U, holds h U) /\
  forall n, In n (h_mine h) -> (n < length (h_streams h))%nat /\ ~ In n (owned_fds (h_objs h)).

Lemma none_ok : log_ok no_files.
Proof.
  unfold log_ok. cbn. split; [intros [|] ? ?; discriminate|]. split; [reflexivity|]. split; [reflexivity|].
  split; intros n.
  - split; [intros (x & [])|intros X; exfalso; inversion X].
  - split; [intros ((x & []) & _)|destruct n; discriminate].
Qed.

Lemma inv_none : inv no_files.
Proof. split; [apply none_ok|]. split; [exists []; apply perm_nil|]. intros n []. Qed.

Lemma owned_sub_set h i o o' : nth_error (h_objs h) i = Some o -> (forall n, In n (fds o') -> In n (fds o)) ->
  forall n, In n (owned_fds (upd (h_objs h) i o')) -> In n (owned_fds (h_objs h)).
Proof.
  intros E H n. apply nth_error_split in E. destruct E as (a & b & -> & <-). rewrite upd_mid, !owned_mid, !in_app_iff.
  intros [J|[J|J]]; auto.
Qed.

(** What each call does, and that it keeps the invariant. *)
Lemma call_inv c h h' : inv h -> do_call files c h = Ok h' -> inv h'.
Proof.
  intros (L & (U & H) & M) E. destruct c as [|j|i name|i|i|i| |name|j]; cbn [do_call] in E.
  - injection E as <-. unfold rf_new. split; [exact L|]. split.
    + exists U. unfold holds in *. cbn [h_objs h_streams]. rewrite (owned_mid _ _ []). cbn. now rewrite app_nil_r.
    + cbn [h_mine h_objs h_streams]. intros n J. rewrite (owned_mid _ _ []). cbn. rewrite app_nil_r. now apply M.
  - destruct (mine h j) as [n|]; [|discriminate]. cbn [bind] in E. injection E as <-. unfold rf_borrow. split; [exact L|]. split.
    + exists U. unfold holds in *. cbn [h_objs h_streams]. rewrite (owned_mid _ _ []). cbn. now rewrite app_nil_r.
    + cbn [h_mine h_objs h_streams]. intros k J. rewrite (owned_mid _ _ []). cbn. rewrite app_nil_r. now apply M.
  - destruct (rf_open files i name h) as [[c k]|] eqn:R; [|discriminate]. cbn [bind] in E. injection E as ->.
    assert (B := R). unfold rf_open in B. destruct (obj h i) as [o|] eqn:Ob; [|discriminate]. clear B. apply obj_split in Ob.
    destruct Ob as (a & b & Ob & <-). destruct (open_ok h U a o b name L H Ob) as (k & R' & L' & Mi & P). rewrite R in R'.
    injection R' as -> ->. split; [exact L'|]. rewrite Mi. destruct (files name) as [c1|].
    + cbn zeta in P. destruct P as (Oj & S & _ & P). split; [eauto|]. intros n J. destruct (M n J) as (M1 & M2).
      rewrite S, app_length, Oj, owned_mid. rewrite Ob, owned_mid in M2. split; [lia|]. rewrite !in_app_iff in *.
      intros [J'|[J'|J']]; [tauto| |tauto]. unfold fds in J'. cbn [r_owned r_fd] in J'. destruct (r_owned o); [|destruct J'].
      destruct J' as [<-|[]]. lia.
    + destruct P as (Oj & S & _ & P). split; [eauto|]. intros n J. destruct (M n J) as (M1 & M2).
      rewrite S, Oj, owned_mid. rewrite Ob, owned_mid in M2. split; [lia|]. rewrite !in_app_iff in *.
      intros [J'|[J'|J']]; [tauto| |tauto]. unfold fds in J'. cbn [r_owned r_fd] in J'. destruct (r_owned o); destruct J'.
  - destruct (rf_use i h); [|discriminate]. injection E as <-. split; [exact L|]. split; [eauto|exact M].
  - destruct (rf_size i h); [|discriminate]. injection E as <-. split; [exact L|]. split; [eauto|exact M].
  - assert (B := E). unfold rf_close in B. destruct (obj h i) as [o|] eqn:Ob; [|discriminate]. cbn [bind] in B.
    apply obj_split in Ob. destruct Ob as (a & b & Ob & <-). destruct (r_owned o) eqn:W; [|discriminate]. clear B.
    destruct (close_ok h U a o b L H Ob W) as (k & R & L' & Oj & Mi & P & S & _). rewrite E in R. injection R as ->.
    split; [exact L'|]. split; [eauto|]. rewrite Mi. intros n J. destruct (M n J) as (M1 & M2). rewrite S. split; [lia|].
    rewrite Oj, owned_mid. rewrite Ob, owned_mid in M2. rewrite !in_app_iff in *. cbn. tauto.
  - destruct (h_objs h) as [|o0 r] eqn:Ob.
    + rewrite (destroy_none h Ob) in E. injection E as <-. split; [exact L|]. split; [eauto|]. now rewrite Ob.
    + destruct (exists_last (l := o0 :: r)) as (a & o & X); [discriminate|]. rewrite X in Ob. 
      destruct (destroy_ok h U a o L H Ob) as (k & R & L' & Oj & Mi & P & S & _). rewrite E in R. injection R as ->.
      split; [exact L'|]. split; [eauto|]. rewrite Mi. intros n J. destruct (M n J) as (M1 & M2). rewrite S. split; [lia|].
      rewrite Oj. rewrite X, owned_mid in M2. rewrite !in_app_iff in *. tauto.
  - destruct (fopen files name h) as [[[n c]|] k] eqn:P.
    + apply fopen_ok in P; [|exact L]. destruct P as (L' & _ & -> & S & O & Mi & G). injection E as <-.
      assert (Q : forall J, owned_fds (h_objs h) ++ length (h_streams h) :: J = owned_fds (h_objs h) ++ [length (h_streams h)] ++ J) by reflexivity.
      split; [exact L'|]. split.
      * exists (length (h_streams h) :: U). unfold holds in *. cbn [h_objs h_streams]. rewrite S, O, live_app, H. perm.
      * cbn [h_mine h_objs h_streams]. rewrite Mi, O, S, app_length. intros n J. apply in_app_iff in J. destruct J as [J|[<-|[]]].
        -- destruct (M n J). split; [lia|assumption].
        -- cbn [length]. split; [lia|]. intros J. apply (holds_in h U _ H) in J.
           assert (length (h_streams h) < length (h_streams h))%nat by (apply nth_error_Some; congruence). lia.
    + apply fopen_none in P. destruct P as (-> & _). injection E as <-. split; [exact L|]. split; [eauto|exact M].
  - unfold mine in E. destruct (nth_error (h_mine h) j) as [n|] eqn:J; [|discriminate]. cbn [bind] in E.
    assert (N := fclose_only h n h' E). destruct (fclose_ok h n L N) as (k & R & L' & S & O & Mi & _). rewrite E in R. injection R as ->.
    apply nth_error_In in J. destruct (M n J) as (M1 & M2). split; [exact L'|]. split.
    + assert (X : In n U). { unfold holds in H. assert (Y : In n (live (h_streams h))) by (now apply in_live).
        apply (Permutation_in n H) in Y. apply in_app_iff in Y. tauto. }
      apply in_split in X. destruct X as (u & v & ->). exists (u ++ v). unfold holds in *. rewrite O, S.
      apply (Permutation_cons_inv (a := n)). rewrite <- (live_upd _ _ N), H. perm.
    + rewrite Mi, O, S. intros m Jm. rewrite upd_length. now apply M.
Qed.

Lemma calls_inv cs : forall h h', inv h -> do_calls files cs h = Ok h' -> inv h'.
Proof.
  induction cs as [|c cs IH]; intros h h' I E; cbn [do_calls] in E; [now injection E as <-|].
  destruct (do_call files c h) as [k|] eqn:C; [|discriminate]. cbn [bind] in E. apply (IH k); [now apply (call_inv c h)|exact E].
Qed.

Theorem calls_proper cs h : do_calls files cs no_files = Ok h ->
  proper (h_log h) /\
  (exists h', do_call files CLeave h = Ok h') /\
  (forall i o, nth_error (h_objs h) i = Some o ->
    (r_owned o = true -> exists h', do_call files (CClose i) h = Ok h') /\
    (r_owned o = false -> do_call files (CClose i) h = Fault Assert) /\
    (r_owned o = true -> do_call files (CUse i) h = match r_fd o with Some _ => Ok h | None => Fault Undef end)).
Proof.
  intros E. apply (calls_inv cs _ _ inv_none) in E. destruct E as (L & (U & H) & M). split; [apply L|]. split.
  - destruct (h_objs h) as [|o0 r] eqn:Ob; [exists h; now apply destroy_none|].
    destruct (exists_last (l := o0 :: r)) as (a & o & X); [discriminate|]. rewrite X in Ob.
    destruct (destroy_ok h U a o L H Ob) as (k & R & _). now exists k.
  - intros i o J. assert (Oj : obj h i = Ok o) by (unfold obj; now rewrite J). cbn [do_call]. split; [|split].
    + intros W. apply nth_error_split in J. destruct J as (a & b & Ob & <-).
      destruct (close_ok h U a o b L H Ob W) as (k & R & _). now exists k.
    + intros W. unfold rf_close. rewrite Oj. cbn [bind]. rewrite W. reflexivity.
    + intros W. unfold rf_use. rewrite Oj. cbn [bind]. destruct (r_fd o) as [n|] eqn:Fd; [|reflexivity]. unfold fuse.
      rewrite (holds_in h U n H); [reflexivity|]. apply nth_error_split in J. destruct J as (a & b & Ob & _). rewrite Ob, owned_mid.
      apply in_app_iff. right. apply in_app_iff. left. unfold fds. rewrite W, Fd. now left.
Qed.

(** The streams of the user are closed by the user only. *)
Lemma call_keeps c h h' n : inv h -> do_call files c h = Ok h' -> (forall j, c <> CFclose j) ->
  (In n (h_mine h) -> In n (h_mine h')) /\
  (In n (h_mine h) -> still_open (h_log h) n -> still_open (h_log h') n) /\
  (In n (h_mine h') -> In n (h_mine h) \/ still_open (h_log h') n).
Proof.
  intros I E N. assert (I' := call_inv c h h' I E). destruct I as (L & (U & H) & M).
  destruct c as [|j|i name|i|i|i| |name|j]; cbn [do_call] in E.
  - injection E as <-. cbn. tauto.
  - destruct (mine h j) as [k|]; [|discriminate]. injection E as <-. cbn. tauto.
  - destruct (rf_open files i name h) as [[c k]|] eqn:R; [|discriminate]. cbn [bind] in E. injection E as ->.
    assert (B := R). unfold rf_open in B. destruct (obj h i) as [o|] eqn:Ob; [|discriminate]. clear B. apply obj_split in Ob.
    destruct Ob as (a & b & Ob & <-). destruct (open_ok h U a o b name L H Ob) as (k & R' & L' & Mi & P). rewrite R in R'.
    injection R' as -> ->. rewrite Mi. split; [auto|]. split; [|tauto]. intros J S. destruct L' as (_ & _ & _ & _ & S').
    apply S'. apply L in S. destruct (files name); cbn zeta in P; destruct P as (_ & -> & _); [|exact S].
    rewrite nth_error_app1; [exact S|]. apply nth_error_Some. congruence.
  - destruct (rf_use i h); [|discriminate]. injection E as <-. tauto.
  - destruct (rf_size i h); [|discriminate]. injection E as <-. tauto.
  - assert (B := E). unfold rf_close in B. destruct (obj h i) as [o|] eqn:Ob; [|discriminate]. cbn [bind] in B.
    apply obj_split in Ob. destruct Ob as (a & b & Ob & <-). destruct (r_owned o) eqn:W; [|discriminate]. clear B.
    destruct (close_ok h U a o b L H Ob W) as (k & R & L' & Oj & Mi & P & S & G). rewrite E in R. injection R as ->.
    rewrite Mi. split; [auto|]. split; [|tauto]. intros J (S1 & S2). rewrite G. split.
    + destruct S1 as (x & S1). exists x. apply in_app_iff. now left.
    + rewrite in_app_iff. intros [X|X]; [tauto|]. destruct (r_fd o) as [m|] eqn:Fd; [|destruct X]. destruct X as [X|[]]. injection X as ->.
      apply (proj2 (M n J)). rewrite Ob, owned_mid. apply in_app_iff. right. apply in_app_iff. left. unfold fds. rewrite W, Fd. now left.
  - destruct (h_objs h) as [|o0 r] eqn:Ob.
    + rewrite (destroy_none h Ob) in E. injection E as <-. tauto.
    + destruct (exists_last (l := o0 :: r)) as (a & o & X); [discriminate|]. rewrite X in *.
      destruct (destroy_ok h U a o L H Ob) as (k & R & L' & Oj & Mi & P & S & G). rewrite E in R. injection R as ->.
      rewrite Mi. split; [auto|]. split; [|tauto]. intros J (S1 & S2). rewrite G. split.
      * destruct S1 as (x & S1). exists x. apply in_app_iff. now left.
      * rewrite in_app_iff. intros [Y|Y]; [tauto|]. destruct (fds o) as [|m l] eqn:Fd; [destruct Y|]. destruct Y as [Y|[]]. injection Y as ->.
        apply (proj2 (M n J)). rewrite owned_mid, Fd. apply in_app_iff. right. now left.
  - destruct (fopen files name h) as [[[m c]|] k] eqn:P.
    + apply fopen_ok in P; [|exact L]. destruct P as (L' & _ & -> & S & O & Mi & G). injection E as <-. cbn [h_mine h_log h_streams] in *.
      rewrite Mi. split; [intros; apply in_app_iff; now left|]. split.
      * intros J X. destruct L' as (_ & _ & _ & _ & S'). apply S'. apply L in X. rewrite S, nth_error_app1; [exact X|].
        apply nth_error_Some. congruence.
      * intros J. apply in_app_iff in J. destruct J as [J|[<-|[]]]; [now left|right]. destruct L' as (_ & _ & _ & _ & S'). apply S'.
        rewrite S, nth_error_app2, Nat.sub_diag by lia. reflexivity.
    + apply fopen_none in P. destruct P as (-> & _). injection E as <-. tauto.
  - now elim (N j).
Qed.

Theorem borrowed_open cs : Forall (fun c => forall j, c <> CFclose j) cs ->
  forall h, do_calls files cs no_files = Ok h -> forall n, In n (h_mine h) -> still_open (h_log h) n.
Proof.
  intros A. assert (G : forall h h', inv h -> (forall n, In n (h_mine h) -> still_open (h_log h) n) -> do_calls files cs h = Ok h' ->
    forall n, In n (h_mine h') -> still_open (h_log h') n).
  { induction A as [|c cs N A IH]; intros h h' I S E; cbn [do_calls] in E; [now injection E as <-|].
    destruct (do_call files c h) as [k|] eqn:C; [|discriminate]. cbn [bind] in E. apply (IH k); [now apply (call_inv c h)| |exact E].
    intros n J. destruct (call_keeps c h k n I C N) as (_ & K & B). destruct (B J) as [X|X]; [|exact X]. apply K; auto. }
  intros h. apply G; [apply inv_none|]. intros n [].
Qed.

(** ** Orderly calls *)

Definition matches (x : bool * bool) (o : rf) : Prop :=
  r_owned o = fst x /\ (fst x = true -> snd x = false -> r_fd o = None).

Lemma matches_mid a x b os : Forall2 matches (a ++ x :: b) os ->
  exists oa o ob, os = oa ++ o :: ob /\ length oa = length a /\ Forall2 matches a oa /\ matches x o /\ Forall2 matches b ob.
Proof.
  intros H. apply Forall2_app_inv_l in H. destruct H as (oa & r & A & B & ->). inversion B as [|? o ? ob X Y]; subst.
  exists oa, o, ob. split; [reflexivity|]. split; [|auto]. clear -A. induction A; cbn; congruence.
Qed.

Lemma orderly_inv s cs : orderly s cs -> forall h h', inv h ->
  (exists U, holds h U /\ forall n, In n U -> In n (h_mine h)) -> Forall2 matches s (h_objs h) ->
  do_calls files cs h = Ok h' ->
  exists U, holds h' U /\ log_ok h' /\ forall n, In n U -> In n (h_mine h').
Proof.
  induction 1 as [s|s cs _ IH|s j cs _ IH|a b i name cs -> _ IH|a o b i cs -> _ IH|s i cs _ IH|s i cs _ IH|s o cs _ IH|s name cs _ IH|s j cs _ IH];
    intros h h' I (U & H & Um) S E; cbn [do_calls] in E; assert (L := proj1 I);
    assert (N := fun c k => call_inv c h k I).
  - injection E as <-. exists U. auto.
  - cbn [do_call bind] in E. refine (IH _ h' _ _ _ E); [exact (N CNew _ eq_refl)| |].
    + exists U. split; [|exact Um]. unfold holds in *. cbn [rf_new h_objs h_streams]. rewrite (owned_mid _ _ []). cbn. now rewrite app_nil_r.
    + apply Forall2_app; [exact S|]. constructor; [|constructor]. split; [reflexivity|reflexivity].
  - cbn [do_call] in E. destruct (mine h j) as [n|] eqn:Mj; [|discriminate]. cbn [bind] in E.
    refine (IH _ h' _ _ _ E); [apply (N (CBorrow j)); cbn [do_call]; now rewrite Mj| |].
    + exists U. split; [|exact Um]. unfold holds in *. cbn [rf_borrow h_objs h_streams]. rewrite (owned_mid _ _ []). cbn. now rewrite app_nil_r.
    + apply Forall2_app; [exact S|]. constructor; [|constructor]. split; [reflexivity|discriminate].
  - cbn [do_call] in E. apply matches_mid in S. destruct S as (oa & o & ob & Ob & La & Sa & (W & Fd) & Sb). cbn in W, Fd.
    specialize (Fd eq_refl eq_refl). rewrite <- La in E. destruct (open_ok h U oa o ob name L H Ob) as (k & R & L' & Mi & P).
    rewrite R in E. cbn [bind] in E. assert (Fo : fds o = []) by (unfold fds; now rewrite W, Fd). rewrite Fo, W in P. cbn [app] in P.
    assert (Q : holds k U /\ exists o', h_objs k = oa ++ o' :: ob /\ r_owned o' = true).
    { destruct (files name); cbn zeta in P; destruct P as (P1 & _ & _ & P2); (split; [exact P2|]); eexists; (split; [exact P1|]); reflexivity. }
    destruct Q as (Q & o' & Q1 & Q2).
    refine (IH k h' (N (COpen (length oa) name) k _) _ _ E); [cbn [do_call]; now rewrite R| |].
    + exists U. split; [exact Q|]. now rewrite Mi.
    + rewrite Q1. apply Forall2_app; [exact Sa|]. constructor; [|exact Sb]. split; [exact Q2|discriminate].
  - cbn [do_call] in E. apply matches_mid in S. destruct S as (oa & o' & ob & Ob & La & Sa & (W & Fd) & Sb). cbn in W, Fd.
    rewrite <- La in E. destruct (close_ok h U oa o' ob L H Ob W) as (k & R & L' & Oj & Mi & P & _). rewrite R in E. cbn [bind] in E.
    refine (IH k h' (N (CClose (length oa)) k R) _ _ E).
    + exists U. split; [exact P|]. now rewrite Mi.
    + rewrite Oj. apply Forall2_app; [exact Sa|]. constructor; [|exact Sb]. split; reflexivity.
  - cbn [do_call] in E. destruct (rf_use i h); [|discriminate]. cbn [bind] in E. refine (IH h h' I _ S E). eauto.
  - cbn [do_call] in E. destruct (rf_size i h); [|discriminate]. cbn [bind] in E. refine (IH h h' I _ S E). eauto.
  - cbn [do_call] in E. apply matches_mid in S. destruct S as (oa & o' & ob & Ob & La & Sa & _ & Sb). inversion Sb; subst ob.
    destruct (destroy_ok h U oa o' L H Ob) as (k & R & L' & Oj & Mi & P & _). rewrite R in E. cbn [bind] in E.
    refine (IH k h' (N CLeave k R) _ _ E).
    + exists U. split; [exact P|]. now rewrite Mi.
    + now rewrite Oj.
  - cbn [do_call] in E. destruct (fopen files name h) as [[[m c]|] k] eqn:P.
    + assert (P0 := P). apply fopen_ok in P; [|exact L]. destruct P as (L' & _ & -> & Sm & O & Mi & G). cbn [bind] in E.
      refine (IH _ h' _ _ _ E); [apply (N (CFopen name)); cbn [do_call]; now rewrite P0| |].
      * exists (length (h_streams h) :: U). split.
        -- unfold holds in *. cbn [h_objs h_streams]. rewrite Sm, O, live_app, H. perm.
        -- cbn [h_mine]. rewrite Mi. intros n [<-|J]; apply in_app_iff; [right; now left|left; auto].
      * cbn [h_objs]. now rewrite O.
    + apply fopen_none in P. destruct P as (-> & _). cbn [bind] in E. refine (IH h h' I _ S E). eauto.
  - cbn [do_call] in E. unfold mine in E. destruct (nth_error (h_mine h) j) as [n|] eqn:J; [|discriminate]. cbn [bind] in E.
    destruct (fclose n h) as [k|] eqn:C; [|discriminate]. cbn [bind] in E.
    assert (N0 := fclose_only h n k C). destruct (fclose_ok h n L N0) as (k' & R & L' & Sm & O & Mi & _). rewrite C in R. injection R as <-.
    apply nth_error_In in J as J'. destruct (proj2 (proj2 I) n J') as (_ & Nn).
    assert (X : In n U).
    { unfold holds in H. assert (Y : In n (live (h_streams h))) by (now apply in_live). apply (Permutation_in n H) in Y. apply in_app_iff in Y. tauto. }
    refine (IH k h' (N (CFclose j) k _) _ _ E); [cbn [do_call]; unfold mine; now rewrite J| |now rewrite O].
    apply in_split in X. destruct X as (u & v & ->). exists (u ++ v). split.
    + unfold holds in *. rewrite O, Sm. apply (Permutation_cons_inv (a := n)). rewrite <- (live_upd _ _ N0), H. perm.
    + rewrite Mi. intros m Jm. apply Um. apply in_app_iff in Jm. apply in_app_iff. cbn [In]. tauto.
Qed.

Theorem orderly_closes cs h : orderly [] cs -> do_calls files cs no_files = Ok h -> h_objs h = [] ->
  forall n, still_open (h_log h) n -> In n (h_mine h).
Proof.
  intros Or E Em n S. destruct (orderly_inv [] cs Or no_files h inv_none) as (U & H & L & Um); [exists []; split; [apply perm_nil|auto]|constructor|exact E|].
  apply Um. apply L in S. apply in_live in S. unfold holds in H. rewrite Em in H. cbn in H. now apply (Permutation_in n H).
Qed.
End Calls.
