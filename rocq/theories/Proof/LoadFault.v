(** Which files make the readers of a model crash. *)
From Coq Require Import ZArith String List Bool Lia.
From Verif.Base Require Import Prelude ZMap Lemmas.
From Verif.Model Require Import Util File Binary Arith Vector Fbank Nnet Formats SymbolTable Fst.
From Verif.Spec Require Import AudioSpec AmSpec FormatSpec TextSpec FstSpec LoadingSpec LoadFaultSpec.
From Verif.Proof Require Import Loop Binary Formats Text Number Lines LinesExact NumberExact Symbols SymbolsExact Fst.
Import ListNotations.
Open Scope Z_scope.

(** * Readers that go on from section to section *)

Definition tracks (bad : bytes -> fault -> Prop) {A} (m : io A) : Prop :=
  forall f, byte_list (f_rest f) ->
    (forall x, m f = Fault x -> exists before after, f_rest f = before ++ after /\ bad after x) /\
    (forall r f', m f = Ok (r, f') -> exists c, f_rest f = c ++ f_rest f').

Lemma bytes_rest c r : byte_list (c ++ r) -> byte_list r.
Proof. unfold byte_list. intros H. apply Forall_app in H. tauto. Qed.

Section Tracks.
Variable bad : bytes -> fault -> Prop.
Notation tr := (tracks bad).

Lemma tr_bind A B (m : io A) (k : A -> io B) : tr m -> (forall a, tr (k a)) -> tr (io_bind m k).
Proof.
  intros Hm Hk f By. destruct (Hm f By) as (F & S). unfold io_bind. destruct (m f) as [[[a|] f1]|x] eqn:E; cbn [bind].
  - destruct (S _ _ eq_refl) as (c & R). pose proof By as By1. rewrite R in By1. apply bytes_rest in By1.
    destruct (Hk a f1 By1) as (F1 & S1). split.
    + intros x H. destruct (F1 x H) as (b & t & Q & W). exists (c ++ b), t. rewrite R, Q, app_assoc. now split.
    + intros r f' H. destruct (S1 r f' H) as (c2 & Q). exists (c ++ c2). rewrite R, Q, app_assoc. reflexivity.
  - split; [discriminate|]. intros r f' H. injection H as <- <-. exact (S _ _ eq_refl).
  - split; [|discriminate]. intros y H. injection H as <-. exact (F _ eq_refl).
Qed.
Lemma tr_ret A (a : A) : tr (io_ret a).
Proof. intros f _. split; [discriminate|]. intros r f' H. injection H as _ <-. now exists []. Qed.
Lemma tr_fail A : tr (@io_fail A).
Proof. intros f _. split; [discriminate|]. intros r f' H. injection H as _ <-. now exists []. Qed.
Lemma tr_check b : tr (io_check b).
Proof. destruct b; [apply tr_ret|apply tr_fail]. Qed.

Lemma read_rest f n r f' : read f n = Ok (r, f') -> exists c, f_rest f = c ++ f_rest f'.
Proof.
  unfold read. intros H. destruct (n <? 0).
  { destruct (f_rest f); [|discriminate]. injection H as _ <-. now exists []. }
  destruct (n =? 0); [injection H as _ <-; now exists []|].
  destruct (n <=? lenZ (f_rest f)); injection H as _ <-; cbn [f_rest].
  - exists (firstn (Z.to_nat n) (f_rest f)). symmetry. apply firstn_skipn.
  - exists (f_rest f). now rewrite app_nil_r.
Qed.

Lemma tr_read n : 0 <= n -> tr (io_read n).
Proof.
  intros P f _. split; [|apply read_rest]. intros x H. destruct (safe_read n P f) as (r & E). congruence.
Qed.
Lemma tr_int n : 0 <= n -> tr (io_int n).
Proof. intros P. apply tr_bind; [now apply tr_read|]. intros a. apply tr_ret. Qed.
Lemma tr_verify s : tr (io_verify s).
Proof.
  intros f By. unfold io_verify, read_and_verify.
  destruct (safe_read (lenZ s) (Zle_0_nat _) f) as [[r f1] E]. unfold io_read in E. rewrite E.
  destruct (read_rest _ _ _ _ E) as (c & R).
  destruct r as [b|]; cbn [bind]; (split; [discriminate|]); intros r f' H; injection H as _ <-; now exists c.
Qed.
End Tracks.

(** * Networks *)

Definition odd (c : bytes) (x : fault) : Prop :=
  negative_vector c /\ x = Assert \/ odd_matrix c /\ (x = Assert \/ x = Undef).

Lemma vec_header_rest f r f' : byte_list (f_rest f) -> vec_header f = Ok (r, f') -> exists c, f_rest f = c ++ f_rest f'.
Proof.
  intros By. assert (T : tracks (fun _ _ => False) vec_header).
  { unfold vec_header. apply tr_bind; [apply tr_verify|]. intros _. apply tr_bind; [apply tr_int; lia|]. intros s.
    apply tr_bind; [apply tr_int; lia|]. intros d. apply tr_bind; [apply tr_check|]. intros _. apply tr_ret. }
  destruct (T f By) as (_ & S). apply S.
Qed.

Lemma vec_read_rest old f b v f' : byte_list (f_rest f) -> vec_read old f = Ok (b, v, f') -> exists c, f_rest f = c ++ f_rest f'.
Proof.
  intros By H. unfold vec_read in H. destruct (vec_header f) as [[h f1]|] eqn:E; [|discriminate]. cbn [bind] in H.
  destruct (vec_header_rest _ _ _ By E) as (c & R). destruct h as [d|]; [|injection H as _ _ <-; now exists c].
  destruct (vec_init 4 d); [|discriminate]. cbn [bind] in H.
  destruct (read f1 (d * 4)) as [[q f2]|] eqn:Q; [|discriminate]. cbn [bind] in H.
  destruct (read_rest _ _ _ _ Q) as (c2 & R2). exists (c ++ c2). rewrite R, R2, app_assoc.
  destruct q; injection H as _ _ <-; reflexivity.
Qed.

Lemma vec_read_odd old f x : byte_list (f_rest f) -> vec_read old f = Fault x -> negative_vector (f_rest f) /\ x = Assert.
Proof.
  intros By H. destruct (vec_read_fault old f x By H) as (-> & size & dim & rest & R & D & N). split; [|reflexivity].
  exists size, dim, rest. rewrite R. now split.
Qed.

Lemma io_vector_fault f x : byte_list (f_rest f) -> io_vector f = Fault x -> negative_vector (f_rest f) /\ x = Assert.
Proof.
  intros By H. unfold io_vector in H. destruct (vec_read [] f) as [[[b v] f1]|y] eqn:E; cbn [bind] in H.
  - destruct b; discriminate.
  - injection H as <-. eapply vec_read_odd; eassumption.
Qed.

Lemma tr_vector : tracks odd io_vector.
Proof.
  intros f By. split.
  - intros x H. exists [], (f_rest f). split; [reflexivity|]. left. now apply io_vector_fault.
  - intros r f' H. unfold io_vector in H. destruct (vec_read [] f) as [[[b v] f1]|y] eqn:E; cbn [bind] in H; [|discriminate].
    injection H as _ <-. eapply vec_read_rest; eassumption.
Qed.

Lemma tr_rows : forall n cols old, tracks odd (mat_rows n cols old).
Proof.
  induction n as [|n IH]; intros cols old f By; cbn [mat_rows].
  - split; [discriminate|]. intros r f' H. injection H as _ <-. now exists [].
  - destruct (vec_read old f) as [[[b row] f1]|y] eqn:E; cbn [bind].
    + destruct (vec_read_rest _ _ _ _ _ By E) as (c & R). destruct (negb (lenZ row =? cols)).
      { split; [discriminate|]. intros r f' H. injection H as _ <-. now exists c. }
      pose proof By as By1. rewrite R in By1. apply bytes_rest in By1.
      destruct (IH cols row f1 By1) as (F & S). destruct (mat_rows n cols row f1) as [[m f2]|y] eqn:E2; cbn [bind].
      * split; [discriminate|]. intros r f' H. injection H as _ <-. destruct (S _ _ eq_refl) as (c2 & R2).
        exists (c ++ c2). rewrite R, R2, app_assoc. reflexivity.
      * split; [|discriminate]. intros x H. injection H as <-. destruct (F _ eq_refl) as (b2 & t & Q & W).
        exists (c ++ b2), t. rewrite R, Q, app_assoc. now split.
    + split; [|discriminate]. intros x H. injection H as <-. exists [], (f_rest f). split; [reflexivity|].
      left. eapply vec_read_odd; eassumption.
Qed.

Lemma mat_init_fault r c x : fits 4 r -> fits 4 c -> mat_init r c = Fault x ->
  (r < 0 \/ c < 0 \/ r = 0 /\ 0 < c \/ 0 < r /\ c = 0 \/ 2147483647 < r * c \/ 2147483644 < c) /\ (x = Assert \/ x = Undef).
Proof.
  intros Fr Fc H. apply fits_4 in Fr, Fc. unfold mat_init in H. unfold in_int32, int_min, int_max, mat_shape in H.
  assert (X : x = Assert \/ x = Undef).
  { destruct ((_ && _)%bool); cbn [check bind] in H; [|right; congruence].
    destruct (r * c =? 0).
    - destruct ((r =? 0) && (c =? 0))%bool; cbn [check bind] in H; [|left; congruence].
      destruct (_ && _)%bool; cbn [check] in H; [discriminate|right; congruence].
    - destruct ((0 <? r) && (0 <? c))%bool; cbn [check bind] in H; [|left; congruence].
      destruct (_ && _)%bool; cbn [check] in H; [discriminate|right; congruence]. }
  split; [|exact X]. clear X.
  destruct (Z.ltb_spec r 0) as [|Pr]; [now left|]. destruct (Z.ltb_spec c 0) as [|Pc]; [right; now left|].
  destruct (Z.ltb_spec 2147483644 c) as [|Lc]; [do 5 right; assumption|].
  destruct (Z.ltb_spec 2147483647 (r * c)) as [|Lp]; [do 4 right; left; assumption|].
  assert (0 <= r * c) by nia.
  destruct (Z.leb_spec (-2147483648) (r * c)); [|lia]. destruct (Z.leb_spec (r * c) 2147483647); [|lia]. cbn [andb check bind] in H.
  destruct (Z.eqb_spec r 0) as [->|Nr].
  - right. right. left. split; [reflexivity|]. destruct (Z.eqb_spec c 0) as [->|]; [|lia]. exfalso. vm_compute in H. discriminate.
  - destruct (Z.eqb_spec c 0) as [->|Nc]; [right; right; right; left; lia|]. exfalso.
    destruct (Z.eqb_spec (r * c) 0) as [X|_]; [apply Z.mul_eq_0 in X; lia|].
    destruct (Z.ltb_spec 0 r); [|lia]. destruct (Z.ltb_spec 0 c); [|lia]. cbn [andb check bind] in H.
    assert (B : c + (4 - c mod 4) mod 4 <= 2147483647 /\ 0 <= c + (4 - c mod 4) mod 4).
    { pose proof (Z.mod_pos_bound c 4 ltac:(lia)). pose proof (Z.mod_pos_bound (4 - c mod 4) 4 ltac:(lia)).
      pose proof (Z.div_mod c 4 ltac:(lia)). pose proof (Z.div_mod (4 - c mod 4) 4 ltac:(lia)). lia. }
    revert H B. generalize (c + (4 - c mod 4) mod 4). intros y H (B1 & B2).
    destruct (Z.leb_spec (-2147483648) y); [|lia]. destruct (Z.leb_spec y 2147483647); [|lia]. discriminate.
Qed.

Lemma io_bind_none A B (m : io A) (k : A -> io B) f f1 : m f = Ok (None, f1) -> io_bind m k f = Ok (None, f1).
Proof. intros E. unfold io_bind. rewrite E. reflexivity. Qed.
Lemma io_bind_some A B (m : io A) (k : A -> io B) f a f1 : m f = Ok (Some a, f1) -> io_bind m k f = k a f1.
Proof. intros E. unfold io_bind. rewrite E. reflexivity. Qed.

Lemma tr_matrix : tracks odd mat_read.
Proof.
  intros f By. split.
  - intros x H. unfold mat_read in H.
    apply io_bind_fault in H; [|apply safe_verify]. destruct H as (u & f1 & E1 & H).
    destruct (accepts_verify s_mat0 (no_zero s_mat0 eq_refl) f u f1 By E1) as (c1 & R1 & _ & ->).
    pose proof By as B1. rewrite R1 in B1. apply bytes_rest in B1.
    apply io_bind_fault in H; [|apply safe_int; lia]. destruct H as (size & f2 & E2 & H).
    destruct (accepts_int 4 ltac:(lia) f1 size f2 B1 E2) as (c2 & R2 & _ & -> & _).
    pose proof B1 as B2. rewrite R2 in B2. apply bytes_rest in B2.
    apply io_bind_fault in H; [|apply safe_int; lia]. destruct H as (r & f3 & E3 & H).
    destruct (accepts_int 4 ltac:(lia) f2 r f3 B2 E3) as (c3 & R3 & _ & -> & Fr).
    pose proof B2 as B3. rewrite R3 in B3. apply bytes_rest in B3.
    apply io_bind_fault in H; [|apply safe_int; lia]. destruct H as (c & f4 & E4 & H).
    destruct (accepts_int 4 ltac:(lia) f3 c f4 B3 E4) as (c4 & R4 & _ & -> & Fc).
    pose proof B3 as B4. rewrite R4 in B4. apply bytes_rest in B4.
    destruct (mat_init r c) as [[]|y] eqn:E; cbn [bind] in H.
    + destruct (tr_rows (Z.to_nat r) c [] f4 B4) as (F & _). destruct (F x H) as (b & t & Q & W).
      exists (s_mat0 ++ word size ++ word r ++ word c ++ b), t. split; [|exact W].
      rewrite R1, R2, R3, R4, Q. unfold word. rewrite <- !app_assoc. reflexivity.
    + injection H as <-. destruct (mat_init_fault _ _ _ Fr Fc E) as (D & X). exists [], (f_rest f). split; [reflexivity|].
      right. split; [|exact X]. exists size, r, c, (f_rest f4). split; [|now split].
      rewrite R1, R2, R3, R4. reflexivity.
  - (* every step leaves a rest *)
    revert f By. assert (T : tracks (fun _ _ => True) mat_read); [|intros f By; apply (T f By)].
    unfold mat_read. apply tr_bind; [apply tr_verify|]. intros _. apply tr_bind; [apply tr_int; lia|]. intros _.
    apply tr_bind; [apply tr_int; lia|]. intros r. apply tr_bind; [apply tr_int; lia|]. intros c f By.
    destruct (mat_init r c); cbn [bind].
    + destruct (tr_rows (Z.to_nat r) c [] f By) as (F & S). split; [|exact S]. intros x H. now exists [], (f_rest f).
    + split; [|discriminate]. intros x H. now exists [], (f_rest f).
Qed.

Lemma tr_indices bad : forall n, tracks bad (read_indices n).
Proof.
  induction n as [|n IH]; [apply tr_ret|]. cbn [read_indices]. apply tr_bind; [apply tr_int; lia|]. intros i.
  apply tr_bind; [exact IH|]. intros l. apply tr_ret.
Qed.

Lemma tr_layer : tracks odd read_layer.
Proof.
  unfold read_layer. apply tr_bind; [apply tr_verify|]. intros _. apply tr_bind; [apply tr_int; lia|]. intros t.
  destruct (t =? 0). { apply tr_bind; [apply tr_matrix|]. intros W. apply tr_bind; [apply tr_vector|]. intros b. apply tr_ret. }
  destruct (t =? 1); [apply tr_ret|]. destruct (t =? 2); [apply tr_ret|]. destruct (t =? 3); [apply tr_ret|].
  destruct (t =? 6).
  { apply tr_bind; [apply tr_int; lia|]. intros n. apply tr_bind; [apply tr_check|]. intros _.
    apply tr_bind; [apply tr_indices|]. intros i. apply tr_ret. }
  destruct (t =? 7). { apply tr_bind; [apply tr_vector|]. intros s. apply tr_bind; [apply tr_vector|]. intros o. apply tr_ret. }
  destruct (t =? 8); [apply tr_ret|].
  destruct (t =? 9). { apply tr_bind; [apply tr_int; lia|]. intros l. apply tr_bind; [apply tr_int; lia|]. intros r. apply tr_ret. }
  apply tr_fail.
Qed.

Lemma tr_network : tracks odd nnet_read.
Proof.
  unfold nnet_read. apply tr_bind; [apply tr_verify|]. intros _. apply tr_bind; [apply tr_int; lia|]. intros l.
  apply tr_bind; [apply tr_int; lia|]. intros r. apply tr_bind; [apply tr_int; lia|]. intros n.
  apply tr_bind; [|intros ls; apply tr_ret]. induction (Z.to_nat n) as [|k IH]; [apply tr_ret|]. cbn [read_layers].
  apply tr_bind; [apply tr_layer|]. intros y. apply tr_bind; [exact IH|]. intros ys. apply tr_ret.
Qed.

Lemma network_fault content x : byte_list content -> nnet_read (open content) = Fault x ->
  odd_section content /\ (x = Assert \/ x = Undef).
Proof.
  intros By H. destruct (tr_network (open content) By) as (F & _). destruct (F x H) as (b & t & Q & [(N & ->)|(N & X)]).
  - split; [|now left]. exists b, t. split; [exact Q|now left].
  - split; [|exact X]. exists b, t. split; [exact Q|now right].
Qed.

(** * Words *)

Lemma add_word_fault t w id x : add_word t w id = Fault x -> x = Throw \/ x = Undef.
Proof.
  unfold add_word. intros H. destruct (size_t id <? s_size t); cbn [bind] in H.
  { destruct (_ && _)%bool; [discriminate|right; congruence]. }
  destruct (id =? long_max); cbn [bind] in H; [right; congruence|].
  destruct (max_strings <? size_t (id + 1)); cbn [bind] in H; [left; congruence|].
  destruct (size_t (id + 1) <? s_size t); cbn [bind] in H; (destruct (_ && _)%bool; [discriminate|right; congruence]).
Qed.

Lemma fold_fault : forall rs b t done x, holds t done -> sym_fold t rs b = Fault x ->
  (exists l w id, In l rs /\ word_entry l w id /\ ~ 0 <= id < max_strings) /\ (x = Throw \/ x = Undef).
Proof.
  induction rs as [|l rs IH]; intros b t done x H E; cbn [sym_fold] in E; [discriminate|].
  pose proof (proj1 (sym_line_exact t l _) eq_refl) as [(w & id & W & Q)|(N & Q)]; rewrite Q in E; [|discriminate].
  destruct (add_word t w id) as [t2|y] eqn:A; cbn [bind] in E.
  - destruct (holds_add _ _ _ _ _ H (entry_range _ _ _ W) A) as (H' & _).
    destruct (IH b t2 _ x H' E) as ((l' & w' & id' & J & D) & X). split; [|exact X]. exists l', w', id'. split; [now right|exact D].
  - injection E as <-. split; [|eapply add_word_fault; exact A]. exists l, w, id. split; [now left|]. split; [exact W|].
    intros R. pose proof (proj2 (add_word_exact t w id _ (entry_range _ _ _ W) (h_range _ _ H)) (conj R eq_refl)). congruence.
Qed.

Lemma words_fault content x : sym_read symtab_init content = Fault x -> odd_id content /\ (x = Throw \/ x = Undef).
Proof.
  intros H. destruct (pieces_exist content) as (ps & e & P).
  assert (S : Forall2 shown ps (map show ps)) by (clear; induction ps; constructor; [apply show_shown|assumption]).
  unfold sym_read in H. rewrite (read_fold _ _ _ _ _ P S) in H.
  destruct (sym_fold symtab_init (map show ps) (negb e)) as [[t ok]|y] eqn:Q; cbn [bind] in H.
  - destruct ok; [|discriminate]. destruct (id_of SymbolTable.bos_symbol (s_ids t)); [|discriminate]. destruct (id_of SymbolTable.eos_symbol (s_ids t)); discriminate.
  - injection H as <-. destruct (fold_fault _ _ _ _ _ holds_init Q) as ((l & w & id & J & W & D) & X). split; [|exact X].
    exists ps, e, (map show ps), l, w, id. unfold max_strings in D. now split.
Qed.

(** * Language models *)

Lemma io_array_kind width n f x : 0 < width -> io_array width n f = Fault x -> x = Throw \/ x = Undef.
Proof.
  intros P H. unfold io_array in H. destruct (Z.ltb_spec n 0); [left; unfold io_fault in H; congruence|right].
  destruct (Z.eqb_spec (wrap32 (width * n)) (width * n)) as [E|E].
  - rewrite E in H. destruct (safe_read (width * n) ltac:(nia) f) as (r & Q). congruence.
  - destruct (_ && _)%bool; congruence.
Qed.

Lemma transducer_fault content x : byte_list content -> fst_read (open content) = Fault x ->
  odd_counts content /\ (x = Throw \/ x = Undef).
Proof.
  intros By H. destruct (fst_read_fault (open content) x By H) as (name & size & s & a & st & rest & R & D).
  split; [exists name, size, s, a, st, rest; now split|]. unfold fst_read in H.
  apply io_bind_fault in H; [|apply safe_read; lia]. destruct H as (? & ? & _ & H).
  apply io_bind_fault in H; [|apply safe_check]. destruct H as (? & ? & _ & H).
  do 4 (apply io_bind_fault in H; [|apply safe_int; lia]; destruct H as (? & ? & _ & H)).
  apply io_bind_fault in H; [|apply safe_check]. destruct H as (? & ? & _ & H).
  do 3 (apply bind_fault_either in H; destruct H as [H|(? & ? & _ & H)]; [apply io_array_kind in H; [exact H|lia]|]). discriminate.
Qed.
