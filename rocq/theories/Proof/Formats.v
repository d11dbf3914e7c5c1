(** Vector, matrix and network files. *)
From Coq Require Import ZArith List Bool Lia.
From Verif.Base Require Import Prelude Lemmas.
From Verif.Model Require Import Util File Binary Vector Nnet Formats.
From Verif.Spec Require Import AudioSpec AmSpec FormatSpec.
From Verif.Proof Require Import Loop Binary Am.
Import ListNotations.
Open Scope Z_scope.

Ltac Zify.zify_post_hook ::= Z.div_mod_to_equations.

Lemma fits_4 : forall z, fits 4 z <-> -2147483648 <= z <= 2147483647.
Proof.
  intros z. unfold fits. change (8 * Z.of_nat 4 - 1) with 31. change (2 ^ 31) with 2147483648. lia.
Qed.

Lemma word_length : forall z, length (word z) = 4%nat.
Proof. intros. apply encode_length. Qed.

Lemma words_length : forall v, length (flat_map word v) = (4 * length v)%nat.
Proof.
  induction v as [|z v IH]; [reflexivity|]. cbn [flat_map]. rewrite app_length, word_length, IH. cbn [length]. lia.
Qed.

Lemma reads_word : forall z, fits 4 z -> reads (io_int 4) (word z) z.
Proof. intros z H. apply (reads_int 4 z); [lia|assumption]. Qed.

Lemma words_word : forall v, Forall (fits 4) v -> words (length v) (flat_map word v) = v.
Proof.
  induction v as [|z v IH]; intros H; [reflexivity|]. inversion H as [|? ? Hz Hv]; subst.
  assert (L : length (word z) = 4%nat) by apply word_length. unfold word in *.
  cbn [length words flat_map]. rewrite firstn_app, skipn_app. rewrite L, Nat.sub_diag.
  rewrite firstn_all2 by lia. rewrite skipn_all2 by lia. cbn [firstn skipn app]. rewrite app_nil_r.
  rewrite le_signed_encode by (auto; lia). f_equal. exact (IH Hv).
Qed.

Lemma word_words : forall n b, byte_list b -> length b = (4 * n)%nat ->
  flat_map word (words n b) = b /\ Forall (fits 4) (words n b) /\ length (words n b) = n.
Proof.
  induction n as [|n IH]; intros b By L.
  - destruct b; [|cbn in L; lia]. cbn. split; [reflexivity|]. split; [constructor|reflexivity].
  - assert (L4 : length (firstn 4 b) = 4%nat) by (rewrite firstn_length; lia).
    assert (B4 : byte_list (firstn 4 b) /\ byte_list (skipn 4 b)).
    { unfold byte_list in *. rewrite <- (firstn_skipn 4 b) in By. apply Forall_app in By. exact By. }
    destruct B4 as [B4 B5]. destruct (IH (skipn 4 b) B5) as [E [Fi Le]]; [rewrite skipn_length; lia|].
    cbn [words flat_map length]. rewrite E, Le. split; [|split; [|reflexivity]].
    + unfold word. rewrite <- L4 at 1. rewrite encode_le_signed by assumption. apply firstn_skipn.
    + constructor; [|assumption]. rewrite <- L4 at 1. apply le_signed_fits; [assumption|].
      intros X. rewrite X in L4. discriminate.
Qed.

(** * Reading past the end *)
Definition cut {A} (m : io A) (c : bytes) : Prop :=
  forall k e, (k < length c)%nat -> m (mk_file (firstn k c) e) = Ok (None, mk_file [] true).

Lemma cut_nil : forall A (m : io A), cut m [].
Proof. intros A m k e H. cbn in H. lia. Qed.

Lemma cut_bind : forall A B (m : io A) (k : A -> io B) c1 c2 a,
  reads m c1 a -> cut m c1 -> cut (k a) c2 -> cut (io_bind m k) (c1 ++ c2).
Proof.
  intros A B m k c1 c2 a R C1 C2 n e H. unfold io_bind. rewrite app_length in H.
  destruct (Nat.lt_ge_cases n (length c1)) as [L|L].
  - rewrite firstn_app. replace (n - length c1)%nat with 0%nat by lia. cbn [firstn]. rewrite app_nil_r.
    rewrite C1 by assumption. reflexivity.
  - rewrite firstn_app. rewrite (firstn_all2 c1) by assumption. rewrite R. cbn [bind]. apply C2. lia.
Qed.

Lemma cut_read : forall n c, lenZ c = n -> cut (io_read n) c.
Proof.
  intros n c L k e H. unfold io_read, read. cbn [f_rest]. subst n. unfold lenZ.
  destruct (Z.ltb_spec (Z.of_nat (length c)) 0); [lia|].
  destruct (Z.eqb_spec (Z.of_nat (length c)) 0); [lia|].
  rewrite firstn_length. destruct (Z.leb_spec (Z.of_nat (length c)) (Z.of_nat (Nat.min k (length c)))); [lia|].
  reflexivity.
Qed.

Lemma cut_int : forall z, cut (io_int 4) (word z).
Proof.
  intros z k e H. unfold io_int, io_bind. rewrite (cut_read 4 (word z)); [reflexivity| |assumption].
  unfold lenZ. rewrite word_length. reflexivity.
Qed.

Lemma cut_verify : forall s, cut (io_verify s) s.
Proof.
  intros s k e H. unfold io_verify, read_and_verify.
  pose proof (cut_read (lenZ s) s eq_refl k e H) as E. unfold io_read in E. rewrite E. reflexivity.
Qed.

(** * Vectors *)
Definition vec_head (n : nat) : bytes := s_vec0 ++ word (Z.of_nat n * 4 + 4) ++ word (Z.of_nat n).

Lemma vec_head_length : forall n, length (vec_head n) = 12%nat.
Proof. intros. unfold vec_head. rewrite !app_length, !word_length. reflexivity. Qed.

Lemma vector_file_head : forall v, vector_file v = vec_head (length v) ++ flat_map word v.
Proof. intros v. unfold vector_file, vec_head. rewrite <- !app_assoc. reflexivity. Qed.

Lemma no_zero : forall s, forallb (fun c => negb (c =? 0)) s = true -> ~ In 0 s.
Proof. intros s H I. rewrite forallb_forall in H. specialize (H 0 I). discriminate. Qed.

Lemma reads_vec_header : forall n, Z.of_nat n * 4 + 4 <= 2147483647 ->
  reads vec_header (vec_head n) (Z.of_nat n).
Proof.
  intros n H. unfold vec_header, vec_head.
  apply (reads_bind _ _ _ _ _ _ tt); [apply reads_verify; [discriminate|apply no_zero; reflexivity]|].
  apply (reads_bind _ _ _ _ _ _ (Z.of_nat n * 4 + 4)); [apply reads_word, fits_4; lia|].
  rewrite <- (app_nil_r (word (Z.of_nat n))).
  apply (reads_bind _ _ _ _ _ _ (Z.of_nat n)); [apply reads_word, fits_4; lia|].
  change (@nil Z) with (@nil Z ++ []).
  apply (reads_bind _ _ _ _ _ _ tt); [apply reads_check; apply Z.eqb_refl|apply reads_ret].
Qed.

Lemma cut_vec_header : forall n, Z.of_nat n * 4 + 4 <= 2147483647 -> cut vec_header (vec_head n).
Proof.
  intros n H. unfold vec_header, vec_head.
  apply (cut_bind _ _ _ _ _ _ tt); [apply reads_verify; [discriminate|apply no_zero; reflexivity]|apply cut_verify|].
  apply (cut_bind _ _ _ _ _ _ (Z.of_nat n * 4 + 4)); [apply reads_word, fits_4; lia|apply cut_int|].
  rewrite <- (app_nil_r (word (Z.of_nat n))).
  apply (cut_bind _ _ _ _ _ _ (Z.of_nat n)); [apply reads_word, fits_4; lia|apply cut_int|]. apply cut_nil.
Qed.

Lemma vec_init_ok : forall n, 0 <= n -> n * 4 + 4 <= 2147483647 -> vec_init 4 n = Ok tt.
Proof.
  intros n P H. unfold vec_init. destruct (Z.leb_spec 0 n); [|lia]. cbn [check bind].
  rewrite wrap32_id by lia. destruct (Z.ltb_spec (n * 4) 0); [lia|].
  destruct (Z.leb_spec (n * 4) (n * 4)); [reflexivity|lia].
Qed.

Lemma vec_read_file : forall v old rest e, storable v ->
  vec_read old (mk_file (vector_file v ++ rest) e) = Ok (true, map Some v, mk_file rest e).
Proof.
  intros v old rest e [N [Fi L]]. rewrite vector_file_head, <- app_assoc. unfold vec_read.
  rewrite (reads_vec_header (length v) L). cbn [bind]. rewrite vec_init_ok by lia. cbn [bind].
  replace (Z.of_nat (length v) * 4) with (lenZ (flat_map word v)) by (unfold lenZ; rewrite words_length; lia).
  rewrite read_app.
  - cbn [bind]. rewrite Nat2Z.id, words_word by assumption. reflexivity.
  - intros X. apply (f_equal (@length Z)) in X. rewrite words_length in X. destruct v; [congruence|]. cbn in X. lia.
Qed.

Lemma reads_vector : forall v, storable v -> reads io_vector (vector_file v) (map Some v).
Proof. intros v S rest e. unfold io_vector. rewrite vec_read_file by assumption. reflexivity. Qed.

Lemma size_t_inj : forall a b, -9000000000 <= a <= 9000000000 -> -9000000000 <= b <= 9000000000 ->
  size_t a = size_t b -> a = b.
Proof. intros a b A B H. unfold size_t in H. lia. Qed.

Lemma accepts_vec_header : accepts vec_header (fun c dim => c = s_vec0 ++ word (dim * 4 + 4) ++ word dim /\
  -2147483648 <= dim * 4 + 4 <= 2147483647 /\ fits 4 dim).
Proof.
  intros f a f' By H. unfold vec_header in H.
  pose proof (accepts_bind _ _ _ _ _ _ (accepts_verify s_vec0 (no_zero s_vec0 eq_refl)) (fun _ =>
    accepts_bind _ _ _ _ _ _ (accepts_int 4 ltac:(lia)) (fun size =>
    accepts_bind _ _ _ _ _ _ (accepts_int 4 ltac:(lia)) (fun dim =>
    accepts_bind _ _ _ _ _ _ (accepts_check (size_t (dim * 4 + 4) =? size_t size)) (fun _ =>
    accepts_ret _ dim))))) as A.
  destruct (A f a f' By H) as [c [R [E Q]]].
  destruct Q as (c1 & c2 & u & -> & -> & Q). destruct Q as (c3 & c4 & size & -> & [-> FS] & Q).
  destruct Q as (c5 & c6 & dim & -> & [-> FD] & Q). destruct Q as (c7 & c8 & u2 & -> & [-> C] & [-> ->]).
  apply Z.eqb_eq in C. apply fits_4 in FS. pose proof FD as FD'. apply fits_4 in FD'.
  apply size_t_inj in C; [|lia|lia].
  exists (s_vec0 ++ word (dim * 4 + 4) ++ word dim). split; [|split; [assumption|]].
  - rewrite R, C. unfold word. rewrite <- !app_assoc. reflexivity.
  - split; [reflexivity|]. split; [lia|assumption].
Qed.

(** Exactly the files of vectors are accepted. *)
Lemma vec_read_only : forall old f v' f', byte_list (f_rest f) -> vec_read old f = Ok (true, v', f') ->
  exists v, storable v /\ v' = map Some v /\ f_rest f = vector_file v ++ f_rest f' /\ f_eof f' = f_eof f.
Proof.
  intros old f v' f' By H. unfold vec_read in H.
  destruct (vec_header f) as [[[dim|] f1]|] eqn:E; cbn [bind] in H; try discriminate.
  destruct (accepts_vec_header f dim f1 By E) as [c [R [E1 [-> [B FD]]]]].
  unfold vec_init in H. destruct (Z.leb_spec 0 dim) as [P|]; [|discriminate]. cbn [check bind] in H.
  rewrite wrap32_id in H by lia. destruct (Z.ltb_spec (dim * 4) 0); [lia|].
  destruct (Z.leb_spec (dim * 4) (dim * 4)); [|lia]. cbn [check bind] in H.
  destruct (read f1 (dim * 4)) as [[[b|] f2]|] eqn:Q; cbn [bind] in H; try discriminate.
  injection H as <- <-. apply read_some in Q. destruct Q as [Q1 [Q2 [Q3 Q4]]].
  assert (Bb : byte_list b).
  { unfold byte_list in *. rewrite R, Q2 in By. apply Forall_app in By. destruct By as [_ By]. apply Forall_app in By. tauto. }
  destruct (word_words (Z.to_nat dim) b Bb) as [W1 [W2 W3]]; [unfold lenZ in Q4; lia|].
  exists (words (Z.to_nat dim) b). split; [|split; [reflexivity|split; [|congruence]]].
  - unfold storable. rewrite W3. split; [|split; [assumption|lia]].
    intros X. rewrite X in W3. cbn in W3. lia.
  - rewrite R, Q2. unfold vector_file. rewrite W1, W3, Z2Nat.id by assumption. rewrite <- !app_assoc. reflexivity.
Qed.

(** * Matrices *)
Lemma mat_rows_file : forall m cols old rest e, Forall storable m -> uniform cols m ->
  mat_rows (length m) cols old (mk_file (flat_map vector_file m ++ rest) e) = Ok (Some (map (map Some) m), mk_file rest e).
Proof.
  induction m as [|v m IH]; intros cols old rest e S U; [reflexivity|].
  inversion S; subst. inversion U; subst. cbn [length mat_rows flat_map]. rewrite <- app_assoc.
  rewrite vec_read_file by assumption. cbn [bind]. unfold lenZ. rewrite map_length, Z.eqb_refl. cbn [negb].
  rewrite IH by assumption. reflexivity.
Qed.

Lemma storable_shape : forall m, storable_matrix m -> uniform (lenZ (hd [] m)) m /\
  0 < lenZ m <= 2147483647 /\ 0 < lenZ (hd [] m) < 536870912 /\ lenZ m * lenZ (hd [] m) <= 2147483647.
Proof.
  intros m [N [S [[c U] L]]]. destruct m as [|v m]; [congruence|]. cbn [hd] in *.
  inversion U; subst. inversion S as [|? ? SV _]; subst. destruct SV as [NV [_ LV]].
  split; [assumption|]. unfold lenZ in *.
  assert (0 < Z.of_nat (length v)) by (destruct v; [congruence|cbn [length]; lia]).
  assert (0 < Z.of_nat (length (v :: m))) by (cbn [length]; lia). nia.
Qed.

Lemma mat_init_ok : forall r c, 0 < r -> 0 < c < 536870912 -> r * c <= 2147483647 -> mat_init r c = Ok tt.
Proof.
  intros r c R C P. unfold mat_init.
  replace (in_int32 (r * c)) with true by (symmetry; apply in_int32_iff; nia). cbn [check bind].
  unfold mat_shape. destruct (Z.eqb_spec (r * c) 0); [nia|].
  destruct (Z.ltb_spec 0 r); [|lia]. destruct (Z.ltb_spec 0 c); [|lia]. cbn [andb check bind].
  replace (in_int32 (c + (4 - c mod 4) mod 4)) with true; [reflexivity|]. symmetry. apply in_int32_iff. lia.
Qed.

Definition mat_head (m : list (list Z)) : bytes :=
  s_mat0 ++ word 8 ++ word (lenZ m) ++ word (lenZ (hd [] m)).

Lemma matrix_file_head : forall m, matrix_file m = mat_head m ++ flat_map vector_file m.
Proof. intros m. unfold matrix_file, mat_head. rewrite <- !app_assoc. reflexivity. Qed.

Lemma mat_head_length : forall m, length (mat_head m) = 16%nat.
Proof. intros. unfold mat_head. rewrite !app_length, !word_length. reflexivity. Qed.

(** After the header, the rows are read. *)
Lemma mat_read_head : forall m rest e, storable_matrix m ->
  mat_read (mk_file (mat_head m ++ rest) e) =
  mat_rows (length m) (lenZ (hd [] m)) [] (mk_file rest e).
Proof.
  intros m rest e S. destruct (storable_shape m S) as [U [P1 [P2 P3]]].
  unfold mat_read, mat_head, io_bind. rewrite <- !app_assoc.
  rewrite (reads_verify s_mat0); [|discriminate|apply no_zero; reflexivity]. cbn [bind].
  rewrite (reads_word 8) by (apply fits_4; lia). cbn [bind].
  rewrite (reads_word (lenZ m)) by (apply fits_4; lia). cbn [bind].
  rewrite (reads_word (lenZ (hd [] m))) by (apply fits_4; lia). cbn [bind].
  rewrite mat_init_ok by lia. cbn [bind]. unfold lenZ at 1. rewrite Nat2Z.id. reflexivity.
Qed.

Lemma reads_matrix : forall m, storable_matrix m -> reads mat_read (matrix_file m) (map (map Some) m).
Proof.
  intros m S rest e. rewrite matrix_file_head, <- app_assoc, mat_read_head by assumption.
  destruct (storable_shape m S) as [U _]. destruct S as [_ [S _]]. apply mat_rows_file; assumption.
Qed.

Lemma mat_head_cut : forall m k e, storable_matrix m -> (k < 16)%nat ->
  mat_read (mk_file (firstn k (mat_head m)) e) = Ok (None, mk_file [] true).
Proof.
  intros m k e S K. destruct (storable_shape m S) as [U [P1 [P2 P3]]].
  rewrite <- (mat_head_length m) in K. revert k e K. change (cut mat_read (mat_head m)). unfold mat_read, mat_head.
  apply (cut_bind _ _ _ _ _ _ tt); [apply reads_verify; [discriminate|apply no_zero; reflexivity]|apply cut_verify|].
  apply (cut_bind _ _ _ _ _ _ 8); [apply reads_word, fits_4; lia|apply cut_int|].
  apply (cut_bind _ _ _ _ _ _ (lenZ m)); [apply reads_word, fits_4; lia|apply cut_int|].
  rewrite <- (app_nil_r (word (lenZ (hd [] m)))).
  apply (cut_bind _ _ _ _ _ _ (lenZ (hd [] m))); [apply reads_word, fits_4; lia|apply cut_int|]. apply cut_nil.
Qed.

(** A cut vector: the header is missing, or some of the data. *)
Lemma vec_read_cut : forall v old k e, storable v -> (k < length (vector_file v))%nat ->
  vec_read old (mk_file (firstn k (vector_file v)) e) =
  Ok (false, if (k <? 12)%nat then old else repeat None (length v), mk_file [] true).
Proof.
  intros v old k e [N [Fi L]] K. rewrite vector_file_head in *. unfold vec_read. rewrite app_length, vec_head_length in K.
  rewrite firstn_app, vec_head_length.
  destruct (Nat.ltb_spec k 12).
  - replace (k - 12)%nat with 0%nat by lia. cbn [firstn]. rewrite app_nil_r.
    rewrite (cut_vec_header (length v) L) by (rewrite vec_head_length; assumption). reflexivity.
  - rewrite firstn_all2 by (rewrite vec_head_length; assumption).
    rewrite (reads_vec_header (length v) L). cbn [bind]. rewrite vec_init_ok by lia. cbn [bind].
    pose proof (cut_read (Z.of_nat (length v) * 4) (flat_map word v)) as C. unfold io_read, cut in C.
    rewrite C; [|unfold lenZ; rewrite words_length; lia|lia]. cbn [bind]. rewrite Nat2Z.id. reflexivity.
Qed.

Lemma vec_read_empty : forall old e, vec_read old (mk_file [] e) = Ok (false, old, mk_file [] true).
Proof. reflexivity. Qed.

Lemma mat_rows_empty : forall n cols old e, lenZ old = cols ->
  exists f, mat_rows n cols old (mk_file [] e) = Ok (Some (repeat old n), f).
Proof.
  induction n as [|n IH]; intros cols old e L; [eexists; reflexivity|].
  cbn [mat_rows]. rewrite vec_read_empty. cbn [bind]. rewrite L, Z.eqb_refl. cbn [negb].
  destruct (IH cols old true L) as [f ->]. eexists; reflexivity.
Qed.

Lemma mat_rows_cut : forall m cols old k e, Forall storable m -> uniform cols m ->
  (k < length (flat_map vector_file m))%nat -> lenZ old = cols \/ (12 <= k)%nat ->
  exists m' f, mat_rows (length m) cols old (mk_file (firstn k (flat_map vector_file m)) e) = Ok (Some m', f).
Proof.
  induction m as [|v m IH]; intros cols old k e S U K C; [cbn in K; lia|].
  inversion S as [|? ? SV SM]; subst. inversion U as [|? ? UV UM]; subst.
  cbn [length mat_rows flat_map]. cbn [flat_map] in K. rewrite app_length in K.
  destruct (Nat.lt_ge_cases k (length (vector_file v))) as [L|L].
  - rewrite firstn_app. replace (k - length (vector_file v))%nat with 0%nat by lia. cbn [firstn]. rewrite app_nil_r.
    rewrite vec_read_cut by assumption. cbn [bind].
    set (row := if (k <? 12)%nat then old else repeat None (length v)).
    assert (R : lenZ row = lenZ v).
    { unfold row. destruct (Nat.ltb_spec k 12); [destruct C; [assumption|lia]|].
      unfold lenZ. rewrite repeat_length. reflexivity. }
    rewrite R, Z.eqb_refl. cbn [negb].
    destruct (mat_rows_empty (length m) (lenZ v) row true R) as [f E]. rewrite E. cbn [bind]. do 2 eexists; reflexivity.
  - rewrite firstn_app, (firstn_all2 (vector_file v)) by assumption.
    rewrite vec_read_file by assumption. cbn [bind].
    assert (R : lenZ (map (@Some Z) v) = lenZ v) by (unfold lenZ; rewrite map_length; reflexivity).
    rewrite R, Z.eqb_refl. cbn [negb].
    destruct (IH (lenZ v) (map Some v) (k - length (vector_file v))%nat e SM UM) as [m' [f E]]; [lia|left; assumption|].
    rewrite E. cbn [bind]. do 2 eexists; reflexivity.
Qed.

Lemma firstn_app_ge : forall A n (a b : list A), (length a <= n)%nat -> firstn n (a ++ b) = a ++ firstn (n - length a) b.
Proof. intros. rewrite firstn_app, firstn_all2 by assumption. reflexivity. Qed.

(** Every cut behind the header of the first row is accepted. *)
Lemma matrix_cut_accepted : forall m k, storable_matrix m -> (28 <= k < length (matrix_file m))%nat ->
  exists m' f, mat_read (open (firstn k (matrix_file m))) = Ok (Some m', f).
Proof.
  intros m k S K. unfold open. rewrite matrix_file_head in *. rewrite app_length, mat_head_length in K.
  rewrite firstn_app_ge by (rewrite mat_head_length; lia). rewrite mat_head_length.
  rewrite mat_read_head by assumption. destruct (storable_shape m S) as [U _]. destruct S as [_ [S _]].
  apply mat_rows_cut; auto; lia.
Qed.

(** Every earlier cut is rejected. *)
Lemma matrix_cut_rejected : forall m k, storable_matrix m -> (k < 28)%nat -> 
  exists f, mat_read (open (firstn k (matrix_file m))) = Ok (None, f).
Proof.
  intros m k S K. unfold open. rewrite matrix_file_head.
  destruct (Nat.lt_ge_cases k 16) as [L|L].
  - rewrite firstn_app, mat_head_length. replace (k - 16)%nat with 0%nat by lia. cbn [firstn]. rewrite app_nil_r.
    rewrite mat_head_cut by assumption. eexists; reflexivity.
  - rewrite firstn_app_ge by (rewrite mat_head_length; lia). rewrite mat_head_length, mat_read_head by assumption.
    destruct (storable_shape m S) as [U [P1 [P2 P3]]]. destruct S as [N [S _]].
    destruct m as [|v m]; [congruence|]. cbn [flat_map length mat_rows hd] in *.
    inversion S as [|? ? SV SM]; subst.
    assert (LV : (12 < length (vector_file v))%nat).
    { rewrite vector_file_head, app_length, vec_head_length, words_length. unfold lenZ in *. lia. }
    rewrite firstn_app. replace (k - 16 - length (vector_file v))%nat with 0%nat by lia. cbn [firstn]. rewrite app_nil_r.
    rewrite vec_read_cut by (auto; lia). cbn [bind].
    destruct (Nat.ltb_spec (k - 16) 12); [|lia].
    destruct (Z.eqb_spec (lenZ (@nil cell)) (lenZ v)) as [E|]; [unfold lenZ in *; cbn [length] in *; lia|].
    cbn [negb]. eexists; reflexivity.
Qed.

(** * Networks *)
Lemma reads_indices : forall idx, Forall (fits 4) idx ->
  reads (read_indices (length idx)) (flat_map word idx) idx.
Proof.
  induction idx as [|i idx IH]; intros H; [apply reads_ret|]. inversion H; subst.
  cbn [length read_indices flat_map].
  apply (reads_bind _ _ _ _ _ _ i); [apply reads_word; assumption|].
  rewrite <- (app_nil_r (flat_map word idx)).
  apply (reads_bind _ _ _ _ _ _ idx); [apply IH; assumption|apply reads_ret].
Qed.

Lemma reads_last : forall A B (m : io A) c a (g : A -> B), reads m c a ->
  reads (x <-- m ;; io_ret (g x)) c (g a).
Proof.
  intros A B m c a g R. rewrite <- (app_nil_r c). apply (reads_bind _ _ _ _ _ _ a); [assumption|apply reads_ret].
Qed.

Lemma reads_layer : forall l, storable_layer l -> reads read_layer (layer_file l) (known_layer l).
Proof.
  intros l S. unfold read_layer, layer_file.
  apply (reads_bind _ _ _ _ _ _ tt); [apply reads_verify; [discriminate|apply no_zero; reflexivity]|].
  assert (K : forall z c (k : Z -> io (layer cell)) r, fits 4 z -> reads (k z) c r -> reads (io_bind (io_int 4) k) (word z ++ c) r).
  { intros z c k r Fz R. apply (reads_bind _ _ _ _ _ _ z); [apply reads_word; assumption|assumption]. }
  assert (K0 : forall z (k : Z -> io (layer cell)) r, fits 4 z -> reads (k z) [] r -> reads (io_bind (io_int 4) k) (word z) r).
  { intros z k r Fz R. rewrite <- (app_nil_r (word z)). apply K; assumption. }
  destruct l as [W b| | | |idx|s o| |x y]; cbn [storable_layer known_layer] in *.
  - apply K; [apply fits_4; lia|]. cbn [Z.eqb]. destruct S as [SW Sb].
    apply (reads_bind _ _ _ _ _ _ (map (map Some) W)); [apply reads_matrix; assumption|].
    apply (reads_last _ _ io_vector); apply reads_vector; assumption.
  - apply K0; [apply fits_4; lia|]. apply reads_ret.
  - apply K0; [apply fits_4; lia|]. apply reads_ret.
  - apply K0; [apply fits_4; lia|]. apply reads_ret.
  - destruct S as [Fi L]. apply K; [apply fits_4; lia|]. cbn [Z.eqb Pos.eqb].
    apply (reads_bind _ _ _ _ _ _ (Z.of_nat (length idx))); [apply reads_word, fits_4; lia|].
    rewrite <- (app_nil_l (flat_map word idx)).
    apply (reads_bind _ _ _ _ _ _ tt).
    + apply reads_check. destruct (Z.ltb_spec (Z.of_nat (length idx)) 0); [lia|reflexivity].
    + rewrite Nat2Z.id. apply (reads_last _ _ (read_indices (length idx)) _ idx). apply reads_indices. assumption.
  - destruct S as [Ss So]. apply K; [apply fits_4; lia|]. cbn [Z.eqb Pos.eqb].
    apply (reads_bind _ _ _ _ _ _ (map Some s)); [apply reads_vector; assumption|].
    apply (reads_last _ _ io_vector); apply reads_vector; assumption.
  - apply K0; [apply fits_4; lia|]. apply reads_ret.
  - destruct S as [Sx Sy]. apply K; [apply fits_4; lia|]. cbn [Z.eqb Pos.eqb].
    apply (reads_bind _ _ _ _ _ _ x); [apply reads_word; assumption|].
    apply (reads_last _ _ (io_int 4) _ y). apply reads_word. assumption.
Qed.

Lemma reads_layers : forall ls, Forall storable_layer ls ->
  reads (read_layers (length ls)) (flat_map layer_file ls) (map known_layer ls).
Proof.
  induction ls as [|l ls IH]; intros S; [apply reads_ret|]. inversion S; subst.
  cbn [length read_layers flat_map map].
  apply (reads_bind _ _ _ _ _ _ (known_layer l)); [apply reads_layer; assumption|].
  apply (reads_last _ _ (read_layers (length ls)) _ (map known_layer ls)). apply IH. assumption.
Qed.

Lemma nnet_read_file : forall l r ls rest e, fits 4 l -> fits 4 r -> Forall storable_layer ls ->
  Z.of_nat (length ls) <= 2147483647 ->
  nnet_read (mk_file (network_file l r ls ++ rest) e) = Ok (Some (l, r, map known_layer ls), mk_file rest e).
Proof.
  intros l r ls rest e Fl Fr S L. revert rest e.
  change (reads nnet_read (network_file l r ls) (l, r, map known_layer ls)). unfold nnet_read, network_file.
  apply (reads_bind _ _ _ _ _ _ tt); [apply reads_verify; [discriminate|apply no_zero; reflexivity]|].
  apply (reads_bind _ _ _ _ _ _ l); [apply reads_word; assumption|].
  apply (reads_bind _ _ _ _ _ _ r); [apply reads_word; assumption|].
  apply (reads_bind _ _ _ _ _ _ (Z.of_nat (length ls))); [apply reads_word, fits_4; lia|].
  rewrite Nat2Z.id. apply (reads_last _ _ (read_layers (length ls)) _ (map known_layer ls)).
  apply reads_layers. assumption.
Qed.

(** * Faults *)
Lemma vec_read_fault : forall old f x, byte_list (f_rest f) -> vec_read old f = Fault x ->
  x = Assert /\ exists size dim rest, f_rest f = s_vec0 ++ word size ++ word dim ++ rest /\ fits 4 dim /\ dim < 0.
Proof.
  intros old f x By H. unfold vec_read in H.
  assert (SH : safe vec_header).
  { unfold vec_header. apply safe_bind; [apply safe_verify|]. intros _. apply safe_bind; [apply safe_int; lia|].
    intros s. apply safe_bind; [apply safe_int; lia|]. intros d. apply safe_bind; [apply safe_check|]. intros _. apply safe_ret. }
  destruct (SH f) as [[h f1] E]. rewrite E in H. cbn [bind] in H.
  destruct h as [dim|]; [|discriminate].
  destruct (accepts_vec_header f dim f1 By E) as [c [R [E1 [-> [B FD]]]]].
  unfold vec_init in H. destruct (Z.leb_spec 0 dim) as [P|P]; cbn [check bind] in H.
  - exfalso. rewrite wrap32_id in H by lia. destruct (Z.ltb_spec (dim * 4) 0); [lia|].
    destruct (Z.leb_spec (dim * 4) (dim * 4)); [|lia]. cbn [check bind] in H.
    destruct (safe_read (dim * 4) ltac:(lia) f1) as [[[b|] f2] Q]; unfold io_read in Q; rewrite Q in H; discriminate.
  - injection H as <-. split; [reflexivity|]. exists (dim * 4 + 4), dim, (f_rest f1).
    rewrite R, <- !app_assoc. auto.
Qed.

Lemma vec_read_crash : vec_read [] (open (s_vec0 ++ word 0 ++ word (-1))) = Fault Assert.
Proof. reflexivity. Qed.

Lemma mat_read_crash : mat_read (open (s_mat0 ++ word 8 ++ word 1 ++ word 0)) = Fault Assert.
Proof. reflexivity. Qed.

(** A file of two rows that ends within the second. *)
Definition two_rows : list (list Z) := [[1; 2]; [3; 4]].

Lemma two_rows_storable : storable_matrix two_rows.
Proof.
  split; [discriminate|]. split.
  - repeat constructor; try discriminate; cbn; try (apply fits_4; lia); lia.
  - split; [exists 2; repeat constructor|cbn; lia].
Qed.

Lemma two_rows_cut : exists f, mat_read (open (firstn 40 (matrix_file two_rows))) = Ok (Some [[Some 1; Some 2]; [Some 1; Some 2]], f).
Proof. eexists. reflexivity. Qed.
