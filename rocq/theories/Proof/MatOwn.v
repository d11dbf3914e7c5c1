(** Matrices own their memory. *)
From Coq Require Import ZArith List Bool Lia Arith.
From Verif.Base Require Import Prelude Lemmas.
From Verif.Proof Require Import Loop Own Matrix MatrixResize.
From Verif.Model Require Import Vector Matrix MatOwn.
From Verif.Model Require Own.
From Verif.Spec Require OwnSpec.
From Verif.Spec Require Import MatrixSpec MatOwnSpec.
Import ListNotations.
Open Scope Z_scope.

Lemma seqZ_at : forall n a k, (k < n)%nat -> nth_error (seqZ a n) k = Some (a + Z.of_nat k).
Proof.
  induction n as [|n IH]; intros a k H; [lia|]. destruct k as [|k]; cbn [seqZ nth_error].
  - f_equal. lia.
  - rewrite IH by lia. f_equal. lia.
Qed.
Lemma seqZ_len : forall n a, length (seqZ a n) = n.
Proof. induction n as [|n IH]; intros a; cbn [seqZ length]; [reflexivity|]. now rewrite IH. Qed.
Lemma nth_error_map_some A B (f : A -> B) l k x : nth_error l k = Some x -> nth_error (map f l) k = Some (f x).
Proof. intros E. rewrite nth_error_map, E. reflexivity. Qed.
Lemma in_at A (l : list A) x : In x l -> exists k, nth_error l k = Some x.
Proof. apply In_nth_error. Qed.
Lemma list_ext A : forall (a b : list A), length a = length b ->
  (forall k, (k < length a)%nat -> nth_error a k = nth_error b k) -> a = b.
Proof.
  induction a as [|x a IH]; intros [|y b] L E; cbn in L; try lia; [reflexivity|].
  assert (x = y) as -> by (specialize (E 0%nat ltac:(cbn; lia)); cbn in E; congruence). f_equal. apply IH; [lia|].
  intros k K. apply (E (S k)). cbn. lia.
Qed.

Section MatOwn.
Context {F : Type}.
Variable zero : F.
Variable width : Z.
Variable junk : nat -> F.
Variable room : Own.heap F -> Z -> bool.
Hypothesis width_ok : element_size width.
Notation heap := (Own.heap F).
Notation rows_ := (list (list F)).

Definition table (v : view) (b : list F) : rows_ :=
  map (fun r => map (fun c => nth (Z.to_nat (cell v r c)) b zero) (seqZ 0 (Z.to_nat (v_cols v)))) (seqZ 0 (Z.to_nat (v_rows v))).

Lemma sized_table v b n : inside v n -> sized (table v b) (v_rows v) (v_cols v).
Proof.
  intros (_ & R & C & _). unfold sized, table. split; [unfold lenZ; rewrite map_length, seqZ_len; lia|]. split; [|lia].
  intros row I. apply in_map_iff in I. destruct I as (r & <- & _). unfold lenZ. rewrite map_length, seqZ_len. lia.
Qed.

Lemma entry_table v b r c : index v r c -> entry (table v b) r c = Some (nth (Z.to_nat (cell v r c)) b zero).
Proof.
  intros (R & C). unfold entry, table.
  rewrite (nth_error_map_some _ _ _ _ _ r) by (rewrite seqZ_at by lia; f_equal; lia).
  rewrite (nth_error_map_some _ _ _ _ _ c) by (rewrite seqZ_at by lia; f_equal; lia). reflexivity.
Qed.

Lemma entry_of v b r c x : inside v (lenZ b) -> index v r c -> mget b v r c = Ok x -> entry (table v b) r c = Some x.
Proof.
  intros H I E. rewrite entry_table by exact I. rewrite (mget_cell v b r c H I), (elements v b zero H r c I) in E. congruence.
Qed.
Lemma of_entry v b r c : inside v (lenZ b) -> index v r c -> exists x, mget b v r c = Ok x /\ entry (table v b) r c = Some x.
Proof.
  intros H I. destruct (mget_total v b r c H I) as (x & E). exists x. split; [exact E|]. now apply entry_of.
Qed.

Lemma sized_unique (m : rows_) r c r' c' : sized m r c -> sized m r' c' -> r = r' /\ c = c'.
Proof.
  intros (L & R & Z0) (L' & R' & Z0'). split; [lia|]. destruct m as [|row m].
  - cbn in L, L'. rewrite Z0, Z0' by lia. reflexivity.
  - rewrite <- (R row), <- (R' row) by (now left). reflexivity.
Qed.

Lemma sized_ext (m m' : rows_) rows cols : sized m rows cols -> sized m' rows cols ->
  (forall r c, 0 <= r < rows -> 0 <= c < cols -> entry m r c = entry m' r c) -> m = m'.
Proof.
  intros (L & R & _) (L' & R' & _) E. apply list_ext; [unfold lenZ in *; lia|]. intros k K.
  destruct (nth_error m k) as [row|] eqn:A; [|apply nth_error_None in A; lia].
  destruct (nth_error m' k) as [row'|] eqn:B; [|apply nth_error_None in B; unfold lenZ in *; lia]. f_equal.
  pose proof (R row (nth_error_In _ _ A)) as P. pose proof (R' row' (nth_error_In _ _ B)) as P'.
  apply list_ext; [unfold lenZ in *; lia|]. intros j J.
  specialize (E (Z.of_nat k) (Z.of_nat j) ltac:(unfold lenZ in *; lia) ltac:(unfold lenZ in *; lia)). unfold entry in E.
  rewrite !Nat2Z.id, A, B in E. exact E.
Qed.

Lemma built_table v b f : inside v (lenZ b) ->
  (forall r c, index v r c -> exists x, mget b v r c = Ok x /\ f r c = Some x) -> built (table v b) (v_rows v) (v_cols v) f.
Proof.
  intros H E. split; [exact (sized_table v b _ H)|]. intros r c R C. destruct (E r c (conj R C)) as (x & G & ->).
  apply entry_of; [exact H|now split|exact G].
Qed.

Definition used (o : option (list F)) : bool := match o with Some _ => true | None => false end.
Definition some_in (o : option rows_) : bool := match o with Some (_ :: _) => true | _ => false end.
Definition owns (h : heap) (m : owner) (l : rows_) : Prop :=
  (l = [] /\ m = empty) \/
  exists p v b, m = mk_owner (Some p) v /\ nth_error h p = Some (Some b) /\ inside v (lenZ b) /\ l = table v b.

Lemma table_full v b n : inside v n -> exists x l, table v b = x :: l.
Proof.
  intros H. destruct (sized_table v b n H) as (L & _). destruct H as (_ & R & _). destruct (table v b) as [|x l]; [cbn in L; lia|eauto].
Qed.
Lemma full_bit v b n : inside v n -> bit (some_in (Some (table v b))) = 1%nat.
Proof. intros H. destruct (table_full v b n H) as (x & l & ->). reflexivity. Qed.

Lemma owns_sized h m l : owns h m l -> sized l (v_rows (y_view m)) (v_cols (y_view m)).
Proof.
  intros [(-> & ->)|(p & v & b & -> & _ & H & ->)].
  - split; [reflexivity|]. split; [intros row []|reflexivity].
  - exact (sized_table v b _ H).
Qed.

(** The heap [h'] differs from [h] in what belongs to [m] or is new. *)
Definition beyond (h h' : heap) (m m' : owner) : Prop :=
  (length h <= length h')%nat /\
  (forall p, (p < length h)%nat -> y_data m <> Some p -> nth_error h' p = nth_error h p) /\
  (forall p, y_data m' = Some p -> y_data m = Some p \/ (length h <= p)%nat).
Definition balanced (h h' : heap) (l l' : rows_) : Prop :=
  (count used h' + bit (some_in (Some l)) = count used h + bit (some_in (Some l')))%nat.

Lemma same_beyond (h : heap) m : beyond h h m m.
Proof. split; [lia|]. split; [reflexivity|auto]. Qed.

(** A change inside a block. *)
Lemma block_change (h : heap) p v b b' : nth_error h p = Some (Some b) -> inside v (lenZ b) -> length b' = length b ->
  owns (upd h p (Some b')) (mk_owner (Some p) v) (table v b') /\
  beyond h (upd h p (Some b')) (mk_owner (Some p) v) (mk_owner (Some p) v) /\
  balanced h (upd h p (Some b')) (table v b) (table v b') /\ inside v (lenZ b').
Proof.
  intros E H L. assert (H' : inside v (lenZ b')) by (unfold lenZ in *; now rewrite L). split; [|split; [|split; [|exact H']]].
  - right. exists p, v, b'. split; [reflexivity|]. split; [apply (upd_at _ _ _ _ _ E)|]. now split.
  - split; [rewrite upd_length; lia|]. split; [|auto]. intros q Q D. apply upd_else. cbn in D. congruence.
  - unfold balanced. rewrite (full_bit v b _ H), (full_bit v b' _ H').
    pose proof (count_upd _ used h p (Some b') _ E). cbn [used bit] in *. lia.
Qed.

Lemma in_block_ok (h : heap) p b f b' : nth_error h p = Some (Some b) -> f b = Ok b' ->
  in_block h p f = Ok (upd h p (Some b')).
Proof. intros E G. unfold in_block, Own.block. rewrite E. cbn [bind]. rewrite G. reflexivity. Qed.

Lemma possible_zero rows cols s : possible width rows cols s -> rows = 0 -> cols = 0.
Proof. intros [(_ & ->)|(R & _)] E; [reflexivity|lia]. Qed.

Lemma init_ok' h rows cols s : possible width rows cols s ->
  init width junk room h rows cols s = Ok None \/
  exists h' m l, init width junk room h rows cols s = Ok (Some (h', m)) /\ sized l rows cols /\ owns h' m l /\
    beyond h h' empty m /\ balanced h h' [] l.
Proof.
  intros [(-> & ->)|P]; unfold init.
  - right. exists h, empty, []. split; [reflexivity|]. split; [split; [reflexivity|split; [intros ? []|reflexivity]]|].
    split; [now left|]. split; [apply same_beyond|reflexivity].
  - destruct (init_layout width junk width_ok rows cols s P) as (m & -> & (b & Eb & H) & Er & Ec & _). cbn [bind]. rewrite Eb.
    destruct (room h _); [right|now left].
    exists (h ++ [Some b]), (mk_owner (Some (length h)) (m_view m)), (table (m_view m) b). split; [reflexivity|].
    split; [rewrite <- Er, <- Ec; exact (sized_table _ b _ H)|].
    split; [right; exists (length h), (m_view m), b; split; [reflexivity|]; split; [apply app_new|now split]|].
    split.
    + split; [rewrite app_length; cbn; lia|]. split; [intros; now apply app_old|]. intros p E. injection E as <-. right. lia.
    + unfold balanced. rewrite (full_bit _ b _ H), count_app. cbn. lia.
Qed.

Lemma zero_ok h m l : owns h m l -> exists h' l', set_zero zero h m = Ok h' /\ owns h' m l' /\
  beyond h h' m m /\ balanced h h' l l' /\ built l' (v_rows (y_view m)) (v_cols (y_view m)) (fun _ _ => Some zero).
Proof.
  intros [(-> & ->)|(p & v & b & -> & E & H & ->)].
  - exists h, []. split; [reflexivity|]. split; [now left|]. split; [apply same_beyond|]. split; [reflexivity|].
    split; [split; [reflexivity|split; [intros ? []|reflexivity]]|]. cbn. lia.
  - destruct (set_zero_cells zero b v H) as (b1 & E1 & (L1 & _) & V1). unfold set_zero. cbn [y_data y_view].
    rewrite (in_block_ok h p b _ b1 E) by (rewrite E1; reflexivity).
    destruct (block_change h p v b b1 E H L1) as (O & B & C & H1).
    exists (upd h p (Some b1)), (table v b1). split; [reflexivity|]. do 3 (split; [assumption|]).
    apply built_table; [exact H1|]. intros r c I. exists zero. split; [now apply V1|reflexivity].
Qed.

Lemma destroy_ok h m l : owns h m l -> exists h', destroy h m = Ok (h', empty) /\ length h' = length h /\
  (forall p, y_data m <> Some p -> nth_error h' p = nth_error h p) /\ balanced h h' l [].
Proof.
  intros [(-> & ->)|(p & v & b & -> & E & H & ->)].
  - exists h. repeat split.
  - unfold destroy, Own.release, Own.block. cbn [y_data]. rewrite E. cbn [bind]. eexists. split; [reflexivity|].
    split; [apply upd_length|]. split.
    + intros q D. apply upd_else. congruence.
    + unfold balanced. rewrite (full_bit v b _ H). pose proof (count_upd _ used h p None _ E). cbn [some_in bit used] in *. lia.
Qed.

Lemma owns_frame h h' m l : owns h m l -> (forall p, y_data m = Some p -> nth_error h' p = nth_error h p) -> owns h' m l.
Proof.
  intros [O|(p & v & b & -> & E & H)] Fr; [now left|]. right. exists p, v, b. split; [reflexivity|]. split; [|exact H].
  rewrite Fr; [exact E|reflexivity].
Qed.

Lemma beyond_trans h h1 h2 m : beyond h h1 empty m -> beyond h1 h2 m m -> beyond h h2 empty m.
Proof.
  intros (L1 & F1 & N1) (L2 & F2 & N2). split; [lia|]. split; [|exact N1].
  intros p P D. rewrite F2; [now apply F1|lia|]. intros E. destruct (N1 p E) as [X|X]; [discriminate|lia].
Qed.

(** The part after [kCopyData]. *)
Definition zeros_in (l : rows_) : Prop := forall r c x, entry l r c = Some x -> 0 <= r -> 0 <= c -> x = zero.

Lemma start_ok h rows cols s (zeros : bool) : possible width rows cols s ->
  let r := (r <- init width junk room h rows cols s ;;
    match r with
    | None => Ok (h, empty, false)
    | Some (h, m) => h <- (if zeros then set_zero zero h m else Ok h) ;; Ok (h, m, true)
    end) in
  r = Ok (h, empty, false) \/
  exists h' m l, r = Ok (h', m, true) /\ sized l rows cols /\ (zeros = true -> built l rows cols (fun _ _ => Some zero)) /\
    owns h' m l /\ beyond h h' empty m /\ balanced h h' [] l.
Proof.
  intros P r. unfold r. destruct (init_ok' h rows cols s P) as [->|(h1 & m & l & -> & Sl & O & B & C)]; [now left|]. right. cbn [bind].
  destruct zeros.
  - destruct (zero_ok h1 m l O) as (h2 & l2 & -> & O2 & B2 & C2 & V). cbn [bind].
    destruct (sized_unique _ _ _ _ _ Sl (owns_sized _ _ _ O)) as (-> & ->).
    exists h2, m, l2. split; [reflexivity|]. split; [exact (owns_sized _ _ _ O2)|].
    split; [intros _; exact V|]. split; [exact O2|]. split; [exact (beyond_trans _ _ _ _ B B2)|].
    unfold balanced in *. lia.
  - exists h1, m, l. split; [reflexivity|]. split; [exact Sl|]. split; [discriminate|]. auto.
Qed.

Lemma owns_nil_view h m l : owns h m l -> y_data m = None -> m = empty /\ l = [].
Proof. intros [(-> & ->)|(p & v & b & -> & _)] E; [now split|discriminate]. Qed.

Lemma anew_ok h m l rows cols s (zeros : bool) : owns h m l -> possible width rows cols s ->
  exists h' m' l' done, resize_anew zero width junk room h m rows cols zeros s = Ok (h', m', done) /\ owns h' m' l' /\
    beyond h h' m m' /\ balanced h h' l l' /\
    (done = true -> sized l' rows cols /\ (zeros = true -> built l' rows cols (fun _ _ => Some zero)) /\
                    (zeros = false -> sized l rows cols -> l' = l)) /\
    (done = false -> l' = []) /\ (rows = 0 -> done = true).
Proof.
  intros O P. unfold resize_anew. pose proof O as [(-> & ->)|(p & v & b & -> & E & H & El)].
  - cbn [y_data empty]. change (mk_owner None no_view) with empty.
    assert (Z0 : rows = 0 -> exists x, init width junk room h rows cols s = Ok (Some x)).
    { intros ->. rewrite (possible_zero _ _ _ P eq_refl). eexists. reflexivity. }
    pose proof (start_ok h rows cols s zeros P) as S. cbv zeta in S.
    destruct S as [S|(h' & m & l & S & Sl & Zr & O2 & B & C)].
    + rewrite S. exists h, empty, [], false. split; [reflexivity|]. split; [now left|]. split; [apply same_beyond|].
      split; [reflexivity|]. split; [discriminate|]. split; [reflexivity|]. intros X. exfalso. destruct (Z0 X) as ((h1 & m1) & Y).
      rewrite Y in S. cbn [bind] in S. destruct zeros; [destruct (set_zero zero h1 m1)|]; cbn [bind] in S; discriminate.
    + rewrite S. exists h', m, l, true. split; [reflexivity|]. split; [exact O2|]. split; [exact B|]. split; [exact C|]. split; [|split; [discriminate|reflexivity]].
      intros _. split; [exact Sl|]. split; [exact Zr|]. intros _ (X & _). cbn in X. subst rows. destruct Sl as (Sl & _).
      destruct l; [reflexivity|unfold lenZ in Sl; cbn in Sl; lia].
  - cbn [y_data y_view]. destruct ((rows =? v_rows v) && (cols =? v_cols v)) eqn:Q.
    + apply andb_true_iff in Q. destruct Q as (Q1 & Q2). apply Z.eqb_eq in Q1, Q2. subst rows cols.
      assert (Nz : v_rows v <> 0) by (destruct H as (_ & X & _); lia).
      destruct zeros.
      * destruct (zero_ok h _ l O) as (h2 & l2 & -> & O2 & B2 & C2 & V). cbn [bind y_view] in *.
        exists h2, (mk_owner (Some p) v), l2, true. split; [reflexivity|]. split; [exact O2|]. split; [exact B2|].
        split; [exact C2|]. split; [|split; [discriminate|reflexivity]]. intros _. split; [exact (owns_sized _ _ _ O2)|]. split; [intros _; exact V|discriminate].
      * cbn [bind]. exists h, (mk_owner (Some p) v), l, true. split; [reflexivity|]. split; [exact O|]. split; [apply same_beyond|].
        split; [reflexivity|]. split; [|split; [discriminate|reflexivity]]. intros _. split; [exact (owns_sized _ _ _ O)|]. split; [discriminate|reflexivity].
    + assert (Nd : ~ sized l rows cols).
      { intros X. destruct (sized_unique _ _ _ _ _ X (owns_sized _ _ _ O)) as (-> & ->). cbn [y_view] in Q. now rewrite !Z.eqb_refl in Q. }
      destruct (destroy_ok h _ l O) as (h1 & -> & L1 & F1 & C1). cbn [bind].
      assert (Z0 : rows = 0 -> exists x, init width junk room h1 rows cols s = Ok (Some x)).
      { intros ->. rewrite (possible_zero _ _ _ P eq_refl). eexists. reflexivity. }
      pose proof (start_ok h1 rows cols s zeros P) as S. cbv zeta in S.
      destruct S as [S|(h' & m & l' & S & Sl & Zr & O2 & (B1 & B2 & B3) & C)].
      * rewrite S. exists h1, empty, [], false. split; [reflexivity|]. split; [now left|].
        split; [split; [lia|split; [intros; now apply F1|intros q X; discriminate]]|].
        split; [exact C1|]. split; [discriminate|]. split; [reflexivity|]. intros X. exfalso. destruct (Z0 X) as ((h2 & m1) & Y).
        rewrite Y in S. cbn [bind] in S. destruct zeros; [destruct (set_zero zero h2 m1)|]; cbn [bind] in S; discriminate.
      * rewrite S. exists h', m, l', true. split; [reflexivity|]. split; [exact O2|]. split; [split; [lia|split]|].
        -- intros q X Dq. rewrite B2; [now apply F1|lia|discriminate].
        -- intros q X. destruct (B3 q X) as [Y|Y]; [discriminate|right; lia].
        -- split; [unfold balanced in *; lia|]. split; [|split; [discriminate|reflexivity]].
           intros _. split; [exact Sl|]. split; [exact Zr|]. intros _ X. contradiction.
Qed.


Lemma fits_equal rows cols s : fits width rows cols s -> fits width rows cols StrideEqualNumCols.
Proof.
  intros (R & C & X). split; [exact R|]. split; [exact C|]. destruct s; [|exact X].
  pose proof (padded_ge width cols width_ok C). split; [nia|]. unfold int_max in *. nia.
Qed.

(** A part of a matrix changes. *)
Lemma part_changes v (b : list F) ro r co c : inside v (lenZ b) -> 0 <= ro -> 0 <= co -> 0 < r -> 0 < c ->
  ro + r <= v_rows v -> co + c <= v_cols v ->
  exists w, sub_matrix v ro r co c = Ok w /\ inside w (lenZ b) /\ v_rows w = r /\ v_cols w = c /\
    (forall (b' : list F) i j, length b' = length b -> index w i j -> mget b' w i j = mget b' v (ro + i) (co + j)) /\
    forall (b' : list F), only w b b' -> forall i j, index v i j -> ~ (ro <= i < ro + r /\ co <= j < co + c) -> mget b' v i j = mget b v i j.
Proof.
  intros H R C Pr Pc Er Ec. destruct (sub_matrix_inside v (lenZ b) ro r co c H R C Pr Pc Er Ec) as (w & E & I & Wr & Wc & Cl).
  exists w. split; [exact E|]. split; [exact I|]. split; [exact Wr|]. split; [exact Wc|]. split.
  - intros b' i j L (Ii & Ij). assert (L' : lenZ b' = lenZ b) by (unfold lenZ; now rewrite L).
    rewrite !mget_cell; [now rewrite Cl|now rewrite L'|split; lia|now rewrite L'|now split].
  - intros b' (L & O) i j Ij N. assert (L' : lenZ b' = lenZ b) by (unfold lenZ; now rewrite L).
    rewrite !mget_cell by (try assumption; now rewrite L'). apply O. intros r' c' (R' & C').
    rewrite (place_ok w (lenZ b) r' c' I) by (now split). rewrite Cl. intros X. injection X as X.
    apply cell_inj in X; [apply N; lia| |]; destruct Ij as (_ & Ij); destruct H as (_ & _ & H & _); lia.
Qed.

Lemma resize_ok h m l rows cols t s : owns h m l -> possible width rows cols s ->
  exists h' m' l' done, resize zero width junk room h m rows cols t s = Ok (h', m', done) /\ owns h' m' l' /\
    beyond h h' m m' /\ balanced h h' l l' /\
    (done = true -> resized zero t l rows cols l') /\
    (done = false -> l' = match t with CopyData => l | _ => [] end).
Proof.
  intros O P. destruct t; cbn [resize].
  - destruct (anew_ok h m l rows cols s true O P) as (h' & m' & l' & done & E & O2 & B & C & T & Fl & _).
    exists h', m', l', done. split; [exact E|]. do 3 (split; [assumption|]). split; [|exact Fl].
    intros X. destruct (T X) as (_ & Y2 & _). now apply Y2.
  - destruct (anew_ok h m l rows cols s false O P) as (h' & m' & l' & done & E & O2 & B & C & T & Fl & _).
    exists h', m', l', done. split; [exact E|]. do 3 (split; [assumption|]). split; [|exact Fl].
    intros X. destruct (T X) as (Y1 & _ & Y2). split; [exact Y1|now apply Y2].
  - pose proof O as [(-> & ->)|(p & v & b & -> & Ep & H & El)]; cbn [y_data empty].
    + change (mk_owner None no_view) with empty. destruct (anew_ok h empty [] rows cols s true O P) as (h' & v' & l' & done & E & O2 & B & C & T & Fl & _).
      exists h', v', l', done. split; [exact E|]. do 3 (split; [assumption|]). split; [|exact Fl].
      intros X. destruct (T X) as (_ & Y2 & _). destruct (Y2 eq_refl) as (Y3 & Y4). split; [exact Y3|]. intros r c R C0.
      rewrite (Y4 r c R C0). unfold entry. now destruct (Z.to_nat r).
    + cbn [y_view]. destruct (Z.eqb_spec rows 0) as [->|Nz].
      * destruct (anew_ok h _ l 0 cols s true O P) as (h' & v' & l' & done & E & O2 & B & C & T & Fl & Dn).
        rewrite (Dn eq_refl) in *. exists h', v', l', true. split; [exact E|]. do 3 (split; [assumption|]). split; [|discriminate].
        intros X. destruct (T X) as (Y1 & _ & _). split; [exact Y1|]. intros r c R. lia.
      * destruct ((rows =? v_rows v) && (cols =? v_cols v)) eqn:Q.
        { apply andb_true_iff in Q. destruct Q as (Q1 & Q2). apply Z.eqb_eq in Q1, Q2. subst rows cols.
          exists h, (mk_owner (Some p) v), l, true. split; [reflexivity|]. split; [exact O|]. split; [apply same_beyond|].
          split; [reflexivity|]. split; [|discriminate]. intros _. split; [exact (owns_sized _ _ _ O)|].
          intros r c R C. rewrite El. rewrite entry_table by (now split). reflexivity. }
        assert (Ft : fits width rows cols StrideEqualNumCols) by (destruct P as [(-> & _)|P]; [congruence|exact (fits_equal _ _ _ P)]).
        set (flag := (rows >? v_rows v) || (cols >? v_cols v)).
        destruct (anew_ok h empty [] rows cols StrideEqualNumCols flag ltac:(now left) (or_intror Ft))
          as (h1 & tmp & lt & done & -> & O2 & (B1 & B2 & B3) & C & T & Fl & _). cbn [bind].
        assert (Pp : (p < length h)%nat) by (now apply nth_error_in in Ep).
        destruct done; cbn [negb].
        2: { rewrite (Fl eq_refl) in *.
             exists h1, (mk_owner (Some p) v), l, false. split; [reflexivity|].
             split; [apply (owns_frame h); [exact O|]; cbn [y_data]; intros q X; injection X as <-; apply B2; [exact Pp|discriminate]|].
             split; [split; [lia|split; [intros; apply B2; [assumption|discriminate]|auto]]|].
             split; [unfold balanced in *; lia|]. split; [discriminate|reflexivity]. }
        destruct (T eq_refl) as (St & Zt & _).
        destruct Ft as (Rp & Cp & _).
        destruct O2 as [(-> & ->)|(q & vt & bt & -> & Eq & Ht & Elt)]; [destruct St as (St & _); cbn in St; lia|].
        assert (Ep1 : nth_error h1 p = Some (Some b)) by (rewrite B2; [exact Ep|exact Pp|discriminate]).
        assert (Qn : (length h <= q)%nat) by (destruct (B3 q eq_refl) as [X|X]; [discriminate|exact X]).
        assert (Npq : q <> p) by lia. cbn [y_data y_view].
        destruct (sized_unique _ _ _ _ _ St (eq_ind_r (fun x => sized x _ _) (sized_table vt bt _ Ht) Elt)) as (Er & Ec).
        assert (Hv := H). destruct Hv as (_ & Vr & (Vc & _) & _).
        set (r0 := Z.min rows (v_rows v)). set (c0 := Z.min cols (v_cols v)).
        destruct (part_changes vt bt 0 r0 0 c0 Ht ltac:(lia) ltac:(lia) ltac:(lia) ltac:(lia) ltac:(lia) ltac:(lia))
          as (dst & -> & Hd & Dr & Dc & Gd & Od). cbn [bind].
        destruct (part_changes v b 0 r0 0 c0 H ltac:(lia) ltac:(lia) ltac:(lia) ltac:(lia) ltac:(lia) ltac:(lia))
          as (src & -> & Hs & Sr & Sc & Gs & _). cbn [bind].
        destruct (copy_plain bt dst b src Hd Hs ltac:(lia) ltac:(lia)) as (b1 & Eb1 & On & V1).
        unfold copy_mat. rewrite (proj2 (Nat.eqb_neq q p) Npq). unfold Own.block at 1. rewrite Ep1. cbn [bind].
        rewrite (in_block_ok h1 q bt _ b1 Eq) by exact Eb1. cbn [bind].
        assert (Lb1 := proj1 On).
        destruct (block_change h1 q vt bt b1 Eq Ht Lb1) as (O4 & (B4 & B5 & _) & C4 & H1).
        set (h2 := upd h1 q (Some b1)) in *.
        assert (O3 : owns h2 (mk_owner (Some p) v) l).
        { right. exists p, v, b. split; [reflexivity|]. split; [unfold h2; rewrite upd_else by exact Npq; exact Ep1|]. now split. }
        destruct (destroy_ok h2 _ l O3) as (h3 & -> & L3 & F3 & C3). cbn [bind].
        exists h3, (mk_owner (Some q) vt), (table vt b1), true. split; [reflexivity|]. split.
        { apply (owns_frame h2); [exact O4|]. cbn [y_data]. intros x X. injection X as <-. apply F3. cbn. congruence. }
        split; [split; [lia|split]|].
        -- intros x X Dx. rewrite F3 by exact Dx. rewrite B5; [|lia|cbn; intros Y; injection Y as <-; lia]. apply B2; [exact X|discriminate].
        -- intros x X. injection X as <-. right. exact Qn.
        -- split.
           { unfold balanced in *. rewrite Elt in *. lia. }
           split; [|discriminate]. intros _. rewrite Er, Ec. apply built_table; [exact H1|]. intros r c (Ir & Ic).
           destruct (mget_total vt b1 r c H1 (conj Ir Ic)) as (x & X). exists x. split; [exact X|].
           destruct (Z_lt_dec r r0) as [Lr|Lr]; [destruct (Z_lt_dec c c0) as [Lc|Lc]|].
           ++ assert (Id : index dst r c) by (split; lia). assert (Is : index src r c) by (split; lia).
              pose proof (Gd b1 r c Lb1 Id) as G1. pose proof (V1 r c Id) as G2. pose proof (Gs b r c eq_refl Is) as G3.
              rewrite !Z.add_0_l in G1, G3. rewrite G1, X in G2. rewrite G3 in G2.
              rewrite El. rewrite (entry_of v b r c x H); [reflexivity|split; lia|congruence].
           ++ assert (Fg : flag = true) by (unfold flag; apply orb_true_iff; right; apply Z.gtb_lt; lia).
              rewrite (Od b1 On r c (conj Ir Ic) ltac:(lia)) in X.
              destruct (Zt Fg) as (_ & Zt2). specialize (Zt2 r c ltac:(lia) ltac:(lia)). rewrite Elt in Zt2.
              rewrite (entry_of vt bt r c x Ht (conj Ir Ic) X) in Zt2. injection Zt2 as ->.
              assert (entry l r c = None) as ->; [|reflexivity].
              rewrite El. unfold entry. destruct (nth_error (table v b) (Z.to_nat r)) as [row|] eqn:Rw; [|reflexivity].
              apply nth_error_None. apply nth_error_In in Rw. destruct (sized_table v b _ H) as (_ & Sr' & _).
              specialize (Sr' row Rw). unfold lenZ in Sr'. lia.
           ++ assert (Fg : flag = true) by (unfold flag; apply orb_true_iff; left; apply Z.gtb_lt; lia).
              rewrite (Od b1 On r c (conj Ir Ic) ltac:(lia)) in X.
              destruct (Zt Fg) as (_ & Zt2). specialize (Zt2 r c ltac:(lia) ltac:(lia)). rewrite Elt in Zt2.
              rewrite (entry_of vt bt r c x Ht (conj Ir Ic) X) in Zt2. injection Zt2 as ->.
              assert (entry l r c = None) as ->; [|reflexivity].
              rewrite El. unfold entry. destruct (nth_error (table v b) (Z.to_nat r)) as [row|] eqn:Rw; [|reflexivity].
              exfalso. apply nth_error_in in Rw. destruct (sized_table v b _ H) as (Sr' & _). unfold lenZ in Sr'. lia.
Qed.

(** All variables. *)
Record represents (s : state F) (w : @contents F) : Prop := mk_represents {
  rep_length : length (snd s) = length w;
  rep_none : forall i, nth_error (snd s) i = Some None <-> nth_error w i = Some None;
  rep_owns : forall i v l, nth_error (snd s) i = Some (Some v) -> nth_error w i = Some (Some l) -> owns (fst s) v l;
  rep_apart : forall i j v v' p, nth_error (snd s) i = Some (Some v) -> nth_error (snd s) j = Some (Some v') ->
    y_data v = Some p -> y_data v' = Some p -> i = j }.

Lemma rep_var s w i l : represents s w -> holds w i l -> exists v, nth_error (snd s) i = Some (Some v) /\ var (snd s) i = Ok v /\ owns (fst s) v l.
Proof.
  intros R H. unfold holds in H. destruct (nth_error (snd s) i) as [[v|]|] eqn:E.
  - exists v. unfold var. rewrite E. split; [reflexivity|]. split; [reflexivity|]. now apply (rep_owns s w R i).
  - apply (rep_none s w R) in E. congruence.
  - apply nth_error_None in E. rewrite (rep_length s w R) in E. apply nth_error_in in H. lia.
Qed.

Lemma rep_pointer s w i v p : represents s w -> nth_error (snd s) i = Some (Some v) -> y_data v = Some p -> (p < length (fst s))%nat.
Proof.
  intros R E D. destruct (nth_error w i) as [[l|]|] eqn:W.
  - destruct (rep_owns s w R i v l E W) as [(-> & ->)|(q & v0 & b0 & -> & Q & _)]; [discriminate|]. injection D as ->. now apply nth_error_in in Q.
  - apply (rep_none s w R) in W. congruence.
  - apply nth_error_None in W. rewrite <- (rep_length s w R) in W. apply nth_error_in in E. lia.
Qed.

(** One variable changes. *)
Lemma change h vs w i v l h' v' l' : represents (h, vs) w -> nth_error vs i = Some (Some v) -> holds w i l ->
  owns h' v' l' -> beyond h h' v v' -> represents (h', upd vs i (Some v')) (upd w i (Some l')).
Proof.
  intros R E H O (B1 & B2 & B3). unfold holds in H. split; cbn [fst snd].
  - rewrite !upd_length. apply (rep_length _ _ R).
  - intros k. destruct (Nat.eq_dec i k) as [<-|N].
    + rewrite (upd_at _ _ _ _ _ E), (upd_at _ _ _ _ _ H). split; discriminate.
    + rewrite !upd_else by exact N. apply (rep_none _ _ R k).
  - intros k u m. destruct (Nat.eq_dec i k) as [<-|N].
    + rewrite (upd_at _ _ _ _ _ E), (upd_at _ _ _ _ _ H). intros [= <-] [= <-]. exact O.
    + rewrite !upd_else by exact N. intros Eu Em. apply (owns_frame h); [exact (rep_owns _ _ R k u m Eu Em)|].
      intros p P. apply B2; [exact (rep_pointer _ _ k u p R Eu P)|].
      intros X. apply N. exact (rep_apart _ _ R i k v u p E Eu X P).
  - intros k m u u' p. 
    assert (Key : forall k u, i <> k -> nth_error (upd vs i (Some v')) k = Some (Some u) -> y_data v' = Some p -> y_data u = Some p -> False).
    { intros j t N Et X Y. rewrite upd_else in Et by exact N. destruct (B3 p X) as [Z0|Z0].
      - apply N. exact (rep_apart _ _ R i j v t p E Et Z0 Y).
      - pose proof (rep_pointer _ _ j t p R Et Y). cbn [fst] in *. lia. }
    destruct (Nat.eq_dec i k) as [<-|N]; destruct (Nat.eq_dec i m) as [<-|M]; try reflexivity.
    + rewrite (upd_at _ _ _ _ _ E). intros [= <-] Eu P Q. destruct (Key m u' M Eu P Q).
    + intros Eu. rewrite (upd_at _ _ _ _ _ E). intros [= <-] P Q. destruct (Key k u N Eu Q P).
    + rewrite !upd_else by assumption. apply (rep_apart _ _ R).
Qed.

(** A variable is added. *)
Lemma add h vs w h' v' l' : represents (h, vs) w -> owns h' v' l' -> beyond h h' empty v' ->
  represents (h', vs ++ [Some v']) (w ++ [Some l']).
Proof.
  intros R O (B1 & B2 & B3). assert (Ln : length vs = length w) by apply (rep_length _ _ R).
  assert (At : forall k (x : option owner), nth_error (vs ++ [Some v']) k = Some x -> ((k < length vs)%nat /\ nth_error vs k = Some x) \/ (k = length vs /\ x = Some v')).
  { intros k x X. destruct (Nat.lt_ge_cases k (length vs)) as [K|K]; [left; rewrite app_old in X; auto|right].
    assert (k = length vs) as -> by (apply nth_error_in in X; rewrite app_length in X; cbn in X; lia). rewrite app_new in X. split; congruence. }
  split; cbn [fst snd].
  - rewrite !app_length. cbn. lia.
  - intros k. destruct (Nat.lt_ge_cases k (length vs)) as [K|K].
    + rewrite !app_old by lia. apply (rep_none _ _ R k).
    + split; intros X.
      * destruct (At k _ X) as [(Y & _)|(_ & Y)]; [lia|discriminate].
      * assert (k = length w) as -> by (apply nth_error_in in X; rewrite app_length in X; cbn in X; lia). rewrite app_new in X. discriminate.
  - intros k u m Eu Em. destruct (At k _ Eu) as [(K & X)|(-> & X)].
    + rewrite app_old in Em by lia. apply (owns_frame h); [exact (rep_owns _ _ R k u m X Em)|].
      intros p P. apply B2; [exact (rep_pointer _ _ k u p R X P)|discriminate].
    + rewrite Ln, app_new in Em. injection X as ->. injection Em as <-. exact O.
  - intros k m u u' p Ek Em P Q. 
    assert (Key : forall k u, (k < length vs)%nat -> nth_error vs k = Some (Some u) -> y_data u = Some p -> y_data v' = Some p -> False).
    { intros j t J Et X Y. destruct (B3 p Y) as [Z0|Z0]; [discriminate|]. pose proof (rep_pointer _ _ j t p R Et X). cbn [fst] in *. lia. }
    destruct (At k _ Ek) as [(K & X)|(-> & X)]; destruct (At m _ Em) as [(M & Y)|(-> & Y)]; try reflexivity.
    + exact (rep_apart _ _ R k m u u' p X Y P Q).
    + injection Y as ->. destruct (Key k u K X P Q).
    + injection X as ->. destruct (Key m u' M Y Q P).
Qed.

Lemma same_heap (h : heap) v v' : (forall p, y_data v' = Some p -> y_data v = Some p) -> beyond h h v v'.
Proof. intros H. split; [lia|]. split; [reflexivity|]. intros p P. left. now apply H. Qed.

(** Variables exchange what they have. *)
Lemma rearrange h vs w vs' w' (src : nat -> option nat) : represents (h, vs) w -> length vs' = length w' ->
  (forall k, match src k with
             | Some m => nth_error vs' k = nth_error vs m /\ nth_error w' k = nth_error w m
             | None => nth_error vs' k = Some (Some empty) /\ nth_error w' k = Some (Some [])
             end) ->
  (forall k k' m, src k = Some m -> src k' = Some m -> k = k') -> represents (h, vs') w'.
Proof.
  intros R L H J. split; cbn [fst snd].
  - exact L.
  - intros k. specialize (H k). destruct (src k) as [m|]; destruct H as (-> & ->); [apply (rep_none _ _ R m)|split; discriminate].
  - intros k v l. specialize (H k). destruct (src k) as [m|]; destruct H as (-> & ->); [apply (rep_owns _ _ R m)|].
    intros [= <-] [= <-]. now left.
  - intros i j v v' p E E' P P'. pose proof (H i) as Hi. pose proof (H j) as Hj.
    destruct (src i) as [m|] eqn:Si; destruct Hi as (Hi & _); rewrite Hi in E; [|injection E as <-; discriminate].
    destruct (src j) as [n|] eqn:Sj; destruct Hj as (Hj & _); rewrite Hj in E'; [|injection E' as <-; discriminate].
    apply (J i j m Si). rewrite Sj. f_equal. exact (rep_apart _ _ R n m v' v p E' E P' P).
Qed.

(** A variable that has nothing is no more, or does not come into existence. *)
Lemma drop h vs w i : represents (h, vs) w -> nth_error vs i = Some (Some empty) -> holds w i [] ->
  represents (h, upd vs i None) (upd w i None).
Proof.
  intros R E H. unfold holds in H. split; cbn [fst snd].
  - rewrite !upd_length. apply (rep_length _ _ R).
  - intros k. destruct (Nat.eq_dec i k) as [<-|N].
    + rewrite (upd_at _ _ _ _ _ E), (upd_at _ _ _ _ _ H). tauto.
    + rewrite !upd_else by exact N. apply (rep_none _ _ R k).
  - intros k v l. destruct (Nat.eq_dec i k) as [<-|N]; [rewrite (upd_at _ _ _ _ _ E); discriminate|].
    rewrite !upd_else by exact N. apply (rep_owns _ _ R k).
  - intros k m v v' p. destruct (Nat.eq_dec i k) as [<-|N]; [rewrite (upd_at _ _ _ _ _ E); discriminate|].
    destruct (Nat.eq_dec i m) as [<-|M]; [rewrite (upd_at _ _ _ _ _ E); discriminate|]. rewrite !upd_else by assumption. apply (rep_apart _ _ R).
Qed.


Lemma rep_get h vs w i l : represents (h, vs) w -> holds w i l -> exists v, nth_error vs i = Some (Some v) /\ var vs i = Ok v /\ owns h v l.
Proof. intros R H. exact (rep_var (h, vs) w i l R H). Qed.

(** The contents of one matrix change in place. *)
Lemma in_place h vs w i m l h' l' : represents (h, vs) w -> nth_error vs i = Some (Some m) -> holds w i l ->
  owns h' m l' -> beyond h h' m m -> balanced h h' l l' ->
  represents (h', vs) (upd w i (Some l')) /\ (count used h' + count some_in w = count used h + count some_in (upd w i (Some l')))%nat.
Proof.
  intros R E H O B C. split.
  - rewrite <- (upd_id _ vs i _ E). now apply (change h vs w i m l).
  - unfold holds in H. pose proof (count_upd _ some_in w i (Some l') _ H). unfold balanced in C. lia.
Qed.

Lemma copy_itself (b : list F) v : inside v (lenZ b) -> copy_within b v v NoTrans = Ok b.
Proof.
  intros H. unfold copy_within. rewrite !Z.eqb_refl. cbn [andb check bind].
  match goal with |- for_up 0 _ ?f b = _ => destruct (for_up_inv _ (fun _ b' => b' = b) f 0 (v_rows v) b) as (b' & E & ->) end.
  - destruct H as (_ & R & _). lia.
  - reflexivity.
  - intros i b' I ->. exists b. rewrite (row_start_ok v (lenZ b) i H) by lia. cbn [bind]. rewrite Z.eqb_refl. now split.
  - exact E.
Qed.

Lemma copy_ok h m l m' l' : owns h m l -> owns h m' l' -> (y_data m = y_data m' -> m = m') ->
  v_rows (y_view m) = v_rows (y_view m') -> v_cols (y_view m) = v_cols (y_view m') ->
  exists h', copy_mat h (y_data m) (y_view m) (y_data m') (y_view m') NoTrans = Ok h' /\ owns h' m l' /\ beyond h h' m m /\ balanced h h' l l'.
Proof.
  intros O O' S Er Ec.
  destruct O as [(-> & ->)|(p & v & b & -> & Ep & H & El)].
  - destruct O' as [(-> & ->)|(q & v' & b' & -> & Eq & H' & El')].
    + exists h. split; [reflexivity|]. split; [now left|]. split; [apply same_beyond|reflexivity].
    + destruct H' as (_ & X & _). cbn in Er. lia.
  - destruct O' as [(-> & ->)|(q & v' & b' & -> & Eq & H' & El')].
    + destruct H as (_ & X & _). cbn in Er. lia.
    + cbn [y_data y_view] in *. unfold copy_mat. destruct (Nat.eqb_spec p q) as [<-|N].
      * specialize (S eq_refl). injection S as <-. assert (b' = b) as -> by congruence.
        rewrite (in_block_ok h p b _ b Ep) by (exact (copy_itself b v H)).
        destruct (block_change h p v b b Ep H eq_refl) as (O & B & C & _). subst l l'.
        exists (upd h p (Some b)). split; [reflexivity|]. now split.
      * destruct (copy_plain b v b' v' H H' Er Ec) as (b1 & E1 & (L1 & _) & V1).
        unfold Own.block. rewrite Eq. cbn [bind]. rewrite (in_block_ok h p b _ b1 Ep) by exact E1.
        destruct (block_change h p v b b1 Ep H L1) as (O & B & C & H1).
        assert (T : table v b1 = l').
        { apply (sized_ext _ _ (v_rows v) (v_cols v)); [exact (sized_table v b1 _ H1)|subst l'; rewrite Er, Ec; exact (sized_table v' b' _ H')|].
          intros r c R C0. destruct (of_entry v b1 r c H1 (conj R C0)) as (x & X1 & ->). rewrite V1 in X1 by (now split).
          symmetry. subst l'. apply entry_of; [exact H'|split; lia|exact X1]. }
        rewrite T in *. subst l. exists (upd h p (Some b1)). split; [reflexivity|]. now split.
Qed.

Lemma copy_trans_ok h m l m' l' : owns h m l -> owns h m' l' -> (forall p, y_data m = Some p -> y_data m' <> Some p) ->
  v_rows (y_view m) = v_cols (y_view m') -> v_cols (y_view m) = v_rows (y_view m') ->
  exists h' l1, copy_mat h (y_data m) (y_view m) (y_data m') (y_view m') Trans = Ok h' /\ owns h' m l1 /\ beyond h h' m m /\ balanced h h' l l1 /\
    built l1 (v_rows (y_view m)) (v_cols (y_view m)) (fun r c => entry l' c r).
Proof.
  intros O O' S Er Ec.
  destruct O as [(-> & ->)|(p & v & b & -> & Ep & H & ->)].
  - destruct O' as [(-> & ->)|(q & v' & b' & -> & Eq & H' & El')].
    + exists h, []. split; [reflexivity|]. split; [now left|]. split; [apply same_beyond|]. split; [reflexivity|].
      split; [split; [reflexivity|split; [intros ? []|reflexivity]]|]. cbn. lia.
    + destruct H' as (_ & X & Y & _). cbn in Er. lia.
  - destruct O' as [(-> & ->)|(q & v' & b' & -> & Eq & H' & El')].
    + destruct H as (_ & X & _). cbn in Er. lia.
    + cbn [y_data y_view] in *. unfold copy_mat. destruct (Nat.eqb_spec p q) as [<-|N]; [destruct (S p eq_refl eq_refl)|].
      destruct (copy_trans b v b' v' H H' Er Ec) as (b1 & E1 & (L1 & _) & V1).
      unfold Own.block. rewrite Eq. cbn [bind]. rewrite (in_block_ok h p b _ b1 Ep) by exact E1.
      destruct (block_change h p v b b1 Ep H L1) as (O & B & C & H1).
      exists (upd h p (Some b1)), (table v b1). split; [reflexivity|]. do 3 (split; [assumption|]).
      apply built_table; [exact H1|]. intros r c I. destruct (mget_total v b1 r c H1 I) as (x & X). exists x. split; [exact X|].
      subst l'. apply entry_of; [exact H'|destruct I; split; lia|]. rewrite <- V1 by exact I. exact X.
Qed.

Lemma part_ok h m l m' l' ro co ro' co' r c : owns h m l -> owns h m' l' -> (forall p, y_data m = Some p -> y_data m' <> Some p) ->
  0 < r -> 0 < c -> 0 <= ro -> ro + r <= v_rows (y_view m) -> 0 <= co -> co + c <= v_cols (y_view m) ->
  0 <= ro' -> ro' + r <= v_rows (y_view m') -> 0 <= co' -> co' + c <= v_cols (y_view m') ->
  exists v v' h' l1, sub_matrix (y_view m) ro r co c = Ok v /\ sub_matrix (y_view m') ro' r co' c = Ok v' /\
    copy_mat h (y_data m) v (y_data m') v' NoTrans = Ok h' /\ owns h' m l1 /\ beyond h h' m m /\ balanced h h' l l1 /\
    built l1 (v_rows (y_view m)) (v_cols (y_view m)) (fun r' c' =>
        if (ro <=? r') && (r' <? ro + r) && (co <=? c') && (c' <? co + c)
        then entry l' (r' - ro + ro') (c' - co + co') else entry l r' c').
Proof.
  intros O O' S Pr Pc A1 A2 A3 A4 A5 A6 A7 A8.
  destruct O as [(-> & ->)|(p & v & b & -> & Ep & H & ->)]; [cbn in A2; lia|].
  destruct O' as [(-> & ->)|(q & v' & b' & -> & Eq & H' & El')]; [cbn in A6; lia|].
  cbn [y_data y_view] in *. assert (N : p <> q) by (intros ->; now apply (S q)).
  destruct (part_changes v b ro r co c H) as (d & Ed & Id & Dr & Dc & Gd & Od); try lia.
  destruct (part_changes v' b' ro' r co' c H') as (e & Ee & Ie & Fr & Fc & Ge & _); try lia.
  destruct (copy_plain b d b' e Id Ie ltac:(lia) ltac:(lia)) as (b1 & E1 & On & V1). assert (L1 := proj1 On).
  destruct (block_change h p v b b1 Ep H L1) as (O & B & C & H1).
  exists d, e, (upd h p (Some b1)), (table v b1). split; [exact Ed|]. split; [exact Ee|]. split.
  { unfold copy_mat. rewrite (proj2 (Nat.eqb_neq p q) N). unfold Own.block. rewrite Eq. cbn [bind]. now apply in_block_ok with b. }
  do 3 (split; [assumption|]). apply built_table; [exact H1|]. intros i j I.
  destruct (mget_total v b1 i j H1 I) as (x & X). exists x. split; [exact X|].
  destruct ((ro <=? i) && (i <? ro + r) && (co <=? j) && (j <? co + c)) eqn:Q.
  - rewrite !andb_true_iff, !Z.leb_le, !Z.ltb_lt in Q. destruct Q as (((Q1 & Q2) & Q3) & Q4).
    assert (Jd : index d (i - ro) (j - co)) by (split; lia). assert (Je : index e (i - ro) (j - co)) by (split; lia).
    pose proof (Gd b1 _ _ L1 Jd) as G1. pose proof (V1 _ _ Jd) as G2. pose proof (Ge b' _ _ eq_refl Je) as G3.
    replace (ro + (i - ro)) with i in G1 by lia. replace (co + (j - co)) with j in G1 by lia.
    subst l'. apply entry_of; [exact H'|split; lia|]. rewrite <- X, <- G1, G2, G3. f_equal; lia.
  - apply entry_of; [exact H|exact I|]. rewrite <- X. symmetry. apply (Od b1 On); [exact I|]. intros (Y1 & Y2).
    assert (T : (ro <=? i) && (i <? ro + r) && (co <=? j) && (j <? co + c) = true); [|congruence].
    rewrite !andb_true_iff, !Z.leb_le, !Z.ltb_lt. lia.
Qed.

Lemma transpose_ok h m l : owns h m l -> v_rows (y_view m) = v_cols (y_view m) ->
  exists h' l1, transpose_at h m = Ok h' /\ owns h' m l1 /\ beyond h h' m m /\ balanced h h' l l1 /\
    built l1 (v_rows (y_view m)) (v_rows (y_view m)) (fun r c => entry l c r).
Proof.
  intros [(-> & ->)|(p & v & b & -> & E & H & ->)] Sq.
  - exists h, []. split; [reflexivity|]. split; [now left|]. split; [apply same_beyond|]. split; [reflexivity|].
    split; [split; [reflexivity|split; [intros ? []|reflexivity]]|]. cbn. lia.
  - unfold transpose_at. cbn [y_data y_view] in *. destruct (transpose_square b v H Sq) as (b1 & E1 & (L1 & _) & V1).
    rewrite (in_block_ok h p b _ b1 E) by exact E1.
    destruct (block_change h p v b b1 E H L1) as (O & B & C & H1).
    exists (upd h p (Some b1)), (table v b1). split; [reflexivity|]. do 3 (split; [assumption|]).
    rewrite Sq at 2. apply built_table; [exact H1|]. intros r c I. destruct (mget_total v b1 r c H1 I) as (x & X). exists x. split; [exact X|].
    apply entry_of; [exact H|destruct I; split; lia|]. rewrite <- V1 by exact I. exact X.
Qed.

Lemma put_ok h m l r c x : owns h m l -> 0 <= r < v_rows (y_view m) -> 0 <= c < v_cols (y_view m) ->
  exists h' l1, put_at h m r c x = Ok h' /\ owns h' m l1 /\ beyond h h' m m /\ balanced h h' l l1 /\
    built l1 (v_rows (y_view m)) (v_cols (y_view m)) (fun r' c' => if (r' =? r) && (c' =? c) then Some x else entry l r' c').
Proof.
  intros [(-> & ->)|(p & v & b & -> & E & H & ->)] R C0; [cbn in R; lia|].
  unfold put_at. cbn [y_data y_view] in *. destruct (write_one b v r c x H (conj R C0)) as (b1 & E1 & L1 & V1 & W1).
  rewrite (in_block_ok h p b _ b1 E) by exact E1.
  destruct (block_change h p v b b1 E H L1) as (O & B & C & H1).
  exists (upd h p (Some b1)), (table v b1). split; [reflexivity|]. do 3 (split; [assumption|]).
  apply built_table; [exact H1|]. intros i j I. destruct (Z.eqb_spec i r) as [->|N]; cbn [andb].
  - destruct (Z.eqb_spec j c) as [->|N].
    + exists x. now split.
    + rewrite (W1 r j I) by congruence. exact (of_entry v b r j H I).
  - rewrite (W1 i j I) by congruence. exact (of_entry v b i j H I).
Qed.

Lemma step_ok s w c : represents s w -> permitted width w c ->
  exists s' a w', step zero width junk room s c = Ok (s', a) /\ does zero w c a w' /\ represents s' w' /\
    (count used (fst s') + count some_in w = count used (fst s) + count some_in w')%nat.
Proof.
  destruct s as (h & vs). intros R P. assert (Ln : length vs = length w) by apply (rep_length _ _ R).
  destruct c as [|rows cols t st|i|i j|i j|i rows cols t st|i|i r c|i r c x|i|i j t|i ro co j ro' co' r c|i|i]; cbn [permitted] in P; cbn [step fst].
  - exists (h, vs ++ [Some empty]), Done, (w ++ [Some []]). split; [reflexivity|]. split; [now split|].
    split; [|cbn [fst]; rewrite count_app; cbn; lia].
    apply (add h); [exact R|now left|]. now apply same_heap.
  - destruct (resize_ok h empty [] rows cols t st ltac:(now left) P) as (h' & v' & l' & done & E & O & B & C & T & Fl).
    rewrite E. cbn [bind].
    assert (R2 := add h vs w h' v' l' R O B). destruct done.
    + exists (h', vs ++ [Some v']), Done, (w ++ [Some l']). split; [reflexivity|]. split; [left; split; [reflexivity|]; eauto|].
      split; [exact R2|]. cbn [fst]. rewrite count_app. unfold balanced in C. unfold count in *. cbn [filter some_in bit length] in *. destruct l'; cbn [some_in bit length] in *; lia.
    + assert (l' = []) as -> by (rewrite (Fl eq_refl); now destruct t).
      assert (v' = empty) as ->.
      { destruct O as [(_ & X)|(q & v & b & _ & _ & X & Y)]; [exact X|]. destruct (table_full v b _ X) as (? & ? & Z0). congruence. }
      exists (h', vs ++ [None]), NoMemory, (w ++ [None]). split; [reflexivity|]. split; [right; now split|]. split.
      * rewrite <- (upd_last _ vs None (Some empty)), <- (upd_last _ w None (Some [])), <- Ln.
        apply drop; [exact R2|apply app_new|]. unfold holds. rewrite Ln. apply app_new.
      * cbn [fst]. rewrite count_app. unfold balanced in C. unfold count in *. cbn [filter some_in bit length] in *. lia.
  - destruct (rep_get _ _ _ i [] R P) as (v & Ev & -> & O). cbn [bind].
    assert (v = empty) as ->.
    { destruct O as [(_ & X)|(q & v0 & b & _ & _ & X & Y)]; [exact X|]. destruct (table_full v0 b _ X) as (? & ? & Z0). congruence. }
    exists (h, vs ++ [Some empty]), Done, (w ++ [Some []]). split; [reflexivity|]. split; [now split|].
    split; [|cbn [fst]; rewrite count_app; cbn; lia].
    apply (add h); [exact R|now left|]. now apply same_heap.
  - destruct P as (Pi & Pj). destruct (rep_get _ _ _ i [] R Pi) as (v & Ev & -> & O). cbn [bind].
    destruct (rep_get _ _ _ j [] R Pj) as (u & Eu & -> & Ou). cbn [bind].
    assert (Em : forall v, owns h v [] -> v = empty).
    { intros x [(_ & X)|(q & v0 & b & _ & _ & X & Y)]; [exact X|]. destruct (table_full v0 b _ X) as (? & ? & Z0). congruence. }
    rewrite (Em v O) in Ev. rewrite (Em u Ou).
    exists (h, vs), Done, w. rewrite (upd_id _ vs i _ Ev). split; [reflexivity|]. split; [now split|]. split; [exact R|reflexivity].
  - destruct P as ((l & Hi) & (m & Hj)). destruct (rep_get _ _ _ i l R Hi) as (v & Ev & -> & O). cbn [fst snd] in *. cbn [bind].
    destruct (rep_get _ _ _ j m R Hj) as (u & Eu & -> & Ou). cbn [fst snd] in *. cbn [bind]. unfold holds in Hi, Hj.
    exists (h, upd (upd vs i (Some u)) j (Some v)), Done, (upd (upd w i (Some m)) j (Some l)). split; [reflexivity|].
    split; [split; [reflexivity|]; exists l, m; now repeat split|]. 
    assert (Ej : exists o, nth_error (upd vs i (Some u)) j = Some o).
    { destruct (Nat.eq_dec i j) as [<-|N]; [rewrite (upd_at _ _ _ _ _ Ev)|rewrite upd_else by exact N]; eauto. }
    assert (Ej' : exists o, nth_error (upd w i (Some m)) j = Some o).
    { destruct (Nat.eq_dec i j) as [<-|N]; [rewrite (upd_at _ _ _ _ _ Hi)|rewrite upd_else by exact N]; eauto. }
    destruct Ej as (o & Ej). destruct Ej' as (o' & Ej'). split.
    + apply (rearrange h vs w _ _ (fun k => if Nat.eqb k j then Some i else if Nat.eqb k i then Some j else Some k) R).
      * rewrite !upd_length. exact Ln.
      * intros k. destruct (Nat.eqb_spec k j) as [->|N]; [rewrite (upd_at _ _ _ _ _ Ej), (upd_at _ _ _ _ _ Ej'); now split|]. rewrite !(upd_else _ _ j k) by congruence.
        destruct (Nat.eqb_spec k i) as [->|M]; [rewrite (upd_at _ _ _ _ _ Ev), (upd_at _ _ _ _ _ Hi); now split|].
        rewrite !upd_else by congruence. now split.
      * intros k k' n. destruct (Nat.eqb_spec k j), (Nat.eqb_spec k' j), (Nat.eqb_spec k i), (Nat.eqb_spec k' i); intros; congruence.
    + cbn [fst]. destruct (Nat.eq_dec i j) as [<-|N].
      * rewrite upd_twice. rewrite upd_id by exact Hi. lia.
      * pose proof (count_upd _ some_in w i (Some m) _ Hi) as C1. 
        assert (Ej2 : nth_error (upd w i (Some m)) j = Some (Some m)) by (rewrite upd_else by exact N; exact Hj).
        pose proof (count_upd _ some_in _ j (Some l) _ Ej2) as C2. lia.
  - destruct P as ((l & H) & P). destruct (rep_get _ _ _ i l R H) as (v & Ev & -> & O). cbn [fst snd] in *. cbn [bind].
    destruct (resize_ok h v l rows cols t st O P) as (h' & v' & l' & done & E & O2 & B & C & T & Fl). rewrite E. cbn [bind].
    assert (R2 := change h vs w i v l h' v' l' R Ev H O2 B). unfold holds in H.
    exists (h', upd vs i (Some v')), (if done then Done else NoMemory), (upd w i (Some l')). split; [reflexivity|]. split.
    + exists l. split; [exact H|]. destruct done; [left; split; [reflexivity|]; eauto|]. right. split; [reflexivity|].
      rewrite (Fl eq_refl). destruct t; try reflexivity. apply upd_id. exact H.
    + split; [exact R2|]. cbn [fst]. pose proof (count_upd _ some_in w i (Some l') _ H). unfold balanced in C. lia.
  - destruct P as (l & H). destruct (rep_get _ _ _ i l R H) as (v & Ev & -> & O). cbn [bind].
    exists (h, vs), (Size (v_rows (y_view v)) (v_cols (y_view v))), w. split; [reflexivity|].
    split; [split; [reflexivity|]; exists l, (v_rows (y_view v)), (v_cols (y_view v)); split; [exact H|]; split; [exact (owns_sized _ _ _ O)|reflexivity]|].
    split; [exact R|reflexivity].
  - destruct P as (l & rows & cols & H & Sz & Ir & Ic). destruct (rep_get _ _ _ i l R H) as (v & Ev & -> & O). cbn [bind].
    destruct (sized_unique _ _ _ _ _ Sz (owns_sized _ _ _ O)) as (-> & ->).
    destruct O as [(-> & ->)|(p & u & b & -> & Ep & Hu & ->)]; [cbn in Ir; lia|]. cbn [y_view] in *.
    destruct (of_entry u b r c Hu (conj Ir Ic)) as (x & X & Y).
    exists (h, vs), (Value x), w. split; [|split; [split; [reflexivity|]; exists (table u b), x; now repeat split|split; [exact R|reflexivity]]].
    unfold get_at. cbn [y_data y_view]. unfold Own.block. rewrite Ep. cbn [bind]. now rewrite X.
  - destruct P as (l & rows & cols & H & Sz & Ir & Ic). destruct (rep_get _ _ _ i l R H) as (v & Ev & -> & O). cbn [bind].
    destruct (sized_unique _ _ _ _ _ Sz (owns_sized _ _ _ O)) as (-> & ->).
    destruct (put_ok h v l r c x O Ir Ic) as (h' & l1 & -> & O1 & B & C & T). cbn [bind].
    destruct (in_place h vs w i v l h' l1 R Ev H O1 B C) as (R1 & C1).
    exists (h', vs), Done, (upd w i (Some l1)). split; [reflexivity|]. split; [|now split].
    split; [reflexivity|]. exists l, l1, (v_rows (y_view v)), (v_cols (y_view v)). now repeat (split; [assumption || reflexivity|]).
  - destruct P as (l & H). destruct (rep_get _ _ _ i l R H) as (v & Ev & -> & O). cbn [bind].
    destruct (zero_ok h v l O) as (h' & l1 & -> & O1 & B & C & T). cbn [bind].
    destruct (in_place h vs w i v l h' l1 R Ev H O1 B C) as (R1 & C1).
    exists (h', vs), Done, (upd w i (Some l1)). split; [reflexivity|]. split; [|now split].
    split; [reflexivity|]. exists l, l1, (v_rows (y_view v)), (v_cols (y_view v)). split; [exact H|]. split; [exact (owns_sized _ _ _ O)|]. now split.
  - destruct t.
    + destruct P as (l & l' & rows & cols & Hi & Hj & Si & Sj & N). destruct (rep_get _ _ _ i l R Hi) as (v & Ev & -> & O). cbn [bind].
      destruct (rep_get _ _ _ j l' R Hj) as (u & Eu & -> & Ou). cbn [bind].
      destruct (sized_unique _ _ _ _ _ Si (owns_sized _ _ _ O)) as (-> & ->). destruct (sized_unique _ _ _ _ _ Sj (owns_sized _ _ _ Ou)) as (E3 & E4).
      destruct (copy_trans_ok h v l u l' O Ou) as (h' & l1 & -> & O1 & B & C & T); [|congruence|congruence|].
      { intros p D X. apply N. exact (rep_apart _ _ R i j v u p Ev Eu D X). }
      cbn [bind]. destruct (in_place h vs w i v l h' l1 R Ev Hi O1 B C) as (R1 & C1).
      exists (h', vs), Done, (upd w i (Some l1)). split; [reflexivity|]. split; [|now split]. split; [reflexivity|].
      exists l', l1, (v_rows (y_view v)), (v_cols (y_view v)). now repeat (split; [assumption || reflexivity|]).
    + destruct P as (l & l' & rows & cols & Hi & Hj & Si & Sj). destruct (rep_get _ _ _ i l R Hi) as (v & Ev & -> & O). cbn [bind].
      destruct (rep_get _ _ _ j l' R Hj) as (u & Eu & -> & Ou). cbn [bind].
      destruct (sized_unique _ _ _ _ _ Si (owns_sized _ _ _ O)) as (E1 & E2). destruct (sized_unique _ _ _ _ _ Sj (owns_sized _ _ _ Ou)) as (E3 & E4).
      destruct (copy_ok h v l u l' O Ou) as (h' & -> & O1 & B & C); [|congruence|congruence|].
      { intros X. destruct (y_data v) as [p|] eqn:D.
        - assert (i = j) as -> by (exact (rep_apart _ _ R i j v u p Ev Eu D (eq_sym X))). cbn [snd] in *. congruence.
        - destruct O as [(_ & ->)|(p & ? & ? & -> & _)]; [|discriminate]. destruct Ou as [(_ & ->)|(q & ? & ? & -> & _)]; [reflexivity|discriminate]. }
      cbn [bind]. destruct (in_place h vs w i v l h' l' R Ev Hi O1 B C) as (R1 & C1).
      exists (h', vs), Done, (upd w i (Some l')). split; [reflexivity|]. split; [|now split]. split; [reflexivity|]. exists l'. now split.
  - destruct P as (l & l' & rows & cols & rows' & cols' & Hi & Hj & Si & Sj & N & P1 & P2 & P3 & P4 & P5 & P6 & P7 & P8 & P9 & P10).
    destruct (rep_get _ _ _ i l R Hi) as (v & Ev & -> & O). cbn [bind].
    destruct (rep_get _ _ _ j l' R Hj) as (u & Eu & -> & Ou). cbn [bind].
    destruct (sized_unique _ _ _ _ _ Si (owns_sized _ _ _ O)) as (-> & ->). destruct (sized_unique _ _ _ _ _ Sj (owns_sized _ _ _ Ou)) as (-> & ->).
    destruct (part_ok h v l u l' ro co ro' co' r c O Ou) as (d & e & h' & l1 & -> & -> & E & O1 & B & C & T); try assumption.
    { intros p D X. apply N. exact (rep_apart _ _ R i j v u p Ev Eu D X). }
    cbn [bind]. rewrite E. cbn [bind]. destruct (in_place h vs w i v l h' l1 R Ev Hi O1 B C) as (R1 & C1).
    exists (h', vs), Done, (upd w i (Some l1)). split; [reflexivity|]. split; [|now split]. split; [reflexivity|].
    exists l, l', l1, (v_rows (y_view v)), (v_cols (y_view v)). now repeat (split; [assumption || reflexivity|]).
  - destruct P as (l & n & H & Sz). destruct (rep_get _ _ _ i l R H) as (v & Ev & -> & O). cbn [bind].
    destruct (sized_unique _ _ _ _ _ Sz (owns_sized _ _ _ O)) as (E1 & E2).
    destruct (transpose_ok h v l O ltac:(congruence)) as (h' & l1 & -> & O1 & B & C & T). cbn [bind].
    destruct (in_place h vs w i v l h' l1 R Ev H O1 B C) as (R1 & C1).
    exists (h', vs), Done, (upd w i (Some l1)). split; [reflexivity|]. split; [|now split].
    split; [reflexivity|]. exists l, l1, n. rewrite <- E1 in T. now repeat (split; [assumption || reflexivity|]).
  - destruct P as (l & H). destruct (rep_get _ _ _ i l R H) as (v & Ev & -> & O). cbn [fst snd] in *. cbn [bind].
    destruct (destroy_ok h v l O) as (h' & -> & Lh & Fr & C). cbn [bind].
    exists (h', upd vs i None), Done, (upd w i None). split; [reflexivity|]. split; [now split|]. split.
    + rewrite <- (upd_twice _ vs i (Some empty)), <- (upd_twice _ w i (Some [])). apply drop.
      * apply (change h vs w i v l); try assumption; [now left|]. split; [lia|]. split; [intros; now apply Fr|discriminate].
      * apply (upd_at _ _ _ _ _ Ev).
      * apply (upd_at _ _ _ _ _ H).
    + cbn [fst]. pose proof (count_upd _ some_in w i None _ H). unfold balanced in C. cbn [some_in bit] in *. lia.
Qed.

Lemma rep_sized s w i l : represents s w -> holds w i l -> exists rows cols, sized l rows cols.
Proof. intros R H. destruct (rep_var s w i l R H) as (v & _ & _ & O). eexists _, _. exact (owns_sized _ _ _ O). Qed.

Lemma holds_dec (w : @contents F) i : (exists l, holds w i l) \/ (forall l, ~ holds w i l).
Proof. unfold holds. destruct (nth_error w i) as [[l|]|]; [left; exists l; reflexivity| |]; right; discriminate. Qed.
Lemma possible_dec rows cols st : possible width rows cols st \/ ~ possible width rows cols st.
Proof.
  unfold possible, fits. destruct (Z.eq_dec rows 0), (Z.eq_dec cols 0); [left; now left| | |].
  all: destruct (Z_lt_dec 0 rows); [|right; lia]; destruct (Z_lt_dec 0 cols); [|right; lia].
  all: destruct st; [destruct (Z_le_dec (rows * padded width cols) int_max); [left; right|right]; lia|].
  all: destruct (Z_le_dec (rows * cols) int_max), (Z_le_dec (padded width cols) int_max); [left; right|right|right|right]; lia.
Qed.

Lemma permitted_dec s w c : represents s w -> permitted width w c \/ ~ permitted width w c.
Proof.
  intros R.
  assert (S1 : forall i, (exists l rows cols, holds w i l /\ sized l rows cols) \/ forall l, ~ holds w i l).
  { intros i. destruct (holds_dec w i) as [(l & H)|N]; [left|now right]. destruct (rep_sized _ _ _ _ R H) as (r & c0 & Z0). now exists l, r, c0. }
  assert (E1 : forall i, (exists l, holds w i l) \/ ~ exists l, holds w i l).
  { intros i. destruct (holds_dec w i) as [H|N]; [now left|right; intros (l & H); exact (N l H)]. }
  assert (N1 : forall i, holds w i [] \/ ~ holds w i []).
  { intros i. unfold holds. destruct (nth_error w i) as [[[|]|]|]; [left; reflexivity| | |]; right; discriminate. }
  assert (U : forall i l m, holds w i l -> holds w i m -> l = m) by (unfold holds; intros; congruence).
  destruct c as [|rows cols t st|i|i j|i j|i rows cols t st|i|i r c|i r c x|i|i j t|i ro co j ro' co' r c|i|i]; cbn [permitted]; auto.
  - apply possible_dec.
  - destruct (N1 i), (N1 j); tauto.
  - destruct (E1 i), (E1 j); tauto.
  - destruct (E1 i), (possible_dec rows cols st); tauto.
  - destruct (S1 i) as [(l & rows & cols & H & Z0)|N]; [|right; intros (l & ? & ? & H & _); exact (N l H)].
    destruct (Z_le_dec 0 r), (Z_lt_dec r rows), (Z_le_dec 0 c), (Z_lt_dec c cols); [left; exists l, rows, cols; auto|..];
      right; intros (l' & rows' & cols' & H' & Z1 & X); rewrite (U i l' l H' H) in Z1; destruct (sized_unique _ _ _ _ _ Z0 Z1); lia.
  - destruct (S1 i) as [(l & rows & cols & H & Z0)|N]; [|right; intros (l & ? & ? & H & _); exact (N l H)].
    destruct (Z_le_dec 0 r), (Z_lt_dec r rows), (Z_le_dec 0 c), (Z_lt_dec c cols); [left; exists l, rows, cols; auto|..];
      right; intros (l' & rows' & cols' & H' & Z1 & X); rewrite (U i l' l H' H) in Z1; destruct (sized_unique _ _ _ _ _ Z0 Z1); lia.
  - destruct (S1 i) as [(l & rows & cols & H & Z0)|N]; [|right; destruct t; intros (l & ? & ? & ? & H & _); exact (N l H)].
    destruct (S1 j) as [(m & rows' & cols' & H' & Z1)|N]; [|right; destruct t; intros (l' & m & ? & ? & _ & H' & _); exact (N m H')].
    destruct t.
    + destruct (Z.eq_dec rows cols') as [->|X]; [destruct (Z.eq_dec cols rows') as [->|X]; [destruct (Nat.eq_dec i j) as [E|E]|]|].
      * right. intros (l1 & m1 & r & c & _ & _ & _ & _ & N). contradiction.
      * left. exists l, m, cols', rows'. auto.
      * right. intros (l1 & m1 & r & c & K1 & K2 & K3 & K4 & _). rewrite (U i l1 l K1 H) in K3. rewrite (U j m1 m K2 H') in K4.
        destruct (sized_unique _ _ _ _ _ Z0 K3), (sized_unique _ _ _ _ _ Z1 K4). lia.
      * right. intros (l1 & m1 & r & c & K1 & K2 & K3 & K4 & _). rewrite (U i l1 l K1 H) in K3. rewrite (U j m1 m K2 H') in K4.
        destruct (sized_unique _ _ _ _ _ Z0 K3), (sized_unique _ _ _ _ _ Z1 K4). lia.
    + destruct (Z.eq_dec rows rows') as [->|X]; [destruct (Z.eq_dec cols cols') as [->|X]; [left; exists l, m, rows', cols'; auto|]|].
      * right. intros (l1 & m1 & r & c & K1 & K2 & K3 & K4). rewrite (U i l1 l K1 H) in K3. rewrite (U j m1 m K2 H') in K4.
        destruct (sized_unique _ _ _ _ _ Z0 K3), (sized_unique _ _ _ _ _ Z1 K4). lia.
      * right. intros (l1 & m1 & r & c & K1 & K2 & K3 & K4). rewrite (U i l1 l K1 H) in K3. rewrite (U j m1 m K2 H') in K4.
        destruct (sized_unique _ _ _ _ _ Z0 K3), (sized_unique _ _ _ _ _ Z1 K4). lia.
  - destruct (S1 i) as [(l & rows & cols & H & Z0)|N]; [|right; intros (l & ? & ? & ? & ? & ? & H & _); exact (N l H)].
    destruct (S1 j) as [(m & rows' & cols' & H' & Z1)|N]; [|right; intros (? & m & ? & ? & ? & ? & _ & K & _); exact (N m K)].
    assert (D : forall a b, a <= b \/ ~ a <= b) by lia.
    assert (G : (i <> j /\ 0 < r /\ 0 < c /\ 0 <= ro /\ ro + r <= rows /\ 0 <= co /\ co + c <= cols /\
      0 <= ro' /\ ro' + r <= rows' /\ 0 <= co' /\ co' + c <= cols') \/ ~ (i <> j /\ 0 < r /\ 0 < c /\ 0 <= ro /\ ro + r <= rows /\ 0 <= co /\ co + c <= cols /\
      0 <= ro' /\ ro' + r <= rows' /\ 0 <= co' /\ co' + c <= cols')) by lia.
    destruct G as [G|G]; [left; exists l, m, rows, cols, rows', cols'; tauto|right].
    intros (l1 & m1 & r1 & c1 & r2 & c2 & K1 & K2 & K3 & K4 & K5). apply G. clear G. rewrite (U i l1 l K1 H) in K3. rewrite (U j m1 m K2 H') in K4.
    destruct (sized_unique _ _ _ _ _ Z0 K3) as (-> & ->), (sized_unique _ _ _ _ _ Z1 K4) as (-> & ->). exact K5.
  - destruct (S1 i) as [(l & rows & cols & H & Z0)|N]; [|right; intros (l & ? & H & _); exact (N l H)].
    destruct (Z.eq_dec rows cols) as [->|X]; [left; exists l, cols; auto|right].
    intros (l1 & n & K1 & K2). rewrite (U i l1 l K1 H) in K2. destruct (sized_unique _ _ _ _ _ Z0 K2). lia.
Qed.

Lemma run_ok : forall cs s w, represents s w -> exists cs1 s' r w',
  run zero width junk room s cs1 = Ok (s', r) /\ history zero width w cs1 r w' /\ represents s' w' /\
  (count used (fst s') + count some_in w = count used (fst s) + count some_in w')%nat /\
  (cs = cs1 \/ exists c cs2, cs = cs1 ++ c :: cs2 /\ ~ permitted width w' c).
Proof.
  induction cs as [|c cs IH]; intros s w R.
  - exists [], s, [], w. split; [reflexivity|]. split; [reflexivity|]. split; [exact R|]. split; [lia|now left].
  - destruct (permitted_dec s w c R) as [P|N].
    + destruct (step_ok s w c R P) as (s1 & a & w1 & E1 & D & R1 & C1).
      destruct (IH s1 w1 R1) as (cs1 & s' & r & w' & E & T & R' & C & X).
      exists (c :: cs1), s', (a :: r), w'. cbn [run]. rewrite E1. cbn [bind]. rewrite E. cbn [bind].
      split; [reflexivity|]. split; [cbn [history]; split; [exact P|]; exists w1; now split|].
      split; [exact R'|]. split; [lia|]. destruct X as [->|(c2 & cs2 & -> & X)]; [now left|right]. exists c2, cs2. now split.
    + exists [], s, [], w. split; [reflexivity|]. split; [reflexivity|]. split; [exact R|]. split; [lia|]. right. exists c, cs. now split.
Qed.

Lemma start_rep : represents init_state (@nil (option rows_)).
Proof.
  split; cbn [fst snd init_state].
  - reflexivity.
  - intros [|i]; split; discriminate.
  - intros [|i] v l; discriminate.
  - intros [|i] j v v' p; discriminate.
Qed.

Lemma values cs : exists cs1 h vs r w,
  run zero width junk room init_state cs1 = Ok ((h, vs), r) /\ history zero width [] cs1 r w /\
  OwnSpec.in_use h = full w /\
  (cs = cs1 \/ exists c cs2, cs = cs1 ++ c :: cs2 /\ ~ permitted width w c).
Proof.
  destruct (run_ok cs _ _ start_rep) as (cs1 & (h & vs) & r & w & E & T & _ & C & X).
  exists cs1, h, vs, r, w. split; [exact E|]. split; [exact T|]. split; [|exact X].
  change (OwnSpec.in_use h) with (count used h). change (full w) with (count some_in w).
  unfold count in C at 2 3. cbn [fst init_state filter length] in C. lia.
Qed.
End MatOwn.
