(** Vectors own their memory. *)
From Coq Require Import ZArith List Bool Lia Arith.
From Verif.Base Require Import Prelude Lemmas.
From Verif.Model Require Import Own.
From Verif.Spec Require Import OwnSpec.
Import ListNotations.
Open Scope Z_scope.

(** Counting. *)
Definition bit (b : bool) : nat := if b then 1%nat else 0%nat.
Definition count {A} (f : A -> bool) (l : list A) : nat := length (filter f l).

Lemma count_app A (f : A -> bool) a b : count f (a ++ b) = (count f a + count f b)%nat.
Proof. unfold count. induction a as [|x a IH]; [reflexivity|]. cbn. destruct (f x); cbn; lia. Qed.
Lemma count_upd A (f : A -> bool) : forall l n x y, nth_error l n = Some y ->
  (count f (upd l n x) + bit (f y) = count f l + bit (f x))%nat.
Proof.
  unfold count. induction l as [|z l IH]; intros [|n] x y E; cbn in *; try discriminate.
  - injection E as ->. destruct (f x), (f y); cbn; lia.
  - specialize (IH n x y E). destruct (f z); cbn; lia.
Qed.

Lemma nth_error_in A (l : list A) n x : nth_error l n = Some x -> (n < length l)%nat.
Proof. intros E. apply nth_error_Some. congruence. Qed.
Lemma upd_at A (l : list A) n x y : nth_error l n = Some y -> nth_error (upd l n x) n = Some x.
Proof.
  intros E. rewrite nth_error_upd, Nat.eqb_refl. apply nth_error_in in E. apply Nat.ltb_lt in E. now rewrite E.
Qed.
Lemma upd_else A (l : list A) n m x : n <> m -> nth_error (upd l n x) m = nth_error l m.
Proof. intros E. rewrite nth_error_upd. apply Nat.eqb_neq in E. now rewrite E. Qed.
Lemma app_old A (l : list A) x n : (n < length l)%nat -> nth_error (l ++ [x]) n = nth_error l n.
Proof. intros. now apply nth_error_app1. Qed.
Lemma app_new A (l : list A) x : nth_error (l ++ [x]) (length l) = Some x.
Proof. rewrite nth_error_app2, Nat.sub_diag; [reflexivity|lia]. Qed.

Section Own.
Context {F : Type}.
Variable zero : F.
Variable width : Z.
Variable junk : nat -> F.
Variable room : heap F -> Z -> bool.
Hypothesis width_pos : 0 < width.

Definition used (o : option (list F)) : bool := match o with Some _ => true | None => false end.
Definition some_in (o : option (list F)) : bool := match o with Some (_ :: _) => true | _ => false end.
Definition owns (h : heap F) (v : vec) (l : list F) : Prop :=
  (l = [] /\ v = empty) \/ (l <> [] /\ exists p, v = mk_vec (Some p) (lenZ l) /\ nth_error h p = Some (Some l)).

(** The heap [h'] differs from [h] in what belongs to [v] or is new. *)
Definition beyond (h h' : heap F) (v v' : vec) : Prop :=
  (length h <= length h')%nat /\
  (forall p, (p < length h)%nat -> x_data v <> Some p -> nth_error h' p = nth_error h p) /\
  (forall p, x_data v' = Some p -> x_data v = Some p \/ (length h <= p)%nat).
Definition balanced (h h' : heap F) (l l' : list F) : Prop :=
  (count used h' + bit (some_in (Some l)) = count used h + bit (some_in (Some l')))%nat.

Lemma owns_dim h v l : owns h v l -> x_dim v = lenZ l.
Proof. intros [(-> & ->)|(_ & p & -> & _)]; reflexivity. Qed.

Lemma junk_block dim : 0 <= dim -> dim * width <= int_max ->
  map junk (seq 0 (Z.to_nat (size_t (wrap32 (size_t (dim * width))) / width))) = map junk (seq 0 (Z.to_nat dim)).
Proof.
  intros D L. unfold int_max in L. assert (0 <= dim * width) by (apply Z.mul_nonneg_nonneg; lia).
  replace (size_t (wrap32 (size_t (dim * width)))) with (dim * width).
  - rewrite Z.div_mul by lia. reflexivity.
  - unfold size_t, wrap32, int_max. rewrite (Z.mod_small (dim * width)) by lia. rewrite (Z.mod_small (dim * width)) by lia.
    destruct (Z.leb_spec (dim * width) 2147483647); [|lia]. now rewrite Z.mod_small by lia.
Qed.

Lemma init_ok h dim : 0 <= dim -> dim * width <= int_max ->
  init width junk room h dim = Ok None \/
  exists h' v l, init width junk room h dim = Ok (Some (h', v)) /\ lenZ l = dim /\ owns h' v l /\ beyond h h' empty v /\
    balanced h h' [] l.
Proof.
  intros D L. unfold init. destruct (Z.leb_spec 0 dim); [|lia]. cbn [check bind].
  destruct (Z.eqb_spec dim 0) as [->|N].
  - right. exists h, empty, []. split; [reflexivity|]. split; [reflexivity|]. split; [now left|]. split; [|unfold balanced; lia].
    split; [lia|]. split; [reflexivity|]. intros p E. discriminate.
  - rewrite junk_block by assumption. destruct (room h _); [right|now left].
    set (b := map junk (seq 0 (Z.to_nat dim))).
    assert (Lb : lenZ b = dim) by (unfold lenZ, b; rewrite map_length, seq_length; lia).
    assert (Nb : b <> []) by (intros E; rewrite E in Lb; cbn in Lb; lia).
    exists (h ++ [Some b]), (mk_vec (Some (length h)) dim), b. split; [reflexivity|]. split; [exact Lb|]. split.
    { right. split; [exact Nb|]. exists (length h). rewrite Lb. split; [reflexivity|apply app_new]. }
    split.
    { split; [rewrite app_length; cbn; lia|]. split; [intros; now apply app_old|]. intros p E. injection E as <-. right. lia. }
    { unfold balanced. rewrite count_app. destruct b; [contradiction|]. cbn. lia. }
Qed.

Lemma upd_eq (h : heap F) p b o : nth_error h p = Some o -> (count used (upd h p (Some b)) + bit (used o) = count used h + 1)%nat.
Proof. intros E. rewrite (count_upd _ used _ _ (Some b) _ E). reflexivity. Qed.

Lemma zero_ok h v l : owns h v l -> exists h', set_zero zero h v = Ok h' /\ owns h' v (repeat zero (length l)) /\
  beyond h h' v v /\ balanced h h' l (repeat zero (length l)).
Proof.
  intros [(-> & ->)|(N & p & -> & E)].
  - exists h. split; [reflexivity|]. split; [now left|]. split; [|unfold balanced; reflexivity].
    split; [lia|]. split; [reflexivity|auto].
  - unfold set_zero, mem_zero. cbn [x_data x_dim]. unfold block. rewrite E. cbn [bind].
    assert (0 <= lenZ l) by (unfold lenZ; lia). 
    destruct (Z.leb_spec 0 (lenZ l)); [|lia]. destruct (Z.leb_spec (0 + lenZ l) (lenZ l)); [|lia]. cbn [andb check bind].
    replace (firstn (Z.to_nat 0) l ++ repeat zero (Z.to_nat (lenZ l)) ++ skipn (Z.to_nat (0 + lenZ l)) l) with (repeat zero (length l)).
    + eexists. split; [reflexivity|]. split; [right|split].
      * split; [destruct l; [contradiction|discriminate]|]. exists p. split; [unfold lenZ; now rewrite repeat_length|].
        apply (upd_at _ _ _ _ _ E).
      * split; [rewrite upd_length; lia|]. split; [|auto]. intros q Q D. apply upd_else. cbn in D. congruence.
      * unfold balanced. pose proof (upd_eq h p (repeat zero (length l)) _ E). cbn [used bit] in H2.
        destruct l; [contradiction|]. cbn [some_in bit repeat length] in *. lia.
    + cbn [firstn Z.to_nat app]. unfold lenZ. rewrite Nat2Z.id. replace (Z.to_nat (0 + Z.of_nat (length l))) with (length l) by lia.
      rewrite skipn_all. now rewrite app_nil_r.
Qed.

Lemma destroy_ok h v l : owns h v l -> exists h', destroy h v = Ok (h', empty) /\ length h' = length h /\
  (forall p, x_data v <> Some p -> nth_error h' p = nth_error h p) /\ balanced h h' l [].
Proof.
  intros [(-> & ->)|(N & p & -> & E)].
  - exists h. repeat split. 
  - unfold destroy, release, block. cbn [x_data]. rewrite E. cbn [bind]. eexists. split; [reflexivity|].
    split; [apply upd_length|]. split.
    + intros q D. apply upd_else. congruence.
    + unfold balanced. pose proof (count_upd _ used h p None _ E). destruct l; [contradiction|]. cbn [some_in bit used] in *. lia.
Qed.

Lemma owns_frame h h' v l : owns h v l -> (forall p, x_data v = Some p -> nth_error h' p = nth_error h p) -> owns h' v l.
Proof.
  intros [O|(N & p & -> & E)] Fr; [now left|]. right. split; [exact N|]. exists p. split; [reflexivity|].
  rewrite Fr; [exact E|reflexivity].
Qed.

Lemma beyond_trans h h1 h2 v : beyond h h1 empty v -> beyond h1 h2 v v -> beyond h h2 empty v.
Proof.
  intros (L1 & F1 & N1) (L2 & F2 & N2). split; [lia|]. split; [|exact N1].
  intros p P D. rewrite F2; [now apply F1|lia|]. intros E. destruct (N1 p E) as [X|X]; [discriminate|lia].
Qed.

(** The part after [kCopyData]. *)
Lemma start_ok h dim (zeros : bool) : 0 <= dim -> dim * width <= int_max ->
  let r := (r <- init width junk room h dim ;;
    match r with
    | None => Ok (h, empty, false)
    | Some (h, v) => h <- (if zeros then set_zero zero h v else Ok h) ;; Ok (h, v, true)
    end) in
  r = Ok (h, empty, false) \/
  exists h' v l, r = Ok (h', v, true) /\ lenZ l = dim /\ (zeros = true -> l = repeat zero (Z.to_nat dim)) /\
    owns h' v l /\ beyond h h' empty v /\ balanced h h' [] l.
Proof.
  intros D L r. unfold r. destruct (init_ok h dim D L) as [->|(h1 & v & l & -> & Ll & O & B & C)]; [now left|]. right. cbn [bind].
  destruct zeros.
  - destruct (zero_ok h1 v l O) as (h2 & -> & O2 & B2 & C2). cbn [bind].
    exists h2, v, (repeat zero (length l)). split; [reflexivity|]. split; [unfold lenZ; now rewrite repeat_length|].
    split; [intros _; f_equal; unfold lenZ in Ll; lia|]. split; [exact O2|]. split; [exact (beyond_trans _ _ _ _ B B2)|].
    unfold balanced in *. lia.
  - exists h1, v, l. split; [reflexivity|]. split; [exact Ll|]. split; [discriminate|]. auto.
Qed.

Lemma anew_ok h v l dim (zeros : bool) : owns h v l -> 0 <= dim -> dim * width <= int_max ->
  exists h' v' l' done, resize_anew zero width junk room h v dim zeros = Ok (h', v', done) /\ owns h' v' l' /\
    beyond h h' v v' /\ balanced h h' l l' /\
    (done = true -> lenZ l' = dim /\ (zeros = true -> l' = repeat zero (Z.to_nat dim)) /\ (zeros = false -> lenZ l = dim -> l' = l)) /\
    (done = false -> l' = []).
Proof.
  intros O D L. unfold resize_anew. pose proof O as [(-> & ->)|(N & p & -> & E)].
  - cbn [x_data empty]. change (mk_vec None 0) with empty.
    destruct (start_ok h dim zeros D L) as [->|(h' & v & l & -> & Ll & Z0 & O2 & B & C)].
    + exists h, empty, [], false. split; [reflexivity|]. split; [now left|]. split; [split; [lia|split; [reflexivity|auto]]|].
      split; [reflexivity|]. split; [discriminate|reflexivity].
    + exists h', v, l, true. split; [reflexivity|]. split; [exact O2|]. split; [exact B|]. split; [exact C|]. split; [|discriminate].
      intros _. split; [exact Ll|]. split; [exact Z0|]. intros _ E. cbn in E. subst dim. destruct l; [reflexivity|unfold lenZ in E; cbn in E; lia].
  - cbn [x_data x_dim]. destruct (Z.eqb_spec (lenZ l) dim) as [Ed|Nd].
    + destruct zeros.
      * destruct (zero_ok h _ l O) as (h2 & -> & O2 & B2 & C2). cbn [bind].
        exists h2, (mk_vec (Some p) (lenZ l)), (repeat zero (length l)), true. split; [reflexivity|]. split; [exact O2|]. split; [exact B2|].
        split; [exact C2|]. split; [|discriminate]. intros _. split; [unfold lenZ in *; now rewrite repeat_length|].
        split; [intros _; f_equal; unfold lenZ in Ed; lia|discriminate].
      * cbn [bind]. exists h, (mk_vec (Some p) (lenZ l)), l, true. split; [reflexivity|]. split; [exact O|]. split; [split; [lia|split; [reflexivity|auto]]|].
        split; [reflexivity|]. split; [|discriminate]. intros _. split; [exact Ed|]. split; [discriminate|reflexivity].
    + destruct (destroy_ok h _ l O) as (h1 & -> & L1 & F1 & C1). cbn [bind].
      destruct (start_ok h1 dim zeros D L) as [->|(h' & v & l' & -> & Ll & Z0 & O2 & (B1 & B2 & B3) & C)].
      * exists h1, empty, [], false. split; [reflexivity|]. split; [now left|]. split; [split; [lia|split; [intros; now apply F1|intros q Q; discriminate]]|].
        split; [exact C1|]. split; [discriminate|reflexivity].
      * exists h', v, l', true. split; [reflexivity|]. split; [exact O2|]. split; [split; [lia|split]|].
        -- intros q Q Dq. rewrite B2; [now apply F1|lia|discriminate].
        -- intros q Q. destruct (B3 q Q) as [X|X]; [discriminate|right; lia].
        -- split; [unfold balanced in *; lia|]. split; [|discriminate]. intros _. split; [exact Ll|]. split; [exact Z0|]. intros _ X. lia.
Qed.

Lemma copy_ok (h : heap F) p q b s n : nth_error h p = Some (Some b) -> nth_error h q = Some (Some s) ->
  0 <= n <= lenZ b -> n <= lenZ s ->
  mem_copy h (Some p) (Some q) n = Ok (upd h p (Some (firstn (Z.to_nat n) s ++ skipn (Z.to_nat n) b))).
Proof.
  intros P Q B S. unfold mem_copy, block. rewrite P, Q. cbn [bind].
  destruct (Z.leb_spec 0 n); [|lia]. destruct (Z.leb_spec n (lenZ b)); [|lia]. destruct (Z.leb_spec n (lenZ s)); [|lia]. reflexivity.
Qed.

Lemma nth_first (l : list F) : forall n k d, (k < n)%nat -> nth k (firstn n l) d = nth k l d.
Proof. induction l as [|x l IH]; intros [|n] [|k] d H; cbn; try lia; try reflexivity. apply IH. lia. Qed.

Lemma resize_ok h v l dim t : owns h v l -> 0 <= dim -> dim * width <= int_max ->
  exists h' v' l' done, resize zero width junk room h v dim t = Ok (h', v', done) /\ owns h' v' l' /\
    beyond h h' v v' /\ balanced h h' l l' /\
    (done = true -> resized zero t l dim l') /\
    (done = false -> l' = match t with CopyData => l | _ => [] end).
Proof.
  intros O D L. destruct t; cbn [resize].
  - destruct (anew_ok h v l dim true O D L) as (h' & v' & l' & done & E & O2 & B & C & T & Fl).
    exists h', v', l', done. split; [exact E|]. do 3 (split; [assumption|]). split; [|exact Fl].
    intros X. destruct (T X) as (Y1 & Y2 & _). split; [exact Y1|now apply Y2].
  - destruct (anew_ok h v l dim false O D L) as (h' & v' & l' & done & E & O2 & B & C & T & Fl).
    exists h', v', l', done. split; [exact E|]. do 3 (split; [assumption|]). split; [|exact Fl].
    intros X. destruct (T X) as (Y1 & _ & Y2). split; [exact Y1|now apply Y2].
  - pose proof O as [(-> & ->)|(N & p & -> & Ep)]; cbn [x_data empty].
    + change (mk_vec None 0) with empty. destruct (anew_ok h empty [] dim true O D L) as (h' & v' & l' & done & E & O2 & B & C & T & Fl).
      exists h', v', l', done. split; [exact E|]. do 3 (split; [assumption|]). split; [|exact Fl].
      intros X. destruct (T X) as (Y1 & Y2 & _). split; [exact Y1|]. rewrite (Y2 eq_refl). intros k K. rewrite nth_repeat. now destruct (Z.to_nat k).
    + cbn [x_dim]. destruct (Z.eqb_spec dim 0) as [->|Nz].
      * destruct (anew_ok h _ l 0 true O D L) as (h' & v' & l' & done & E & O2 & B & C & T & Fl).
        assert (Dn : done = true).
        { revert E. unfold resize_anew. cbn [x_data x_dim]. destruct (Z.eqb_spec (lenZ l) 0) as [X|X]; [destruct l; [contradiction|unfold lenZ in X; cbn in X; lia]|].
          destruct (destroy_ok h _ l O) as (h1 & -> & _). cbn [bind]. unfold init. cbn [Z.leb Z.compare Z.eqb check bind].
          unfold set_zero, mem_zero. cbn. congruence. }
        subst done. exists h', v', l', true. split; [exact E|]. do 3 (split; [assumption|]). split; [|discriminate].
        intros X. destruct (T X) as (Y1 & Y2 & _). split; [exact Y1|]. intros k K. lia.
      * destruct (Z.eqb_spec (lenZ l) dim) as [Ed|Nd].
        { exists h, (mk_vec (Some p) (lenZ l)), l, true. split; [reflexivity|]. split; [exact O|]. split; [split; [lia|split; [reflexivity|auto]]|].
          split; [reflexivity|]. split; [|discriminate]. intros _. split; [exact Ed|reflexivity]. }
        destruct (anew_ok h empty [] dim false ltac:(now left) D L) as (h1 & tmp & lt & done & -> & O2 & (B1 & B2 & B3) & C & T & Fl). cbn [bind].
        destruct done; cbn [negb].
        2: { rewrite (Fl eq_refl) in *.
             exists h1, (mk_vec (Some p) (lenZ l)), l, false. split; [reflexivity|].
             assert (Pp : (p < length h)%nat) by (now apply nth_error_in in Ep).
             split; [apply (owns_frame h); [exact O|]; cbn [x_data]; intros q Q; injection Q as <-; apply B2; [exact Pp|discriminate]|].
             split; [split; [lia|split; [intros; apply B2; [assumption|discriminate]|auto]]|].
             split; [unfold balanced in *; lia|]. split; [discriminate|reflexivity]. }
        destruct (T eq_refl) as (Lt & _ & _).
        destruct O2 as [(-> & ->)|(Nt & q & -> & Eq)]; [cbn in Lt; congruence|].
        assert (Pp : (p < length h)%nat) by (now apply nth_error_in in Ep).
        assert (Ep1 : nth_error h1 p = Some (Some l)) by (rewrite B2; [exact Ep|exact Pp|discriminate]).
        assert (Q : (length h <= q)%nat) by (destruct (B3 q eq_refl) as [X|X]; [discriminate|exact X]).
        assert (Npq : q <> p) by lia. cbn [x_data].
        assert (Ll : 0 <= lenZ l) by (unfold lenZ; lia).
        (* what the copy leaves *)
        assert (G : exists h2 l2, (if dim >? lenZ l
                    then h <- mem_copy h1 (Some q) (Some p) (lenZ l) ;; mem_zero zero h (Some q) (lenZ l) (dim - lenZ l)
                    else mem_copy h1 (Some q) (Some p) dim) = Ok h2 /\ nth_error h2 q = Some (Some l2) /\ lenZ l2 = dim /\
          (forall k, 0 <= k < dim -> nth (Z.to_nat k) l2 zero = nth (Z.to_nat k) l zero) /\ length h2 = length h1 /\
          (forall x, x <> q -> nth_error h2 x = nth_error h1 x) /\ count used h2 = count used h1).
        { rewrite Z.gtb_ltb. destruct (Z.ltb_spec (lenZ l) dim) as [G|G].
          - rewrite (copy_ok h1 q p lt l) by (try assumption; lia). cbn [bind].
            unfold mem_zero, block. rewrite (upd_at _ _ _ _ _ Eq). cbn [bind].
            set (b1 := firstn (Z.to_nat (lenZ l)) l ++ skipn (Z.to_nat (lenZ l)) lt).
            assert (Lb1 : lenZ b1 = dim) by (unfold b1, lenZ in *; rewrite app_length, firstn_length, skipn_length; lia).
            destruct (Z.leb_spec 0 (dim - lenZ l)); [|lia]. destruct (Z.leb_spec (lenZ l + (dim - lenZ l)) (lenZ b1)); [|lia]. cbn [andb check bind].
            set (b2 := firstn _ b1 ++ _). 
            assert (Eb : b2 = l ++ repeat zero (Z.to_nat (dim - lenZ l))).
            { unfold b2. replace (Z.to_nat (lenZ l + (dim - lenZ l))) with (length b1) by (unfold lenZ in *; lia). rewrite skipn_all, app_nil_r.
              unfold b1. unfold lenZ. rewrite Nat2Z.id, firstn_all. rewrite firstn_app, Nat.sub_diag, firstn_all, app_nil_r. reflexivity. }
            eexists _, b2. split; [reflexivity|]. split; [apply (upd_at _ _ _ _ _ (upd_at _ _ _ _ _ Eq))|].
            split; [rewrite Eb; unfold lenZ in *; rewrite app_length, repeat_length; lia|]. split.
            + intros k K. rewrite Eb. destruct (Nat.lt_ge_cases (Z.to_nat k) (length l)).
              * now rewrite app_nth1.
              * rewrite app_nth2 by assumption. rewrite nth_repeat. symmetry. now apply nth_overflow.
            + split; [now rewrite !upd_length|]. split; [intros x X; rewrite !upd_else; congruence|].
              pose proof (upd_eq h1 q b1 _ Eq). pose proof (upd_eq _ q b2 _ (upd_at _ _ _ (Some b1) _ Eq)). cbn [used bit] in *. lia.
          - rewrite (copy_ok h1 q p lt l) by (try assumption; lia).
            set (b1 := firstn (Z.to_nat dim) l ++ skipn (Z.to_nat dim) lt).
            assert (Eb : b1 = firstn (Z.to_nat dim) l).
            { unfold b1. replace (Z.to_nat dim) with (length lt) at 2 by (unfold lenZ in Lt; lia). now rewrite skipn_all, app_nil_r. }
            eexists _, b1. split; [reflexivity|]. split; [apply (upd_at _ _ _ _ _ Eq)|].
            split; [rewrite Eb; unfold lenZ in *; rewrite firstn_length; lia|]. split.
            + intros k K. rewrite Eb. apply nth_first. lia.
            + split; [now rewrite !upd_length|]. split; [intros x X; rewrite !upd_else; congruence|].
              pose proof (upd_eq h1 q b1 _ Eq). cbn [used bit] in *. lia. }
        rewrite Z.gtb_ltb in *. destruct G as (h2 & l2 & E2 & Eq2 & L2 & V2 & Lh2 & F2 & C2).
        cbn [x_data]. rewrite E2. cbn [bind].
        assert (O3 : owns h2 (mk_vec (Some p) (lenZ l)) l).
        { right. split; [exact N|]. exists p. split; [reflexivity|]. rewrite F2; [exact Ep1|congruence]. }
        destruct (destroy_ok h2 _ l O3) as (h3 & -> & L3 & F3 & C3). cbn [bind].
        exists h3, (mk_vec (Some q) (lenZ lt)), l2, true. split; [reflexivity|]. split.
        { right. split; [intros ->; cbn in L2; lia|]. exists q. split; [f_equal; lia|]. rewrite F3; [exact Eq2|cbn; congruence]. }
        split; [split; [lia|split]|].
        -- intros x X Dx. rewrite F3 by exact Dx. rewrite F2 by lia. apply B2; [exact X|discriminate].
        -- intros x X. injection X as <-. right. exact Q.
        -- split.
           { unfold balanced in *. destruct l; [contradiction|]. destruct lt; [contradiction|]. destruct l2; [cbn in L2; lia|].
             cbn [some_in bit] in *. lia. }
           split; [|discriminate]. intros _. split; [exact L2|exact V2].
Qed.

(** All variables. *)
Record represents (s : state F) (w : @contents F) : Prop := mk_represents {
  rep_length : length (snd s) = length w;
  rep_none : forall i, nth_error (snd s) i = Some None <-> nth_error w i = Some None;
  rep_owns : forall i v l, nth_error (snd s) i = Some (Some v) -> nth_error w i = Some (Some l) -> owns (fst s) v l;
  rep_apart : forall i j v v' p, nth_error (snd s) i = Some (Some v) -> nth_error (snd s) j = Some (Some v') ->
    x_data v = Some p -> x_data v' = Some p -> i = j }.

Lemma rep_var s w i l : represents s w -> holds w i l -> exists v, nth_error (snd s) i = Some (Some v) /\ var (snd s) i = Ok v /\ owns (fst s) v l.
Proof.
  intros R H. unfold holds in H. destruct (nth_error (snd s) i) as [[v|]|] eqn:E.
  - exists v. unfold var. rewrite E. split; [reflexivity|]. split; [reflexivity|]. now apply (rep_owns s w R i).
  - apply (rep_none s w R) in E. congruence.
  - apply nth_error_None in E. rewrite (rep_length s w R) in E. apply nth_error_in in H. lia.
Qed.

Lemma rep_pointer s w i v p : represents s w -> nth_error (snd s) i = Some (Some v) -> x_data v = Some p -> (p < length (fst s))%nat.
Proof.
  intros R E D. destruct (nth_error w i) as [[l|]|] eqn:W.
  - destruct (rep_owns s w R i v l E W) as [(-> & ->)|(_ & q & -> & Q)]; [discriminate|]. injection D as ->. now apply nth_error_in in Q.
  - apply (rep_none s w R) in W. congruence.
  - apply nth_error_None in W. rewrite <- (rep_length s w R) in W. apply nth_error_in in E. lia.
Qed.

(** One variable changes. *)
Lemma change h vs w i v l h' v' l' : represents (h, vs) w -> nth_error vs i = Some (Some v) -> holds w i l ->
  owns h' v' l' -> beyond h h' v v' -> represents (h', upd vs i (Some v')) (upd w i (Some l')).
Proof.
  intros R E H O (B1 & B2 & B3). unfold holds in H. split; cbn [fst snd].
  - rewrite !upd_length. apply (rep_length _ _ R).
  - intros k. destruct (Nat.eq_dec i k) as [<-|N].
    + rewrite (upd_at _ _ _ _ _ E), (upd_at _ _ _ _ _ H). split; discriminate.
    + rewrite !upd_else by exact N. apply (rep_none _ _ R k).
  - intros k u m. destruct (Nat.eq_dec i k) as [<-|N].
    + rewrite (upd_at _ _ _ _ _ E), (upd_at _ _ _ _ _ H). intros [= <-] [= <-]. exact O.
    + rewrite !upd_else by exact N. intros Eu Em. apply (owns_frame h); [exact (rep_owns _ _ R k u m Eu Em)|].
      intros p P. apply B2; [exact (rep_pointer _ _ k u p R Eu P)|].
      intros X. apply N. exact (rep_apart _ _ R i k v u p E Eu X P).
  - intros k m u u' p. 
    assert (Key : forall k u, i <> k -> nth_error (upd vs i (Some v')) k = Some (Some u) -> x_data v' = Some p -> x_data u = Some p -> False).
    { intros j t N Et X Y. rewrite upd_else in Et by exact N. destruct (B3 p X) as [Z0|Z0].
      - apply N. exact (rep_apart _ _ R i j v t p E Et Z0 Y).
      - pose proof (rep_pointer _ _ j t p R Et Y). cbn [fst] in *. lia. }
    destruct (Nat.eq_dec i k) as [<-|N]; destruct (Nat.eq_dec i m) as [<-|M]; try reflexivity.
    + rewrite (upd_at _ _ _ _ _ E). intros [= <-] Eu P Q. destruct (Key m u' M Eu P Q).
    + intros Eu. rewrite (upd_at _ _ _ _ _ E). intros [= <-] P Q. destruct (Key k u N Eu Q P).
    + rewrite !upd_else by assumption. apply (rep_apart _ _ R).
Qed.

(** A variable is added. *)
Lemma add h vs w h' v' l' : represents (h, vs) w -> owns h' v' l' -> beyond h h' empty v' ->
  represents (h', vs ++ [Some v']) (w ++ [Some l']).
Proof.
  intros R O (B1 & B2 & B3). assert (Ln : length vs = length w) by apply (rep_length _ _ R).
  assert (At : forall k (x : option vec), nth_error (vs ++ [Some v']) k = Some x -> ((k < length vs)%nat /\ nth_error vs k = Some x) \/ (k = length vs /\ x = Some v')).
  { intros k x X. destruct (Nat.lt_ge_cases k (length vs)) as [K|K]; [left; rewrite app_old in X; auto|right].
    assert (k = length vs) as -> by (apply nth_error_in in X; rewrite app_length in X; cbn in X; lia). rewrite app_new in X. split; congruence. }
  split; cbn [fst snd].
  - rewrite !app_length. cbn. lia.
  - intros k. destruct (Nat.lt_ge_cases k (length vs)) as [K|K].
    + rewrite !app_old by lia. apply (rep_none _ _ R k).
    + split; intros X.
      * destruct (At k _ X) as [(Y & _)|(_ & Y)]; [lia|discriminate].
      * assert (k = length w) as -> by (apply nth_error_in in X; rewrite app_length in X; cbn in X; lia). rewrite app_new in X. discriminate.
  - intros k u m Eu Em. destruct (At k _ Eu) as [(K & X)|(-> & X)].
    + rewrite app_old in Em by lia. apply (owns_frame h); [exact (rep_owns _ _ R k u m X Em)|].
      intros p P. apply B2; [exact (rep_pointer _ _ k u p R X P)|discriminate].
    + rewrite Ln, app_new in Em. injection X as ->. injection Em as <-. exact O.
  - intros k m u u' p Ek Em P Q. 
    assert (Key : forall k u, (k < length vs)%nat -> nth_error vs k = Some (Some u) -> x_data u = Some p -> x_data v' = Some p -> False).
    { intros j t J Et X Y. destruct (B3 p Y) as [Z0|Z0]; [discriminate|]. pose proof (rep_pointer _ _ j t p R Et X). cbn [fst] in *. lia. }
    destruct (At k _ Ek) as [(K & X)|(-> & X)]; destruct (At m _ Em) as [(M & Y)|(-> & Y)]; try reflexivity.
    + exact (rep_apart _ _ R k m u u' p X Y P Q).
    + injection Y as ->. destruct (Key k u K X P Q).
    + injection X as ->. destruct (Key m u' M Y Q P).
Qed.

Lemma same_heap (h : heap F) v v' : (forall p, x_data v' = Some p -> x_data v = Some p) -> beyond h h v v'.
Proof. intros H. split; [lia|]. split; [reflexivity|]. intros p P. left. now apply H. Qed.

(** Variables exchange what they have. *)
Lemma rearrange h vs w vs' w' (src : nat -> option nat) : represents (h, vs) w -> length vs' = length w' ->
  (forall k, match src k with
             | Some m => nth_error vs' k = nth_error vs m /\ nth_error w' k = nth_error w m
             | None => nth_error vs' k = Some (Some empty) /\ nth_error w' k = Some (Some [])
             end) ->
  (forall k k' m, src k = Some m -> src k' = Some m -> k = k') -> represents (h, vs') w'.
Proof.
  intros R L H J. split; cbn [fst snd].
  - exact L.
  - intros k. specialize (H k). destruct (src k) as [m|]; destruct H as (-> & ->); [apply (rep_none _ _ R m)|split; discriminate].
  - intros k v l. specialize (H k). destruct (src k) as [m|]; destruct H as (-> & ->); [apply (rep_owns _ _ R m)|].
    intros [= <-] [= <-]. now left.
  - intros i j v v' p E E' P P'. pose proof (H i) as Hi. pose proof (H j) as Hj.
    destruct (src i) as [m|] eqn:Si; destruct Hi as (Hi & _); rewrite Hi in E; [|injection E as <-; discriminate].
    destruct (src j) as [n|] eqn:Sj; destruct Hj as (Hj & _); rewrite Hj in E'; [|injection E' as <-; discriminate].
    apply (J i j m Si). rewrite Sj. f_equal. exact (rep_apart _ _ R n m v' v p E' E P' P).
Qed.

(** A variable that has nothing is no more, or does not come into existence. *)
Lemma drop h vs w i : represents (h, vs) w -> nth_error vs i = Some (Some empty) -> holds w i [] ->
  represents (h, upd vs i None) (upd w i None).
Proof.
  intros R E H. unfold holds in H. split; cbn [fst snd].
  - rewrite !upd_length. apply (rep_length _ _ R).
  - intros k. destruct (Nat.eq_dec i k) as [<-|N].
    + rewrite (upd_at _ _ _ _ _ E), (upd_at _ _ _ _ _ H). tauto.
    + rewrite !upd_else by exact N. apply (rep_none _ _ R k).
  - intros k v l. destruct (Nat.eq_dec i k) as [<-|N]; [rewrite (upd_at _ _ _ _ _ E); discriminate|].
    rewrite !upd_else by exact N. apply (rep_owns _ _ R k).
  - intros k m v v' p. destruct (Nat.eq_dec i k) as [<-|N]; [rewrite (upd_at _ _ _ _ _ E); discriminate|].
    destruct (Nat.eq_dec i m) as [<-|M]; [rewrite (upd_at _ _ _ _ _ E); discriminate|]. rewrite !upd_else by assumption. apply (rep_apart _ _ R).
Qed.

Lemma upd_twice A (l : list A) n x y : upd (upd l n x) n y = upd l n y.
Proof. revert n. induction l as [|z l IH]; intros [|n]; cbn; try reflexivity. now rewrite IH. Qed.
Lemma upd_id A (l : list A) : forall n x, nth_error l n = Some x -> upd l n x = l.
Proof. induction l as [|z l IH]; intros [|n] x; cbn; try discriminate; [congruence|]. intros E. now rewrite IH. Qed.
Lemma upd_snoc A (l : list A) n x y : (n < length l)%nat -> upd (l ++ [y]) n x = upd l n x ++ [y].
Proof. revert n. induction l as [|z l IH]; intros [|n] H; cbn in *; try lia; [reflexivity|]. rewrite IH by lia. reflexivity. Qed.
Lemma upd_last A (l : list A) x y : upd (l ++ [y]) (length l) x = l ++ [x].
Proof. induction l as [|z l IH]; cbn; [reflexivity|]. now rewrite IH. Qed.

(** Blocks that a call leaves without an owner. *)
Definition lost (w : @contents F) (c : call F) : nat :=
  match c with Assign i _ => match nth_error w i with Some (Some (_ :: _)) => 1 | _ => 0 end%nat | _ => 0%nat end.
Lemma rep_get h vs w i l : represents (h, vs) w -> holds w i l -> exists v, nth_error vs i = Some (Some v) /\ var vs i = Ok v /\ owns h v l.
Proof. intros R. exact (rep_var (h, vs) w i l R). Qed.

Lemma step_ok s w c : represents s w -> permitted width w c ->
  exists s' a w', step zero width junk room s c = Ok (s', a) /\ does zero w c a w' /\ represents s' w' /\
    (count used (fst s') + count some_in w = count used (fst s) + count some_in w' + lost w c)%nat.
Proof.
  destruct s as (h & vs). intros R P. assert (Ln : length vs = length w) by apply (rep_length _ _ R).
  destruct c as [|dim t|i|i j|i j|i dim t|i k|i k x|i|i j|i]; cbn [permitted] in P; cbn [step lost fst].
  - exists (h, vs ++ [Some empty]), Done, (w ++ [Some []]). split; [reflexivity|]. split; [now split|].
    split; [|cbn [fst]; rewrite count_app; cbn; lia].
    apply (add h); [exact R|now left|]. now apply same_heap.
  - destruct P as (D & L).
    destruct (resize_ok h empty [] dim t ltac:(now left) D L) as (h' & v' & l' & done & E & O & B & C & T & Fl).
    rewrite E. cbn [bind].
    assert (R2 := add h vs w h' v' l' R O B). destruct done.
    + exists (h', vs ++ [Some v']), Done, (w ++ [Some l']). split; [reflexivity|]. split; [left; split; [reflexivity|]; eauto|].
      split; [exact R2|]. cbn [fst]. rewrite count_app. unfold balanced in C. unfold count in *. cbn [filter some_in bit length] in *. destruct l'; cbn [some_in bit length] in *; lia.
    + assert (l' = []) as -> by (rewrite (Fl eq_refl); now destruct t).
      assert (v' = empty) as -> by (destruct O as [(_ & X)|(X & _)]; [exact X|contradiction]).
      exists (h', vs ++ [None]), NoMemory, (w ++ [None]). split; [reflexivity|]. split; [right; now split|]. split.
      * rewrite <- (upd_last _ vs None (Some empty)), <- (upd_last _ w None (Some [])), <- Ln.
        apply drop; [exact R2|apply app_new|]. unfold holds. rewrite Ln. apply app_new.
      * cbn [fst]. rewrite count_app. unfold balanced in C. unfold count in *. cbn [filter some_in bit length] in *. lia.
  - destruct P as (l & H). destruct (rep_get _ _ _ i l R H) as (v & Ev & -> & O). cbn [fst snd] in *. cbn [bind].
    exists (h, upd vs i (Some empty) ++ [Some v]), Done, (upd w i (Some []) ++ [Some l]). split; [reflexivity|].
    split; [split; [reflexivity|]; eauto|]. pose proof H as H'. unfold holds in H'.
    assert (Ii := nth_error_in _ _ _ _ Ev). split.
    + apply (rearrange h vs w _ _ (fun k => if Nat.eqb k i then None else if Nat.eqb k (length vs) then Some i else Some k) R).
      * rewrite !app_length, !upd_length. cbn. lia.
      * intros k. destruct (Nat.eqb_spec k i) as [->|N].
        { rewrite !app_old by (rewrite upd_length; lia). split; eapply upd_at; eassumption. }
        destruct (Nat.eqb_spec k (length vs)) as [->|M].
        { split; [rewrite <- (upd_length _ vs i (Some empty)) at 1; rewrite app_new; now rewrite Ev|].
          rewrite Ln, <- (upd_length _ w i (Some [])) at 1. rewrite app_new. now rewrite H'. }
        destruct (Nat.lt_ge_cases k (length vs)).
        { rewrite !app_old by (rewrite upd_length; lia). rewrite !upd_else by congruence. now split. }
        { split; transitivity (@None (option vec)) || transitivity (@None (option (list F))); try (apply nth_error_None; rewrite ?app_length, ?upd_length; cbn; lia); symmetry; apply nth_error_None; lia. }
      * intros k k' m. destruct (Nat.eqb_spec k i); [discriminate|]. destruct (Nat.eqb_spec k' i); [discriminate|].
        destruct (Nat.eqb_spec k (length vs)), (Nat.eqb_spec k' (length vs)); intros; congruence.
    + cbn [fst]. rewrite count_app. pose proof (count_upd _ some_in w i (Some []) _ H'). unfold count in *. cbn [filter some_in bit length] in *.
      destruct l; cbn [some_in bit length] in *; lia.
  - destruct P as ((l & Hi) & (m & Hj)). destruct (rep_get _ _ _ i l R Hi) as (v & Ev & -> & O). cbn [fst snd] in *. cbn [bind].
    destruct (rep_get _ _ _ j m R Hj) as (u & Eu & -> & Ou). cbn [fst snd] in *. cbn [bind]. unfold holds in Hi, Hj.
    exists (h, upd (upd vs i (Some u)) j (Some empty)), Done, (upd (upd w i (Some m)) j (Some [])). split; [reflexivity|].
    split; [split; [reflexivity|]; exists m; now split|]. 
    assert (Ej : exists o, nth_error (upd vs i (Some u)) j = Some o).
    { destruct (Nat.eq_dec i j) as [<-|N]; [rewrite (upd_at _ _ _ _ _ Ev)|rewrite upd_else by exact N]; eauto. }
    assert (Ej' : exists o, nth_error (upd w i (Some m)) j = Some o).
    { destruct (Nat.eq_dec i j) as [<-|N]; [rewrite (upd_at _ _ _ _ _ Hi)|rewrite upd_else by exact N]; eauto. }
    destruct Ej as (o & Ej). destruct Ej' as (o' & Ej'). split.
    + apply (rearrange h vs w _ _ (fun k => if Nat.eqb k j then None else if Nat.eqb k i then Some j else Some k) R).
      * rewrite !upd_length. exact Ln.
      * intros k. destruct (Nat.eqb_spec k j) as [->|N]; [split; eapply upd_at; eassumption|]. rewrite !(upd_else _ _ j k) by congruence.
        destruct (Nat.eqb_spec k i) as [->|M]; [rewrite (upd_at _ _ _ _ _ Ev), (upd_at _ _ _ _ _ Hi); now split|].
        rewrite !upd_else by congruence. now split.
      * intros k k' n. destruct (Nat.eqb_spec k j); [discriminate|]. destruct (Nat.eqb_spec k' j); [discriminate|].
        destruct (Nat.eqb_spec k i), (Nat.eqb_spec k' i); intros; congruence.
    + cbn [fst]. rewrite Hi. destruct (Nat.eq_dec i j) as [<-|N].
      * rewrite upd_twice. pose proof (count_upd _ some_in w i (Some []) _ Hi) as C1. destruct l; cbn [some_in bit] in C1; lia.
      * pose proof (count_upd _ some_in w i (Some m) _ Hi) as C1. rewrite upd_else in Ej' by exact N. 
        assert (Ej2 : nth_error (upd w i (Some m)) j = Some (Some m)) by (rewrite upd_else by exact N; exact Hj).
        pose proof (count_upd _ some_in _ j (Some []) _ Ej2) as C2. destruct l; cbn [some_in bit] in C1, C2; destruct m; cbn [bit] in C1, C2; lia.
  - destruct P as ((l & Hi) & (m & Hj)). destruct (rep_get _ _ _ i l R Hi) as (v & Ev & -> & O). cbn [fst snd] in *. cbn [bind].
    destruct (rep_get _ _ _ j m R Hj) as (u & Eu & -> & Ou). cbn [fst snd] in *. cbn [bind]. unfold holds in Hi, Hj.
    exists (h, upd (upd vs i (Some u)) j (Some v)), Done, (upd (upd w i (Some m)) j (Some l)). split; [reflexivity|].
    split; [split; [reflexivity|]; exists l, m; now repeat split|]. 
    assert (Ej : exists o, nth_error (upd vs i (Some u)) j = Some o).
    { destruct (Nat.eq_dec i j) as [<-|N]; [rewrite (upd_at _ _ _ _ _ Ev)|rewrite upd_else by exact N]; eauto. }
    assert (Ej' : exists o, nth_error (upd w i (Some m)) j = Some o).
    { destruct (Nat.eq_dec i j) as [<-|N]; [rewrite (upd_at _ _ _ _ _ Hi)|rewrite upd_else by exact N]; eauto. }
    destruct Ej as (o & Ej). destruct Ej' as (o' & Ej'). split.
    + apply (rearrange h vs w _ _ (fun k => if Nat.eqb k j then Some i else if Nat.eqb k i then Some j else Some k) R).
      * rewrite !upd_length. exact Ln.
      * intros k. destruct (Nat.eqb_spec k j) as [->|N]; [rewrite (upd_at _ _ _ _ _ Ej), (upd_at _ _ _ _ _ Ej'); now split|]. rewrite !(upd_else _ _ j k) by congruence.
        destruct (Nat.eqb_spec k i) as [->|M]; [rewrite (upd_at _ _ _ _ _ Ev), (upd_at _ _ _ _ _ Hi); now split|].
        rewrite !upd_else by congruence. now split.
      * intros k k' n. destruct (Nat.eqb_spec k j), (Nat.eqb_spec k' j), (Nat.eqb_spec k i), (Nat.eqb_spec k' i); intros; congruence.
    + cbn [fst]. destruct (Nat.eq_dec i j) as [<-|N].
      * rewrite upd_twice. rewrite upd_id by exact Hi. lia.
      * pose proof (count_upd _ some_in w i (Some m) _ Hi) as C1. 
        assert (Ej2 : nth_error (upd w i (Some m)) j = Some (Some m)) by (rewrite upd_else by exact N; exact Hj).
        pose proof (count_upd _ some_in _ j (Some l) _ Ej2) as C2. lia.
  - destruct P as ((l & H) & D & L). destruct (rep_get _ _ _ i l R H) as (v & Ev & -> & O). cbn [fst snd] in *. cbn [bind].
    destruct (resize_ok h v l dim t O D L) as (h' & v' & l' & done & E & O2 & B & C & T & Fl). rewrite E. cbn [bind].
    assert (R2 := change h vs w i v l h' v' l' R Ev H O2 B). unfold holds in H.
    exists (h', upd vs i (Some v')), (if done then Done else NoMemory), (upd w i (Some l')). split; [reflexivity|]. split.
    + exists l. split; [exact H|]. destruct done; [left; split; [reflexivity|]; eauto|]. right. split; [reflexivity|].
      rewrite (Fl eq_refl). destruct t; try reflexivity. apply upd_id. exact H.
    + split; [exact R2|]. cbn [fst]. pose proof (count_upd _ some_in w i (Some l') _ H). unfold balanced in C. lia.
  - destruct P as (l & H & K). destruct (rep_get _ _ _ i l R H) as (v & Ev & -> & O). cbn [fst snd] in *. cbn [bind].
    destruct (nth_error l (Z.to_nat k)) as [x|] eqn:X; [|apply nth_error_None in X; unfold lenZ in K; lia].
    exists (h, vs), (Value x), w. split; [|split; [split; [reflexivity|]; exists l, x; now repeat split|split; [exact R|cbn [fst]; lia]]].
    unfold get_at. rewrite (owns_dim _ _ _ O). destruct (Z.ltb_spec k (lenZ l)); [|lia]. cbn [check bind].
    destruct O as [(-> & _)|(_ & p & -> & Ep)]; [cbn in K; lia|]. cbn [x_data]. unfold block. rewrite Ep. cbn [bind].
    unfold getZ. destruct (Z.ltb_spec k 0); [lia|]. now rewrite X.
  - destruct P as (l & H & K). destruct (rep_get _ _ _ i l R H) as (v & Ev & -> & O). cbn [fst snd] in *. cbn [bind].
    unfold set_at. rewrite (owns_dim _ _ _ O). destruct (Z.ltb_spec k (lenZ l)); [|lia]. cbn [check bind].
    destruct O as [(-> & _)|(N & p & -> & Ep)]; [cbn in K; lia|]. cbn [x_data]. unfold block. rewrite Ep. cbn [bind].
    unfold setZ. destruct (Z.ltb_spec k 0); [lia|]. destruct (Z.leb_spec (Z.of_nat (length l)) k); [unfold lenZ in K; lia|]. cbn [orb bind].
    set (l' := upd l (Z.to_nat k) x).
    assert (Nl : l' <> []) by (intros E; apply (f_equal (@length F)) in E; unfold l' in E; rewrite upd_length in E; unfold lenZ in K; cbn in E; lia).
    exists (upd h p (Some l'), vs), Done, (upd w i (Some l')). split; [reflexivity|]. split; [split; [reflexivity|]; exists l; now split|]. split.
    + rewrite <- (upd_id _ vs i _ Ev). apply (change h vs w i (mk_vec (Some p) (lenZ l)) l); try assumption.
      * right. split; [exact Nl|]. exists p. split; [f_equal; unfold lenZ, l'; now rewrite upd_length|]. apply (upd_at _ _ _ _ _ Ep).
      * split; [rewrite upd_length; lia|]. split; [|auto]. intros q Q Dq. apply upd_else. cbn in Dq. congruence.
    + cbn [fst]. pose proof (count_upd _ some_in w i (Some l') _ H). pose proof (upd_eq h p l' _ Ep). cbn [used bit] in *.
      destruct l; [contradiction|]. destruct l'; [contradiction|]. cbn [some_in bit] in *. lia.
  - destruct P as (l & H). destruct (rep_get _ _ _ i l R H) as (v & Ev & -> & O). cbn [fst snd] in *. cbn [bind].
    destruct (zero_ok h v l O) as (h' & -> & O2 & B & C). cbn [bind].
    exists (h', vs), Done, (upd w i (Some (repeat zero (length l)))). split; [reflexivity|]. split; [split; [reflexivity|]; exists l; now split|]. split.
    + rewrite <- (upd_id _ vs i _ Ev). now apply (change h vs w i v l).
    + cbn [fst]. pose proof (count_upd _ some_in w i (Some (repeat zero (length l))) _ H). unfold balanced in C. lia.
  - destruct P as (l & m & Hi & Hj & Lm). destruct (rep_get _ _ _ i l R Hi) as (v & Ev & -> & O). cbn [fst snd] in *. cbn [bind].
    destruct (rep_get _ _ _ j m R Hj) as (u & Eu & -> & Ou). cbn [fst snd] in *. cbn [bind].
    assert (G : exists h', copy_from h v u = Ok h' /\ owns h' v m /\ beyond h h' v v /\ balanced h h' l m).
    { unfold copy_from. rewrite (owns_dim _ _ _ O), (owns_dim _ _ _ Ou), Lm, Z.eqb_refl. cbn [check bind].
      destruct O as [(-> & ->)|(N & p & -> & Ep)].
      - assert (m = []) as -> by (destruct m; [reflexivity|unfold lenZ in Lm; cbn in Lm; lia]).
        destruct Ou as [(_ & ->)|(X & _)]; [|contradiction]. exists h. split; [reflexivity|]. split; [now left|].
        split; [now apply same_heap|reflexivity].
      - destruct Ou as [(-> & _)|(Nm & q & -> & Eq)]; [destruct l; [contradiction|unfold lenZ in Lm; cbn in Lm; lia]|]. cbn [x_data].
        destruct (Nat.eqb_spec p q) as [<-|Npq].
        + assert (l = m) as -> by congruence. exists h. split; [reflexivity|]. split; [right; split; [exact N|]; exists p; now split|].
          split; [now apply same_heap|reflexivity].
        + rewrite (copy_ok h p q l m) by (try assumption; unfold lenZ in *; lia).
          replace (firstn (Z.to_nat (lenZ m)) m ++ skipn (Z.to_nat (lenZ m)) l) with m.
          2: { unfold lenZ. rewrite Nat2Z.id, firstn_all. replace (length m) with (length l) by (unfold lenZ in Lm; lia). now rewrite skipn_all, app_nil_r. }
          eexists. split; [reflexivity|]. split; [right; split; [exact Nm|]; exists p; split; [f_equal; lia|apply (upd_at _ _ _ _ _ Ep)]|].
          split; [split; [rewrite upd_length; lia|split; [intros x X Dx; apply upd_else; cbn in Dx; congruence|auto]]|].
          unfold balanced. pose proof (upd_eq h p m _ Ep). cbn [used bit] in *. destruct l; [contradiction|]. destruct m; [contradiction|]. cbn [some_in bit] in *. lia. }
    destruct G as (h' & -> & O2 & B & C). cbn [bind].
    exists (h', vs), Done, (upd w i (Some m)). split; [reflexivity|]. split; [split; [reflexivity|]; exists m; now split|]. split.
    + rewrite <- (upd_id _ vs i _ Ev). now apply (change h vs w i v l).
    + cbn [fst]. pose proof (count_upd _ some_in w i (Some m) _ Hi). unfold balanced in C. lia.
  - destruct P as (l & H). destruct (rep_get _ _ _ i l R H) as (v & Ev & -> & O). cbn [fst snd] in *. cbn [bind].
    destruct (destroy_ok h v l O) as (h' & -> & Lh & Fr & C). cbn [bind].
    exists (h', upd vs i None), Done, (upd w i None). split; [reflexivity|]. split; [now split|]. split.
    + rewrite <- (upd_twice _ vs i (Some empty)), <- (upd_twice _ w i (Some [])). apply drop.
      * apply (change h vs w i v l); try assumption; [now left|]. split; [lia|]. split; [intros; now apply Fr|discriminate].
      * apply (upd_at _ _ _ _ _ Ev).
      * apply (upd_at _ _ _ _ _ H).
    + cbn [fst]. pose proof (count_upd _ some_in w i None _ H). unfold balanced in C. cbn [some_in bit] in *. lia.
Qed.


Lemma holds_dec (w : @contents F) i : {l | holds w i l} + {forall l, ~ holds w i l}.
Proof.
  unfold holds. destruct (nth_error w i) as [[l|]|]; [left; exists l; reflexivity| |]; right; discriminate.
Qed.
Lemma permitted_dec (w : @contents F) c : {permitted width w c} + {~ permitted width w c}.
Proof.
  assert (H1 : forall i, {exists l, holds w i l} + {~ exists l, holds w i l}).
  { intros i. destruct (holds_dec w i) as [(l & H)|N]; [left; eauto|right; intros (l & H); exact (N l H)]. }
  assert (D : forall dim, {0 <= dim /\ dim * width <= int_max} + {~ (0 <= dim /\ dim * width <= int_max)}).
  { intros dim. destruct (Z_le_dec 0 dim); [|right; tauto]. destruct (Z_le_dec (dim * width) int_max); [left|right]; tauto. }
  assert (K : forall i k, {exists l, holds w i l /\ 0 <= k < lenZ l} + {~ exists l, holds w i l /\ 0 <= k < lenZ l}).
  { intros i k. destruct (holds_dec w i) as [(l & H)|N]; [|right; intros (l & H & _); exact (N l H)].
    destruct (Z_le_dec 0 k), (Z_lt_dec k (lenZ l)); [left; exists l; auto| | |]; right; intros (m & M & X); unfold holds in *; assert (m = l) as -> by congruence; lia. }
  destruct c; cbn [permitted]; auto.
  - destruct (H1 i), (H1 j); [left|right|right|right]; tauto.
  - destruct (H1 i), (H1 j); [left|right|right|right]; tauto.
  - destruct (H1 i), (D dim); [left|right|right|right]; tauto.
  - destruct (holds_dec w i) as [(l & H)|N]; [|right; intros (l & m & H & _); exact (N l H)].
    destruct (holds_dec w j) as [(m & M)|N]; [|right; intros (l' & m & _ & M & _); exact (N m M)].
    destruct (Z.eq_dec (lenZ l) (lenZ m)) as [E|E]; [left; eauto|right; intros (l' & m' & X & Y & Z0); unfold holds in *; congruence].
Qed.

Lemma lost_spec (w : @contents F) i j l n : holds w i l ->
  (holds w i [] /\ (lost w (Assign i j) + n)%nat = n) \/ (exists x l, holds w i (x :: l)) /\ (lost w (Assign i j) + n)%nat = S n.
Proof. unfold holds. cbn. intros E. rewrite E. destruct l; [left|right; split; [eauto|]]; auto. Qed.

Lemma run_ok : forall cs s w, represents s w -> exists cs1 s' r w' n,
  run zero width junk room s cs1 = Ok (s', r) /\ history zero width w cs1 r w' n /\ represents s' w' /\
  (count used (fst s') + count some_in w = count used (fst s) + count some_in w' + n)%nat /\
  (cs = cs1 \/ exists c cs2, cs = cs1 ++ c :: cs2 /\ ~ permitted width w' c).
Proof.
  induction cs as [|c cs IH]; intros s w R.
  - exists [], s, [], w, 0%nat. split; [reflexivity|]. split; [now split|]. split; [exact R|]. split; [lia|now left].
  - destruct (permitted_dec w c) as [P|N].
    + destruct (step_ok s w c R P) as (s1 & a & w1 & E1 & D & R1 & C1).
      destruct (IH s1 w1 R1) as (cs1 & s' & r & w' & n & E & T & R' & C & X).
      exists (c :: cs1), s', (a :: r), w', (lost w c + n)%nat. cbn [run]. rewrite E1. cbn [bind]. rewrite E. cbn [bind].
      split; [reflexivity|]. split.
      { cbn [history]. split; [exact P|]. exists w1, n. split; [exact D|]. split; [exact T|]. destruct c; try reflexivity.
        cbn [permitted] in P. destruct P as ((l & P) & _). exact (lost_spec w i j l n P). }
      split; [exact R'|]. split; [lia|]. destruct X as [->|(c2 & cs2 & -> & X)]; [now left|right]. exists c2, cs2. now split.
    + exists [], s, [], w, 0%nat. split; [reflexivity|]. split; [now split|]. split; [exact R|]. split; [lia|]. right. exists c, cs. now split.
Qed.

Lemma start_rep : represents init_state (@nil (option (list F))).
Proof.
  split; cbn [fst snd init_state].
  - reflexivity.
  - intros [|i]; split; discriminate.
  - intros [|i] v l; discriminate.
  - intros [|i] j v v' p; discriminate.
Qed.

Lemma values cs : exists cs1 h vs r w n,
  run zero width junk room init_state cs1 = Ok ((h, vs), r) /\ history zero width [] cs1 r w n /\
  in_use h = (full w + n)%nat /\
  (cs = cs1 \/ exists c cs2, cs = cs1 ++ c :: cs2 /\ ~ permitted width w c).
Proof.
  destruct (run_ok cs _ _ start_rep) as (cs1 & (h & vs) & r & w & n & E & T & _ & C & X).
  exists cs1, h, vs, r, w, n. split; [exact E|]. split; [exact T|]. split; [|exact X].
  change (in_use h) with (count used h). change (full w) with (count some_in w).
  unfold count in C at 2 3. cbn [fst init_state filter length] in C. lia.
Qed.

(** Vectors of 2^32 bytes. *)
Lemma too_large x k : width = 4 -> (forall n, room [] n = true) -> 0 <= k < 2 ^ 30 ->
  run zero width junk room init_state [NewSized (2 ^ 30) Undefined; Set_ 0 k x] = Fault Undef.
Proof.
  intros -> Rm K.
  cbn [run step resize init_state]. unfold resize_anew. cbn [x_data empty]. unfold init.
  change (0 <=? 2 ^ 30) with true. change (2 ^ 30 =? 0) with false. cbn [check bind].
  change (size_t (wrap32 (size_t (2 ^ 30 * 4)))) with 0. rewrite Rm. change (0 / 4) with 0. cbn [Z.to_nat seq map bind app length].
  assert (E : @set_at F [Some []] (mk_vec (Some 0%nat) (2 ^ 30)) k x = Fault Undef).
  { unfold set_at. cbn [x_dim x_data]. destruct (Z.ltb_spec k (2 ^ 30)); [|lia]. cbn [check bind].
    change (@block F [Some []] 0) with (@Ok (list F) []). cbn [bind].
    unfold setZ. destruct (Z.leb_spec (Z.of_nat (@length F [])) k) as [_|H1]; [destruct (k <? 0); reflexivity|cbn in H1; lia]. }
  cbn [run step]. change (var [Some (mk_vec (Some 0%nat) (2 ^ 30))] 0) with (Ok (mk_vec (Some 0%nat) (2 ^ 30))). cbn [bind]. now rewrite E.
Qed.
End Own.
