(** The readers with messages read what the others read, and what their messages
    contain. *)
From Coq Require Import ZArith String List Bool Lia.
From Verif.Base Require Import Prelude Lemmas.
From Verif.Model Require Import Util File Binary Arith Vector Pcm Fbank Srfft FbankInit Nnet Formats Am Configuration
  SymbolTable Fst Decoder Stt Loading Messages.
From Verif.Spec Require Import AudioSpec FormatSpec TextSpec FstSpec LoadingSpec.
From Verif.Proof Require Import Text.
From Verif.Proof Require Python Symbols.
Import ListNotations.
Open Scope Z_scope.

(** * The same readers *)

Definition drop {A} (r : (A + bytes) * file) : option A * file :=
  (match Datatypes.fst r with inl a => Some a | inr _ => None end, snd r).
Definition drops {A} (m : mio A) (r : io A) : Prop := forall f, r f = (x <- m f ;; Ok (drop x)).

Lemma drops_ret A (a : A) : drops (m_ret a) (io_ret a).
Proof. intros f. reflexivity. Qed.
Lemma drops_fail A msg : drops (@m_fail A msg) io_fail.
Proof. intros f. reflexivity. Qed.
Lemma drops_fault A e : drops (@m_fault A e) (io_fault e).
Proof. intros f. reflexivity. Qed.
Lemma drops_bind A B (m : mio A) (r : io A) (k : A -> mio B) (q : A -> io B) :
  drops m r -> (forall a, drops (k a) (q a)) -> drops (m_bind m k) (io_bind r q).
Proof.
  intros H K f. unfold m_bind, io_bind. rewrite H. destruct (m f) as [[[a|w] f']|e]; [|reflexivity|reflexivity]. exact (K a f').
Qed.
Lemma drops_check b msg : drops (m_check b msg) (io_check b).
Proof. destruct b; [apply drops_ret|apply drops_fail]. Qed.
Lemma drops_assert b e : drops (m_assert b e) (io_assert b e).
Proof. destruct b; [apply drops_ret|apply drops_fault]. Qed.

Section Same.
Variable name : bytes.

Lemma drops_read n : drops (m_read name n) (io_read n).
Proof. intros f. unfold io_read, m_read. destruct (read f n) as [[[b|] f']|e]; reflexivity. Qed.
Lemma drops_verify s : drops (m_verify name s) (io_verify s).
Proof.
  intros f. unfold io_verify, read_and_verify, m_verify, m_bind, m_read.
  destruct (read f (lenZ s)) as [[[b|] f']|e]; [|reflexivity|reflexivity]. cbn [bind]. unfold m_check. destruct (str_eqb s (cstr b)); reflexivity.
Qed.
Lemma drops_int n : drops (m_int name n) (io_int n).
Proof. apply drops_bind; [apply drops_read|]. intros b. apply drops_ret. Qed.

Lemma drops_header : drops (m_vec_header name) vec_header.
Proof.
  apply drops_bind; [apply drops_verify|]. intros _. apply drops_bind; [apply drops_int|]. intros s.
  apply drops_bind; [apply drops_int|]. intros d. apply drops_bind; [apply drops_check|]. intros _. apply drops_ret.
Qed.

Lemma drops_vec old f : vec_read old f = ('(e, v, f) <- m_vec_read name old f ;; Ok (match e with None => true | Some _ => false end, v, f)).
Proof.
  unfold vec_read, m_vec_read. rewrite drops_header. destruct (m_vec_header name f) as [[[d|w] f']|e]; [|reflexivity|reflexivity].
  cbn [bind drop Datatypes.fst snd]. destruct (vec_init 4 d) as [u|e]; [|reflexivity]. cbn [bind].
  pose proof (drops_read (d * 4) f') as E. unfold io_read in E. rewrite E.
  destruct (m_read name (d * 4) f') as [[[b|w] f2]|e]; reflexivity.
Qed.

Lemma drops_vector : drops (m_vector name) io_vector.
Proof.
  intros f. unfold io_vector, m_vector. rewrite drops_vec. destruct (m_vec_read name [] f) as [[[[w|] v] f']|e]; reflexivity.
Qed.

Lemma drops_rows cols : forall n old, drops (m_mat_rows name n cols old) (mat_rows n cols old).
Proof.
  induction n as [|n IH]; intros old f; [reflexivity|]. cbn [m_mat_rows mat_rows]. rewrite drops_vec.
  destruct (m_vec_read name old f) as [[[w row] f']|e]; [|reflexivity]. cbn [bind].
  destruct (negb (lenZ row =? cols)); [reflexivity|]. rewrite (IH row f').
  destruct (m_mat_rows name n cols row f') as [[[m|w'] f2]|e]; reflexivity.
Qed.

Lemma drops_matrix : drops (m_mat_read name) mat_read.
Proof.
  apply drops_bind; [apply drops_verify|]. intros _. apply drops_bind; [apply drops_int|]. intros _.
  apply drops_bind; [apply drops_int|]. intros r. apply drops_bind; [apply drops_int|]. intros c f.
  destruct (mat_init r c) as [u|e]; [|reflexivity]. apply drops_rows.
Qed.

Lemma drops_indices : forall n, drops (m_indices name n) (read_indices n).
Proof.
  induction n as [|n IH]; [apply drops_ret|]. cbn [m_indices read_indices]. apply drops_bind; [apply drops_int|]. intros i.
  apply drops_bind; [exact IH|]. intros l. apply drops_ret.
Qed.

Lemma drops_layer : drops (m_layer name) read_layer.
Proof.
  apply drops_bind; [apply drops_verify|]. intros _. apply drops_bind; [apply drops_int|]. intros t.
  destruct (t =? 0); [apply drops_bind; [apply drops_matrix|]; intros W; apply drops_bind; [apply drops_vector|]; intros b; apply drops_ret|].
  destruct (t =? 1); [apply drops_ret|]. destruct (t =? 2); [apply drops_ret|]. destruct (t =? 3); [apply drops_ret|].
  destruct (t =? 6); [apply drops_bind; [apply drops_int|]; intros n; apply drops_bind; [apply drops_check|]; intros _;
    apply drops_bind; [apply drops_indices|]; intros l; apply drops_ret|].
  destruct (t =? 7); [apply drops_bind; [apply drops_vector|]; intros s; apply drops_bind; [apply drops_vector|]; intros o; apply drops_ret|].
  destruct (t =? 8); [apply drops_ret|].
  destruct (t =? 9); [apply drops_bind; [apply drops_int|]; intros l; apply drops_bind; [apply drops_int|]; intros r; apply drops_ret|].
  apply drops_fail.
Qed.

Lemma drops_layers : forall n, drops (m_net_layers name n) (read_layers n).
Proof.
  induction n as [|n IH]; [apply drops_ret|]. cbn [m_net_layers read_layers]. apply drops_bind; [apply drops_layer|]. intros i.
  apply drops_bind; [exact IH|]. intros l. apply drops_ret.
Qed.

Lemma drops_nnet : drops (m_nnet name) nnet_read.
Proof.
  apply drops_bind; [apply drops_verify|]. intros _. apply drops_bind; [apply drops_int|]. intros l.
  apply drops_bind; [apply drops_int|]. intros r. apply drops_bind; [apply drops_int|]. intros n.
  apply drops_bind; [apply drops_layers|]. intros ls. apply drops_ret.
Qed.

Lemma drops_array w n : drops (m_array name w n) (io_array w n).
Proof.
  unfold m_array, io_array. destruct (n <? 0); [apply drops_fault|]. cbv zeta. destruct (wrap32 (w * n) =? w * n); [apply drops_read|].
  intros f. destruct ((wrap32 (w * n) <? 0) && (lenZ (f_rest f) <=? w * n)); reflexivity.
Qed.

Lemma drops_fst : drops (m_fst name) fst_read.
Proof.
  apply drops_bind; [apply drops_read|]. intros s. apply drops_bind; [apply drops_check|]. intros _.
  apply drops_bind; [apply drops_int|]. intros z. apply drops_bind; [apply drops_int|]. intros n.
  apply drops_bind; [apply drops_int|]. intros a. apply drops_bind; [apply drops_int|]. intros st.
  apply drops_bind; [apply drops_check|]. intros _. apply drops_bind; [apply drops_array|]. intros x.
  apply drops_bind; [apply drops_array|]. intros y. apply drops_bind; [apply drops_array|]. intros u. apply drops_ret.
Qed.

Lemma drops_pcm : drops (m_header name) read_pcm_header.
Proof.
  apply drops_bind; [apply drops_verify|]. intros _. apply drops_bind; [apply drops_int|]. intros _.
  apply drops_bind; [apply drops_verify|]. intros _. apply drops_bind; [apply drops_verify|]. intros _.
  apply drops_bind; [apply drops_int|]. intros s1. apply drops_bind; [apply drops_check|]. intros _.
  apply drops_bind; [apply drops_int|]. intros af. apply drops_bind; [apply drops_check|]. intros _.
  apply drops_bind; [apply drops_int|]. intros ch. apply drops_bind; [apply drops_int|]. intros ra.
  apply drops_bind; [apply drops_int|]. intros br. apply drops_bind; [apply drops_int|]. intros ba.
  apply drops_bind; [apply drops_int|]. intros bi. apply drops_bind; [apply drops_assert|]. intros _.
  apply drops_bind; [apply drops_check|]. intros _. apply drops_bind; [apply drops_check|]. intros _.
  apply drops_bind; [apply drops_verify|]. intros _. apply drops_bind; [apply drops_int|]. intros _. apply drops_ret.
Qed.

Lemma same_conf_line t l : conf_line t l = (r <- m_conf_line name t l ;; Ok (match r with inl t => Some t | inr _ => None end)).
Proof.
  unfold conf_line, m_conf_line. destruct (trim l) as [|c r]; [reflexivity|]. destruct (c =? 35); [reflexivity|].
  destruct (split (c :: r) [61]) as [fs|e]; [|reflexivity]. cbn [bind].
  destruct fs as [|k [|v [|x fs]]]; try reflexivity. destruct (trim v); reflexivity.
Qed.

Definition fine_status (e : option bytes) : bool := match e with None => true | Some _ => false end.

Lemma same_conf_loop : forall fuel f t, conf_loop fuel f t = ('(t, e) <- m_conf_loop name fuel f t ;; Ok (t, fine_status e)).
Proof.
  induction fuel as [|fuel IH]; intros f t; [reflexivity|]. cbn [conf_loop m_conf_loop]. destruct (f_eof f); [reflexivity|].
  destruct (read_line f) as [[s| |] f']; [|reflexivity|reflexivity]. rewrite same_conf_line.
  destruct (m_conf_line name t s) as [[t'|w]|e]; cbn [bind]; [apply IH|reflexivity|reflexivity].
Qed.

Lemma same_conf c content : conf_read c name content = ('(c, e) <- m_conf_read name c content ;; Ok (c, fine_status e)).
Proof.
  unfold conf_read, m_conf_read. rewrite same_conf_loop. destruct (m_conf_loop name _ _ _) as [[t e]|x]; reflexivity.
Qed.

Lemma same_sym_line t l : sym_line t l = (r <- m_sym_line t l ;; Ok (match r with inl t => Some t | inr _ => None end)).
Proof.
  unfold sym_line, m_sym_line. destruct (split l [32]) as [fs|e]; [|reflexivity]. cbn [bind].
  destruct fs as [|k [|v [|x fs]]]; try reflexivity. destruct (string_to_long v); [|reflexivity]. destruct (add_word t k z); reflexivity.
Qed.

Lemma same_sym_loop : forall fuel f t, sym_loop fuel f t = ('(t, e) <- m_sym_loop name fuel f t ;; Ok (t, fine_status e)).
Proof.
  induction fuel as [|fuel IH]; intros f t; [reflexivity|]. cbn [sym_loop m_sym_loop].
  destruct (read_line f) as [[s| |] f']; [|reflexivity|reflexivity]. rewrite same_sym_line.
  destruct (m_sym_line t s) as [[t'|w]|e]; cbn [bind]; [apply IH|reflexivity|reflexivity].
Qed.

Lemma same_sym t content : sym_read t content = ('(t, e) <- m_sym_read name t content ;; Ok (t, fine_status e)).
Proof.
  unfold sym_read, m_sym_read. rewrite same_sym_loop. destruct (m_sym_loop name _ _ _) as [[t' [w|]]|x]; [reflexivity| |reflexivity].
  cbn [bind fine_status]. destruct (id_of SymbolTable.bos_symbol (s_ids t')), (id_of SymbolTable.eos_symbol (s_ids t')); reflexivity.
Qed.

End Same.

(** * The same loading *)

(** Equal but for the texts; where the first differs from the second, it is [w]. *)
Definition alike {A} (w : bytes) (m m' : load A) : Prop := forall ps,
  match m' ps with
  | Ok (inl a, ps') => m ps = Ok (inl a, ps')
  | Ok (inr t, ps') => exists t', m ps = Ok (inr t', ps') /\ (t' = t \/ t' = w)
  | Fault e => m ps = Fault e
  end.

Lemma alike_refl A w (m : load A) : alike w m m.
Proof. intros ps. destruct (m ps) as [[[a|t] ps']|e]; eauto. Qed.
Lemma alike_bind A B w (m m' : load A) (k k' : A -> load B) :
  alike w m m' -> (forall a, alike w (k a) (k' a)) -> alike w (load_bind m k) (load_bind m' k').
Proof.
  intros H K ps. unfold load_bind. specialize (H ps). destruct (m' ps) as [[[a|t] ps']|e].
  - rewrite H. exact (K a ps').
  - destruct H as (t' & -> & H). cbn [bind]. eauto.
  - now rewrite H.
Qed.

Section Load.
Context {F : Type}.
Variable O : fops F.
Variable T : trig_ops F.
Variable I : init_ops F.
Variable junk : nat -> F.
Variable junk_int : nat -> Z.
Variable of_word : Z -> F.
Variable unknown : F.
Variable files : bytes -> option bytes.
Variable hclg : bytes -> res (option (graph F)).
Variable lm_fuel : nat.
Variable w : bytes.
Notation why := (fun _ : bytes => w).

Lemma alike_with A (r : io A) (m : bytes -> mio A) p c : (forall n, drops (m n) r) -> alike w (read_with why r p c) (m_with m p c).
Proof.
  intros D ps. unfold read_with, m_with. rewrite (D p). destruct (m p (open c)) as [[[a|t] f]|e]; cbn [bind drop Datatypes.fst snd]; eauto.
Qed.

Lemma alike_conf fn : alike w (load_conf files why fn) (ml_conf files fn).
Proof.
  apply alike_bind; [apply alike_refl|]. intros c ps. unfold load_bind, load_res. rewrite (same_conf fn).
  destruct (m_conf_read fn conf_empty c) as [[x [t|]]|e]; cbn [bind snd fine_status Datatypes.fst]; unfold load_fail, load_ret; eauto.
Qed.

Lemma alike_am c : alike w (load_am O of_word unknown files why c) (ml_am O of_word unknown files c).
Proof.
  unfold load_am, ml_am.
  apply alike_bind; [apply alike_refl|]. intros p1. apply alike_bind; [apply alike_refl|]. intros c1.
  apply alike_bind; [apply alike_with, drops_nnet|]. intros n.
  apply alike_bind; [apply alike_refl|]. intros p2. apply alike_bind; [apply alike_refl|]. intros c2.
  apply alike_bind; [apply alike_with, drops_vector|]. intros pr. apply alike_bind; [apply alike_refl|]. intros lp.
  do 5 (apply alike_bind; [apply alike_refl|]; intros ?). apply alike_bind; [apply alike_refl|]. intros c3.
  apply alike_bind; [apply alike_with, drops_vector|]. intros pd. apply alike_refl.
Qed.

Lemma alike_symbols c : alike w (load_symbols files why c) (ml_symbols files c).
Proof.
  apply alike_bind; [apply alike_refl|]. intros p. destruct (str_eqb p []); [apply alike_refl|].
  apply alike_bind; [apply alike_refl|]. intros _. apply alike_bind; [apply alike_refl|]. intros x ps.
  unfold load_bind, load_res. rewrite (same_sym p).
  destruct (m_sym_read p symtab_init x) as [[y [t|]]|e]; cbn [bind snd fine_status Datatypes.fst]; unfold load_fail, load_ret; eauto.
Qed.

Lemma alike_lm c s : alike w (load_lm of_word unknown files why c s) (ml_lm of_word unknown files c s).
Proof.
  apply alike_bind; [apply alike_refl|]. intros p. destruct (str_eqb p []); [apply alike_refl|].
  apply alike_bind; [apply alike_refl|]. intros q. destruct (str_eqb q []); [apply alike_refl|].
  do 2 (apply alike_bind; [apply alike_refl|]; intros ?). apply alike_bind; [apply alike_with, drops_vector|]. intros sm.
  do 2 (apply alike_bind; [apply alike_refl|]; intros ?). apply alike_bind; [apply alike_with, drops_fst|]. intros g. apply alike_refl.
Qed.

Lemma alike_parts fn : alike w (load_parts O T I junk junk_int of_word unknown files hclg why lm_fuel fn)
  (ml_parts O T I junk junk_int of_word unknown files hclg lm_fuel fn).
Proof.
  unfold load_parts, ml_parts.
  apply alike_bind; [apply alike_refl|]. intros _. apply alike_bind; [apply alike_conf|]. intros c.
  apply alike_bind; [apply alike_refl|]. intros g. apply alike_bind; [apply alike_refl|]. intros _.
  apply alike_bind; [apply alike_am|]. intros a. apply alike_bind; [apply alike_symbols|]. intros s.
  apply alike_bind; [apply alike_lm|]. intros d. apply alike_refl.
Qed.

Notation init := (stt_init O T I junk junk_int of_word unknown files hclg why lm_fuel).
Notation minit := (ml_init O T I junk junk_int of_word unknown files hclg lm_fuel).

Lemma init_alike fn :
  match minit fn with
  | Ok (inl rc, ps) => init fn = Ok (inl rc, ps)
  | Ok (inr t, ps) => exists t', init fn = Ok (inr t', ps) /\ (t' = t \/ t' = w)
  | Fault e => init fn = Fault e
  end.
Proof.
  unfold ml_init, stt_init. pose proof (alike_parts fn []) as H.
  destruct (ml_parts _ _ _ _ _ _ _ _ _ _ fn []) as [[[a|t] ps]|e]; cbn [bind].
  - now rewrite H.
  - destruct H as (t' & -> & H). cbn [bind]. eauto.
  - now rewrite H.
Qed.

End Load.

(** With the right constant, loading as before gives the same. *)
Lemma init_same F (O : fops F) T I junk junk_int of_word unknown files hclg lm_fuel fn :
  exists w, stt_init O T I junk junk_int of_word unknown files hclg (fun _ => w) lm_fuel fn
    = ml_init O T I junk junk_int of_word unknown files hclg lm_fuel fn.
Proof.
  destruct (ml_init O T I junk junk_int of_word unknown files hclg lm_fuel fn) as [[[a|t] ps]|e] eqn:E.
  - exists []. pose proof (init_alike O T I junk junk_int of_word unknown files hclg lm_fuel [] fn) as H. now rewrite E in H.
  - exists t. pose proof (init_alike O T I junk junk_int of_word unknown files hclg lm_fuel t fn) as H. rewrite E in H.
    destruct H as (t' & -> & [->| ->]); reflexivity.
  - exists []. pose proof (init_alike O T I junk junk_int of_word unknown files hclg lm_fuel [] fn) as H. now rewrite E in H.
Qed.

(** * What messages contain *)

(** At least [n] places for arguments. *)
Inductive holes : nat -> str -> Prop :=
| H0 s : holes 0 s
| HS n u v : holes n v -> holes (S n) (u ++ [123; 125] ++ v).

Lemma holes_app n : forall s a, holes n s -> holes n (a ++ s).
Proof. intros s a H. destruct H; [constructor|]. rewrite app_assoc. now constructor. Qed.

Lemma holes_split n s : holes (S n) s -> exists pos, find s [123; 125] 0 = Some pos /\
  holes n (skipn (Z.to_nat (pos + 2)) s).
Proof.
  intros H. inversion H as [|m u v Hv E1 E]; subst. rewrite find_zero.
  destruct (find_from [123; 125] (u ++ [123; 125] ++ v) 0) as [k|] eqn:Q.
  2: { apply find_from_none in Q. exfalso. apply Q. now exists u, v. }
  exists k. split; [reflexivity|]. apply find_from_some in Q. rewrite Z.sub_0_r in Q.
  destruct Q as (P & (x & y & E & L) & M). specialize (M u v eq_refl). unfold lenZ in *.
  assert (D : k = Z.of_nat (length u) \/ k + 2 <= Z.of_nat (length u)).
  { destruct (Z.eq_dec k (Z.of_nat (length u))); [now left|]. destruct (Z.eq_dec (k + 1) (Z.of_nat (length u))) as [K|]; [exfalso|right; lia].
    assert (N : nth (S (length x)) (u ++ [123; 125] ++ v) 0 = 123).
    { rewrite app_nth2 by lia. replace (S (length x) - length u)%nat with 0%nat by lia. reflexivity. }
    rewrite E, app_nth2 in N by lia. replace (S (length x) - length x)%nat with 1%nat in N by lia. discriminate. }
  destruct D as [->|D].
  - replace (Z.to_nat (Z.of_nat (length u) + 2)) with (length u + 2)%nat by lia.
    rewrite skipn_app, skipn_all2 by lia. replace (length u + 2 - length u)%nat with 2%nat by lia. exact Hv.
  - rewrite skipn_app. replace (Z.to_nat (k + 2) - length u)%nat with 0%nat by lia. cbn [skipn]. apply holes_app.
    apply holes_app. exact Hv.
Qed.

Lemma format_holds : forall args fmt p, holes (S (length args)) fmt -> contains (format fmt (args ++ [p])) p.
Proof.
  induction args as [|a args IH]; intros fmt p H; destruct (holes_split _ _ H) as (k & E & R); cbn [app format]; rewrite E.
  - now exists (sub fmt 0 k), (skipn (Z.to_nat (k + 2)) fmt).
  - apply IH. apply holes_app, holes_app. exact R.
Qed.

Lemma contains_app s a d : contains s d -> contains (a ++ s) d.
Proof. intros (u & v & ->). exists (a ++ u), v. now rewrite <- app_assoc. Qed.
