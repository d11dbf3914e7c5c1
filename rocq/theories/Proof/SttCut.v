(** The transcript does not depend on how the audio is cut. *)
From Coq Require Import ZArith List Bool Lia.
From Verif.Base Require Import Prelude Lemmas.
From Verif.Spec Require Import AudioSpec PcmSpec TextSpec FbankSpec SttSpec.
From Verif.Model Require Import Util File Arith Vector Pcm Fbank Nnet Am SymbolTable Pool OLabel Fst Decoder Stt.
From Verif.Proof Require FbankTotal.
From Verif.Proof Require Import Loop DecoderBase Binary Pcm PcmCases FbankStream Stt.
Import ListNotations.
Open Scope Z_scope.
Ltac Zify.zify_post_hook ::= Z.div_mod_to_equations.

(** * Outcomes *)

Lemma bind_ret : forall A (m : res A), bind m (fun x => Ok x) = m.
Proof. intros A [x|x]; reflexivity. Qed.

Lemma bind_bind : forall A B E (m : res A) (f : A -> res B) (g : B -> res E),
  bind (bind m f) g = bind m (fun x => bind (f x) g).
Proof. intros A B E [x|x] f g; reflexivity. Qed.

Lemma alike_bind : forall A B A' B' Q (R : A -> B -> Prop) (R' : A' -> B' -> Prop) a b f g,
  alike Q R a b -> (forall x y, R x y -> alike Q R' (f x) (g y)) -> alike Q R' (bind a f) (bind b g).
Proof. intros A B A' B' Q R R' [x|x] [y|y] f g H K; cbn [alike bind] in *; auto; tauto. Qed.

Lemma alike_refl : forall A (Q : fault -> fault -> Prop) (a : res A), (forall f, Q f f) -> alike Q eq a a.
Proof. intros A Q [x|x] H; cbn; auto. Qed.

Lemma alike_sym : forall A B (Q : fault -> fault -> Prop) (R : A -> B -> Prop) (R' : B -> A -> Prop) a b,
  (forall f g, Q f g -> Q g f) -> (forall x y, R x y -> R' y x) -> alike Q R a b -> alike Q R' b a.
Proof. intros A B Q R R' [x|x] [y|y] G H K; cbn in *; auto. Qed.

Lemma alike_trans : forall A B E (Q : fault -> fault -> Prop) (R : A -> B -> Prop) (S : B -> E -> Prop) (T : A -> E -> Prop) a b c,
  (forall f g h, Q f g -> Q g h -> Q f h) ->
  alike Q R a b -> alike Q S b c -> (forall x y z, R x y -> S y z -> T x z) -> alike Q T a c.
Proof. intros A B E Q R S T [x|x] [y|y] [z|z] G H K L; cbn in *; eauto; tauto. Qed.

(** All rows first and then the rest, or one after the other. *)
Lemma rows_then : forall A B S (Q : fault -> fault -> Prop) (f : A -> res B) (g : S -> B -> res S) ws s,
  (forall e, Q e e) -> (forall e e', Q e e') \/ Forall (fun w => exists r, f w = Ok r) ws ->
  alike Q eq (rows <- map_rows f ws ;; for_each rows g s)
           (for_each ws (fun s w => r <- f w ;; g s r) s).
Proof.
  intros A B S Q f g ws s QR H. revert s. induction ws as [|w ws IH]; intros s; cbn [map_rows for_each bind].
  - apply alike_refl. assumption.
  - destruct (f w) as [r|e] eqn:EW; cbn [bind alike]; [|apply QR].
    assert (H' : (forall e e', Q e e') \/ Forall (fun w => exists r, f w = Ok r) ws).
    { destruct H as [H|H]; [auto|]. inversion H; subst. auto. }
    specialize (IH H'). destruct (g s r) as [s'|e] eqn:G.
    + specialize (IH s'). destruct (map_rows f ws) as [rows|e]; cbn [bind] in *; cbn [for_each].
      * rewrite G. cbn [bind]. exact IH.
      * exact IH.
    + cbn [bind]. destruct (map_rows f ws) as [rows|e'] eqn:EM; cbn [bind alike for_each]; [rewrite G; cbn [bind alike]; apply QR|].
      destruct H' as [H'|H']; [apply H'|]. exfalso. clear - H' EM. revert e' EM.
      induction ws as [|v ws IH]; intros e' EM; [discriminate|]. inversion H' as [|? ? [r2 E] H2]; subst.
      cbn [map_rows] in EM. rewrite E in EM. cbn [bind] in EM.
      destruct (map_rows f ws) as [rows|e2]; cbn [bind] in EM; [discriminate|]. eapply IH; eauto.
Qed.

Lemma for_each_app : forall S I (f : S -> I -> res S) a b s,
  for_each (a ++ b) f s = bind (for_each a f s) (for_each b f).
Proof.
  intros S I f. induction a as [|x a IH]; intros b s; cbn [app for_each bind]; [reflexivity|].
  destruct (f s x); cbn [bind]; auto.
Qed.

(** * Features *)
Section Float.
Context {F : Type} (O : fops F).

Lemma frames_rows : forall fb (wave : list F),
  for_up 0 (calc_num_frames (lenZ wave)) (fun rows i =>
      w <- extract_window O wave i (fb_window fb) (fb_padded fb) ;;
      row <- compute_frame O fb w ;;
      Ok (rows ++ [row])) []
  = map_rows (frame_features O fb) (windows 400 160 wave).
Proof.
  intros fb wave. rewrite calc_windows. unfold windows, for_up.
  rewrite Z.sub_0_r, Nat2Z.id.
  assert (G : forall m k acc, (k + m <= num_windows 400 160 (length wave))%nat ->
    for_each (seqZ (Z.of_nat k) m) (fun rows i =>
      w <- extract_window O wave i (fb_window fb) (fb_padded fb) ;;
      row <- compute_frame O fb w ;;
      Ok (rows ++ [row])) acc
    = bind (map_rows (frame_features O fb) (map (window 400 160 wave) (seq k m))) (fun rows => Ok (acc ++ rows))).
  { induction m as [|m IH]; intros k acc H; cbn [seqZ seq map map_rows for_each bind].
    - now rewrite app_nil_r.
    - unfold frame_features at 1. rewrite <- extract_window_eq by lia.
      destruct (extract_window O wave (Z.of_nat k) (fb_window fb) (fb_padded fb)) as [x|]; cbn [bind]; [|reflexivity].
      destruct (compute_frame O fb x) as [row|]; cbn [bind]; [|reflexivity].
      replace (Z.of_nat k + 1) with (Z.of_nat (S k)) by lia. rewrite IH by lia.
      destruct (map_rows _ _); cbn [bind]; [|reflexivity]. now rewrite <- app_assoc. }
  change 0 with (Z.of_nat 0). rewrite G by lia. destruct (map_rows _ _); reflexivity.
Qed.

Lemma fbank_process_eq : forall fb s p, p <> [] -> lenZ p < 536870000 ->
  fbank_process O fb (skipn (160 * num_windows 400 160 (length s)) s) p
  = bind (map_rows (frame_features O fb) (windows 400 160 (skipn (160 * num_windows 400 160 (length s)) (s ++ p))))
      (fun rows => Ok (rows, skipn (160 * num_windows 400 160 (length (s ++ p))) (s ++ p))).
Proof.
  intros fb s p N L. unfold fbank_process.
  assert (LP : 0 < lenZ p) by (unfold lenZ; destruct p; [congruence|cbn [length]; lia]).
  destruct (Z.eqb_spec (lenZ p) 0); [lia|].
  destruct (num_windows_split (length s) (length p)) as [E [B1 B2]].
  set (k := num_windows 400 160 (length s)) in *.
  assert (Eb : skipn (160 * k) s ++ p = skipn (160 * k) (s ++ p)).
  { rewrite skipn_app. replace (160 * k - length s)%nat with 0%nat by lia. reflexivity. }
  rewrite Eb. set (buf := skipn (160 * k) (s ++ p)) in *.
  assert (Lb : length buf = (length s - 160 * k + length p)%nat).
  { unfold buf. rewrite skipn_length, app_length. lia. }
  assert (V : vec_init 4 (lenZ buf) = Ok tt).
  { unfold vec_init. unfold lenZ in *. rewrite Lb.
    destruct (Z.leb_spec 0 (Z.of_nat (length s - 160 * k + length p))); [|lia]. cbn [check bind].
    set (z := Z.of_nat (length s - 160 * k + length p)). assert (0 <= z < 536870400) by (unfold z; lia).
    assert (Wr : wrap32 (z * 4) = z * 4).
    { unfold wrap32, int_max. rewrite Z.mod_small by lia. destruct (Z.leb_spec (z * 4) 2147483647); lia. }
    rewrite Wr. destruct (Z.ltb_spec (z * 4) 0); [lia|]. rewrite Z.leb_refl. reflexivity. }
  rewrite V. cbn [bind]. rewrite frames_rows.
  assert (En : num_windows 400 160 (length (s ++ p)) = (k + num_windows 400 160 (length buf))%nat).
  { rewrite app_length, E, Lb. reflexivity. }
  rewrite En.
  destruct (Z.eqb_spec (calc_num_frames (lenZ buf)) 0) as [Z0|Z0].
  - rewrite calc_windows in Z0. assert (Zn : num_windows 400 160 (length buf) = 0%nat) by lia.
    rewrite Zn, Nat.add_0_r. fold buf. unfold windows. rewrite Zn. reflexivity.
  - destruct (map_rows _ _) as [rows|]; cbn [bind]; [|reflexivity].
    rewrite calc_windows. set (j := num_windows 400 160 (length buf)) in *.
    assert (J : (160 * j <= length buf)%nat) by (apply (num_windows_split (length buf) 0)).
    unfold frame_shift. rewrite vrange_ok by (unfold lenZ; lia). cbn [bind].
    rewrite firstn_all2 by (rewrite skipn_length; unfold lenZ; lia).
    do 2 f_equal. unfold buf. rewrite skipn_add. f_equal. lia.
Qed.

End Float.

(** * Samples *)
Lemma decodes_unique : forall n, (0 < n)%nat -> forall xs ys r r',
  concat (map (encode n) xs) ++ r = concat (map (encode n) ys) ++ r' ->
  Forall (fits n) xs -> Forall (fits n) ys -> (length r < n)%nat -> (length r' < n)%nat -> xs = ys /\ r = r'.
Proof.
  intros n P. induction xs as [|x xs IH]; intros [|y ys] r r' E FX FY L L'; cbn [map concat app] in *.
  - auto.
  - exfalso. rewrite E in L. rewrite !app_length, encode_length in L. lia.
  - exfalso. rewrite <- E in L'. rewrite !app_length, encode_length in L'. lia.
  - inversion FX; inversion FY; subst. rewrite <- !app_assoc in E.
    assert (encode n x = encode n y) as Ex by (apply (app_prefix _ _ _ _ _ E); now rewrite !encode_length).
    assert (x = y) as -> by (rewrite <- (le_signed_encode n x), <- (le_signed_encode n y) by assumption; now rewrite Ex).
    apply app_inv_head in E. destruct (IH ys r r') as [-> ->]; auto.
Qed.

(** * Sessions *)
Section Session.
Context {F D C : Type}.
Variable O : fops F.
Variable X : xops F D.
Variable tenth : F.
Variable fuel : nat.
Variable same : fault -> fault -> Prop.
Hypothesis same_refl : forall f, same f f.

(** Either any two faults count as the same, or no frame is one. *)
Definition frames_total (rc : recognizer F C) : Prop :=
  (forall e e', same e e') \/
  forall w, length w = 400%nat -> exists r, frame_features O (rc_fbank rc) w = Ok r.

Lemma frames_total_windows : forall rc wave, frames_total rc ->
  (forall e e', same e e') \/ Forall (fun w => exists r, frame_features O (rc_fbank rc) w = Ok r) (windows 400 160 wave).
Proof.
  intros rc wave [H|H]; [auto|]. right. apply Forall_forall. intros w I. apply H. eapply windows_length; eassumption.
Qed.

Notation S0 xs := (map (f_int O) xs).
Notation used s := (160 * num_windows 400 160 (length s))%nat.

Definition window_step (rc : recognizer F C) (s : am_inst F * (decoder F C * (bytes * F))) (w : list F) :=
  row <- frame_features O (rc_fbank rc) w ;; decode_frame O X tenth fuel rc s row.

Lemma windows_more : forall (s p q : list F),
  windows 400 160 (skipn (used s) (s ++ p ++ q)) =
  windows 400 160 (skipn (used s) (s ++ p)) ++ windows 400 160 (skipn (used (s ++ p)) (s ++ p ++ q)).
Proof.
  intros s p q. destruct (num_windows_split (length s) (length p)) as [E [B1 B2]].
  set (k := num_windows 400 160 (length s)) in *.
  assert (X0 : skipn (160 * k) (s ++ p ++ q) = skipn (160 * k) (s ++ p) ++ q).
  { rewrite app_assoc, (skipn_app _ (s ++ p) q). replace (160 * k - length (s ++ p))%nat with 0%nat by (rewrite app_length; lia).
    reflexivity. }
  rewrite X0, windows_app. f_equal. rewrite <- X0, skipn_add. do 2 f_equal.
  rewrite skipn_length, app_length, E.
  replace (length s + length p - 160 * k)%nat with (length s - 160 * k + length p)%nat by lia. lia.
Qed.

Lemma windows_none : forall (s : list F), windows 400 160 (skipn (used s) s) = [].
Proof.
  intros s. destruct (num_windows_split (length s) 0) as [E [B1 B2]].
  unfold windows. rewrite skipn_length.
  replace (num_windows 400 160 (length s - used s)) with 0%nat; [reflexivity|].
  rewrite !Nat.add_0_r in E. lia.
Qed.

Definition after_pieces (rc : recognizer F C) (err : bytes) (wave : list F) (n : Z)
  (x : list Z * option (utt F C) * bytes) (y : am_inst F * (decoder F C * (bytes * F))) : Prop :=
  let '(ns, u, e) := x in let '(a, (d, (hyp, ll))) := y in
  e = err /\ total ns = n /\ Forall (fun n => 0 <= n) ns /\
  exists r, u = Some (mk_utt (Some (mk_internal (Some rc) r wave a d)) hyp ll).

Lemma pieces_ok : forall bits rc ps err r s a d hyp ll,
  bits = 8 \/ bits = 16 \/ bits = 32 -> ready bits r -> Forall piece ps -> frames_total rc ->
  exists xs r', ready bits r' /\
    r_buffer r ++ concat ps = concat (map (encode (width bits)) xs) ++ r_buffer r' /\
    Forall (fits (width bits)) xs /\
    alike same (after_pieces rc err (skipn (used (s ++ S0 xs)) (s ++ S0 xs)) (lenZ xs))
      (process_pieces O X tenth fuel err
         (Some (mk_utt (Some (mk_internal (Some rc) r (skipn (used s) s) a d)) hyp ll)) ps)
      (for_each (windows 400 160 (skipn (used s) (s ++ S0 xs))) (window_step rc) (a, (d, (hyp, ll)))).
Proof.
  intros bits rc. induction ps as [|p ps IH]; intros err r s a d hyp ll W R H FT.
  - exists [], r. split; [assumption|]. cbn [concat map app]. rewrite app_nil_r. split; [reflexivity|].
    split; [constructor|]. rewrite app_nil_r, windows_none. cbn [process_pieces for_each alike after_pieces total fold_right].
    repeat (split; [first [reflexivity|constructor]|]). eauto.
  - inversion H as [|? ? [PB [PN PL]] H']; subst.
    destruct (process_ok bits r p W R PB PN ltac:(lia)) as (xs & r1 & E1 & R1 & Q1 & F1).
    cbn [process_pieces]. unfold stt_process. cbn [check_utt u_internal i_recognizer bind i_reader].
    rewrite E1. cbn [bind i_recognizer i_wave i_am i_decoder u_hyp u_loglik].
    destruct (Z.eqb_spec (lenZ xs) 0) as [Z0|Z0].
    + assert (xs = []) as -> by (destruct xs; [reflexivity|unfold lenZ in Z0; cbn [length] in Z0; lia]).
      destruct (IH err r1 s a d hyp ll W R1 H' FT) as (ys & r2 & R2 & Q2 & F2 & A2).
      exists ys, r2. split; [assumption|]. split.
      { cbn [concat map app] in *. rewrite app_assoc, Q1. exact Q2. }
      split; [assumption|]. cbn [bind].
      rewrite <- (bind_ret _ (for_each _ _ _)).
      eapply alike_bind; [exact A2|]. intros [[ns u] e] [a' [d' [h' l']]] P.
      cbn [bind alike]. unfold after_pieces in *. destruct P as (P1 & P2 & P3 & P4).
      split; [assumption|]. split; [exact P2|]. split; [|assumption]. constructor; [lia|assumption].
    + assert (LX : lenZ (S0 xs) < 536870000).
      { assert (lenZ xs <= lenZ p); [|unfold lenZ in *; rewrite map_length; lia].
        assert (LL : length (r_buffer r ++ p) = (width bits * length xs + length (r_buffer r1))%nat).
        { rewrite Q1, app_length. f_equal. clear. induction xs as [|x xs IH]; [cbn; lia|].
          cbn [map concat length]. rewrite app_length, encode_length, IH. lia. }
        destruct R as (_ & _ & _ & RL). rewrite app_length in LL.
        assert (width bits > 0)%nat by (destruct W as [-> | [-> | ->]]; cbv; lia). unfold lenZ. nia. }
      rewrite fbank_process_eq by (try assumption; intros N; apply map_eq_nil in N; subst; cbn in Z0; lia).
      rewrite bind_bind.
      destruct (IH err r1 (s ++ S0 xs) a d hyp ll W R1 H' FT) as (ys0 & r2' & R2' & Q2' & F2' & _).
      exists (xs ++ ys0), r2'. split; [assumption|]. split.
      { cbn [concat]. rewrite app_assoc, Q1, <- app_assoc, Q2', map_app, concat_app, <- app_assoc. reflexivity. }
      split; [apply Forall_app; auto|].
      rewrite map_app, windows_more, for_each_app.
      match goal with |- alike _ _ ?L _ => enough (EL : L =
        bind (rows <- map_rows (frame_features O (rc_fbank rc)) (windows 400 160 (skipn (used s) (s ++ S0 xs))) ;;
              for_each rows (decode_frame O X tenth fuel rc) (a, (d, (hyp, ll))))
          (fun '(a, (d, (hyp, ll))) =>
             '(ns, u, err) <- process_pieces O X tenth fuel err
               (Some (mk_utt (Some (mk_internal (Some rc) r1 (skipn (used (s ++ S0 xs)) (s ++ S0 xs)) a d)) hyp ll)) ps ;;
             Ok (lenZ xs :: ns, u, err))) end.
      * rewrite EL. eapply alike_bind; [apply rows_then; [assumption|apply frames_total_windows; assumption]|]. intros x y ->. destruct y as [a' [d' [h' l']]].
        destruct (IH err r1 (s ++ S0 xs) a' d' h' l' W R1 H' FT) as (ys & r2 & R2 & Q2 & F2 & A2).
        assert (ys = ys0 /\ r_buffer r2 = r_buffer r2') as [-> EB].
        { apply (decodes_unique (width bits)); auto; [destruct W as [-> | [-> | ->]]; cbv; lia|congruence|apply R2|apply R2']. }
        rewrite <- (bind_ret _ (for_each _ _ _)). rewrite app_assoc. 
        eapply alike_bind; [exact A2|]. intros [[ns u] e] [a2 [d2 [h2 l2]]] P.
        cbn [bind alike]. unfold after_pieces in *. destruct P as (P1 & P2 & P3 & P4).
        split; [assumption|]. split; [|split; [constructor; [unfold lenZ; lia|assumption]|assumption]].
        cbn [total fold_right]. fold (total ns). rewrite lenZ_app. lia.
      * rewrite !bind_bind. destruct (map_rows _ _) as [rows|]; cbn [bind]; [|reflexivity].
        destruct (for_each rows _ _) as [[a' [d' [h' l']]]|]; reflexivity.
Qed.

Lemma utt_init_inv : forall err (rc : recognizer F C) f u err0,
  utt_init O X tenth fuel err rc f = Ok (Some u, err0) ->
  err0 = err /\ supported f /\
  exists d, u = mk_utt (Some (mk_internal (Some rc) (mk_reader [] f true) [] inst_init d)) [0] (f_zero O).
Proof.
  intros err rc f u err0 E. unfold utt_init in E. inv_bind E. inv_bind E.
  destruct (set_format_cases reader_init f) as [[S1 S2]|[S1 S2]]; rewrite S2 in E.
  - injection E as <- <-. split; [reflexivity|]. split; [assumption|]. eexists. reflexivity.
  - inv_bind E. discriminate.
Qed.

(** What a session amounts to. *)
Definition whole (rc : recognizer F C) (d : decoder F C) (xs : list Z) : res (bytes * F) :=
  '(a, (d, (hyp, ll))) <- for_each (windows 400 160 (S0 xs)) (window_step rc) (inst_init, (d, ([0], f_zero O))) ;;
  '(rows, _) <- am_end O (rc_am rc) a ;;
  d <- for_each rows (fun d logp =>
         '(d, _) <- process O X (utt_config O tenth rc) (ogc label_block) fuel d logp ;; Ok d) d ;;
  store_hyp O X tenth rc (end_of_stream d) (hyp, ll).

Definition session_is (n : Z) (x : list Z * bytes * F) (y : bytes * F) : Prop :=
  total (Datatypes.fst (Datatypes.fst x)) = n /\ Forall (fun n => 0 <= n) (Datatypes.fst (Datatypes.fst x)) /\ (snd (Datatypes.fst x), snd x) = y.

Lemma session_whole : forall bits rc ps err d, bits = 8 \/ bits = 16 \/ bits = 32 -> Forall piece ps -> frames_total rc ->
  exists xs rest, decodes (width bits) (concat ps) xs rest /\
    alike same (session_is (lenZ xs))
      (session O X tenth fuel err
         (Some (mk_utt (Some (mk_internal (Some rc) (mk_reader [] (mk_format 1 16000 bits) true) [] inst_init d)) [0] (f_zero O))) ps)
      (whole rc d xs).
Proof.
  intros bits rc ps err d W H FT.
  assert (R : ready bits (mk_reader [] (mk_format 1 16000 bits) true)).
  { unfold ready. cbn [r_ready r_format w_bits r_buffer length]. repeat split; [constructor|].
    destruct W as [-> | [-> | ->]]; cbv; lia. }
  destruct (pieces_ok bits rc ps err _ [] inst_init d [0] (f_zero O) W R H FT) as (xs & r' & R' & Q & Fx & A).
  exists xs, (r_buffer r'). split.
  { unfold decodes. cbn [r_buffer app] in Q. split; [exact Q|]. split; [assumption|]. apply R'. }
  unfold session, whole. cbn [app] in A. change (skipn (used []) (@nil F)) with (@nil F) in A.
  change (skipn (used []) (S0 xs)) with (S0 xs) in A.
  eapply alike_bind; [exact A|]. intros [[ns u] e] [a [d' [hyp ll]]] P.
  unfold after_pieces in P. destruct P as (-> & T & N & r2 & ->).
  cbn [stt_end check_utt u_internal i_recognizer bind i_am i_decoder u_hyp u_loglik].
  destruct (am_end O (rc_am rc) a) as [[rows a2]|]; cbn [bind alike]; [|apply same_refl].
  destruct (for_each rows _ _) as [d2|]; cbn [bind alike]; [|apply same_refl].
  destruct (store_hyp O X tenth rc (end_of_stream d2) (hyp, ll)) as [[h l]|]; cbn [bind alike]; [|apply same_refl].
  cbn [u_hyp u_loglik]. unfold session_is. cbn [Datatypes.fst snd]. auto.
Qed.

Lemma whole_samples : forall n xs stream rest, (0 < n)%nat -> decodes n stream xs rest ->
  lenZ xs = lenZ stream / Z.of_nat n.
Proof.
  intros n xs stream rest P (-> & _ & L). unfold lenZ. rewrite app_length.
  assert (E : length (concat (map (encode n) xs)) = (n * length xs)%nat).
  { clear. induction xs as [|x xs IH]; [cbn; lia|]. cbn [map concat length]. rewrite app_length, encode_length, IH. lia. }
  rewrite E. apply (Z.div_unique _ _ _ (Z.of_nat (length rest))); lia.
Qed.

Lemma session_cut : forall err (rc : recognizer F C) f u err0 ps qs,
  utt_init O X tenth fuel err rc f = Ok (Some u, err0) -> Forall piece ps -> Forall piece qs ->
  concat ps = concat qs -> frames_total rc ->
  (forall f g, same f g -> same g f) -> (forall f g h, same f g -> same g h -> same f h) ->
  alike same (fun x y => let '(ns, hyp, ll) := x in let '(ms, hyp', ll') := y in
           hyp = hyp' /\ ll = ll' /\
           total ns = lenZ (concat ps) / (w_bits f / 8) /\ total ms = lenZ (concat ps) / (w_bits f / 8) /\
           Forall (fun n => 0 <= n) (ns ++ ms))
    (session O X tenth fuel err (Some u) ps) (session O X tenth fuel err (Some u) qs).
Proof.
  intros err rc f u err0 ps qs E HP HQ EC FT QS QT.
  destruct (utt_init_inv _ _ _ _ _ E) as (-> & (S1 & S2 & S3) & d & ->).
  destruct f as [ch rate bits]. cbn [w_channels w_rate w_bits] in *. subst ch rate. unfold valid_width in S3.
  destruct (session_whole bits rc ps err d S3 HP FT) as (xs & r1 & D1 & A1).
  destruct (session_whole bits rc qs err d S3 HQ FT) as (ys & r2 & D2 & A2).
  assert (P : (0 < width bits)%nat) by (destruct S3 as [-> | [-> | ->]]; cbv; lia).
  assert (xs = ys) as <-.
  { destruct D1 as (Q1 & F1 & L1), D2 as (Q2 & F2 & L2).
    apply (decodes_unique (width bits) P xs ys r1 r2); auto. congruence. }
  assert (WS : lenZ xs = lenZ (concat ps) / (bits / 8)).
  { rewrite (whole_samples (width bits) xs (concat ps) r1 P D1). f_equal.
    destruct S3 as [-> | [-> | ->]]; reflexivity. }
  eapply alike_trans; [exact QT|exact A1|eapply alike_sym; [exact QS| |exact A2]|].
  - intros x y K. exact K.
  - intros [[ns h] l] y [[ms h'] l'] (T1 & N1 & E1) (T2 & N2 & E2). cbn [Datatypes.fst snd] in *. subst y.
    injection E2 as -> ->. rewrite <- WS. repeat split; auto. apply Forall_app. auto.
Qed.

(** * Text during and after the stream *)

Lemma reached_trans : forall (cfg : config F C) d1 d2 d3, reached O X cfg fuel d1 d2 -> reached O X cfg fuel d2 d3 -> reached O X cfg fuel d1 d3.
Proof.
  intros cfg d1 d2 d3 H1 H2. revert H1. induction H2; intros H1; [assumption|].
  eapply reached_row; [apply IHreached; assumption|eassumption].
Qed.

Notation text_of rc := (text_of O X (utt_config O tenth rc) fuel (rc_symbols rc)).

Lemma text_of_step : forall (rc : recognizer F C) d d1 d2 a b c, reached O X (utt_config O tenth rc) fuel d d1 ->
  reached O X (utt_config O tenth rc) fuel d1 d2 ->
  text_of rc d d1 a b -> text_of rc d1 d2 b c -> text_of rc d d2 a c.
Proof.
  intros rc d d1 d2 a b c R1 R2 [->|(e & ws & w & H1 & H2 & H3)] [->|(e' & ws' & w' & H1' & H2' & H3')].
  - now left.
  - right. exists e', ws', w'. split; [exact (reached_trans _ _ _ _ R1 H1')|]. auto.
  - right. exists e, ws, w. split; [assumption|]. split; [exact (reached_trans _ _ _ _ H2 R2)|]. auto.
  - right. exists e', ws', w'. split; [exact (reached_trans _ _ _ _ R1 H1')|]. auto.
Qed.

Lemma rows_text : forall (rc : recognizer F C) rows d out d' out',
  for_each rows (decode_row O X tenth fuel rc) (d, out) = Ok (d', out') ->
  reached O X (utt_config O tenth rc) fuel d d' /\ text_of rc d d' out out'.
Proof.
  intros rc. induction rows as [|logp rows IH]; intros d out d' out' E; cbn [for_each] in E.
  - injection E as <- <-. split; [constructor|now left].
  - destruct (bind_ok _ _ _ _ _ E) as [[d1 out1] [E1 E2]]. unfold decode_row in E1.
    destruct (bind_ok _ _ _ _ _ E1) as [[d2 ok] [E3 E4]].
    destruct (bind_ok _ _ _ _ _ E4) as [out2 [E5 E6]]. injection E6 as <- <-.
    assert (R : reached O X (utt_config O tenth rc) fuel d d2) by (eapply reached_row; [constructor|eassumption]).
    destruct (IH _ _ _ _ E2) as [R2 T2]. split; [exact (reached_trans _ _ _ _ R R2)|].
    eapply text_of_step; [exact R|exact R2| |exact T2].
    destruct (Z.eqb_spec (Z.rem (d_frames d2) 20) 0) as [Z0|]; [|injection E5 as <-; now left].
    destruct out2 as [h l]. destruct (store_spells O X tenth rc d2 out h l E5) as (ws & w & B1 & B2 & B3).
    right. exists d2, ws, w. split; [assumption|]. split; [constructor|]. split; [assumption|]. split; [assumption|].
    cbn [Datatypes.fst snd]. split; [assumption|]. intros N. destruct ws; [congruence|assumption].
Qed.

Lemma frames_text : forall (rc : recognizer F C) feats a d out a' d' out',
  for_each feats (decode_frame O X tenth fuel rc) (a, (d, out)) = Ok (a', (d', out')) ->
  reached O X (utt_config O tenth rc) fuel d d' /\ text_of rc d d' out out'.
Proof.
  intros rc. induction feats as [|f feats IH]; intros a d out a' d' out' E; cbn [for_each] in E.
  - injection E as <- <- <-. split; [constructor|now left].
  - destruct (bind_ok _ _ _ _ _ E) as [[a1 [d1 out1]] [E1 E2]]. unfold decode_frame in E1.
    destruct (bind_ok _ _ _ _ _ E1) as [[rows a2] [E3 E4]].
    destruct (bind_ok _ _ _ _ _ E4) as [[d2 out2] [E5 E6]]. injection E6 as <- <- <-.
    destruct (rows_text _ _ _ _ _ _ E5) as [R1 T1]. destruct (IH _ _ _ _ _ _ E2) as [R2 T2].
    split; [exact (reached_trans _ _ _ _ R1 R2)|]. exact (text_of_step _ _ _ _ _ _ _ R1 R2 T1 T2).
Qed.

Lemma process_text : forall err (v : utt F C) i rc data size n u' err',
  u_internal v = Some i -> i_recognizer i = Some rc ->
  stt_process O X tenth fuel err (Some v) data size = Ok (n, u', err') ->
  exists v' i', u' = Some v' /\ u_internal v' = Some i' /\ i_recognizer i' = Some rc /\
    reached O X (utt_config O tenth rc) fuel (i_decoder i) (i_decoder i') /\
    text_of rc (i_decoder i) (i_decoder i') (u_hyp v, u_loglik v) (u_hyp v', u_loglik v').
Proof.
  intros err v i rc data size n u' err' U1 U2 E. unfold stt_process in E.
  rewrite (check_good err v i rc U1 U2) in E. cbn [bind] in E.
  destruct (bind_ok _ _ _ _ _ E) as [[[xs|] r] [E1 E2]].
  - destruct (lenZ xs =? 0).
    + injection E2 as <- <- <-. eexists _, _. split; [reflexivity|]. cbn [u_internal i_recognizer i_decoder u_hyp u_loglik].
      split; [reflexivity|]. cbn [i_recognizer i_decoder]. split; [assumption|]. split; [constructor|now left].
    + destruct (bind_ok _ _ _ _ _ E2) as [[fe wa] [E3 E4]].
      destruct (bind_ok _ _ _ _ _ E4) as [[am [d [hy ll]]] [E5 E6]]. injection E6 as <- <- <-.
      eexists _, _. split; [reflexivity|]. cbn [u_internal u_hyp u_loglik]. split; [reflexivity|].
      cbn [i_recognizer i_decoder]. split; [assumption|]. eapply frames_text. eassumption.
  - inv_bind E2. injection E2 as <- <- <-. exists v, i. repeat split; auto; [constructor|now left].
Qed.

Lemma end_text : forall err (v : utt F C) i rc u' err',
  u_internal v = Some i -> i_recognizer i = Some rc ->
  stt_end O X tenth fuel err (Some v) = Ok (u', err') ->
  exists v' i' d words weight, u' = Some v' /\ u_internal v' = Some i' /\ i_recognizer i' = Some rc /\
    reached O X (utt_config O tenth rc) fuel (i_decoder i) d /\ i_decoder i' = end_of_stream d /\
    best_path O X (utt_config O tenth rc) (i_decoder i') = Ok (words, weight) /\
    spells (rc_symbols rc) (rev words) (u_hyp v') /\
    u_loglik v' = (if words then u_loglik v else f_div O weight (f_int O (d_frames d))).
Proof.
  intros err v i rc u' err' U1 U2 E. unfold stt_end in E.
  rewrite (check_good err v i rc U1 U2) in E. cbn [bind] in E.
  destruct (bind_ok _ _ _ _ _ E) as [[rows a] [E1 E2]]. inv_bind E2. rename a0 into d.
  destruct (bind_ok _ _ _ _ _ E2) as [[h l] [E3 E4]]. injection E4 as <- <-.
  destruct (store_spells O X tenth rc _ _ _ _ E3) as (ws & w & B1 & B2 & B3).
  eexists _, _, d, ws, w. split; [reflexivity|]. cbn [u_internal u_hyp u_loglik]. split; [reflexivity|].
  cbn [i_recognizer i_decoder]. split; [assumption|]. split.
  { eapply (for_each_ok _ _ (fun x => reached O X (utt_config O tenth rc) fuel (i_decoder i) x) _ _ _ _ (reached_here _ _ _ _ _)); [|exact Hb].
    intros s lp s' _ R P. destruct (bind_ok _ _ _ _ _ P) as [[d2 ok] [P1 P2]]. injection P2 as <-.
    eapply reached_row; eassumption. }
  split; [reflexivity|]. split; [assumption|]. split; [assumption|]. exact B3.
Qed.

Lemma huge_process : forall err (rc : recognizer F C) u err0 p, lenZ p = 1073741824 ->
  utt_init O X tenth fuel err rc (mk_format 1 16000 8) = Ok (Some u, err0) ->
  stt_process O X tenth fuel err0 (Some u) (Some p) (lenZ p) = Fault Undef.
Proof.
  intros err rc u err0 p L E. destruct (utt_init_inv _ _ _ _ _ E) as (-> & _ & d & ->).
  unfold stt_process. cbn [check_utt u_internal i_recognizer bind i_reader].
  unfold reader_process. cbn [r_ready r_buffer r_format w_bits negb app].
  rewrite L. cbn [Z.leb Z.compare check bind].
  rewrite firstn_all2 by (unfold lenZ in L; lia). rewrite L. reflexivity.
Qed.
Lemma bad_calls : forall (cs : list (stt_call (F := F) (C := C))) err, lenZ err = error_size ->
  Forall (fun c => match c with
                   | CallProcess u _ _ => complaint u <> None
                   | CallEnd u => u <> None /\ complaint u <> None
                   | _ => False
                   end) cs ->
  exists err', for_each cs (call_error O X tenth fuel) err = Ok err' /\ lenZ err' = error_size.
Proof.
  induction cs as [|c cs IH]; intros err L H; cbn [for_each]; [eauto|]. inversion H as [|? ? H1 H2]; subst.
  destruct c as [why|rc f|u data size|u|f why]; try tauto.
  - destruct (complaint u) as [s|] eqn:E; [|congruence].
    destruct (process_bad O X tenth fuel err u s data size L E) as (e & E1 & E2 & _).
    cbn [call_error]. rewrite E1. cbn [bind]. auto.
  - destruct H1 as [H1 H3]. destruct u as [v|]; [|congruence]. destruct (complaint (Some v)) as [s|] eqn:E; [|congruence].
    destruct (end_bad O X tenth fuel err v s L E) as (e & E1 & E2 & _).
    cbn [call_error]. rewrite E1. cbn [bind]. auto.
Qed.
End Session.

(** * The main results *)
Lemma cut_any : forall F D C (O : fops F) (X : xops F D) tenth fuel err (rc : recognizer F C) f u err0 ps qs,
  utt_init O X tenth fuel err rc f = Ok (Some u, err0) -> Forall piece ps -> Forall piece qs ->
  concat ps = concat qs ->
  alike any (fun x y => let '(ns, hyp, ll) := x in let '(ms, hyp', ll') := y in
           hyp = hyp' /\ ll = ll' /\
           total ns = lenZ (concat ps) / (w_bits f / 8) /\ total ms = lenZ (concat ps) / (w_bits f / 8) /\
           Forall (fun n => 0 <= n) (ns ++ ms))
    (session O X tenth fuel err (Some u) ps) (session O X tenth fuel err (Some u) qs).
Proof.
  intros. eapply session_cut; eauto; unfold any; auto. left. auto.
Qed.

Lemma cut_same : forall F D C (O : fops F) (X : xops F D) tenth fuel err (rc : recognizer F C) f u err0 ps qs,
  tables_fit (rc_fbank rc) ->
  (forall x, f_nonneg O (if f_lt O x (f_eps O) then f_eps O else x) = true) ->
  utt_init O X tenth fuel err rc f = Ok (Some u, err0) -> Forall piece ps -> Forall piece qs ->
  concat ps = concat qs ->
  alike eq (fun x y => Datatypes.snd (Datatypes.fst x) = Datatypes.snd (Datatypes.fst y) /\ Datatypes.snd x = Datatypes.snd y)
    (session O X tenth fuel err (Some u) ps) (session O X tenth fuel err (Some u) qs).
Proof.
  intros F D C O X tenth fuel err rc f u err0 ps qs TF NN E HP HQ EC.
  assert (FT : frames_total O eq rc).
  { right. intros w L. destruct (FbankTotal.frame_total O (rc_fbank rc) w TF NN L) as (r & R & _). eauto. }
  assert (A := session_cut O X tenth fuel eq ltac:(reflexivity) err rc f u err0 ps qs E HP HQ EC FT
                 ltac:(intros; congruence) ltac:(intros; congruence)).
  destruct (session O X tenth fuel err (Some u) ps) as [[[ns h] l]|], (session O X tenth fuel err (Some u) qs) as [[[ms h'] l']|];
    cbn [alike Datatypes.fst Datatypes.snd] in *; tauto.
Qed.

Lemma bad_end : forall F D C (O : fops F) (X : xops F D) tenth fuel err,
  stt_end O X tenth fuel err (None : option (utt F C)) = Fault Undef /\ utt_destroy (None : option (utt F C)) = Fault Undef.
Proof. split; reflexivity. Qed.

Lemma huge_call : exists p, lenZ p = 1073741824 /\ byte_list p /\
  forall F D C (O : fops F) (X : xops F D) tenth fuel err (rc : recognizer F C) u err0,
  utt_init O X tenth fuel err rc (mk_format 1 16000 8) = Ok (Some u, err0) ->
  stt_process O X tenth fuel err0 (Some u) (Some p) (lenZ p) = Fault Undef.
Proof.
  destruct huge_piece_exists as (p & L & B). exists p. split; [exact L|]. split; [exact B|].
  intros. eapply huge_process; eauto.
Qed.

Lemma bad_handle : forall F D C (O : fops F) (X : xops F D) tenth fuel err (u : option (utt F C)) s data size,
  lenZ err = error_size -> complaint u = Some s ->
  (exists err', stt_process O X tenth fuel err u data size = Ok (failed, u, err') /\ lenZ err' = error_size /\
    last_error err' = lit s) /\
  (u <> None -> exists err', stt_end O X tenth fuel err u = Ok (u, err') /\ lenZ err' = error_size /\
    last_error err' = lit s).
Proof.
  intros F D C O X tenth fuel err u s data size L E.
  assert (Sh : firstn (Z.to_nat 2047) (cstr (lit s)) = lit s).
  { unfold complaint in E. destruct u as [v|]; [destruct (u_internal v) as [i|]; [destruct (i_recognizer i); [discriminate|]|]|];
      injection E as <-; reflexivity. }
  rewrite <- Sh. split.
  - exact (process_bad O X tenth fuel err u s data size L E).
  - intros N. destruct u as [v|]; [|congruence]. exact (end_bad O X tenth fuel err v s L E).
Qed.
