(** The properties of the PCM reader in the form used by Props/Audio.v. *)
From Coq Require Import ZArith List Bool Lia.
From Verif.Base Require Import Prelude Lemmas.
From Verif.Model Require Import Util File Binary Vector Pcm.
From Verif.Spec Require Import AudioSpec PcmSpec.
From Verif.Proof Require Import Binary Pcm.
Import ListNotations.
Open Scope Z_scope.
Ltac Zify.zify_post_hook ::= Z.div_mod_to_equations.

Lemma header_overflow :
  let content := pcm_header 36 1 2147483647 0 2 16 0 in
  byte_list content /\ read_pcm_header (open content) = Fault Undef.
Proof.
  split; [|reflexivity]. unfold byte_list.
  repeat constructor; cbv; congruence.
Qed.

Lemma run_feed : forall bits (ps : list bytes) r, bits = 8 \/ bits = 16 \/ bits = 32 -> ready bits r ->
  Forall (fun p => byte_list p /\ p <> [] /\ lenZ p <= 536870911 * Z.of_nat (width bits)) ps ->
  exists xss r', reader_run r (map (fun p => CallProcess (Some p) (lenZ p)) ps)
      = Ok (map Samples xss, r') /\ ready bits r' /\
    r_buffer r ++ concat ps = concat (map (encode (width bits)) (concat xss)) ++ r_buffer r' /\
    Forall (fits (width bits)) (concat xss).
Proof.
  intros bits ps r W R H. destruct (feed_ok bits ps r W R H) as [xss [r' [E X]]].
  exists xss, r'. split; [|exact X]. clear X H R. revert r xss E.
  induction ps as [|p ps IH]; intros r xss E; cbn [feed map reader_run] in *.
  - inversion E; subst. reflexivity.
  - cbn [reader_step]. destruct (reader_process r (Some p) (lenZ p)) as [[[xs|] r1]|]; cbn [bind] in *; try discriminate.
    destruct (feed r1 ps) as [[l r2]|] eqn:F; cbn [bind] in *; try discriminate. inversion E; subst.
    rewrite (IH _ _ F). reflexivity.
Qed.

Lemma sample_decoding : forall bits (ps : list bytes), bits = 8 \/ bits = 16 \/ bits = 32 ->
  Forall (fun p => byte_list p /\ p <> [] /\ lenZ p <= 536870911 * (bits / 8)) ps ->
  exists xss r,
    reader_run reader_init (CallSetFormat (mk_format 1 16000 bits) ::
                            map (fun p => CallProcess (Some p) (lenZ p)) ps)
      = Ok (Status true :: map Samples xss, r) /\
    decodes (Z.to_nat (bits / 8)) (concat ps) (concat xss) (r_buffer r).
Proof.
  intros bits ps W H.
  assert (WZ : Z.of_nat (width bits) = bits / 8) by (destruct W as [-> | [-> | ->]]; reflexivity).
  rewrite <- WZ in H. clear WZ. cbn [reader_run reader_step].
  destruct (set_format reader_init (mk_format 1 16000 bits)) as [ok r] eqn:E.
  assert (ok = true) as -> by (destruct W as [-> | [-> | ->]]; inversion E; reflexivity).
  assert (E0 : r_buffer r = []) by (destruct W as [-> | [-> | ->]]; inversion E; reflexivity).
  apply ready_init in E; auto.
  destruct (run_feed bits ps r W E H) as [xss [r' [Q [[_ [_ [_ L]]] [X F]]]]].
  exists xss, r'. cbn [bind]. rewrite Q. cbn [bind]. split; [reflexivity|].
  rewrite E0 in X. cbn [app] in X.
  replace (Z.to_nat (bits / 8)) with (width bits) by (destruct W as [-> | [-> | ->]]; reflexivity).
  unfold decodes. auto.
Qed.

Lemma huge_piece : forall p : bytes, lenZ p = 1073741824 ->
  reader_run reader_init [CallSetFormat (mk_format 1 16000 8); CallProcess (Some p) (lenZ p)] = Fault Undef.
Proof.
  intros p L. cbn [reader_run reader_step set_format reader_init w_channels w_rate w_bits negb Z.eqb Pos.eqb orb
     bind r_buffer]. unfold reader_process. cbn [r_ready r_buffer r_format w_bits negb app].
  rewrite L. cbn [Z.leb Z.compare check bind].
  rewrite firstn_all2 by (unfold lenZ in L; lia). rewrite L. reflexivity.
Qed.

Lemma huge_piece_exists : exists p, lenZ p = 1073741824 /\ byte_list p.
Proof.
  exists (repeat 0 (Z.to_nat 1073741824)). split.
  - unfold lenZ. rewrite repeat_length. apply Z2Nat.id. lia.
  - unfold byte_list. apply Forall_forall. intros x I. apply repeat_spec in I. subst. lia.
Qed.

Lemma eight_bit : forall b, 0 <= b < 256 -> exists x r,
  reader_run reader_init [CallSetFormat (mk_format 1 16000 8); CallProcess (Some [b]) 1]
    = Ok ([Status true; Samples [x]], r) /\
  x <> b - 128 /\ x = if b <? 128 then b else b - 256.
Proof.
  intros b B. exists (le_signed [b]), (mk_reader [] (mk_format 1 16000 8) true).
  split; [reflexivity|].
  assert (E : le_signed [b] = if b <? 128 then b else b - 256).
  { unfold le_signed, le_unsigned, lenZ. cbn [length]. change (256 ^ Z.of_nat 1) with 256.
    change (256 / 2) with 128. replace (b + 256 * 0) with b by lia. reflexivity. }
  rewrite E. destruct (Z.ltb_spec b 128); split; lia.
Qed.

(** * Rejected calls *)

Lemma set_format_cases : forall r f, (supported f /\ set_format r f = (true, mk_reader (r_buffer r) f true)) \/
  (~ supported f /\ set_format r f = (false, r)).
Proof.
  intros r f. unfold set_format, supported, valid_width.
  destruct (Z.eqb_spec (w_channels f) 1); cbn [negb]; [|right; split; [tauto|reflexivity]].
  destruct (Z.eqb_spec (w_rate f) 16000); cbn [negb]; [|right; split; [tauto|reflexivity]].
  destruct (Z.eqb_spec (w_bits f) 8); [left; split; [tauto|reflexivity]|].
  destruct (Z.eqb_spec (w_bits f) 16); [left; split; [tauto|reflexivity]|].
  destruct (Z.eqb_spec (w_bits f) 32); [left; split; [tauto|reflexivity]|].
  right; split; [tauto|reflexivity].
Qed.

Lemma process_ready : forall r b n a r', reader_process r b n = Ok (a, r') -> r_ready r' = r_ready r.
Proof.
  intros r b n a r' H. unfold reader_process in H.
  destruct b as [d|]; [|inversion H; reflexivity].
  destruct (n <=? 0); [inversion H; reflexivity|].
  destruct (negb (r_ready r)); [inversion H; reflexivity|].
  repeat (match type of H with bind ?m _ = _ => destruct m; cbn [bind] in H; [|discriminate] end).
  inversion H; reflexivity.
Qed.

Lemma never_ready : forall cs r l r', r_ready r = false ->
  (forall f, In (CallSetFormat f) cs -> ~ supported f) ->
  reader_run r cs = Ok (l, r') -> r_ready r' = false.
Proof.
  induction cs as [|c cs IH]; intros r l r' R N H; cbn [reader_run] in H.
  - inversion H; subst; assumption.
  - destruct (reader_step r c) as [[a r1]|] eqn:E; cbn [bind] in H; [|discriminate].
    destruct (reader_run r1 cs) as [[l1 r2]|] eqn:E2; cbn [bind] in H; [|discriminate].
    inversion H; subst. apply (IH r1 l1 r'); [|intros f I; apply N; now right|assumption].
    destruct c as [f|b n|]; cbn [reader_step] in E.
    + destruct (set_format_cases r f) as [[S _]|[_ S]].
      * exfalso. apply (N f); [now left|assumption].
      * rewrite S in E. inversion E; subst. assumption.
    + destruct (reader_process r b n) as [[o r3]|] eqn:P; cbn [bind] in E; [|discriminate].
      inversion E; subst. apply process_ready in P. congruence.
    + inversion E; subst. cbn. assumption.
Qed.

Lemma run_app : forall cs1 cs2 r, reader_run r (cs1 ++ cs2) =
  bind (reader_run r cs1) (fun x => bind (reader_run (snd x) cs2) (fun y => Ok (fst x ++ fst y, snd y))).
Proof.
  induction cs1 as [|c cs1 IH]; intros cs2 r; cbn [app reader_run bind fst snd].
  - destruct (reader_run r cs2) as [[l r']|]; reflexivity.
  - destruct (reader_step r c) as [[a r1]|]; cbn [bind]; [|reflexivity].
    rewrite IH. destruct (reader_run r1 cs1) as [[l1 r2]|]; cbn [bind fst snd]; [|reflexivity].
    destruct (reader_run r2 cs2) as [[l2 r3]|]; reflexivity.
Qed.

Lemma rejected_step : forall cs1 c l r, rejected cs1 c -> reader_run reader_init cs1 = Ok (l, r) ->
  reader_step r c = Ok (Status false, r).
Proof.
  intros cs1 c l r R H. destruct c as [f|[d|] n|]; cbn [rejected reader_step] in *.
  - destruct (set_format_cases r f) as [[S _]|[_ S]]; [tauto|]. rewrite S. reflexivity.
  - unfold reader_process. destruct (Z.leb_spec n 0); [reflexivity|].
    destruct R as [R|R]; [lia|]. rewrite (never_ready cs1 reader_init l r); auto.
  - reflexivity.
  - destruct R.
Qed.

Lemma rejected_intact : forall cs1 c cs2 l1 l2 r, rejected cs1 c -> length l1 = length cs1 ->
  reader_run reader_init (cs1 ++ cs2) = Ok (l1 ++ l2, r) <->
  reader_run reader_init (cs1 ++ c :: cs2) = Ok (l1 ++ Status false :: l2, r).
Proof.
  intros cs1 c cs2 l1 l2 r R L.
  assert (LEN : forall cs r l r', reader_run r cs = Ok (l, r') -> length l = length cs).
  { induction cs as [|x cs IH]; intros q l q' H; cbn [reader_run] in H.
    - inversion H; reflexivity.
    - destruct (reader_step q x) as [[a q1]|]; cbn [bind] in H; [|discriminate].
      destruct (reader_run q1 cs) as [[l0 q2]|] eqn:E; cbn [bind] in H; [|discriminate].
      inversion H; subst. cbn [length]. f_equal. eapply IH; eassumption. }
  assert (APP : forall (T : Type) (a b c d : list T), length a = length c -> a ++ b = c ++ d -> a = c /\ b = d).
  { induction a as [|x a IH]; destruct c0 as [|y c0]; intros d LL H; try discriminate LL; auto.
    cbn [app] in H. inversion H; subst. destruct (IH _ _ _ (eq_add_S _ _ LL) H2). subst; auto. }
  rewrite !run_app. 
  destruct (reader_run reader_init cs1) as [[m1 r1]|] eqn:E1; cbn [bind fst snd];
    [|split; discriminate].
  pose proof (LEN _ _ _ _ E1) as Lm.
  cbn [reader_run]. rewrite (rejected_step _ _ _ _ R E1). cbn [bind].
  destruct (reader_run r1 cs2) as [[m2 r2]|] eqn:E2; cbn [bind fst snd];
    [|split; discriminate].
  split.
  - intros H. injection H as H <-. apply APP in H; [|lia]. destruct H as [<- <-]. reflexivity.
  - intros H. injection H as H <-. apply APP in H; [|lia]. destruct H as [<- H]. injection H as <-. reflexivity.
Qed.

(** * Reset *)

Lemma process_format : forall r b n a r', reader_process r b n = Ok (a, r') -> r_format r' = r_format r.
Proof.
  intros r b n a r' H. unfold reader_process in H.
  destruct b as [d|]; [|inversion H; reflexivity].
  destruct (n <=? 0); [inversion H; reflexivity|].
  destruct (negb (r_ready r)); [inversion H; reflexivity|].
  repeat (match type of H with bind ?m _ = _ => destruct m; cbn [bind] in H; [|discriminate] end).
  inversion H; reflexivity.
Qed.

Lemma kept_format : forall cs r l r', (forall f, In (CallSetFormat f) cs -> ~ supported f) ->
  reader_run r cs = Ok (l, r') -> r_ready r' = r_ready r /\ r_format r' = r_format r.
Proof.
  induction cs as [|c cs IH]; intros r l r' N H; cbn [reader_run] in H.
  - inversion H; subst; auto.
  - destruct (reader_step r c) as [[a r1]|] eqn:E; cbn [bind] in H; [|discriminate].
    destruct (reader_run r1 cs) as [[l1 r2]|] eqn:E2; cbn [bind] in H; [|discriminate].
    inversion H; subst. destruct (IH r1 l1 r' (fun f I => N f (or_intror I)) E2) as [-> ->].
    destruct c as [f|b n|]; cbn [reader_step] in E.
    + destruct (set_format_cases r f) as [[S _]|[_ S]].
      * exfalso. apply (N f); [now left|assumption].
      * rewrite S in E. inversion E; subst. auto.
    + destruct (reader_process r b n) as [[o r3]|] eqn:P; cbn [bind] in E; [|discriminate].
      inversion E; subst. split; [eapply process_ready|eapply process_format]; eassumption.
    + inversion E; subst. auto.
Qed.

Lemma force_format : forall cs f l r', in_force cs f ->
  reader_run reader_init cs = Ok (l, r') -> r_ready r' = true /\ r_format r' = f.
Proof.
  intros cs f l r' [cs1 [cs2 [-> [S N]]]] H. rewrite run_app in H.
  destruct (reader_run reader_init cs1) as [[l1 r1]|]; cbn [bind fst snd] in H; [|discriminate].
  cbn [reader_run reader_step] in H.
  destruct (set_format_cases r1 f) as [[_ E]|[E _]]; [|tauto]. rewrite E in H. cbn [bind] in H.
  destruct (reader_run _ cs2) as [[l2 r2]|] eqn:E2; cbn [bind fst snd] in H; [|discriminate].
  inversion H; subst. apply kept_format in E2; auto.
Qed.

Lemma reset_run : forall cs ds l r, reader_run reader_init cs = Ok (l, r) ->
  reader_run reader_init (cs ++ CallReset :: ds)
  = bind (reader_run (mk_reader [] (r_format r) (r_ready r)) ds)
      (fun y => Ok (l ++ Status true :: fst y, snd y)).
Proof.
  intros cs ds l r H. rewrite run_app, H. cbn [bind fst snd reader_run reader_step].
  unfold reader_reset. destruct (reader_run _ ds) as [[m q]|]; reflexivity.
Qed.

Lemma reset_afresh : forall cs ds l r, reader_run reader_init cs = Ok (l, r) ->
  (forall f, in_force cs f ->
     reader_run reader_init (cs ++ CallReset :: ds)
     = bind (reader_run reader_init (CallSetFormat f :: ds)) (fun y => Ok (l ++ fst y, snd y))) /\
  ((forall f, In (CallSetFormat f) cs -> ~ supported f) ->
     reader_run reader_init (cs ++ CallReset :: ds)
     = bind (reader_run reader_init ds) (fun y => Ok (l ++ Status true :: fst y, snd y))).
Proof.
  intros cs ds l r H. rewrite (reset_run _ ds _ _ H). split.
  - intros f F. destruct (force_format _ _ _ _ F H) as [-> ->].
    destruct F as [_ [_ [_ [S _]]]]. cbn [reader_run reader_step].
    destruct (set_format_cases reader_init f) as [[_ E]|[E _]]; [|tauto]. rewrite E. cbn [bind].
    change (r_buffer reader_init) with (@nil Z).
    destruct (reader_run _ ds) as [[m q]|]; reflexivity.
  - intros N. destruct (kept_format _ _ _ _ N H) as [-> ->]. reflexivity.
Qed.

Lemma reset_case :
  let h := [CallSetFormat (mk_format 1 16000 16); CallProcess (Some [9; 1; 5]) 3;
            CallSetFormat (mk_format 2 16000 16)] in
  let ds := [CallProcess (Some [1]) 1; CallProcess (Some [1]) 1] in
  in_force h (mk_format 1 16000 16) /\
  reader_run reader_init h
    = Ok ([Status true; Samples [265]; Status false], mk_reader [5] (mk_format 1 16000 16) true) /\
  reader_run reader_init (h ++ CallReset :: ds)
    = Ok ([Status true; Samples [265]; Status false; Status true; Samples []; Samples [257]],
          mk_reader [] (mk_format 1 16000 16) true) /\
  reader_run reader_init (h ++ ds)
    = Ok ([Status true; Samples [265]; Status false; Samples [261]; Samples []],
          mk_reader [1] (mk_format 1 16000 16) true).
Proof.
  cbv zeta. split; [|repeat split; reflexivity].
  exists [], [CallProcess (Some [9; 1; 5]) 3; CallSetFormat (mk_format 2 16000 16)].
  split; [reflexivity|]. split; [repeat split; cbn; auto; right; left; reflexivity|].
  intros g [I|[I|[]]]; [discriminate|]. injection I as <-. intros [A _]. discriminate A.
Qed.

(** * Whole files *)

Lemma whole_file : forall bits chunk size xs tail rest,
  valid_width bits -> fits 4 chunk -> fits 4 size ->
  tail = concat (map (encode (Z.to_nat (bits / 8))) xs) ++ rest ->
  Forall (fits (Z.to_nat (bits / 8))) xs -> byte_list rest -> (length rest < Z.to_nat (bits / 8))%nat ->
  lenZ tail < 536870912 * (bits / 8) ->
  read_16k_pcm (pcm_header chunk 1 16000 (16000 * (bits / 8)) (bits / 8) bits size ++ tail)
  = Ok (if tail then None else Some xs).
Proof.
  intros bits chunk size xs tail rest W F1 F2 T F B L N.
  unfold read_16k_pcm, open.
  assert (Hd : read_pcm_header (mk_file (pcm_header chunk 1 16000 (16000 * (bits / 8)) (bits / 8) bits size ++ tail) false)
     = Ok (Some (mk_format 1 16000 bits), mk_file tail false)).
  { apply header_accepted; auto; try (unfold fits; cbn; lia);
      try (destruct W as [-> | [-> | ->]]; unfold fits; cbn; lia).
    destruct W as [-> | [-> | ->]]; split; reflexivity. }
  rewrite Hd. clear Hd. cbn [bind].
  destruct (set_format reader_init (mk_format 1 16000 bits)) as [ok r] eqn:E.
  assert (ok = true) as -> by (destruct W as [-> | [-> | ->]]; inversion E; reflexivity).
  assert (E0 : r_buffer r = []) by (destruct W as [-> | [-> | ->]]; inversion E; reflexivity).
  apply ready_init in E; auto. cbn [negb].
  assert (LH : lenZ (pcm_header chunk 1 16000 (16000 * (bits / 8)) (bits / 8) bits size ++ tail) - 44 = lenZ tail).
  { unfold lenZ. rewrite app_length. unfold pcm_header. rewrite !app_length, !encode_length. cbn [length]. lia. }
  rewrite LH.
  assert (WZ : Z.of_nat (width bits) = bits / 8) by (destruct W as [-> | [-> | ->]]; reflexivity).
  pose proof (width_cases bits W) as WC. rewrite WZ in WC.
  assert (Wr : wrap32 (lenZ tail) = lenZ tail).
  { unfold wrap32, int_max. rewrite Z.mod_small by (unfold lenZ in *; lia).
    destruct (Z.leb_spec (lenZ tail) 2147483647); lia. }
  rewrite Wr. destruct (Z.leb_spec 0 (lenZ tail)); [|unfold lenZ in *; lia]. cbn [check bind].
  destruct tail as [|c tail0] eqn:Et; [reflexivity|]. rewrite <- Et in *.
  pose proof (read_app tail [] false ltac:(rewrite Et; discriminate)) as RA. rewrite app_nil_r in RA.
  rewrite RA. cbn [bind].
  assert (Bt : byte_list tail).
  { rewrite T. unfold byte_list in *. apply Forall_app. split; auto.
    apply Forall_concat. apply Forall_map. apply Forall_forall. intros; apply encode_bytes. }
  assert (Nd : (lenZ (r_buffer r) + lenZ tail) / Z.of_nat (width bits) < 536870912).
  { rewrite E0, WZ. change (lenZ []) with 0. apply Z.div_lt_upper_bound; lia. }
  destruct (process_small bits r tail W E Bt ltac:(rewrite Et; discriminate) Nd) as [ys [r' [P [[_ [_ [_ L2]]] [Q Fy]]]]].
  rewrite P. cbn [bind]. do 2 f_equal.
  replace (Z.to_nat (bits / 8)) with (width bits) in * by (destruct W as [-> | [-> | ->]]; reflexivity).
  rewrite E0 in Q. cbn [app] in Q. rewrite T in Q.
  assert (WP : (0 < width bits)%nat) by (destruct W as [-> | [-> | ->]]; cbv; lia).
  clear - Q L L2 F Fy WP. revert ys Q Fy. induction F as [|x xs Fx F IH]; intros ys Q Fy.
  - destruct ys as [|y ys]; auto. exfalso. apply (f_equal (@length Z)) in Q.
    cbn [map concat] in Q. rewrite !app_length, encode_length in Q. cbn [length] in Q. lia.
  - destruct Fy as [|y ys Fy0 Fy].
    + exfalso. apply (f_equal (@length Z)) in Q. cbn [map concat] in Q.
      rewrite !app_length, encode_length in Q. cbn [length] in Q. lia.
    + cbn [map concat] in Q. rewrite <- !app_assoc in Q.
      assert (H1 : encode (width bits) x = encode (width bits) y).
      { apply (f_equal (firstn (width bits))) in Q.
        rewrite !firstn_app, !encode_length, Nat.sub_diag in Q. cbn [firstn] in Q.
        rewrite !app_nil_r in Q. rewrite !firstn_all2 in Q by (rewrite encode_length; lia). exact Q. }
      rewrite H1 in Q. apply app_inv_head in Q. f_equal.
      * rewrite <- (le_signed_encode (width bits) x), <- (le_signed_encode (width bits) y); auto; congruence.
      * apply IH; assumption.
Qed.

(** * Concrete cases *)

Lemma header_case :
  read_pcm_header (open (pcm_header 40 1 16000 32000 2 16 4 ++ [1; 2; 3; 4]))
    = Ok (Some (mk_format 1 16000 16), mk_file [1; 2; 3; 4] false) /\
  consistent 16000 32000 2 16 /\
  exists f, read_pcm_header (open (pcm_header 40 1 16000 32001 2 16 4)) = Ok (None, f).
Proof. split; [reflexivity|]. split; [split; reflexivity|]. eexists. reflexivity. Qed.

(** The bytes FE FF 02 | 01 | 07: the samples -2 and 258, one byte held back. *)
Lemma sample_case :
  reader_run reader_init [CallSetFormat (mk_format 1 16000 16);
    CallProcess (Some [254; 255; 2]) 3; CallProcess (Some [1]) 1; CallProcess (Some [7]) 1]
  = Ok ([Status true; Samples [-2]; Samples [258]; Samples []], mk_reader [7] (mk_format 1 16000 16) true) /\
  decodes 2 [254; 255; 2; 1; 7] [-2; 258] [7].
Proof.
  split; [reflexivity|]. split; [reflexivity|]. split; [|cbn; auto].
  repeat constructor; cbn; discriminate.
Qed.

Lemma rejected_case :
  rejected [CallSetFormat (mk_format 1 16000 16); CallProcess (Some [1]) 1] (CallProcess None 3) /\
  rejected [CallSetFormat (mk_format 2 16000 16)] (CallProcess (Some [1]) 1) /\
  reader_run reader_init [CallSetFormat (mk_format 1 16000 16); CallProcess (Some [1]) 1;
    CallProcess None 3; CallProcess (Some [1]) 1]
  = Ok ([Status true; Samples []; Status false; Samples [257]], mk_reader [] (mk_format 1 16000 16) true).
Proof.
  split; [exact I|]. split; [|reflexivity]. right. intros f [H|[]]. injection H as <-. intros [X _]. discriminate X.
Qed.

Lemma file_case : read_16k_pcm (pcm_header 40 1 16000 32000 2 16 4 ++ [1; 0; 255; 255; 9]) = Ok (Some [1; -1]).
Proof. reflexivity. Qed.
