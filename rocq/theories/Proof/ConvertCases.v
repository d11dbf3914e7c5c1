(** Cases of the properties of the converter of acoustic models. *)
From Coq Require Import ZArith String List Bool Lia.
From Verif.Base Require Import Prelude Lemmas.
From Verif.Model Require Import Arith Util File Vector Nnet Stt Python Tools ConvertAm Formats.
From Verif.Spec Require Import TextSpec AudioSpec AmSpec FormatSpec ToolSpec NnetSpec AmTextSpec.
From Verif.Proof Require Import Text Lines Number Loop Python Tools ToolCases ConvertAm.
From Verif.Proof Require Formats.
Import ListNotations.
Open Scope Z_scope.

Lemma found_dec pat a b s : cut pat s = Some (a, b) -> found pat a b s.
Proof.
  unfold cut. rewrite find_zero. destruct (find_from pat s 0) as [k|] eqn:E; [|discriminate].
  apply find_from_some in E. destruct E as (P0 & (u & v & Q & L) & M). rewrite Z.sub_0_r in *. intros [= QA QB].
  assert (QU : a = u).
  { rewrite <- QA, <- L. unfold lenZ. rewrite Nat2Z.id, Q, firstn_app, firstn_all, Nat.sub_diag. cbn [firstn]. apply app_nil_r. }
  assert (QV : b = v).
  { rewrite <- QB, <- L, Q. unfold lenZ. rewrite app_assoc, skipn_app, skipn_all2 by (rewrite app_length; lia).
    replace (Z.to_nat _ - _)%nat with 0%nat by (rewrite app_length; lia). reflexivity. }
  rewrite QU, QV. clear QA QB QU QV. split; [exact Q|]. intros a' b' Q2. specialize (M _ _ Q2). unfold lenZ in *. lia.
Qed.

Lemma label_dec s : negb (str_eqb s []) && forallb string_char s = true -> label s.
Proof.
  rewrite andb_true_iff. intros (A & B). split; [intros ->; discriminate|].
  apply Forall_forall. intros c I. apply string_char_iff. eapply forallb_forall in B; eassumption.
Qed.
Lemma node_name_dec s : negb (str_eqb s []) && forallb name_char s = true -> node_name s.
Proof.
  rewrite andb_true_iff. intros (A & B). split; [intros ->; discriminate|].
  apply Forall_forall. intros c I. apply name_char_iff. eapply forallb_forall in B; eassumption.
Qed.
Lemma shows_dec l t : strip l = t -> shows l t.
Proof. intros <-. apply strip_spec. Qed.
Lemma not_in_dec c (l : bytes) : (if in_dec Z.eq_dec c l then false else true) = true -> ~ In c l.
Proof. destruct (in_dec Z.eq_dec c l); [discriminate|easy]. Qed.
Lemma no_lines_dec c (ls : list bytes) : forallb (fun l => if in_dec Z.eq_dec c l then false else true) ls = true ->
  Forall (fun l => ~ In c l) ls.
Proof. intros H. apply Forall_forall. intros l I. apply not_in_dec. eapply forallb_forall in H; eassumption. Qed.

Definition nl : bytes := [10].

(** A network of two layers that looks at the frame before; the names of the
    nodes are parameters. *)
Definition desc_lines (first : bytes) : list bytes :=
  [ []; lit "input-node name=input dim=2";
    lit "component-node name=" ++ first ++ lit " component=a input=Append(Offset(input, -1), input)";
    lit "component-node name=r component=r input=" ++ first;
    lit "output-node name=output input=r"; [] ].
Definition affine_text : bytes :=
  lit " <MaxChange> 0.75 <LinearParams>  [" ++ nl ++ lit "  1 2 3 4" ++ nl ++ lit "  5 6 7 8 ]" ++ nl ++
  lit "<BiasParams>  [ 9 3 ]" ++ nl.
Definition parts_text : bytes :=
  lit "<ComponentName> a <NaturalGradientAffineComponent>" ++ affine_text ++ lit "</NaturalGradientAffineComponent> " ++ nl ++
  lit "<ComponentName> r <RectifiedLinearComponent> <Dim> 2 </RectifiedLinearComponent> " ++ nl.
Definition body_text (first : bytes) : bytes :=
  join [10] (desc_lines first) ++ lit "<NumComponents> 2 " ++ nl ++ parts_text.
Definition am_text (first : bytes) : bytes :=
  lit "<TransitionModel> </TransitionModel> <Nnet3>" ++ body_text first ++ lit "</Nnet3> <Priors>  [ 7 8 ]" ++ nl.

Definition first_nodes (first : bytes) : list node := [(first, ([97], Some [-1; 0])); ([114], ([114], None))].
Definition weights : list (list Z) := [[1; 5]; [2; 6]; [3; 7]; [4; 8]].
Definition parts : list (str * layer Z) := [([97], Linear weights [9; 3]); ([114], ReLU)].
Definition layer_for (c : str) : layer Z := if str_eqb c [97] then Linear weights [9; 3] else ReLU.

Section Case.
Variable parse : bytes -> option Z.
Hypothesis Parse : parse = (fun s => match py_int s with Ok n => Some n | _ => None end).
Let number (s : str) (x : Z) : Prop := parse s = Some x.
Variable sc : Z -> Z -> Z -> Z.
Variable off : Z -> Z -> Z.

Lemma number_digit d : 0 <= d <= 9 -> number [48 + d] d.
Proof. intros H. unfold number. rewrite Parse. now rewrite (int_decimal _ _ (digit_decimal d H)). Qed.

Lemma rows_two : number_rows number [[]; lit "  1 2 3 4"; lit "  5 6 7 8 "] [[1; 2; 3; 4]; [5; 6; 7; 8]].
Proof.
  apply RBlank; [constructor|].
  apply RRow with (fs := [lit "1"; lit "2"; lit "3"; lit "4"]);
    [exact (spaced_row [(lit "  ", lit "1"); (sp, lit "2"); (sp, lit "3"); (sp, lit "4")] [] eq_refl)|discriminate| |].
  { constructor; [exact (number_digit 1 ltac:(lia))|]. constructor; [exact (number_digit 2 ltac:(lia))|].
    constructor; [exact (number_digit 3 ltac:(lia))|]. constructor; [exact (number_digit 4 ltac:(lia))|]. constructor. }
  apply RRow with (fs := [lit "5"; lit "6"; lit "7"; lit "8"]);
    [exact (spaced_row [(lit "  ", lit "5"); (sp, lit "6"); (sp, lit "7"); (sp, lit "8")] sp eq_refl)|discriminate| |constructor].
  constructor; [exact (number_digit 5 ltac:(lia))|]. constructor; [exact (number_digit 6 ltac:(lia))|].
  constructor; [exact (number_digit 7 ltac:(lia))|]. constructor; [exact (number_digit 8 ltac:(lia))|]. constructor.
Qed.

Lemma row_pair a b : 0 <= a <= 9 -> 0 <= b <= 9 -> number_rows number [[32; 48 + a; 32; 48 + b; 32]] [[a; b]].
Proof.
  intros A B. apply RRow with (fs := [[48 + a]; [48 + b]]); [|discriminate| |constructor].
  - change [32; 48 + a; 32; 48 + b; 32] with (spaced [(sp, [48 + a]); (sp, [48 + b])] sp). apply spaced_row.
    cbn [spaced_ok spaced app]. rewrite !andb_true_iff.
    assert (SD : forall d, 0 <= d <= 9 -> solidb [48 + d] = true).
    { intros d HD. unfold solidb, py_space. cbn [str_eqb forallb andb negb].
      destruct (Z.leb_spec (48 + d) 13); [lia|]. destruct (Z.leb_spec (48 + d) 32); [lia|]. now rewrite !andb_false_r. }
    rewrite (SD a A), (SD b B). repeat split.
  - constructor; [exact (number_digit a A)|]. constructor; [exact (number_digit b B)|]. constructor.
Qed.

Lemma affine_component : component_text number 0 sc off (quote "NaturalGradientAffineComponent") affine_text (Linear weights [9; 3]).
Proof.
  eapply TAffine with (W := [[1; 2; 3; 4]; [5; 6; 7; 8]]) (more := []) (a1 := lit " <MaxChange> 0.75 ")
    (t1 := lit "  [" ++ nl ++ lit "  1 2 3 4" ++ nl ++ lit "  5 6 7 8 ]" ++ nl ++ lit "<BiasParams>  [ 9 3 ]" ++ nl)
    (r1 := nl ++ lit "<BiasParams>  [ 9 3 ]" ++ nl) (a2 := nl) (t2 := lit "  [ 9 3 ]" ++ nl) (r2 := nl).
  - apply found_dec. vm_compute. reflexivity.
  - exists (lit "  "), [[]; lit "  1 2 3 4"; lit "  5 6 7 8 "]. split; [reflexivity|].
    split; [apply blank_dec; reflexivity|]. split; [discriminate|]. split.
    { apply Forall_forall. intros l I. split; apply not_in_dec; revert l I; apply Forall_forall; repeat (apply Forall_cons; [vm_compute; reflexivity|]); apply Forall_nil. }
    split; [exact rows_two|]. exists 4%nat. now repeat constructor.
  - discriminate.
  - apply found_dec. vm_compute. reflexivity.
  - exists (lit "  "), [lit " 9 3 "]. split; [reflexivity|].
    split; [apply blank_dec; reflexivity|]. split; [discriminate|]. split.
    { constructor; [|constructor]. split; apply not_in_dec; vm_compute; reflexivity. }
    split; [exact (row_pair 9 3 ltac:(lia) ltac:(lia))|]. exists 2%nat. now repeat constructor.
  - split; [reflexivity|]. intros i L. cbn [weights length] in L.
    destruct i as [|[|[|[|i]]]]; [reflexivity..|lia].
Qed.

Lemma parts_components : components_text number 0 sc off parts_text parts.
Proof.
  apply CNext with (w := []) (w1 := sp) (name := [97]) (w2 := sp) (kind := quote "NaturalGradientAffineComponent")
    (t := affine_text ++ lit "</NaturalGradientAffineComponent> " ++ nl ++
       lit "<ComponentName> r <RectifiedLinearComponent> <Dim> 2 </RectifiedLinearComponent> " ++ nl)
    (content := affine_text)
    (rest := sp ++ nl ++ lit "<ComponentName> r <RectifiedLinearComponent> <Dim> 2 </RectifiedLinearComponent> " ++ nl).
  - constructor.
  - apply blank_dec; reflexivity.
  - apply label_dec; reflexivity.
  - apply blank_dec; reflexivity.
  - discriminate.
  - apply found_dec. vm_compute. reflexivity.
  - exact affine_component.
  - apply CNext with (w := sp ++ nl) (w1 := sp) (name := [114]) (w2 := sp) (kind := quote "RectifiedLinearComponent")
      (t := lit " <Dim> 2 </RectifiedLinearComponent> " ++ nl) (content := lit " <Dim> 2 ") (rest := sp ++ nl).
    + apply blank_dec; reflexivity.
    + apply blank_dec; reflexivity.
    + apply label_dec; reflexivity.
    + apply blank_dec; reflexivity.
    + discriminate.
    + apply found_dec. vm_compute. reflexivity.
    + constructor.
    + apply CEnd. apply blank_dec; reflexivity.
Qed.

(** The names that are used. *)
Definition usable (first : bytes) : Prop := first = [97] \/ first = lit "a.affine".

Lemma am_model first : usable first -> model_text number 0 sc off (first_nodes first) parts [7; 8] (am_text first).
Proof.
  intros U.
  exists (lit "<TransitionModel> </TransitionModel> "), (body_text first ++ lit "</Nnet3> <Priors>  [ 7 8 ]" ++ nl),
    (body_text first), (lit " <Priors>  [ 7 8 ]" ++ nl), (desc_lines first), (lit " 2 " ++ nl ++ parts_text),
    sp, 2, (lit "2"), (sp ++ nl), parts_text,
    (lit "<TransitionModel> </TransitionModel> <Nnet3>" ++ body_text first ++ lit "</Nnet3> "),
    (lit "  [ 7 8 ]" ++ nl), [], nl.
  split; [destruct U as [-> | ->]; apply found_dec; vm_compute; reflexivity|].
  split; [destruct U as [-> | ->]; apply found_dec; vm_compute; reflexivity|].
  split; [discriminate|].
  split; [destruct U as [-> | ->]; apply no_lines_dec; vm_compute; reflexivity|].
  split; [destruct U as [-> | ->]; apply found_dec; vm_compute; reflexivity|].
  split.
  { assert (LF : label first) by (destruct U as [-> | ->]; apply label_dec; reflexivity).
    assert (NF : node_name first) by (destruct U as [-> | ->]; apply node_name_dec; reflexivity).
    apply NBlank; [constructor|].
    apply NEnds with (kind := quote "input-node") (fs := [lit "name=input"; lit "dim=2"]); [|now left|].
    { exact (spaced_row [([], lit "input-node"); (sp, lit "name=input"); (sp, lit "dim=2")] [] eq_refl). }
    apply NNode with (text := lit "Append(Offset(input, -1), input)").
    { exact LF. } { apply label_dec; reflexivity. }
    { apply (IAppend (quote "input") [-1; 0] (lit "Offset(input, -1), input")); [apply node_name_dec; reflexivity|].
      apply (OMore (quote "input") [] (-1) (lit "Offset(input, -1)") [] [0] (lit " input")); [constructor|constructor| |].
      - right. exists (lit "-1"), sp. repeat split; [|repeat constructor]. apply (DNeg 1 (lit "1")); [lia|]. apply (DD1 1). lia.
      - apply (OLast (quote "input") sp 0 (lit "input") []); [apply blank_dec; reflexivity|constructor|now left]. }
    { destruct U as [-> | ->]; apply shows_dec; vm_compute; reflexivity. }
    apply NNode with (text := first).
    { apply label_dec; reflexivity. } { apply label_dec; reflexivity. } { constructor. }
    { destruct U as [-> | ->]; apply shows_dec; vm_compute; reflexivity. }
    apply NEnds with (kind := quote "output-node") (fs := [lit "name=output"; lit "input=r"]); [|now right|].
    { exact (spaced_row [([], lit "output-node"); (sp, lit "name=output"); (sp, lit "input=r")] [] eq_refl). }
    apply NBlank; [constructor|]. constructor. }
  split; [reflexivity|]. split; [apply blank_dec; reflexivity|]. split; [apply blank_dec; reflexivity|].
  split; [discriminate|]. split; [lia|]. split; [apply (digit_decimal 2); lia|].
  split; [exact parts_components|].
  split; [destruct U as [-> | ->]; apply found_dec; vm_compute; reflexivity|].
  exists (lit "  "), [lit " 7 8 "]. split; [reflexivity|].
  split; [apply blank_dec; reflexivity|]. split; [discriminate|]. split.
  { constructor; [|constructor]. split; apply not_in_dec; vm_compute; reflexivity. }
  split; [exact (row_pair 7 8 ltac:(lia) ltac:(lia))|]. exists 2%nat. now repeat constructor.
Qed.
End Case.

Lemma converted {N} (P : py_float N) sc off nodes comps prior s (layer_of : str -> layer N) ls' prior' :
  model_text (fun s x => n_parse P s = Some x) (n_zero P) sc off nodes comps prior s -> ~ In 13 s ->
  same_names nodes -> assembled layer_of nodes comps ->
  let blocks := node_blocks layer_of nodes in
  let ls := flat_map block_layers blocks in
  columns_agree None ls -> Forall2 (stored_layer (fun x w => n_pack P x = Some w)) ls ls' -> Forall storable_layer ls' ->
  Forall2 (fun x w => n_pack P x = Some w) prior prior' -> storable prior' -> moderate blocks ->
  convert_am P sc off s =
  Ok (network_file (Z.of_nat (left_context blocks)) (Z.of_nat (right_context blocks)) ls', vector_file prior').
Proof.
  intros M N13 SN (A1 & A2 & A3 & A4) blocks ls CA ST SB SP SBP (M1 & M2 & M3).
  exact (convert_am_ok P sc off nodes comps prior s layer_of ls' prior' M N13 SN A1 A2 A3 A4 CA ST SB SP SBP M1 M2 M3).
Qed.

Lemma converted_read {N} (P : py_float N) sc off nodes comps prior s (layer_of : str -> layer N) ls' prior' nnet_file prior_file old :
  model_text (fun s x => n_parse P s = Some x) (n_zero P) sc off nodes comps prior s -> ~ In 13 s ->
  same_names nodes -> assembled layer_of nodes comps ->
  let blocks := node_blocks layer_of nodes in
  let ls := flat_map block_layers blocks in
  columns_agree None ls -> Forall2 (stored_layer (fun x w => n_pack P x = Some w)) ls ls' -> Forall storable_layer ls' ->
  Forall2 (fun x w => n_pack P x = Some w) prior prior' -> storable prior' -> moderate blocks ->
  convert_am P sc off s = Ok (nnet_file, prior_file) ->
  (exists f, nnet_read (open nnet_file) =
     Ok (Some (Z.of_nat (left_context blocks), Z.of_nat (right_context blocks), map known_layer ls'), f)) /\
  (exists f, vec_read old (open prior_file) = Ok (true, map Some prior', f)).
Proof.
  intros M N13 SN A blocks ls CA ST SB SP SBP MO E.
  rewrite (converted P sc off nodes comps prior s layer_of ls' prior' M N13 SN A CA ST SB SP SBP MO) in E.
  injection E as <- <-. destruct MO as (M1 & M2 & M3). split.
  - eexists. unfold open. rewrite <- (app_nil_r (network_file _ _ _)). apply Proof.Formats.nnet_read_file.
    + apply fits_len. lia.
    + apply fits_len. lia.
    + exact SB.
    + fold blocks in M3. rewrite <- (Forall2_len _ _ _ _ _ ST). exact M3.
  - eexists. unfold open. rewrite <- (app_nil_r (vector_file _)). apply Proof.Formats.vec_read_file. exact SBP.
Qed.

Lemma first_assembled first : assembled layer_for (first_nodes first) parts.
Proof.
  repeat split.
  - cbn. repeat constructor; cbn; intuition discriminate.
  - cbn. repeat constructor; cbn; intuition discriminate.
  - intros c i [Q|[Q|[]]]; injection Q as <- _; [left|right; left]; reflexivity.
  - destruct H as [Q|[Q|[]]]; [|discriminate]. injection Q as <- _. vm_compute. intuition discriminate.
  - destruct H as [Q|[Q|[]]]; [|discriminate]. injection Q as <- _. vm_compute. intuition discriminate.
Qed.
Definition first_layers : list (layer Z) := [Splice [-1; 0]; Narrow 1 0; Linear weights [9; 3]; ReLU].
Lemma first_flat first : flat_map block_layers (node_blocks layer_for (first_nodes first)) = first_layers.
Proof. reflexivity. Qed.
Lemma first_agree : columns_agree None first_layers.
Proof.
  apply ASplice. cbn [option_map]. apply AOther; [exact I|]. apply ALinear; [discriminate|]. apply AOther; [exact I|]. constructor.
Qed.
Lemma first_stored : Forall2 (stored_layer (fun x w => Some x = Some w)) first_layers first_layers.
Proof.
  assert (R : forall l : list Z, Forall2 (fun x w => Some x = Some w) l l) by (induction l; constructor; auto).
  assert (RR : forall m : list (list Z), Forall2 (Forall2 (fun x w => Some x = Some w)) m m) by (induction m; constructor; auto).
  unfold first_layers. apply Forall2_cons; [constructor|]. apply Forall2_cons; [constructor|].
  apply Forall2_cons; [constructor; auto|]. apply Forall2_cons; [constructor|]. apply Forall2_nil.
Qed.
Lemma storable_dec v : negb (Z.of_nat (length v) =? 0) && forallb (fun z => (- 100 <=? z) && (z <=? 100)) v &&
  (Z.of_nat (length v) <=? 100) = true -> storable v.
Proof.
  rewrite !andb_true_iff. intros ((A & B) & L). apply Z.leb_le in L. split; [|split].
  - intros ->. discriminate.
  - apply Forall_forall. intros z I. eapply forallb_forall in B; [|exact I]. rewrite andb_true_iff, !Z.leb_le in B.
    unfold fits. change (2 ^ (8 * Z.of_nat 4 - 1)) with 2147483648. lia.
  - lia.
Qed.
Lemma first_storable : Forall storable_layer first_layers.
Proof.
  repeat apply Forall_cons; try apply Forall_nil; try exact I.
  - split; [repeat constructor; vm_compute; intuition discriminate|cbn; lia].
  - split; vm_compute; intuition discriminate.
  - split; [|apply storable_dec; reflexivity]. split; [discriminate|]. split.
    { unfold weights. repeat (apply Forall_cons; [apply storable_dec; reflexivity|]). apply Forall_nil. }
    split; [exists 2; repeat constructor|]. vm_compute. intuition discriminate.
Qed.
Lemma first_moderate first : moderate (node_blocks layer_for (first_nodes first)).
Proof. repeat split; vm_compute; intuition discriminate. Qed.

Lemma am_case (P : py_float Z) sc off :
  n_parse P = (fun s => match py_int s with Ok n => Some n | _ => None end) -> n_zero P = 0 -> n_pack P = Some ->
  exists s nodes comps layer_of,
    model_text (fun s x => n_parse P s = Some x) (n_zero P) sc off nodes comps [7; 8] s /\ ~ In 13 s /\
    same_names nodes /\ assembled layer_of nodes comps /\
    let blocks := node_blocks layer_of nodes in
    flat_map block_layers blocks = first_layers /\ columns_agree None first_layers /\
    Forall2 (stored_layer (fun x w => n_pack P x = Some w)) first_layers first_layers /\ Forall storable_layer first_layers /\
    storable [7; 8] /\ moderate blocks /\
    convert_am P sc off s = Ok (network_file 1 0 first_layers, vector_file [7; 8]).
Proof.
  intros E1 E2 E3. exists (am_text [97]), (first_nodes [97]), parts, layer_for.
  assert (M : model_text (fun s x => n_parse P s = Some x) (n_zero P) sc off (first_nodes [97]) parts [7; 8] (am_text [97])).
  { rewrite E2. apply am_model; [exact E1|now left]. }
  assert (N13 : ~ In 13 (am_text [97])) by (apply not_in_dec; vm_compute; reflexivity).
  assert (SN : same_names (first_nodes [97])) by (repeat constructor).
  assert (ST : Forall2 (stored_layer (fun x w => n_pack P x = Some w)) first_layers first_layers) by (rewrite E3; exact first_stored).
  assert (SP : storable [7; 8]) by (apply storable_dec; reflexivity).
  repeat (split; [first [exact M|exact N13|exact SN|exact (first_assembled [97])|exact first_agree|exact ST
    |exact first_storable|exact SP|exact (first_moderate [97])|reflexivity]|]).
  apply (converted P sc off (first_nodes [97]) parts [7; 8] (am_text [97]) layer_for first_layers [7; 8]); auto.
  - apply first_assembled.
  - exact first_agree.
  - exact first_storable.
  - rewrite E3. repeat constructor.
  - apply first_moderate.
Qed.

(** The same network, but the first node has another name than its component. *)
Lemma am_names (P : py_float Z) sc off :
  n_parse P = (fun s => match py_int s with Ok n => Some n | _ => None end) -> n_zero P = 0 -> n_pack P = Some ->
  exists s nodes comps layer_of ls,
    model_text (fun s x => n_parse P s = Some x) (n_zero P) sc off nodes comps [7; 8] s /\ ~ In 13 s /\
    assembled layer_of nodes comps /\
    let blocks := node_blocks layer_of nodes in
    flat_map block_layers blocks = ls /\ columns_agree None ls /\
    Forall2 (stored_layer (fun x w => n_pack P x = Some w)) ls ls /\ Forall storable_layer ls /\
    storable [7; 8] /\ moderate blocks /\
    convert_am P sc off s = Fault Assert.
Proof.
  intros E1 E2 E3. exists (am_text (lit "a.affine")), (first_nodes (lit "a.affine")), parts, layer_for, first_layers.
  assert (M : model_text (fun s x => n_parse P s = Some x) (n_zero P) sc off (first_nodes (lit "a.affine")) parts [7; 8] (am_text (lit "a.affine"))).
  { rewrite E2. apply am_model; [exact E1|now right]. }
  assert (N13 : ~ In 13 (am_text (lit "a.affine"))) by (apply not_in_dec; vm_compute; reflexivity).
  assert (ST : Forall2 (stored_layer (fun x w => n_pack P x = Some w)) first_layers first_layers) by (rewrite E3; exact first_stored).
  assert (SP : storable [7; 8]) by (apply storable_dec; reflexivity).
  repeat (split; [first [exact M|exact N13|exact (first_assembled (lit "a.affine"))|exact first_agree|exact ST
    |exact first_storable|exact SP|exact (first_moderate (lit "a.affine"))|reflexivity]|]).
  destruct P as [p1 p2 p3 p4 p5]. cbn [n_parse n_cost n_inf n_zero n_pack] in *. subst. vm_compute. reflexivity.
Qed.

(** * The check of the converter *)
Definition short_text : bytes :=
  lit "<Nnet3>" ++ nl ++ lit "component-node name=a component=a input=input" ++ nl ++
  lit "<NumComponents> 1 <ComponentName> a <NaturalGradientAffineComponent> <LinearParams> [ 1 2 ] <BiasParams> [ 3 4 ] " ++
  lit "</NaturalGradientAffineComponent> </Nnet3> <Priors> [ 7 ]".
Definition short_layers {F} (f : Z -> F) : list (layer F) := [Linear (map (map f) [[1]; [2]]) (map f [3; 4])].

Lemma short_converted (P : py_float Z) sc off :
  n_parse P = (fun s => match py_int s with Ok n => Some n | _ => None end) -> n_zero P = 0 -> n_pack P = Some ->
  convert_am P sc off short_text = Ok (network_file 0 0 (short_layers (fun z => z)), vector_file [7]).
Proof.
  intros E1 E2 E3. destruct P as [p1 p2 p3 p4 p5]. cbn [n_parse n_cost n_inf n_zero n_pack] in *. subst. vm_compute. reflexivity.
Qed.
Lemma short_fails {F} (O : Arith.fops F) f (x : list (list F)) c : uniform c x -> 0 < c -> x <> [] ->
  nnet_propagate O (short_layers f) x = Fault Assert.
Proof.
  intros U C NX. unfold short_layers, nnet_propagate. cbn [propagate_all propagate map]. unfold linear.
  change (negb (lenZ [f 3; f 4] =? 0)) with true. cbn [check bind].
  assert (LX : 0 < lenZ x) by (unfold lenZ; destruct x; [congruence|cbn [length]; lia]).
  change (num_cols [[f 1]; [f 2]]) with 1. unfold mat_shape. destruct (Z.eqb_spec (lenZ x * 1) 0); [lia|].
  destruct (Z.ltb_spec 0 (lenZ x)); [|lia]. cbn [andb check bind Z.ltb Z.compare].
  destruct (num_cols x =? lenZ [[f 1]; [f 2]]); [|reflexivity]. cbn [check bind].
  destruct x as [|r x]; [congruence|]. cbn [map_rows]. unfold add_vec at 1, mat_row at 1.
  change (num_cols [[f 1]; [f 2]]) with 1. reflexivity.
Qed.
Lemma short_refutes : exists s (ls : forall F, (Z -> F) -> list (layer F)),
  (forall (P : py_float Z) sc off,
     n_parse P = (fun s => match py_int s with Ok n => Some n | _ => None end) -> n_zero P = 0 -> n_pack P = Some ->
     convert_am P sc off s = Ok (network_file 0 0 (ls Z (fun z => z)), vector_file [7])) /\
  (forall F (f : Z -> F), verify (ls F f) = Ok tt) /\
  forall F (O : Arith.fops F) (f : Z -> F) x c, uniform c x -> 0 < c -> x <> [] ->
    nnet_propagate O (ls F f) x = Fault Assert.
Proof.
  exists short_text, (@short_layers). split; [exact short_converted|]. split; [reflexivity|].
  intros F O f x c. apply short_fails.
Qed.

Lemma first_runs : runs_on 2 first_layers 2.
Proof.
  unfold first_layers. apply RunSplice; [discriminate|]. apply RunNarrow; [lia|lia|].
  apply RunLinear; [reflexivity|repeat constructor|discriminate|]. apply RunRow; [now left|]. apply RunEnd.
Qed.
