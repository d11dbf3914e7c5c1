(** Acoustic models in the text format of Kaldi, as far as the converter
    supports them: a description of the nodes of a network, the components and
    the priors. *)
From Coq Require Import ZArith String List Ascii.
From Verif.Model Require Import Nnet.
From Verif.Spec Require Import TextSpec ToolSpec NnetSpec.
Import ListNotations.
Open Scope Z_scope.

(** The characters of a string. *)
Definition quote (s : string) : str := map (fun c => Z.of_N (N_of_ascii c)) (list_ascii_of_string s).
Definition mark (name : str) : str := quote "<" ++ name ++ quote ">".

(** [s] is [a], [pat], [b], and [pat] does not occur earlier. *)
Definition found (pat a b s : str) : Prop :=
  s = a ++ pat ++ b /\ forall a' b', s = a' ++ pat ++ b' -> (length a <= length a')%nat.

Definition in_words (c : Z) : Prop := 48 <= c <= 57 \/ 65 <= c <= 90 \/ 97 <= c <= 122 \/ c = 95.
(** Names of nodes: letters, digits, underscores and dots; names of components
    may also have minus signs. *)
Definition node_name (s : str) : Prop := s <> [] /\ Forall (fun c => in_words c \/ c = 46) s.
Definition label (s : str) : Prop := s <> [] /\ Forall (fun c => in_words c \/ c = 46 \/ c = 45) s.

(** * The nodes *)

(** The frame at distance [k] of the node [prev]. *)
Definition offset_text (prev : str) (k : Z) (s : str) : Prop :=
  (k = 0 /\ s = prev) \/
  exists d gap, decimal k d /\ Forall (fun c => c = 32) gap /\
    s = quote "Offset(" ++ prev ++ quote "," ++ gap ++ d ++ quote ")".
(** Frames separated by commas. *)
Inductive offsets_text (prev : str) : list Z -> str -> Prop :=
| OLast w k s w' : all_blank w -> all_blank w' -> offset_text prev k s -> offsets_text prev [k] (w ++ s ++ w')
| OMore w k s w' ks rest : all_blank w -> all_blank w' -> offset_text prev k s -> offsets_text prev ks rest ->
    offsets_text prev (k :: ks) (w ++ s ++ w' ++ quote "," ++ rest).
(** The input of a node: the previous node, or frames around the current one. *)
Inductive input_text (prev : str) : option (list Z) -> str -> Prop :=
| IPlain : input_text prev None prev
| IAppend ks s : node_name prev -> offsets_text prev ks s ->
    input_text prev (Some ks) (quote "Append(" ++ s ++ quote ")").

(** Lines that describe the nodes, each with its name, its component and its
    input. *)
Definition node : Type := str * (str * option (list Z)).
Inductive nodes_text : str -> list str -> list node -> Prop :=
| NEnd prev : nodes_text prev [] []
| NBlank prev l ls ns : all_blank l -> nodes_text prev ls ns -> nodes_text prev (l :: ls) ns
| NEnds prev l kind fs ls ns : row l (kind :: fs) -> kind = quote "input-node" \/ kind = quote "output-node" ->
    nodes_text prev ls ns -> nodes_text prev (l :: ls) ns
| NNode prev l name comp input text ls ns : label name -> label comp -> input_text prev input text ->
    shows l (quote "component-node name=" ++ name ++ quote " component=" ++ comp ++ quote " input=" ++ text) ->
    nodes_text name ls ns -> nodes_text prev (l :: ls) ((name, (comp, input)) :: ns).

(** * The components *)
Section Numbers.
Context {N : Type}.
Variable number : str -> N -> Prop.
Variable zero : N.

(** Numbers in rows: one row in each line that is not blank. *)
Inductive number_rows : list str -> list (list N) -> Prop :=
| RNone : number_rows [] []
| RBlank l ls m : all_blank l -> number_rows ls m -> number_rows (l :: ls) m
| RRow l ls fs r m : row l fs -> fs <> [] -> Forall2 number fs r -> number_rows ls m -> number_rows (l :: ls) (r :: m).
(** A matrix in brackets, followed by [rest]. *)
Definition matrix_text (m : list (list N)) (s rest : str) : Prop :=
  exists w ls, s = w ++ [91] ++ join [10] ls ++ [93] ++ rest /\ all_blank w /\ ls <> [] /\
    Forall (fun l => ~ In 10 l /\ ~ In 93 l) ls /\ number_rows ls m /\
    exists c, Forall (fun r => length r = c) m.

(** A number as the converter reads it: no plus signs, no capital E; followed by
    white space. *)
Definition digits_text (s : str) : Prop := s <> [] /\ Forall (fun c => 48 <= c <= 57) s.
Definition signed_text (s : str) : Prop := digits_text s \/ exists t, s = 45 :: t /\ digits_text t.
Definition float_text (x : N) (s rest : str) : Prop :=
  exists w a b e w', s = w ++ (a ++ b ++ e) ++ w' ++ rest /\ all_blank w /\ all_blank w' /\ w' <> [] /\
    signed_text a /\ (b = [] \/ exists d, b = 46 :: d /\ digits_text d) /\
    (e = [] \/ exists d, e = 101 :: d /\ signed_text d) /\ number (a ++ b ++ e) x.

Definition transpose_of (m t : list (list N)) : Prop :=
  length t = length (hd [] m) /\ forall i, (i < length t)%nat -> nth i t [] = map (fun r => nth i r zero) m.

(** The scale and the offset of a batch normalisation. *)
Variable scale_of : N -> N -> N -> N.     (* epsilon, target, variance *)
Variable offset_of : N -> N -> N.         (* mean, scale *)

Inductive component_text : str -> str -> layer N -> Prop :=
| TAffine s a1 t1 W r1 a2 t2 b more r2 T :
    found (mark (quote "LinearParams")) a1 t1 s -> matrix_text W t1 r1 -> W <> [] ->
    found (mark (quote "BiasParams")) a2 t2 r1 -> matrix_text (b :: more) t2 r2 -> transpose_of W T ->
    component_text (quote "NaturalGradientAffineComponent") s (Linear T b)
| TRelu s : component_text (quote "RectifiedLinearComponent") s ReLU
| TNorm s a1 t1 eps r1 a2 t2 rms r2 a3 t3 mean more3 r3 a4 t4 var more4 r4 scale :
    found (mark (quote "Epsilon")) a1 t1 s -> float_text eps t1 r1 ->
    found (mark (quote "TargetRms")) a2 t2 r1 -> float_text rms t2 r2 ->
    found (mark (quote "StatsMean")) a3 t3 r2 -> matrix_text (mean :: more3) t3 r3 ->
    found (mark (quote "StatsVar")) a4 t4 r3 -> matrix_text (var :: more4) t4 r4 ->
    length mean = length var -> scale = map (scale_of eps rms) var ->
    component_text (quote "BatchNormComponent") s (BatchNorm scale (map2 offset_of mean scale))
| TLogSoftmax s : component_text (quote "LogSoftmaxComponent") s LogSoftmax.

(** Components with their names. *)
Inductive components_text : str -> list (str * layer N) -> Prop :=
| CEnd w : all_blank w -> components_text w []
| CNext w w1 name w2 kind t content rest l cs :
    all_blank w -> all_blank w1 -> label name -> all_blank w2 -> w2 <> [] ->
    found (mark (quote "/" ++ kind)) content rest t ->
    component_text kind content l -> components_text rest cs ->
    components_text (w ++ mark (quote "ComponentName") ++ w1 ++ name ++ w2 ++ mark kind ++ t) ((name, l) :: cs).

(** * The model *)
Definition model_text (nodes : list node) (comps : list (str * layer N)) (prior : list N) (s : str) : Prop :=
  exists a1 t1 body r1 lines t2 w n d w' cs a3 t3 more r3,
    found (mark (quote "Nnet3")) a1 t1 s /\ found (mark (quote "/Nnet3")) body r1 t1 /\
    lines <> [] /\ Forall (fun l => ~ In 10 l) lines /\
    found (mark (quote "NumComponents")) (join [10] lines) t2 body /\
    nodes_text (quote "input") lines nodes /\
    t2 = w ++ d ++ w' ++ cs /\ all_blank w /\ all_blank w' /\ w' <> [] /\ 0 <= n /\ decimal n d /\
    components_text cs comps /\
    found (mark (quote "Priors")) a3 t3 s /\ matrix_text (prior :: more) t3 r3.

(** The network of a model: the nodes in order, where [layer_of] gives the layer
    of a component; the frames around the current one are put together first. *)
Definition node_blocks (layer_of : str -> layer N) (nodes : list node) : list (block N) :=
  flat_map (fun '(_, (c, input)) => match input with Some ks => [Context ks] | None => [] end ++ [Single (layer_of c)]) nodes.

(** The nodes use different components, all of which are there, and no component
    has the name that the converter makes up for a step of its own. *)
Definition assembled (layer_of : str -> layer N) (nodes : list node) (comps : list (str * layer N)) : Prop :=
  NoDup (map fst (map snd nodes)) /\ NoDup (map fst comps) /\
  (forall c i, In (c, i) (map snd nodes) -> In (c, layer_of c) comps) /\
  (forall c ks, In (c, Some ks) (map snd nodes) ->
     ~ In (c ++ quote "_splice") (map fst comps) /\ ~ In (c ++ quote "_narrow") (map fst comps)).
Definition same_names (nodes : list node) : Prop := Forall (fun n => fst n = fst (snd n)) nodes.
(** Numbers that fit into a network file. *)
Definition moderate (blocks : list (block N)) : Prop :=
  Z.of_nat (left_context blocks) <= 2147483647 /\ Z.of_nat (right_context blocks) <= 2147483647 /\
  Z.of_nat (length (flat_map block_layers blocks)) <= 2147483647.

(** The numbers of columns agree where they are known: the affine layers expect
    as many as there are. *)
Inductive columns_agree : option nat -> list (layer N) -> Prop :=
| AEnd c : columns_agree c []
| ALinear c W b ls : (forall k, c = Some k -> k = length W) -> columns_agree (Some (length (hd [] W))) ls ->
    columns_agree c (Linear W b :: ls)
| ASplice c idx ls : columns_agree (option_map (fun k => k * length idx)%nat c) ls -> columns_agree c (Splice idx :: ls)
| AOther c l ls : match l with Linear _ _ | Splice _ => False | _ => True end -> columns_agree c ls ->
    columns_agree c (l :: ls).

(** A layer with its numbers as words. *)
Variable stored : N -> Z -> Prop.
Inductive stored_layer : layer N -> layer Z -> Prop :=
| SLinear W b W' b' : Forall2 (Forall2 stored) W W' -> Forall2 stored b b' -> stored_layer (Linear W b) (Linear W' b')
| SRelu : stored_layer ReLU ReLU
| SNormalize : stored_layer Normalize Normalize
| SSoftmax : stored_layer Softmax Softmax
| SSplice idx : stored_layer (Splice idx) (Splice idx)
| SNorm s o s' o' : Forall2 stored s s' -> Forall2 stored o o' -> stored_layer (BatchNorm s o) (BatchNorm s' o')
| SLog : stored_layer LogSoftmax LogSoftmax
| SNarrow l r : stored_layer (Narrow l r) (Narrow l r).
End Numbers.

(** * Networks that run *)

(** A network that takes rows of [c] elements and gives rows of [c']. *)
Inductive runs_on {F} : nat -> list (layer F) -> nat -> Prop :=
| RunEnd c : runs_on c [] c
| RunLinear c W b ls c' : length W = c -> Forall (fun r => length r = length b) W -> b <> [] ->
    runs_on (length b) ls c' -> runs_on c (Linear W b :: ls) c'
| RunSplice c idx ls c' : idx <> [] -> runs_on (length idx * c)%nat ls c' -> runs_on c (Splice idx :: ls) c'
| RunNorm c s o ls c' : length s = c -> length o = c -> runs_on c ls c' -> runs_on c (BatchNorm s o :: ls) c'
| RunNarrow c l r ls c' : 0 <= l -> 0 <= r -> runs_on c ls c' -> runs_on c (Narrow l r :: ls) c'
| RunRow c l ls c' : l = ReLU \/ l = Normalize \/ l = Softmax \/ l = LogSoftmax -> runs_on c ls c' ->
    runs_on c (l :: ls) c'.
