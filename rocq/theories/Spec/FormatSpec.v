(** Model files as the converters write them (tool/convert_am.py:25-43, 56-168).
    Elements are 32-bit words. *)
From Coq Require Import ZArith List.
From Verif.Model Require Import Nnet.
From Verif.Spec Require Import AudioSpec AmSpec.
Import ListNotations.
Open Scope Z_scope.

Definition word (z : Z) : list Z := encode 4 z.

Definition vector_file (v : list Z) : list Z :=
  [86; 69; 67; 48] ++ word (Z.of_nat (length v) * 4 + 4) ++ word (Z.of_nat (length v)) ++ flat_map word v.

Definition matrix_file (m : list (list Z)) : list Z :=
  [77; 65; 84; 48] ++ word 8 ++ word (Z.of_nat (length m)) ++ word (Z.of_nat (length (hd [] m))) ++
  flat_map vector_file m.

Definition layer_file (l : layer Z) : list Z :=
  [76; 65; 89; 48] ++
  match l with
  | Linear W b => word 0 ++ matrix_file W ++ vector_file b
  | ReLU => word 1
  | Normalize => word 2
  | Softmax => word 3
  | Splice idx => word 6 ++ word (Z.of_nat (length idx)) ++ flat_map word idx
  | BatchNorm s o => word 7 ++ vector_file s ++ vector_file o
  | LogSoftmax => word 8
  | Narrow l r => word 9 ++ word l ++ word r
  end.

Definition network_file (left right : Z) (ls : list (layer Z)) : list Z :=
  [78; 78; 48; 50] ++ word left ++ word right ++ word (Z.of_nat (length ls)) ++ flat_map layer_file ls.

(** What can be stored: non-empty vectors of words whose size in bytes fits
    into 32 bits, non-empty rectangular matrices. *)
Definition storable (v : list Z) : Prop :=
  v <> [] /\ Forall (fits 4) v /\ Z.of_nat (length v) * 4 + 4 <= 2147483647.

Definition storable_matrix (m : list (list Z)) : Prop :=
  m <> [] /\ Forall storable m /\ (exists c, uniform c m) /\
  Z.of_nat (length m) * Z.of_nat (length (hd [] m)) <= 2147483647.

Definition storable_layer (l : layer Z) : Prop :=
  match l with
  | Linear W b => storable_matrix W /\ storable b
  | Splice idx => Forall (fits 4) idx /\ Z.of_nat (length idx) <= 2147483647
  | BatchNorm s o => storable s /\ storable o
  | Narrow l r => fits 4 l /\ fits 4 r
  | _ => True
  end.

(** The same layer with its words marked as known. *)
Definition known_layer (l : layer Z) : layer (option Z) :=
  match l with
  | Linear W b => Linear (map (map Some) W) (map Some b)
  | ReLU => ReLU
  | Normalize => Normalize
  | Softmax => Softmax
  | Splice idx => Splice idx
  | BatchNorm s o => BatchNorm (map Some s) (map Some o)
  | LogSoftmax => LogSoftmax
  | Narrow l r => Narrow l r
  end.
