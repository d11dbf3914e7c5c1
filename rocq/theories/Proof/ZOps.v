(** Integers in place of [float], for the concrete cases. *)
From Coq Require Import ZArith List.
From Verif.Base Require Import Prelude.
From Verif.Model Require Import Arith Vector Fbank.
From Verif.Spec Require Import AudioSpec.
Import ListNotations.
Open Scope Z_scope.

Definition zops : fops Z := mk_fops Z
  0 (fun z => z) Z.add Z.sub Z.mul Z.quot Z.ltb (Z.leb 0) 1 (fun x => x + 1) (fun x => x + 1)
  (fun x => x) (fun x y => x - y) (fun d s => d) (-1) (fun x => x <? 1000000) 1000000
  (fun a b => fold_right Z.add 0 (map (fun p => fst p * snd p) (combine a b))).

Definition zbank : fbank Z :=
  mk_fbank 512 (repeat 1 400) [(0, [1; 1]); (2, [3])] (fun w => Ok w).

(** 570 samples in two pieces give two frames. *)
Definition zpieces : list (list Z) := [repeat 5 100; repeat 0 60 ++ seqZ 1 410].

