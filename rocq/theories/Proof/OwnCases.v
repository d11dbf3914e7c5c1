(** Vectors and their memory: cases. *)
From Coq Require Import ZArith List Bool Lia.
From Verif.Base Require Import Prelude.
From Verif.Model Require Import Own.
From Verif.Spec Require Import OwnSpec.
From Verif.Proof Require Own.
Import ListNotations.
Open Scope Z_scope.

Definition plenty (_ : heap Z) (_ : Z) : bool := true.
Definition sevens (_ : nat) : Z := 7.

(** Vectors that are resized, moved, swapped and copied. *)
Definition calls : list (call Z) :=
  [NewSized 2 SetZero; Set_ 0 1 5; Resize 0 4 CopyData; New; Swap 0 1; Get 1 1; Get 1 3; NewMoved 1; Assign 0 2;
   NewSized 4 Undefined; Copy 3 0; Set_ 0 1 6; Get 3 1; Delete 3; Delete 0; Delete 1; Delete 2].

Definition answers : list (answer Z) :=
  [Done; Done; Done; Done; Done; Value 5; Value 0; Done; Done; Done; Done; Done; Value 5; Done; Done; Done; Done].

Lemma calls_run : run 0 4 sevens plenty init_state calls =
  Ok (([None; None; None], [None; None; None; None]),
      answers).
Proof. reflexivity. Qed.

Ltac here := match goal with
  | |- exists l, holds _ _ l => eexists; reflexivity
  | |- exists l, holds _ _ l /\ _ => eexists; split; [reflexivity|here]
  | |- exists l l', holds _ _ l /\ holds _ _ l' /\ _ => do 2 eexists; split; [reflexivity|split; [reflexivity|here]]
  | |- _ /\ _ => split; here
  | |- exists _, _ => eexists; here
  | |- ?x = ?y => reflexivity
  | |- True => exact I
  | |- holds _ _ _ => reflexivity
  | _ => unfold int_max, lenZ; cbn; lia
  end.
Ltac next w := split; [cbn [permitted]; here|exists w, 0%nat; split; [|split; [|try reflexivity]]].

Lemma calls_permitted : history 0 4 [] calls answers [None; None; None; None] 0.
Proof.
  unfold calls, answers. cbn [history].
  next [Some [0; 0]]. { left. split; [reflexivity|]. exists [0; 0]. repeat split. }
  next [Some [0; 5]]. { cbn [does]. here. }
  next [Some [0; 5; 0; 0]].
  { exists [0; 5]. split; [reflexivity|]. left. split; [reflexivity|]. exists [0; 5; 0; 0]. split; [|reflexivity]. split; [reflexivity|].
    intros k K. assert (k = 0 \/ k = 1 \/ k = 2 \/ k = 3) as [-> |[-> |[-> | ->]]] by lia; reflexivity. }
  next [Some [0; 5; 0; 0]; Some []]. { cbn [does]. here. }
  next [Some []; Some [0; 5; 0; 0]]. { split; [reflexivity|]. exists [0; 5; 0; 0], []. repeat split. }
  next [Some []; Some [0; 5; 0; 0]]. { split; [reflexivity|]. exists [0; 5; 0; 0], 5. repeat split. }
  next [Some []; Some [0; 5; 0; 0]]. { split; [reflexivity|]. exists [0; 5; 0; 0], 0. repeat split. }
  next [Some []; Some []; Some [0; 5; 0; 0]]. { split; [reflexivity|]. exists [0; 5; 0; 0]. repeat split. }
  next [Some [0; 5; 0; 0]; Some []; Some (@nil Z)]. { split; [reflexivity|]. exists [0; 5; 0; 0]. repeat split. }
  2: { left. split; reflexivity. }
  next [Some [0; 5; 0; 0]; Some []; Some []; Some [7; 7; 7; 7]]. { left. split; [reflexivity|]. exists [7; 7; 7; 7]. repeat split. discriminate. }
  next [Some [0; 5; 0; 0]; Some []; Some []; Some [0; 5; 0; 0]]. { split; [reflexivity|]. exists [0; 5; 0; 0]. repeat split. }
  next [Some [0; 6; 0; 0]; Some []; Some []; Some [0; 5; 0; 0]]. { split; [reflexivity|]. exists [0; 5; 0; 0]. repeat split. }
  next [Some [0; 6; 0; 0]; Some []; Some []; Some [0; 5; 0; 0]]. { split; [reflexivity|]. exists [0; 5; 0; 0], 5. repeat split. }
  next [Some [0; 6; 0; 0]; Some []; Some []; @None (list Z)]. { cbn [does]. here. }
  next [None; Some []; Some []; @None (list Z)]. { cbn [does]. here. }
  next [None; None; Some []; @None (list Z)]. { cbn [does]. here. }
  next [None; None; None; @None (list Z)]. { cbn [does]. here. }
  split; reflexivity.
Qed.

(** A vector that has elements and gets others. *)
Definition leak : list (call Z) := [NewSized 1 SetZero; NewSized 1 SetZero; Assign 0 1; Delete 0; Delete 1].

Lemma leak_run : exists h r, run 0 4 sevens plenty init_state leak = Ok ((h, [None; None]), r) /\ in_use h = 1%nat.
Proof. do 2 eexists. split; reflexivity. Qed.

Lemma leak_permitted : exists r, history 0 4 [] leak r [None; None] 1.
Proof.
  exists [Done; Done; Done; Done; Done]. unfold leak. cbn [history].
  split; [cbn [permitted]; here|]. exists [Some [0]], 1%nat. split; [left; split; [reflexivity|]; exists [0]; repeat split|]. split; [|reflexivity].
  split; [cbn [permitted]; here|]. exists [Some [0]; Some [0]], 1%nat. split; [left; split; [reflexivity|]; exists [0]; repeat split|]. split; [|reflexivity].
  split; [cbn [permitted]; here|]. exists [Some [0]; Some []], 0%nat. split; [split; [reflexivity|]; exists [0]; repeat split|].
  split; [|right; split; [exists 0, []; reflexivity|reflexivity]].
  next [None; Some (@nil Z)]. { cbn [does]. here. }
  next [None; @None (list Z)]. { cbn [does]. here. }
  split; reflexivity.
Qed.
