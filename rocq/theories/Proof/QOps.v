(** Exact arithmetic with infinities and NaN in place of [float] and [double],
    and the laws of arithmetic for it, for the concrete cases of the decoder. *)
From Coq Require Import ZArith QArith List Bool Lia Lqa Wf_Z.
From Verif.Base Require Import Prelude.
From Verif.Model Require Import Arith Decoder.
From Verif.Spec Require Import DecoderSpec.
Import ListNotations.
Open Scope Q_scope.

(** * Rational numbers, infinities, NaN *)
Inductive ext : Type := NegInf | Fin (q : Q) | PosInf | NaN.

Definition qlt (a b : Q) : bool := negb (Qle_bool b a).

Definition ext_lt (a b : ext) : bool :=
  match a, b with
  | NaN, _ | _, NaN => false
  | NegInf, NegInf => false
  | NegInf, _ => true
  | Fin p, Fin q => qlt p q
  | Fin _, PosInf => true
  | _, _ => false
  end.

Definition ext_neg (a : ext) : ext :=
  match a with NegInf => PosInf | PosInf => NegInf | NaN => NaN | Fin q => Fin (- q) end.

Definition ext_add (a b : ext) : ext :=
  match a, b with
  | Fin p, Fin q => Fin (Qred (p + q))
  | NaN, _ | _, NaN => NaN
  | PosInf, NegInf | NegInf, PosInf => NaN
  | PosInf, _ | _, PosInf => PosInf
  | NegInf, _ | _, NegInf => NegInf
  end.

(** Products and quotients with infinities are not needed. *)
Definition ext_mul (a b : ext) : ext :=
  match a, b with
  | Fin p, Fin q => Fin (Qred (p * q))
  | Fin p, x | x, Fin p => if qlt 0 p then x else NaN
  | _, _ => NaN
  end.
Definition ext_div (a b : ext) : ext :=
  match a, b with Fin p, Fin q => Fin (Qred (p / q)) | _, _ => NaN end.

Definition finite (a : ext) : bool := match a with Fin _ => true | _ => false end.

Definition qops : fops ext := mk_fops ext
  (Fin 0) (fun z => Fin (inject_Z z)) ext_add (fun a b => ext_add a (ext_neg b)) ext_mul ext_div
  ext_lt (fun x => negb (ext_lt x (Fin 0))) (Fin 1) (fun x => x) (fun x => x) (fun x => x)
  (fun x _ => x) (fun x _ => x) (Fin (- (1))) finite PosInf (fun _ _ => Fin 0).

Definition qwide : xops ext ext := mk_xops
  (fun x => x) (fun x => x) ext_add (fun a b => ext_add a (ext_neg b)) ext_lt finite
  (fun x => match x with PosInf => true | _ => false end) PosInf NaN ext_neg (Fin (1 # 2)).

Lemma qlt_iff : forall a b, qlt a b = true <-> a < b.
Proof.
  intros a b. unfold qlt. rewrite negb_true_iff. rewrite <- not_true_iff_false, Qle_bool_iff. split; intros H.
  - now apply Qnot_le_lt.
  - now apply Qlt_not_le.
Qed.

Lemma qlt_not : forall a b, qlt a b = false <-> b <= a.
Proof.
  intros a b. unfold qlt. rewrite negb_false_iff. apply Qle_bool_iff.
Qed.

Lemma ext_strict : strict ext_lt.
Proof.
  split.
  - intros [|q| |]; cbn; auto. apply qlt_not. lra.
  - intros [|x| |] [|y| |] [|z| |]; cbn; auto; try discriminate. rewrite !qlt_iff. lra.
Qed.

Lemma ext_slack : forall b, 0 <= b -> slack qops qwide (Fin b).
Proof.
  intros b Hb [|a| |]; cbn -[Qplus Qred Qopp qlt]; (split; [intros E; try discriminate E; clear E|intros E E' y; try discriminate E; try discriminate E'; destruct y; reflexivity]).
  split; [reflexivity|]. split; [reflexivity|]. rewrite !qlt_not, Qred_correct. lra.
Qed.

Lemma ext_rounding : forall b, 0 <= b -> rounding qops qwide (Fin b).
Proof.
  intros b Hb. constructor.
  - apply ext_strict.
  - apply ext_strict.
  - reflexivity.
  - reflexivity.
  - reflexivity.
  - reflexivity.
  - intros [|q| |]; cbn; auto; discriminate.
  - intros [|q| |]; reflexivity.
  - intros [|x| |] [|y| |] [|z| |]; cbn; auto; try discriminate. rewrite !qlt_not. lra.
  - intros [|x| |] [|y| |]; cbn; auto; try discriminate.
  - intros [|x| |] [|y| |] [|z| |]; cbn; auto; try discriminate.
  - now apply ext_slack.
  - intros [|a| |] [|m| |]; cbn -[Qplus Qred Qopp qlt]; intros Ha Hm Hl; try discriminate. apply ext_slack.
    rewrite qlt_not in Hm. rewrite Qred_correct, Qred_correct. lra.
Qed.

Lemma ext_divides_well : divides_well qops.
Proof.
  intros a b c d Ha Hb Hc Hd H. cbn -[Qdiv Qred inject_Z qlt]. rewrite qlt_iff, !Qred_correct.
  apply Qlt_shift_div_l; [unfold Qlt; cbn; lia|]. 
  setoid_replace (inject_Z a / inject_Z b * inject_Z d) with (inject_Z (a * d) / inject_Z b) by (rewrite inject_Z_mult; field; unfold Qeq; cbn; lia).
  apply Qlt_shift_div_r; [unfold Qlt; cbn; lia|]. rewrite <- inject_Z_mult, <- Zlt_Qlt. nia.
Qed.

(** * Integers and plus infinity *)
Inductive trop : Type := Num (z : Z) | Inf.

Definition trop_lt (a b : trop) : bool :=
  match a, b with
  | Num x, Num y => (x <? y)%Z
  | Num _, Inf => true
  | Inf, _ => false
  end.
Definition trop_map2 (f : Z -> Z -> Z) (a b : trop) : trop :=
  match a, b with Num x, Num y => Num (f x y) | _, _ => Inf end.

Definition tops : fops trop := mk_fops trop
  (Num 0) Num (trop_map2 Z.add) (trop_map2 Z.sub) (trop_map2 Z.mul) (trop_map2 Z.quot)
  trop_lt (fun x => negb (trop_lt x (Num 0))) (Num 1) (fun x => x) (fun x => x) (fun x => x)
  (fun x _ => x) (fun x _ => x) (Num (-1)) (fun x => match x with Num _ => true | Inf => false end) Inf (fun _ _ => Num 0).

Definition twide : xops trop trop := mk_xops
  (fun x => x) (fun x => x) (trop_map2 Z.add) (trop_map2 Z.sub) trop_lt
  (fun x => match x with Num _ => true | Inf => false end) (fun x => match x with Num _ => false | Inf => true end)
  Inf Inf (fun x => match x with Num z => Num (- z) | Inf => Inf end) (Num 1).

Lemma trop_strict : strict trop_lt.
Proof.
  split.
  - intros [x|]; cbn; auto. apply Z.ltb_irrefl.
  - intros [x|] [y|] [z|]; cbn; auto; try discriminate. rewrite !Z.ltb_lt. lia.
Qed.

Lemma trop_exact : ordered_costs tops twide (fun _ => True).
Proof.
  constructor.
  - apply trop_strict.
  - apply trop_strict.
  - intros [x|] [y|] [z|] _ _ _; cbn; auto; try discriminate. rewrite !Z.ltb_ge. lia.
  - intros [x|] [y|] [w|] [ac|] [[lw|]|] _ _ _ _; cbn; auto; try discriminate; rewrite ?Z.ltb_ge; lia.
  - intros [x|]; reflexivity.
Qed.

(** * Integers from -3 on *)
Open Scope Z_scope.
Definition sat (z : Z) : Z := Z.max (-3) z.
Definition sops : fops Z := mk_fops Z
  0 sat (fun a b => sat (a + b)) (fun a b => sat (a - b)) Z.mul Z.quot
  (fun a b => (-3 <=? a) && (a <? b)) (Z.leb 0) 1 (fun x => x) (fun x => x) (fun x => x)
  (fun x _ => x) (fun x _ => x) (-1) (fun x => x <? 1000) 1000 (fun _ _ => 0).

Definition swide : xops Z Z := mk_xops
  (fun x => x) (fun x => x) (fun a b => sat (a + b)) (fun a b => sat (a - b))
  (fun a b => (-3 <=? a) && (a <? b)) (fun x => x <? 1000) (fun x => x =? 1000) 1000 1000 Z.opp 1.

Lemma sat_strict : strict (fun a b : Z => (-3 <=? a) && (a <? b)).
Proof.
  split.
  - intros x. rewrite Z.ltb_irrefl, andb_false_r. reflexivity.
  - intros x y z. rewrite !andb_true_iff, !Z.leb_le, !Z.ltb_lt. lia.
Qed.

Lemma sat_wf : well_founded (fun x y => f_lt sops x y = true).
Proof.
  intros x. assert (H : well_founded (fun a b => 0 <= a + 3 < b + 3)).
  { intros a. induction (Z.lt_wf (-3) a) as [b _ IH]. constructor. intros y Hy. apply IH. lia. }
  induction (H x) as [y _ IH]. constructor. intros z Hz. apply IH. cbn in Hz.
  rewrite andb_true_iff, Z.leb_le, Z.ltb_lt in Hz. lia.
Qed.
