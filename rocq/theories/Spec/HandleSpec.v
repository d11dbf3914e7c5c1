(** What a program does with files, told from its calls of [fopen] and
    [fclose]. *)
From Coq Require Import ZArith String List.
From Verif.Spec Require Import AudioSpec FormatSpec TextSpec FstSpec LoadingSpec LoadFaultSpec.
From Verif.Model Require Import Stt Handles.
Import ListNotations.

Definition was_opened (l : list event) (n : nat) : Prop := exists name, In (Opened n name) l.
Definition still_open (l : list event) (n : nat) : Prop := was_opened l n /\ ~ In (Closed n) l.

(** No stream is given out twice, and only open streams are closed. *)
Definition proper (l : list event) : Prop :=
  forall p e q, l = p ++ e :: q ->
    match e with
    | Opened n _ => ~ was_opened p n
    | Closed n => still_open p n
    end.

Definition opens (l : list event) : nat := length (filter (fun e => match e with Opened _ _ => true | _ => false end) l).
Definition closes (l : list event) : nat := length (filter (fun e => match e with Closed _ => true | _ => false end) l).

(** At no time are more than [k] streams open. *)
Definition at_most (k : nat) (l : list event) : Prop :=
  forall p q, l = p ++ q -> (opens p <= closes p + k)%nat.

(** The names of the files opened. *)
Fixpoint names (l : list event) : list (list Z) :=
  match l with
  | [] => []
  | Opened _ name :: l => name :: names l
  | Closed _ :: l => names l
  end.

(** Calls in which [Open] comes only for objects that own their file and have
    not been given one since they were made or since the last [Close]. The state
    tells for each object whether it owns its file and whether [Open] was called. *)
Inductive orderly : list (bool * bool) -> list call -> Prop :=
| ord_end s : orderly s []
| ord_new s cs : orderly (s ++ [(true, false)]) cs -> orderly s (CNew :: cs)
| ord_borrow s j cs : orderly (s ++ [(false, false)]) cs -> orderly s (CBorrow j :: cs)
| ord_open a b i name cs : i = length a ->
    orderly (a ++ (true, true) :: b) cs -> orderly (a ++ (true, false) :: b) (COpen i name :: cs)
| ord_close a o b i cs : i = length a ->
    orderly (a ++ (true, false) :: b) cs -> orderly (a ++ (true, o) :: b) (CClose i :: cs)
| ord_use s i cs : orderly s cs -> orderly s (CUse i :: cs)
| ord_size s i cs : orderly s cs -> orderly s (CSize i :: cs)
| ord_leave s o cs : orderly s cs -> orderly (s ++ [o]) (CLeave :: cs)
| ord_fopen s name cs : orderly s cs -> orderly s (CFopen name :: cs)
| ord_fclose s j cs : orderly s cs -> orderly s (CFclose j :: cs).

(** The configuration file [fn] names the file [p] under [key]. *)
Definition named (files : str -> option str) (fn key p : str) : Prop :=
  exists v, config_value files fn key v /\ v <> reserved /\ located fn v p.

(** The files of a model in the order in which they are opened. *)
Definition model_files (files : str -> option str) (fn : str) (l : list str) : Prop :=
  exists g nn pr td sy lm, l = [fn; g; nn; pr; td; sy] ++ lm /\
    named files fn (lit "fst") g /\ named files fn (lit "nnet") nn /\ named files fn (lit "prior") pr /\
    named files fn (lit "tid2pdf") td /\ named files fn (lit "symbol_table") sy /\
    (lm = [] \/ exists o b, lm = [o; b] /\ named files fn (lit "original_lm") o /\ named files fn (lit "large_lm") b).

(** One of the names in a configuration, or the configuration itself. *)
Definition model_file (files : str -> option str) (fn p : str) : Prop :=
  p = fn \/ exists key, In key [lit "fst"; lit "nnet"; lit "prior"; lit "tid2pdf"; lit "symbol_table"; lit "original_lm"; lit "large_lm"] /\
    named files fn key p.
