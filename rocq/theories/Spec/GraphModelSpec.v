(** Models all of whose parts, the graph included, are in files. *)
From Coq Require Import ZArith List.
From Verif.Model Require Import Arith Fst Decoder.
From Verif.Spec Require Import FstSpec ConstFstSpec LoadingSpec.
Import ListNotations.
Open Scope Z_scope.

(** The model with the weights of its graph taken as numbers. *)
Definition with_graph {F} (of_word : Z -> F) (m : model (transducer Z)) : model (graph F) :=
  mk_model (graph_meant of_word (m_graph m)) (m_layers m) (m_prior m) (m_left m) (m_right m) (m_chunk m) (m_pdfs m)
    (m_tid2pdf m) (m_words m) (m_bos m) (m_eos m) (m_lm m).

Definition stored_whole {F} (O : fops F) of_word files room : list Z -> model (transducer Z) -> Prop :=
  stored_by O of_word files (holds_graph files room).
