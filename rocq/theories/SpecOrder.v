(** Specification of the order of options that PROTOCOL.certkeys asks for: names in increasing
    order, each once. *)
From Coq Require Import Sorted.
From Verif Require Import Base.

(** Byte strings in lexical order. *)
Inductive before : bytes -> bytes -> Prop :=
| B_end b t : before [] (b :: t)
| B_less a b s t : (Byte.to_N a < Byte.to_N b)%N -> before (a :: s) (b :: t)
| B_same a s t : before s t -> before (a :: s) (a :: t).

Definition in_order (entries : list (bytes * bytes)) : Prop := StronglySorted before (map fst entries).
