(* SpecCommon.v - the nearest common ancestor of two nodes (C79).  Nothing here refers to the model's bit operations. *)
From Verif Require Import Base Spec.

(* p leads to the deepest node that contains both la and lb *)
Definition longest_common {A} (p la lb : list A) : Prop :=
  is_prefix p la /\ is_prefix p lb /\ forall q, is_prefix q la -> is_prefix q lb -> is_prefix q p.
