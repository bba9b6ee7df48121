(* SpecMono.v - notions for C71 and C72.  Nothing here refers to the model's bit operations. *)
From Verif Require Import Base ModelNumber ModelDim ModelStorage Spec.

(* cells is a Rust slice, and the bits of an index with these cells appended have usize positions *)
Definition appendable (c : cfg) (D : Dimension) (k : kind) : storage k -> list (cell D) -> Prop :=
  match k return storage k -> list (cell D) -> Prop with
  | KDynamic => fun s cells => 8 * len (dy_bits s) + dim D * len cells + 16 <= 2 ^ usize_bits c
  | _ => fun _ cells => len cells < 2 ^ (usize_bits c - 1)
  end.
(* b is a, a number of d bits, read in the opposite direction *)
Definition bit_reversal (d a b : N) : Prop :=
  b < 2 ^ d /\ forall i, i < d -> N.testbit b i = N.testbit a (d - 1 - i).
(* b is a with bit j replaced by the bit v *)
Definition bit_replaced (j v a b : N) : Prop :=
  forall m, N.testbit b m = if m =? j then (v =? 1) else N.testbit a m.
