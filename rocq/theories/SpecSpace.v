(* SpecSpace.v - Morton codes and regions of space, for C59-C61.  Nothing here refers to the model's bit operations. *)
From Verif Require Import Base ModelNumber ModelDim ModelStorage Spec.

(* The Morton code of a point: the bits of the coordinates in turn, starting with the lowest bit of the first one.
   d is the number of bits per coordinate. *)
Fixpoint code2 (d : nat) (a b : N) : N :=
  match d with
  | O => 0
  | Datatypes.S d' => a mod 2 + 2 * (b mod 2) + 4 * code2 d' (a / 2) (b / 2)
  end.
Fixpoint code3 (d : nat) (a b e : N) : N :=
  match d with
  | O => 0
  | Datatypes.S d' => a mod 2 + 2 * (b mod 2) + 4 * (e mod 2) + 8 * code3 d' (a / 2) (b / 2) (e / 2)
  end.
(* An ordering names the axes, the fastest varying one first. *)
Definition morton2 (o : quadrant_ordering) (d x y : N) : N :=
  match o with XY => code2 (N.to_nat d) x y | YX => code2 (N.to_nat d) y x end.
Definition morton3 (o : octant_ordering) (d x y z : N) : N :=
  let n := N.to_nat d in
  match o with
  | XYZ => code3 n x y z
  | XZY => code3 n x z y
  | YXZ => code3 n y x z
  | YZX => code3 n y z x
  | ZXY => code3 n z x y
  | ZYX => code3 n z y x
  end.
(* First difference of two codes with da and db levels of n bits, read from the root; if there is none, the depths decide. *)
Definition compare_codes (n da a db b : N) : comparison :=
  match N.compare (a * 2 ^ (n * (db - da))) (b * 2 ^ (n * (da - db))) with
  | Eq => N.compare da db
  | r => r
  end.
(* The node of depth d at coordinate x covers, along this axis, the cells X of the grid of depth n (d <= n) with X / 2^(n-d) = x *)
Definition covers (d x n X : N) : Prop := X / 2 ^ (n - d) = x.
