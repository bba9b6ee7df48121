(* SpecNear.v - neighbours in terms of paths (C78).  Nothing here refers to the model's bit operations. *)
From Verif Require Import Base ModelDim Spec.

(* The next node of the same depth along one axis, found without coordinates: if the last cell lies in the lower half of its parent,
   the next node is its sibling in the upper half.  Otherwise it is in the lower half of the next node of the parent.  `others`
   are the offsets along the other axes. *)
Inductive next_along {A B} (offset : A -> N) (others : A -> B) : list A -> list A -> Prop :=
| next_sibling l x x' : offset x = 0 -> offset x' = 1 -> others x' = others x -> next_along offset others (l ++ [x]) (l ++ [x'])
| next_of_parent l l' x x' : next_along offset others l l' -> offset x = 1 -> offset x' = 0 -> others x' = others x ->
    next_along offset others (l ++ [x]) (l' ++ [x']).

(* l and l' lead to the points (x, y) and (x', y') of the same grid: each is the next node of the other along an axis exactly if the points
   are one apart along it *)
Definition neighbours2 (o : quadrant_ordering) (l l' : list quadrant) (x y x' y' : N) : Prop :=
  (next_along (quad_x o) (quad_y o) l l' <-> x' = x + 1 /\ y' = y)
  /\ (next_along (quad_x o) (quad_y o) l' l <-> x = x' + 1 /\ y' = y)
  /\ (next_along (quad_y o) (quad_x o) l l' <-> x' = x /\ y' = y + 1)
  /\ (next_along (quad_y o) (quad_x o) l' l <-> x' = x /\ y = y' + 1).
Definition neighbours3 (o : octant_ordering) (l l' : list octant) (x y z x' y' z' : N) : Prop :=
  let nx := next_along (oct_x o) (fun q => (oct_y o q, oct_z o q)) in
  let ny := next_along (oct_y o) (fun q => (oct_x o q, oct_z o q)) in
  let nz := next_along (oct_z o) (fun q => (oct_x o q, oct_y o q)) in
  (nx l l' <-> x' = x + 1 /\ y' = y /\ z' = z) /\ (nx l' l <-> x = x' + 1 /\ y' = y /\ z' = z)
  /\ (ny l l' <-> x' = x /\ y' = y + 1 /\ z' = z) /\ (ny l' l <-> x' = x /\ y = y' + 1 /\ z' = z)
  /\ (nz l l' <-> x' = x /\ y' = y /\ z' = z + 1) /\ (nz l' l <-> x' = x /\ y' = y /\ z = z' + 1).
