(* SpecSplit.v - lists of nodes that do not overlap, and splitting a node into its children (C80) *)
From Coq Require Export Sorting.Sorted.
From Verif Require Import Base ModelDim ModelStorage Spec.

(* a comes before b and is not b or one of its ancestors *)
Definition apart (c : cfg) (D : Dimension) (k : kind) (v : VarOps D (storage k)) (a b : storage k) : Prop :=
  idx_cmp c D k a b = Ret Lt
  /\ forall s, with_depth c v b (st_depth (ops c D k) a) = Ret (Some s) -> idx_eq k s a = false.
(* sorted nodes none of which contains another: the leaves of a linear quadtree or octree *)
Definition leaves (c : cfg) (D : Dimension) (k : kind) (v : VarOps D (storage k)) : list (storage k) -> Prop :=
  StronglySorted (apart c D k v).
(* all cells, in the order of their numbers *)
Definition all_cells (D : Dimension) (qs : list (cell D)) : Prop :=
  (forall q, In q qs) /\ StronglySorted (fun q q' => cell_index D q < cell_index D q') qs.
(* how many nodes of depth n lie below these nodes, if none contains another *)
Definition nodes_below (c : cfg) (D : Dimension) (k : kind) (n : N) (xs : list (storage k)) : N :=
  fold_right (fun x m => 2 ^ (dim D * (n - st_depth (ops c D k) x)) + m) 0 xs.
