(* SpecTraits.v - vocabulary for the properties of depth limits, comparison operators and sorting. *)
From Verif Require Import Base ModelNumber ModelDim ModelStorage ModelTraits Spec.

(* max_depth(), partial_cmp and the operators for every storage kind *)
Definition idx_max_depth (c : cfg) (D : Dimension) (k : kind) : option N :=
  match k with
  | KFixed t => fixed_max_depth c D t
  | KStatic t => static_max_depth c D t
  | KDynamic => dynamic_max_depth
  end.
Definition idx_partial_cmp (c : cfg) (D : Dimension) (k : kind) : storage k -> storage k -> outcome (option comparison) :=
  match k with
  | KFixed _ => fun a b => Ret (fixed_partial_cmp a b)
  | KStatic t => static_partial_cmp c D t
  | KDynamic => dynamic_partial_cmp c D
  end.
Definition index_lt c D k (a b : storage k) : outcome bool := let! r := idx_partial_cmp c D k a b in Ret (op_lt r).
Definition index_le c D k (a b : storage k) : outcome bool := let! r := idx_partial_cmp c D k a b in Ret (op_le r).
Definition index_gt c D k (a b : storage k) : outcome bool := let! r := idx_partial_cmp c D k a b in Ret (op_gt r).
Definition index_ge c D k (a b : storage k) : outcome bool := let! r := idx_partial_cmp c D k a b in Ret (op_ge r).

(* the associated constant MAX_LEVELS *)
Definition idx_MAX_LEVELS (c : cfg) (D : Dimension) (k : kind) : N :=
  match k with KFixed t | KStatic t => MAX_LEVELS c D t | KDynamic => dynamic_MAX_LEVELS end.

(* The order of a depth-first traversal of the tree: node a is visited before node b if b is a proper descendant of a, or
   if the two paths part at a common ancestor p and a continues with the smaller cell. *)
Definition earlier {D} (a b : list (cell D)) : Prop :=
  (exists x r, b = a ++ x :: r)
  \/ (exists p x y ra rb, a = p ++ x :: ra /\ b = p ++ y :: rb /\ cell_index D x < cell_index D y).

(* What a sort leaves behind: every element is <= its successor. *)
Fixpoint sorted (c : cfg) (D : Dimension) (k : kind) (l : list (storage k)) : Prop :=
  match l with
  | a :: ((b :: _) as r) => index_le c D k a b = Ret true /\ sorted c D k r
  | _ => True
  end.

(* ---------- orderings as permutations of the axes ---------- *)
(* the coordinates along the axes on which quadrants 1 and 2 (octants 1, 2 and 4) of the ordering sit *)
Definition axes2 (o : quadrant_ordering) (p : N * N) : N * N :=
  let along (d : N * N) := fst d * fst p + snd d * snd p in
  let '(d1, d2) := doc_quadrants o in (along d1, along d2).
Definition axes3 (o : octant_ordering) (p : N * N * N) : N * N * N :=
  let along (d : N * N * N) := fst (fst d) * fst (fst p) + snd (fst d) * snd (fst p) + snd d * snd p in
  let '(d1, d2, d4) := doc_octants o in (along d1, along d2, along d4).
