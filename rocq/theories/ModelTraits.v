(* ModelTraits.v - the depth limits and comparison operators that the storages inherit from traits.

   MortonIndex2D / MortonIndex3D derive PartialOrd and Ord (morton_index_2d.rs line 39, morton_index_3d.rs line 43): for a
   struct with one field these are the ones of the storage. *)
From Verif Require Import Base ModelNumber ModelDim ModelStorage.

(* ---------- StorageType::max_depth, used by Storage::max_depth (storage.rs lines 57-59) ---------- *)
(* storage.rs lines 105-107 *)
Definition fixed_max_depth (c : cfg) (D : Dimension) (t : uty) : option N := Some (MAX_LEVELS c D t).
(* storage.rs lines 144-146 *)
Definition static_max_depth (c : cfg) (D : Dimension) (t : uty) : option N := Some (MAX_LEVELS c D t).
(* storage.rs lines 181-183 *)
Definition dynamic_max_depth : option N := None.
(* storage.rs line 177: the associated constant of a dynamic storage; nothing in the crate uses it *)
Definition dynamic_MAX_LEVELS : N := 0.

(* ---------- PartialOrd ---------- *)
(* derived, morton_index_2d.rs line 367, morton_index_3d.rs line 441 *)
Definition fixed_partial_cmp (a b : fixed_storage) : option comparison := Some (fixed_cmp a b).
(* morton_index_2d.rs lines 472-476, morton_index_3d.rs lines 572-576 *)
Definition static_partial_cmp (c : cfg) (D : Dimension) (t : uty) (a b : static_storage) : outcome (option comparison) :=
  let! r := static_cmp c D t a b in Ret (Some r).
(* morton_index_2d.rs lines 641-645, morton_index_3d.rs lines 710-714 *)
Definition dynamic_partial_cmp (c : cfg) (D : Dimension) (a b : dynamic_storage) : outcome (option comparison) :=
  let! r := dynamic_cmp c D a b in Ret (Some r).

(* core::cmp::PartialOrd::{lt, le, gt, ge}: provided methods, from the result of partial_cmp *)
Definition op_lt (r : option comparison) : bool := match r with Some Lt => true | _ => false end.
Definition op_le (r : option comparison) : bool := match r with Some Lt | Some Eq => true | _ => false end.
Definition op_gt (r : option comparison) : bool := match r with Some Gt => true | _ => false end.
Definition op_ge (r : option comparison) : bool := match r with Some Gt | Some Eq => true | _ => false end.

(* core::cmp::Ord::{max, min}: provided methods; max returns the second argument if both are equal, min the first *)
Definition ord_max {S} (cmp : S -> S -> outcome comparison) (a b : S) : outcome S :=
  let! r := cmp a b in Ret (match r with Gt => a | _ => b end).
Definition ord_min {S} (cmp : S -> S -> outcome comparison) (a b : S) : outcome S :=
  let! r := cmp a b in Ret (match r with Gt => b | _ => a end).
(* core::cmp::Ord::clamp: asserts min <= max *)
Definition ord_clamp {S} (cmp : S -> S -> outcome comparison) (self lo hi : S) : outcome S :=
  let! r := cmp lo hi in
  match r with
  | Gt => Panic
  | _ =>
      let! a := cmp self lo in
      match a with
      | Lt => Ret lo
      | _ => let! b := cmp self hi in Ret (match b with Gt => hi | _ => self end)
      end
  end.
