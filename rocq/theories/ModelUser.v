(* ModelUser.v - FixedDepthStorage{2D,3D}<B> and StaticStorage{2D,3D}<B> for any B: FixedStorageType (src/indices/mod.rs lines
   38-52), i.e. also for types outside the crate such as integers of more than 128 bits.  ModelStorage.v contains the instances
   for the integers of src/number.rs; FactsUserBits.v shows that the definitions below give these instances back.
   from_grid_index, as_u8_slice and from_u8_slice of such types are not modelled. *)
From Verif Require Import Base ModelNumber ModelDim ModelStorage ModelBits.

(* What the functions below use of B: the constant BITS (src/number.rs line 87), Default, Ord, Eq and the methods of Bits. *)
Record FixedType (T : Type) := {
  ft_BITS : N;
  ft_default : T;
  ft_cmp : T -> T -> comparison;
  ft_eq : T -> T -> bool;
  ft_bits : BitsOps T
}.
Arguments ft_BITS {T} _.
Arguments ft_default {T} _.
Arguments ft_cmp {T} _ _ _.
Arguments ft_eq {T} _ _ _.
Arguments ft_bits {T} _.
(* the instances of the crate *)
Definition num_type (c : cfg) (t : uty) : FixedType N := {|
  ft_BITS := BITS c t;
  ft_default := 0;
  ft_cmp := N.compare;
  ft_eq := N.eqb;
  ft_bits := num_bits c t
|}.

(* StorageType::MAX_LEVELS of FixedDepthStorage<D, B> and StaticStorage<D, B>, storage.rs lines 99 and 140 *)
Definition user_MAX {T} (D : Dimension) (B : FixedType T) : N := ft_BITS B / dim D.

(* FixedDepthStorage<D, B>::get_cell_at_level_unchecked::<B>, storage.rs lines 109-119 *)
Definition user_fixed_get {T} (c : cfg) (D : Dimension) (B : FixedType T) (bits : T) (level : N) : outcome (cell D) :=
  let W := usize_bits c in
  let! l1 := add c W level 1 in
  let! off := mul c W l1 (dim D) in
  let! start_bit := sub c W (ft_BITS B) off in
  let! end_bit := add c W start_bit (dim D) in
  let! b := bo_get_bits (ft_bits B) bits start_bit end_bit in
  let! u := bo_as_u8 (ft_bits B) b in
  unwrap (cell_try_from D (cast W u)).
(* FixedDepthStorage<D, B>::set_cell_at_level_unchecked::<B>, storage.rs lines 121-130 *)
Definition user_fixed_set {T} (c : cfg) (D : Dimension) (B : FixedType T) (bits : T) (level : N) (x : cell D) : outcome T :=
  let W := usize_bits c in
  let cell_idx := cell_index D x in
  let! l1 := add c W level 1 in
  let! off := mul c W l1 (dim D) in
  let! start_bit := sub c W (ft_BITS B) off in
  let! end_bit := add c W start_bit (dim D) in
  bo_set_bits (ft_bits B) bits start_bit end_bit (bo_from_u8 (ft_bits B) (cast 8 cell_idx)).
(* StaticStorage<D, B>::get_cell_at_level_unchecked::<B>, storage.rs lines 148-156 *)
Definition user_static_get {T} (c : cfg) (D : Dimension) (B : FixedType T) (bits : T) (level : N) : outcome (cell D) :=
  let W := usize_bits c in
  let! l1 := add c W level 1 in
  let! off := mul c W l1 (dim D) in
  let! start_bit := sub c W (ft_BITS B) off in
  let! end_bit := add c W start_bit (dim D) in
  let! b := bo_get_bits (ft_bits B) bits start_bit end_bit in
  let! u := bo_as_u8 (ft_bits B) b in
  unwrap (cell_try_from D (cast W u)).
(* StaticStorage<D, B>::set_cell_at_level_unchecked::<B>, storage.rs lines 158-167 *)
Definition user_static_set {T} (c : cfg) (D : Dimension) (B : FixedType T) (bits : T) (level : N) (x : cell D) : outcome T :=
  let W := usize_bits c in
  let cell_idx := cell_index D x in
  let! l1 := add c W level 1 in
  let! off := mul c W l1 (dim D) in
  let! start_bit := sub c W (ft_BITS B) off in
  let! end_bit := add c W start_bit (dim D) in
  bo_set_bits (ft_bits B) bits start_bit end_bit (bo_from_u8 (ft_bits B) (cast 8 cell_idx)).

(* ---------- FixedDepthStorage2D<B>, FixedDepthStorage3D<B>: the value is the field bits ---------- *)
(* morton_index_2d.rs lines 372-387, morton_index_3d.rs lines 446-461 *)
Definition user_fixed_ops {T} (c : cfg) (D : Dimension) (B : FixedType T) : StorageOps D T := {|
  st_depth := fun _ => user_MAX D B;
  st_get := fun s level => user_fixed_get c D B s level;
  st_set := fun s level x => user_fixed_set c D B s level x
|}.
(* morton_index_2d.rs lines 389-406 and 411-428, morton_index_3d.rs lines 463-480 and 482-499 *)
Definition user_fixed_try_from {T} (c : cfg) (D : Dimension) (B : FixedType T) (cells : list (cell D)) : outcome (result T) :=
  if user_MAX D B <? len cells then Ret (Err (DepthLimitedExceeded (user_MAX D B)))
  else let! ret := set_cells (user_fixed_ops c D B) (ft_default B) cells in Ret (Ok ret).
(* derived PartialEq / Ord, morton_index_2d.rs line 367, morton_index_3d.rs line 441 *)
Definition user_fixed_eq {T} (B : FixedType T) (a b : T) : bool := ft_eq B a b.
Definition user_fixed_cmp {T} (B : FixedType T) (a b : T) : comparison := ft_cmp B a b.
(* derived Hash, same lines; hash is what B feeds to the hasher *)
Definition user_fixed_hash {T} (hash : T -> list N) (a : T) : list N := hash a.

(* ---------- StaticStorage2D<B>, StaticStorage3D<B> ---------- *)
Record user_static (T : Type) := MkUserStatic { us_bits : T; us_depth : N (* u8 *) }.
Arguments MkUserStatic {T} _ _.
Arguments us_bits {T} _.
Arguments us_depth {T} _.
(* morton_index_2d.rs lines 455-470, morton_index_3d.rs lines 520-535 *)
Definition user_static_ops {T} (c : cfg) (D : Dimension) (B : FixedType T) : StorageOps D (user_static T) := {|
  st_depth := fun s => us_depth s;
  st_get := fun s level => user_static_get c D B (us_bits s) level;
  st_set := fun s level x => let! b := user_static_set c D B (us_bits s) level x in Ret (MkUserStatic b (us_depth s))
|}.
(* derived Default, morton_index_2d.rs line 449, morton_index_3d.rs line 514 *)
Definition user_static_default {T} (B : FixedType T) : user_static T := MkUserStatic (ft_default B) 0.
(* morton_index_2d.rs lines 136-146, morton_index_3d.rs lines 277-287; depth : u8 *)
Definition user_static_zeroed {T} (c : cfg) (D : Dimension) (B : FixedType T) (depth : N) : option (user_static T) :=
  if user_MAX D B <? cast (usize_bits c) depth then None else Some (MkUserStatic (ft_default B) depth).
(* morton_index_2d.rs lines 561-575 and 581-595, morton_index_3d.rs lines 627-641 and 647-661 *)
Definition user_static_try_from {T} (c : cfg) (D : Dimension) (B : FixedType T) (cells : list (cell D)) : outcome (result (user_static T)) :=
  if user_MAX D B <? len cells then Ret (Err (DepthLimitedExceeded (user_MAX D B)))
  else
    let! ret := set_cells (user_static_ops c D B) (user_static_default B) cells in
    Ret (Ok (MkUserStatic (us_bits ret) (cast 8 (len cells)))).
(* morton_index_2d.rs lines 524-539, morton_index_3d.rs lines 538-553 *)
Definition user_static_ancestor {T} (c : cfg) (D : Dimension) (B : FixedType T) (self : user_static T) (generations : N)
    : outcome (option (user_static T)) :=
  if us_depth self <? generations then Ret None
  else
    let! new_depth := sub c 8 (us_depth self) (cast 8 generations) in
    let! ret := foldM (fun r level => st_set (user_static_ops c D B) r level (cell_zero D))
                      (range new_depth (us_depth self)) self in
    Ret (Some (MkUserStatic (us_bits ret) new_depth)).
(* morton_index_2d.rs lines 541-555, morton_index_3d.rs lines 555-569 *)
Definition user_static_descendant {T} (c : cfg) (D : Dimension) (B : FixedType T) (self : user_static T) (cells : list (cell D))
    : outcome (option (user_static T)) :=
  let! new_depth := add c (usize_bits c) (us_depth self) (len cells) in
  if user_MAX D B <? new_depth then Ret None
  else
    let! ret := set_cells_from c (user_static_ops c D B) (us_depth self) self cells in
    Ret (Some (MkUserStatic (us_bits ret) (cast 8 new_depth))).
Definition user_static_vops {T} (c : cfg) (D : Dimension) (B : FixedType T) : VarOps D (user_static T) := {|
  vo_ops := user_static_ops c D B;
  vo_ancestor := user_static_ancestor c D B;
  vo_descendant := user_static_descendant c D B
|}.
(* morton_index_2d.rs lines 514-519, morton_index_3d.rs lines 614-620 *)
Definition user_static_eq {T} (B : FixedType T) (a b : user_static T) : bool := ft_eq B (us_bits a) (us_bits b) && (us_depth a =? us_depth b).
(* derived Hash, morton_index_2d.rs line 449, morton_index_3d.rs line 514: the fields in order *)
Definition user_static_hash {T} (hash : T -> list N) (a : user_static T) : list N := hash (us_bits a) ++ [us_depth a].
(* morton_index_2d.rs lines 478-512, morton_index_3d.rs lines 578-612 (2D writes the literal 2 for DIMENSIONALITY) *)
Definition user_static_cmp {T} (c : cfg) (D : Dimension) (B : FixedType T) (self other : user_static T) : outcome comparison :=
  let W := usize_bits c in
  let end_bit := ft_BITS B in
  let! a := mul c W (us_depth self) (dim D) in
  let! self_start_bit := sub c W end_bit a in
  let! b := mul c W (us_depth other) (dim D) in
  let! other_start_bit := sub c W end_bit b in
  match N.compare (us_depth self) (us_depth other) with
  | Lt =>
      let! self_bits := bo_get_bits (ft_bits B) (us_bits self) self_start_bit end_bit in
      let! other_bits := bo_get_bits (ft_bits B) (us_bits other) self_start_bit end_bit in
      Ret (match ft_cmp B self_bits other_bits with Gt => Gt | _ => Lt end)
  | Eq =>
      let! self_bits := bo_get_bits (ft_bits B) (us_bits self) self_start_bit end_bit in
      let! other_bits := bo_get_bits (ft_bits B) (us_bits other) other_start_bit end_bit in
      Ret (ft_cmp B self_bits other_bits)
  | Gt =>
      let! self_bits := bo_get_bits (ft_bits B) (us_bits self) other_start_bit end_bit in
      let! other_bits := bo_get_bits (ft_bits B) (us_bits other) other_start_bit end_bit in
      Ret (match ft_cmp B self_bits other_bits with Lt => Lt | _ => Gt end)
  end.

(* ---------- conversions ---------- *)
(* fixed -> static: morton_index_2d.rs lines 797-804, morton_index_3d.rs lines 857-864 *)
Definition user_static_from_fixed {T} (D : Dimension) (B : FixedType T) (s : T) : user_static T :=
  MkUserStatic s (cast 8 (user_MAX D B)).
(* static -> fixed: morton_index_2d.rs lines 828-834, morton_index_3d.rs lines 888-894 *)
Definition user_fixed_from_static {T} (s : user_static T) : T := us_bits s.
