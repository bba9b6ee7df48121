(* ModelUserGrid.v - from_grid_index and the conversions from and to dynamic indices of FixedDepthStorage{2D,3D}<B> and
   StaticStorage{2D,3D}<B> for any B: FixedStorageType, continuing ModelUser.v.  Model2D.v, Model3D.v and ModelStorage.v contain
   the instances for the integers; FactsUserGrid.v shows that the definitions below give these instances back. *)
From Verif Require Import Base ModelNumber ModelDim ModelStorage Model2D Model3D ModelBits ModelUser.

(* The further methods of Bits used here: from_u32, from_u64, as_u8_slice, from_u8_slice (src/number.rs lines 100-115) *)
Record UserType (T : Type) := {
  ut_type : FixedType T;
  ut_from_u32 : N -> T;
  ut_from_u64 : N -> T;
  ut_as_u8_slice : T -> list N;
  ut_from_u8_slice : list N -> endianness -> T
}.
Arguments ut_type {T} _.
Arguments ut_from_u32 {T} _ _.
Arguments ut_from_u64 {T} _ _.
Arguments ut_as_u8_slice {T} _ _.
Arguments ut_from_u8_slice {T} _ _ _.
(* the instances of the crate *)
Definition num_user (c : cfg) (t : uty) : UserType N := {|
  ut_type := num_type c t;
  ut_from_u32 := num_from c t;
  ut_from_u64 := num_from c t;
  ut_as_u8_slice := num_as_u8_slice c t;
  ut_from_u8_slice := num_from_u8_slice c t
|}.

(* ---------- 2D ---------- *)
(* fixed from_grid_index: morton_index_2d.rs lines 88-130 *)
Definition user_fixed_from_grid_2d {T} (c : cfg) (B : FixedType T) (x y : N) (o : quadrant_ordering) : outcome T :=
  let W := usize_bits c in
  let fixed_depth := user_MAX Dim2D B in
  if W <? fixed_depth then Panic
  else
    let! x_bits := num_get_bits c USize x 0 fixed_depth in
    let! y_bits := num_get_bits c USize y 0 fixed_depth in
    let '(lower_bits, higher_bits) := lower_higher o x_bits y_bits in
    let! d3 := add c W fixed_depth 3 in
    let num_chunks := d3 / 4 in
    foldM (fun bits chunk_index =>
        let! chunk := grid_chunk_2d c lower_bits higher_bits chunk_index in
        let! s := mul c W chunk_index 8 in
        let! next := add c W chunk_index 1 in
        let! e := mul c W next 8 in
        bo_set_bits (ft_bits B) bits s e (bo_from_u8 (ft_bits B) chunk))
      (range 0 num_chunks) (ft_default B).
(* static from_grid_index: morton_index_2d.rs lines 152-203 *)
Definition user_static_from_grid_2d {T} (c : cfg) (B : FixedType T) (x y grid_depth : N) (o : quadrant_ordering)
    : outcome (result (user_static T)) :=
  let W := usize_bits c in
  if ft_BITS B / 2 <? grid_depth then Ret (Err (DepthLimitedExceeded (ft_BITS B / 2)))
  else
    let! shift_to_max_bits := sub c W (user_MAX Dim2D B) grid_depth in
    let! x0 := num_get_bits c USize x 0 grid_depth in
    let! x_bits := shl c W x0 shift_to_max_bits in
    let! y0 := num_get_bits c USize y 0 grid_depth in
    let! y_bits := shl c W y0 shift_to_max_bits in
    let '(lower_bits, higher_bits) := lower_higher o x_bits y_bits in
    let! d3 := add c W grid_depth 3 in
    let num_chunks := d3 / 4 in
    let! m3 := add c W (user_MAX Dim2D B) 3 in
    let max_chunks := m3 / 4 in
    let! chunk_start := sub c W max_chunks num_chunks in
    let! bits := foldM (fun bits chunk_index =>
        let! chunk := grid_chunk_2d c lower_bits higher_bits chunk_index in
        let! start_bit := mul c W chunk_index 8 in
        let! end_bit := add c W start_bit 8 in
        bo_set_bits (ft_bits B) bits start_bit end_bit (bo_from_u8 (ft_bits B) chunk))
      (rev (range chunk_start max_chunks)) (ft_default B) in
    Ret (Ok (MkUserStatic bits (cast 8 grid_depth))).

(* ---------- 3D ---------- *)
(* MAX_LEVELS_BITMASK, morton_index_3d.rs line 176; Panic: does not compile (see Model3D.v) *)
Definition user_BITMASK {T} (c : cfg) (B : FixedType T) : outcome N :=
  if user_MAX Dim3D B <? usize_bits c then Ret (2 ^ user_MAX Dim3D B - 1) else Panic.
(* fixed from_grid_index: morton_index_3d.rs lines 184-233 *)
Definition user_fixed_from_grid_3d {T} (c : cfg) (U : UserType T) (x y z : N) (o : octant_ordering) : outcome T :=
  let B := ut_type U in
  let W := usize_bits c in
  let fixed_depth := user_MAX Dim3D B in
  if W <? fixed_depth then Panic
  else
    let! bitmask := user_BITMASK c B in
    let x_bits := N.land x bitmask in
    let y_bits := N.land y bitmask in
    let z_bits := N.land z bitmask in
    let sh := get_bit_shifts_for_xyz o in
    let leftover_bits_at_end := ft_BITS B mod dim Dim3D in
    let! d20 := add c W fixed_depth 20 in
    let num_chunks := d20 / 21 in
    foldM (fun bits chunk_index =>
        let! start_bit := mul c W chunk_index 21 in
        let! end_bit := add c W start_bit 21 in
        let! x_chunk := num_get_bits c USize x_bits start_bit end_bit in
        let! y_chunk := num_get_bits c USize y_bits start_bit end_bit in
        let! z_chunk := num_get_bits c USize z_bits start_bit end_bit in
        let! chunk := grid_chunk_3d_u64 c (cast 32 x_chunk) (cast 32 y_chunk) (cast 32 z_chunk) sh in
        let! off := mul c W chunk_index 63 in
        let! start_bit := add c W off leftover_bits_at_end in
        let! end63 := add c W start_bit 63 in
        let end_bit := N.min end63 (ft_BITS B) in
        bo_set_bits (ft_bits B) bits start_bit end_bit (ut_from_u64 U chunk))
      (range 0 num_chunks) (ft_default B).
(* static from_grid_index: morton_index_3d.rs lines 293-383 *)
Definition user_static_from_grid_3d {T} (c : cfg) (U : UserType T) (x y z grid_depth : N) (o : octant_ordering)
    : outcome (result (user_static T)) :=
  let B := ut_type U in
  let W := usize_bits c in
  if user_MAX Dim3D B <? grid_depth then Ret (Err (DepthLimitedExceeded (user_MAX Dim3D B)))
  else
    let! shift_to_max_bits := sub c W (user_MAX Dim3D B) grid_depth in
    let! x0 := num_get_bits c USize x 0 grid_depth in
    let! x_bits := shl c W x0 shift_to_max_bits in
    let! y0 := num_get_bits c USize y 0 grid_depth in
    let! y_bits := shl c W y0 shift_to_max_bits in
    let! z0 := num_get_bits c USize z 0 grid_depth in
    let! z_bits := shl c W z0 shift_to_max_bits in
    let sh := get_bit_shifts_for_xyz o in
    let leftover_bits_at_end := ft_BITS B mod dim Dim3D in
    let! d7 := add c W grid_depth 7 in
    let num_chunks := d7 / 8 in
    let! m7 := add c W (user_MAX Dim3D B) 7 in
    let max_chunks := m7 / 8 in
    let! chunk_start := sub c W max_chunks num_chunks in
    let! bits := foldM (fun bits chunk_index =>
        let! start_bit := mul c W chunk_index 8 in
        let! end_bit := add c W start_bit 8 in
        let! x_chunk := num_get_bits c USize x_bits start_bit end_bit in
        let! y_chunk := num_get_bits c USize y_bits start_bit end_bit in
        let! z_chunk := num_get_bits c USize z_bits start_bit end_bit in
        let! chunk := grid_chunk_3d_u32 c (cast 8 x_chunk) (cast 8 y_chunk) (cast 8 z_chunk) sh in
        let! off := mul c W chunk_index 24 in
        let! start_bit := add c W off leftover_bits_at_end in
        let! end24 := add c W start_bit 24 in
        let end_bit := N.min end24 (ft_BITS B) in
        bo_set_bits (ft_bits B) bits start_bit end_bit (ut_from_u32 U chunk))
      (rev (range chunk_start max_chunks)) (ft_default B) in
    Ret (Ok (MkUserStatic bits (cast 8 grid_depth))).

(* ---------- conversions from and to dynamic indices ---------- *)
(* fixed -> dynamic: morton_index_2d.rs lines 810-822, morton_index_3d.rs lines 870-882 *)
Definition user_dynamic_from_fixed {T} (c : cfg) (D : Dimension) (U : UserType T) (s : T) : dynamic_storage :=
  let native_bits := ut_as_u8_slice U s in
  let bits := match target_endian c with LittleEndian => native_bits | BigEndian => rev native_bits end in
  MkDynamic bits (user_MAX D (ut_type U)).
(* static -> dynamic: morton_index_2d.rs lines 840-842, morton_index_3d.rs lines 900-903 *)
Definition user_dynamic_from_static {T} (c : cfg) (D : Dimension) (L : DynLayout) (B : FixedType T) (s : user_static T)
    : outcome dynamic_storage :=
  let! cells := collect_cells c (user_static_ops c D B) s in
  let! r := descendant (dynamic_vops c D L) dynamic_default cells in
  unwrap_opt r.
(* dynamic -> fixed: morton_index_2d.rs lines 866-885, morton_index_3d.rs lines 931-950 *)
Definition user_fixed_from_dynamic {T} (c : cfg) (D : Dimension) (U : UserType T) (s : dynamic_storage) : result T :=
  if user_MAX D (ut_type U) <? dy_depth s then Err (DepthLimitedExceeded (user_MAX D (ut_type U)))
  else Ok (ut_from_u8_slice U (dy_bits s) (target_endian c)).
(* dynamic -> static: morton_index_2d.rs lines 893-914, morton_index_3d.rs lines 958-979 *)
Definition user_static_from_dynamic {T} (c : cfg) (D : Dimension) (B : FixedType T) (s : dynamic_storage)
    : outcome (result (user_static T)) :=
  if user_MAX D B <? dy_depth s then Ret (Err (DepthLimitedExceeded (user_MAX D B)))
  else
    let! ret := foldM (fun r level =>
                         let! x := st_get (dynamic_ops c D) s level in
                         st_set (user_static_ops c D B) r level x)
                      (range 0 (dy_depth s)) (user_static_default B) in
    Ret (Ok (MkUserStatic (us_bits ret) (cast 8 (dy_depth s)))).
