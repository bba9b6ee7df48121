(* Model3D.v - the parts of src/indices/morton_index_3d.rs that are specific to three dimensions *)
From Verif Require Import Base ModelNumber ModelDim ModelStorage Model2D.

(* morton_index_3d.rs lines 158-169 *)
Definition to_grid_index_3d {S} (c : cfg) (ops : StorageOps Dim3D S) (s : S) (o : octant_ordering)
    : outcome (N * N * N) :=
  let W := usize_bits c in
  foldM (fun index level =>
           let '(x, y, z) := index in
           let! q := st_get ops s level in
           let '(qx, qy, qz) := octant_to_index o q in
           let! a := sub c W (st_depth ops s) level in
           let! shift := sub c W a 1 in
           let! sx := shl c W qx shift in
           let! sy := shl c W qy shift in
           let! sz := shl c W qz shift in
           Ret (N.lor x sx, N.lor y sy, N.lor z sz))
        (range 0 (st_depth ops s)) (0, 0, 0).

(* morton_index_3d.rs lines 133-156 *)
Definition to_string_3d {S} (c : cfg) (ops : StorageOps Dim3D S) (s : S) (n : naming) : outcome string :=
  match n with
  | CellConcatenation => cell_concatenation ops s
  | CellConcatenationWithRoot =>
      let! r := cell_concatenation ops s in Ret ("r" ++ r)%string
  | GridIndex =>
      let! (x, y, z) := to_grid_index_3d c ops s octant_ordering_default in
      Ret (display_usize (st_depth ops s) ++ "-" ++ display_usize x ++ "-" ++ display_usize y
             ++ "-" ++ display_usize z)%string
  end.

(* MAX_LEVELS_BITMASK, morton_index_3d.rs line 176: the constant (1 << MAX_LEVELS) - 1 of type usize.
   If MAX_LEVELS >= usize::BITS its evaluation fails at compile time (in every build profile); such an instantiation
   of from_grid_index does not exist as a program, the model reports Panic. *)
Definition MAX_LEVELS_BITMASK (c : cfg) (t : uty) : outcome N :=
  if MAX_LEVELS c Dim3D t <? usize_bits c then Ret (2 ^ MAX_LEVELS c Dim3D t - 1) else Panic.

(* one chunk: morton_index_3d.rs lines 213-220 *)
Definition grid_chunk_3d_u64 (c : cfg) (x_chunk y_chunk z_chunk : N) (sh : N * N * N) : outcome N :=
  let '(x_shift, y_shift, z_shift) := sh in
  let! a := shl c 64 (add_two_zeroes_before_every_bit_u32 x_chunk) x_shift in
  let! b := shl c 64 (add_two_zeroes_before_every_bit_u32 y_chunk) y_shift in
  let! d := shl c 64 (add_two_zeroes_before_every_bit_u32 z_chunk) z_shift in
  Ret (N.lor (N.lor a b) d).

(* fixed from_grid_index: morton_index_3d.rs lines 184-233 *)
Definition fixed_from_grid_index_3d (c : cfg) (t : uty) (x y z : N) (o : octant_ordering) : outcome fixed_storage :=
  let W := usize_bits c in
  let fixed_depth := MAX_LEVELS c Dim3D t in
  if W <? fixed_depth then Panic
  else
    let! bitmask := MAX_LEVELS_BITMASK c t in
    let x_bits := N.land x bitmask in
    let y_bits := N.land y bitmask in
    let z_bits := N.land z bitmask in
    let sh := get_bit_shifts_for_xyz o in
    let leftover_bits_at_end := BITS c t mod dim Dim3D in
    let! d20 := add c W fixed_depth 20 in
    let num_chunks := d20 / 21 in
    let! bits := foldM (fun bits chunk_index =>
        let! start_bit := mul c W chunk_index 21 in
        let! end_bit := add c W start_bit 21 in
        let! x_chunk := num_get_bits c USize x_bits start_bit end_bit in
        let! y_chunk := num_get_bits c USize y_bits start_bit end_bit in
        let! z_chunk := num_get_bits c USize z_bits start_bit end_bit in
        let! chunk := grid_chunk_3d_u64 c (cast 32 x_chunk) (cast 32 y_chunk) (cast 32 z_chunk) sh in
        let! off := mul c W chunk_index 63 in
        let! start_bit := add c W off leftover_bits_at_end in
        let! end63 := add c W start_bit 63 in
        let end_bit := N.min end63 (BITS c t) in
        num_set_bits c t bits start_bit end_bit (num_from c t chunk))
      (range 0 num_chunks) 0 in
    Ret (MkFixed bits).

(* fixed from_raw_index: morton_index_3d.rs lines 236-240 *)
Definition fixed_from_raw_index (index : N) : fixed_storage := MkFixed index.

(* from_grid_index_fast: morton_index_3d.rs lines 244-269 (B = u64) *)
Definition from_grid_index_fast (c : cfg) (x y z : N) (o : octant_ordering) : outcome fixed_storage :=
  let W := usize_bits c in
  let fixed_depth := MAX_LEVELS c Dim3D U64 in
  if W <? fixed_depth then Panic
  else
    let! bitmask := MAX_LEVELS_BITMASK c U64 in
    let x_bits := N.land x bitmask in
    let y_bits := N.land y bitmask in
    let z_bits := N.land z bitmask in
    let! chunk := grid_chunk_3d_u64 c (cast 32 x_bits) (cast 32 y_bits) (cast 32 z_bits) (get_bit_shifts_for_xyz o) in
    let! bits := shl c 64 chunk 1 in
    Ret (MkFixed bits).

(* one chunk: morton_index_3d.rs lines 365-367 *)
Definition grid_chunk_3d_u32 (c : cfg) (x_chunk y_chunk z_chunk : N) (sh : N * N * N) : outcome N :=
  let '(x_shift, y_shift, z_shift) := sh in
  let! a := shl c 32 (add_two_zeroes_before_every_bit_u8 x_chunk) x_shift in
  let! b := shl c 32 (add_two_zeroes_before_every_bit_u8 y_chunk) y_shift in
  let! d := shl c 32 (add_two_zeroes_before_every_bit_u8 z_chunk) z_shift in
  Ret (N.lor (N.lor a b) d).

(* static from_grid_index: morton_index_3d.rs lines 293-383 *)
Definition static_from_grid_index_3d (c : cfg) (t : uty) (x y z grid_depth : N) (o : octant_ordering)
    : outcome (result static_storage) :=
  let W := usize_bits c in
  if MAX_LEVELS c Dim3D t <? grid_depth then Ret (Err (DepthLimitedExceeded (MAX_LEVELS c Dim3D t)))
  else
    let! shift_to_max_bits := sub c W (MAX_LEVELS c Dim3D t) grid_depth in
    let! x0 := num_get_bits c USize x 0 grid_depth in
    let! x_bits := shl c W x0 shift_to_max_bits in
    let! y0 := num_get_bits c USize y 0 grid_depth in
    let! y_bits := shl c W y0 shift_to_max_bits in
    let! z0 := num_get_bits c USize z 0 grid_depth in
    let! z_bits := shl c W z0 shift_to_max_bits in
    let sh := get_bit_shifts_for_xyz o in
    let leftover_bits_at_end := BITS c t mod dim Dim3D in
    let! d7 := add c W grid_depth 7 in
    let num_chunks := d7 / 8 in
    let! m7 := add c W (MAX_LEVELS c Dim3D t) 7 in
    let max_chunks := m7 / 8 in
    let! chunk_start := sub c W max_chunks num_chunks in
    let! bits := foldM (fun bits chunk_index =>
        let! start_bit := mul c W chunk_index 8 in
        let! end_bit := add c W start_bit 8 in
        let! x_chunk := num_get_bits c USize x_bits start_bit end_bit in
        let! y_chunk := num_get_bits c USize y_bits start_bit end_bit in
        let! z_chunk := num_get_bits c USize z_bits start_bit end_bit in
        let! chunk := grid_chunk_3d_u32 c (cast 8 x_chunk) (cast 8 y_chunk) (cast 8 z_chunk) sh in
        let! off := mul c W chunk_index 24 in
        let! start_bit := add c W off leftover_bits_at_end in
        let! end24 := add c W start_bit 24 in
        let end_bit := N.min end24 (BITS c t) in
        num_set_bits c t bits start_bit end_bit (num_from c t chunk))
      (rev (range chunk_start max_chunks)) 0 in
    Ret (Ok (MkStatic bits (cast 8 grid_depth))).

(* static from_raw_index: morton_index_3d.rs lines 386-390 *)
Definition static_from_raw_index (index depth : N) : static_storage := MkStatic index depth.

(* dynamic from_grid_index: morton_index_3d.rs lines 403-435 *)
Definition dynamic_from_grid_index_3d (c : cfg) (x y z grid_depth : N) (o : octant_ordering)
    : outcome dynamic_storage :=
  let W := usize_bits c in
  if W / 2 <? grid_depth then Panic
  else
    let! x_bits := num_get_bits c USize x 0 grid_depth in
    let! y_bits := num_get_bits c USize y 0 grid_depth in
    let! z_bits := num_get_bits c USize z 0 grid_depth in
    let '(x_shift, y_shift, z_shift) := get_bit_shifts_for_xyz o in
    let! ret := dynamic_zeroed_3d c grid_depth in
    foldM (fun ret level =>
        let! a := sub c W grid_depth level in
        let! shift := sub c W a 1 in
        let! xs := shr c W x_bits shift in
        let! x_bit := shl c W (N.land xs 1) x_shift in
        let! ys := shr c W y_bits shift in
        let! y_bit := shl c W (N.land ys 1) y_shift in
        let! zs := shr c W z_bits shift in
        let! z_bit := shl c W (N.land zs 1) z_shift in
        let! octant := unwrap (octant_try_from (N.lor (N.lor x_bit y_bit) z_bit)) in
        st_set (dynamic_ops c Dim3D) ret level octant)
      (range 0 grid_depth) ret.
