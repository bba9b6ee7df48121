(* Model2D.v - the parts of src/indices/morton_index_2d.rs that are specific to two dimensions *)
From Coq Require Import DecimalString DecimalN.
From Verif Require Import Base ModelNumber ModelDim ModelStorage.

(* src/morton.rs lines 7-20 *)
Inductive naming := CellConcatenation | CellConcatenationWithRoot | GridIndex.

(* char::from_digit(d, 10) *)
Definition from_digit10 (d : N) : option ascii :=
  if d <? 10 then Some (ascii_of_N (48 + d)) else None.
(* `{}` formatting of a usize *)
Definition display_usize (n : N) : string := NilZero.string_of_uint (N.to_uint n).

(* the CellConcatenation arm of to_string: morton_index_2d.rs lines 336-342, morton_index_3d.rs lines 135-141 *)
Definition cell_concatenation {D S} (ops : StorageOps D S) (s : S) : outcome string :=
  let! chars := mapM (fun level =>
                        let! x := st_get ops s level in
                        unwrap_opt (from_digit10 (cast 32 (cell_index D x))))
                     (range 0 (st_depth ops s)) in
  Ret (string_of_list_ascii chars).

(* morton_index_2d.rs lines 353-363 *)
Definition to_grid_index_2d {S} (c : cfg) (ops : StorageOps Dim2D S) (s : S) (o : quadrant_ordering)
    : outcome (N * N) :=
  let W := usize_bits c in
  foldM (fun index level =>
           let '(x, y) := index in
           let! q := st_get ops s level in
           let '(qx, qy) := quadrant_to_index o q in
           let! a := sub c W (st_depth ops s) level in
           let! shift := sub c W a 1 in
           let! sx := shl c W qx shift in
           let! sy := shl c W qy shift in
           Ret (N.lor x sx, N.lor y sy))
        (range 0 (st_depth ops s)) (0, 0).

(* morton_index_2d.rs lines 334-351 *)
Definition to_string_2d {S} (c : cfg) (ops : StorageOps Dim2D S) (s : S) (n : naming) : outcome string :=
  match n with
  | CellConcatenation => cell_concatenation ops s
  | CellConcatenationWithRoot =>
      let! r := cell_concatenation ops s in Ret ("r" ++ r)%string
  | GridIndex =>
      let! (x, y) := to_grid_index_2d c ops s quadrant_ordering_default in
      Ret (display_usize (st_depth ops s) ++ "-" ++ display_usize x ++ "-" ++ display_usize y)%string
  end.

(* the match on the ordering: morton_index_2d.rs lines 104-107, 171-174, 232-235 *)
Definition lower_higher (o : quadrant_ordering) (x_bits y_bits : N) : N * N :=
  match o with XY => (x_bits, y_bits) | YX => (y_bits, x_bits) end.

(* one chunk: morton_index_2d.rs lines 113-118, 182-187 *)
Definition grid_chunk_2d (c : cfg) (lower_bits higher_bits chunk_index : N) : outcome N :=
  let W := usize_bits c in
  let! start_bit := mul c W chunk_index 4 in
  let! end_bit := add c W start_bit 4 in
  let! lower := num_get_bits c USize lower_bits start_bit end_bit in
  let! higher := num_get_bits c USize higher_bits start_bit end_bit in
  Ret (N.lor (add_zero_before_every_bit_u8 (cast 8 lower)) (add_zero_behind_every_bit_u8 (cast 8 higher))).

(* fixed from_grid_index: morton_index_2d.rs lines 88-130 *)
Definition fixed_from_grid_index_2d (c : cfg) (t : uty) (x y : N) (o : quadrant_ordering) : outcome fixed_storage :=
  let W := usize_bits c in
  let fixed_depth := MAX_LEVELS c Dim2D t in
  if W <? fixed_depth then Panic
  else
    let! x_bits := num_get_bits c USize x 0 fixed_depth in
    let! y_bits := num_get_bits c USize y 0 fixed_depth in
    let '(lower_bits, higher_bits) := lower_higher o x_bits y_bits in
    let! d3 := add c W fixed_depth 3 in
    let num_chunks := d3 / 4 in
    let! bits := foldM (fun bits chunk_index =>
        let! chunk := grid_chunk_2d c lower_bits higher_bits chunk_index in
        let! s := mul c W chunk_index 8 in
        let! next := add c W chunk_index 1 in
        let! e := mul c W next 8 in
        num_set_bits c t bits s e (num_from c t chunk))
      (range 0 num_chunks) 0 in
    Ret (MkFixed bits).

(* static from_grid_index: morton_index_2d.rs lines 152-203 *)
Definition static_from_grid_index_2d (c : cfg) (t : uty) (x y grid_depth : N) (o : quadrant_ordering)
    : outcome (result static_storage) :=
  let W := usize_bits c in
  if BITS c t / 2 <? grid_depth then Ret (Err (DepthLimitedExceeded (BITS c t / 2)))
  else
    let! shift_to_max_bits := sub c W (MAX_LEVELS c Dim2D t) grid_depth in
    let! x0 := num_get_bits c USize x 0 grid_depth in
    let! x_bits := shl c W x0 shift_to_max_bits in
    let! y0 := num_get_bits c USize y 0 grid_depth in
    let! y_bits := shl c W y0 shift_to_max_bits in
    let '(lower_bits, higher_bits) := lower_higher o x_bits y_bits in
    let! d3 := add c W grid_depth 3 in
    let num_chunks := d3 / 4 in
    let! m3 := add c W (MAX_LEVELS c Dim2D t) 3 in
    let max_chunks := m3 / 4 in
    let! chunk_start := sub c W max_chunks num_chunks in
    let! bits := foldM (fun bits chunk_index =>
        let! chunk := grid_chunk_2d c lower_bits higher_bits chunk_index in
        let! start_bit := mul c W chunk_index 8 in
        let! end_bit := add c W start_bit 8 in
        num_set_bits c t bits start_bit end_bit (num_from c t chunk))
      (rev (range chunk_start max_chunks)) 0 in
    Ret (Ok (MkStatic bits (cast 8 grid_depth))).

(* the closure of dynamic from_grid_index: morton_index_2d.rs lines 242-264 *)
Definition dynamic_grid_byte_2d (c : cfg) (lower_bits higher_bits grid_depth chunk_index : N) : outcome N :=
  let W := usize_bits c in
  let! off := mul c W chunk_index 4 in
  let! end_bit := sub c W grid_depth off in
  let start_bit := end_bit - 4 (* saturating_sub *) in
  let! lower := num_get_bits c USize lower_bits start_bit end_bit in
  let! higher := num_get_bits c USize higher_bits start_bit end_bit in
  let chunk := N.lor (add_zero_before_every_bit_u8 (cast 8 lower)) (add_zero_behind_every_bit_u8 (cast 8 higher)) in
  let! bits_in_current_chunk := sub c W end_bit start_bit in
  let end_bit_in_index := 8 in
  let! twice := mul c W 2 bits_in_current_chunk in
  let! start_bit_in_index := sub c W end_bit_in_index twice in
  num_set_bits c U8 0 start_bit_in_index end_bit_in_index chunk.

(* dynamic from_grid_index: morton_index_2d.rs lines 216-270.
   `.map(f).rev().collect()` evaluates f on the chunk indices in reverse order and collects in that order. *)
Definition dynamic_from_grid_index_2d (c : cfg) (x y grid_depth : N) (o : quadrant_ordering)
    : outcome dynamic_storage :=
  let W := usize_bits c in
  if W / 2 <? grid_depth then Panic
  else
    let! x_bits := num_get_bits c USize x 0 grid_depth in
    let! y_bits := num_get_bits c USize y 0 grid_depth in
    let '(lower_bits, higher_bits) := lower_higher o x_bits y_bits in
    let! d3 := add c W grid_depth 3 in
    let num_chunks := d3 / 4 in
    let! bits := mapM (dynamic_grid_byte_2d c lower_bits higher_bits grid_depth) (rev (range 0 num_chunks)) in
    Ret (MkDynamic bits grid_depth).
