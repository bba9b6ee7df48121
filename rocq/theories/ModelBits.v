(* ModelBits.v - the functions of src/indices/storage.rs that are generic in T : Bits, for every T of src/number.rs.
   ModelStorage.v contains their instances used by the index types (integers for FixedDepthStorage and StaticStorage,
   Vec<u8> for DynamicStorage); StorageType is a public trait, so the other combinations can be called, too. *)
From Verif Require Import Base ModelNumber ModelDim ModelStorage.

(* The methods of trait Bits (src/number.rs lines 86-118) that src/indices/storage.rs calls *)
Record BitsOps (T : Type) := {
  bo_size : T -> N;
  bo_get_bits : T -> N -> N -> outcome T;
  bo_get_bits_as_usize : T -> N -> N -> outcome N;
  bo_set_bits : T -> N -> N -> T -> outcome T;
  bo_set_bits_from_usize : T -> N -> N -> N -> outcome T;
  bo_as_u8 : T -> outcome N;
  bo_from_u8 : N -> T
}.
Arguments bo_size {T} _ _.
Arguments bo_get_bits {T} _ _ _ _.
Arguments bo_get_bits_as_usize {T} _ _ _ _.
Arguments bo_set_bits {T} _ _ _ _ _.
Arguments bo_set_bits_from_usize {T} _ _ _ _ _.
Arguments bo_as_u8 {T} _ _.
Arguments bo_from_u8 {T} _ _.

(* impl Bits for u8 .. usize: src/number.rs lines 3-76 and 120-264 *)
Definition num_bits (c : cfg) (t : uty) : BitsOps N := {|
  bo_size := fun _ => num_size c t;
  bo_get_bits := num_get_bits c t;
  bo_get_bits_as_usize := num_get_bits_as_usize c t;
  bo_set_bits := num_set_bits c t;
  bo_set_bits_from_usize := num_set_bits_from_usize c t;
  bo_as_u8 := fun v => Ret (num_as c U8 v);
  bo_from_u8 := num_from c t
|}.
(* impl Bits for Vec<u8>: src/number.rs lines 309-454 *)
Definition vec_bits (c : cfg) : BitsOps (list N) := {|
  bo_size := vec_size;
  bo_get_bits := vec_get_bits c;
  bo_get_bits_as_usize := vec_get_bits_as_usize c;
  bo_set_bits := vec_set_bits c;
  bo_set_bits_from_usize := vec_set_bits_from_usize c;
  bo_as_u8 := vec_as_u8;
  bo_from_u8 := vec_from c U8
|}.

(* FixedDepthStorage<D, B>::get_cell_at_level_unchecked::<T>, storage.rs lines 109-119; t is B *)
Definition fixed_type_get {T} (c : cfg) (D : Dimension) (t : uty) (B : BitsOps T) (bits : T) (level : N) : outcome (cell D) :=
  let W := usize_bits c in
  let! l1 := add c W level 1 in
  let! off := mul c W l1 (dim D) in
  let! start_bit := sub c W (BITS c t) off in
  let! end_bit := add c W start_bit (dim D) in
  let! b := bo_get_bits B bits start_bit end_bit in
  let! u := bo_as_u8 B b in
  unwrap (cell_try_from D (cast W u)).
(* FixedDepthStorage<D, B>::set_cell_at_level_unchecked::<T>, storage.rs lines 121-130 *)
Definition fixed_type_set {T} (c : cfg) (D : Dimension) (t : uty) (B : BitsOps T) (bits : T) (level : N) (x : cell D) : outcome T :=
  let W := usize_bits c in
  let cell_idx := cell_index D x in
  let! l1 := add c W level 1 in
  let! off := mul c W l1 (dim D) in
  let! start_bit := sub c W (BITS c t) off in
  let! end_bit := add c W start_bit (dim D) in
  bo_set_bits B bits start_bit end_bit (bo_from_u8 B (cast 8 cell_idx)).
(* StaticStorage<D, B>::get_cell_at_level_unchecked::<T>, storage.rs lines 148-156 *)
Definition static_type_get {T} (c : cfg) (D : Dimension) (t : uty) (B : BitsOps T) (bits : T) (level : N) : outcome (cell D) :=
  let W := usize_bits c in
  let! l1 := add c W level 1 in
  let! off := mul c W l1 (dim D) in
  let! start_bit := sub c W (BITS c t) off in
  let! end_bit := add c W start_bit (dim D) in
  let! b := bo_get_bits B bits start_bit end_bit in
  let! u := bo_as_u8 B b in
  unwrap (cell_try_from D (cast W u)).
(* StaticStorage<D, B>::set_cell_at_level_unchecked::<T>, storage.rs lines 158-167 *)
Definition static_type_set {T} (c : cfg) (D : Dimension) (t : uty) (B : BitsOps T) (bits : T) (level : N) (x : cell D) : outcome T :=
  let W := usize_bits c in
  let cell_idx := cell_index D x in
  let! l1 := add c W level 1 in
  let! off := mul c W l1 (dim D) in
  let! start_bit := sub c W (BITS c t) off in
  let! end_bit := add c W start_bit (dim D) in
  bo_set_bits B bits start_bit end_bit (bo_from_u8 B (cast 8 cell_idx)).
(* DynamicStorage<D>::get_cell_at_level_unchecked::<T>, storage.rs lines 185-195 *)
Definition dynamic_type_get {T} (c : cfg) (D : Dimension) (B : BitsOps T) (bits : T) (level : N) : outcome (cell D) :=
  let W := usize_bits c in
  let num_bytes := bo_size B bits in
  let! nbits := mul c W num_bytes 8 in
  let! l1 := add c W level 1 in
  let! off := mul c W l1 (dim D) in
  let! start_bit := sub c W nbits off in
  let! end_bit := add c W start_bit (dim D) in
  let! cell_idx := bo_get_bits_as_usize B bits start_bit end_bit in
  unwrap (cell_try_from D cell_idx).
(* DynamicStorage<D>::set_cell_at_level_unchecked::<T>, storage.rs lines 197-207 *)
Definition dynamic_type_set {T} (c : cfg) (D : Dimension) (B : BitsOps T) (bits : T) (level : N) (x : cell D) : outcome T :=
  let W := usize_bits c in
  let cell_idx := cell_index D x in
  let num_bytes := bo_size B bits in
  let! nbits := mul c W num_bytes 8 in
  let! l1 := add c W level 1 in
  let! off := mul c W l1 (dim D) in
  let! start_bit := sub c W nbits off in
  let! end_bit := add c W start_bit (dim D) in
  bo_set_bits_from_usize B bits start_bit end_bit cell_idx.

(* The accessors bits and bits_mut of trait Storage (storage.rs lines 49-52; morton_index_2d.rs lines 376-382, 459-465, 667-673,
   morton_index_3d.rs lines 450-456, 524-530, 736-742).  Use of the reference returned by bits_mut is modelled by its effect:
   the bits become the given value. *)
Definition fixed_put_bits (s : fixed_storage) (b : N) : fixed_storage := MkFixed b.
Definition static_put_bits (s : static_storage) (b : N) : static_storage := MkStatic b (sx_depth s).
Definition dynamic_put_bits (s : dynamic_storage) (b : list N) : dynamic_storage := MkDynamic b (dy_depth s).
