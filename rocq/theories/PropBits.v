(* PropBits.v - Cell numbering, cell orderings, bit ranges, spreading helpers, alignment, byte slices (C28 to C34, C37) *)
From Verif Require Import Base ModelNumber ModelAlign ModelDim Spec ExampleTools FactsBits.

(* ---------- C28 ---------- *)
Theorem c28_quadrant_numbering : forall n,
  (n < 4 -> exists q, quadrant_try_from n = Ok q /\ quadrant_index q = n)
  /\ (4 <= n -> quadrant_try_from n = Err CellIndexOutOfRange).
Proof. exact c28_quadrant_numbering_lemma. Qed.
Print Assumptions c28_quadrant_numbering.
Example c28_quadrant_numbering_example : quadrant_try_from 2 = Ok Q2 /\ quadrant_try_from 4 = Err CellIndexOutOfRange.
Proof. concrete. Qed.

Theorem c28_quadrant_index : forall q, quadrant_index q < 4 /\ quadrant_try_from (quadrant_index q) = Ok q.
Proof. exact c28_quadrant_index_lemma. Qed.
Print Assumptions c28_quadrant_index.
Example c28_quadrant_index_example : quadrant_try_from (quadrant_index Q3) = Ok Q3.
Proof. concrete. Qed.

Theorem c28_octant_numbering : forall n,
  (n < 8 -> exists q, octant_try_from n = Ok q /\ octant_index q = n)
  /\ (8 <= n -> octant_try_from n = Err CellIndexOutOfRange).
Proof. exact c28_octant_numbering_lemma. Qed.
Print Assumptions c28_octant_numbering.
Example c28_octant_numbering_example : octant_try_from 6 = Ok O6 /\ octant_try_from 8 = Err CellIndexOutOfRange.
Proof. concrete. Qed.

Theorem c28_octant_index : forall q, octant_index q < 8 /\ octant_try_from (octant_index q) = Ok q.
Proof. exact c28_octant_index_lemma. Qed.
Print Assumptions c28_octant_index.
Example c28_octant_index_example : octant_try_from (octant_index O5) = Ok O5.
Proof. concrete. Qed.

Theorem c28_cell_order : forall (a b : quadrant) (p q : octant),
  quadrant_cmp a b = N.compare (quadrant_index a) (quadrant_index b)
  /\ octant_cmp p q = N.compare (octant_index p) (octant_index q).
Proof. exact c28_cell_order_lemma. Qed.
Print Assumptions c28_cell_order.
Example c28_cell_order_example : quadrant_cmp Q1 Q3 = Lt /\ octant_cmp O7 O2 = Gt.
Proof. concrete. Qed.

(* ---------- C29 ---------- *)
Theorem c29_quadrant_ordering_bijective : forall o x y, x < 2 -> y < 2 ->
  exists q, quadrant_to_index o q = (x, y) /\ forall q', quadrant_to_index o q' = (x, y) -> q' = q.
Proof. exact c29_quadrant_ordering_bijective_lemma. Qed.
Print Assumptions c29_quadrant_ordering_bijective.
Example c29_quadrant_ordering_bijective_example : quadrant_to_index YX Q2 = (1, 0) /\ quadrant_to_index XY Q2 = (0, 1).
Proof. concrete. Qed.

Theorem c29_quadrant_ordering_documented : forall o q,
  quadrant_to_index o q = (quad_x o q, quad_y o q) /\ quad_x o q < 2 /\ quad_y o q < 2
  /\ (quadrant_to_index o Q0, quadrant_to_index o Q1, quadrant_to_index o Q2)
     = match o with XY => ((0, 0), (1, 0), (0, 1)) | YX => ((0, 0), (0, 1), (1, 0)) end.
Proof. exact c29_quadrant_ordering_documented_lemma. Qed.
Print Assumptions c29_quadrant_ordering_documented.
Example c29_quadrant_ordering_documented_example : quadrant_to_index XY Q3 = (1, 1).
Proof. concrete. Qed.

Theorem c29_octant_ordering_bijective : forall o x y z, x < 2 -> y < 2 -> z < 2 ->
  exists q, octant_to_index o q = (x, y, z) /\ forall q', octant_to_index o q' = (x, y, z) -> q' = q.
Proof. exact c29_octant_ordering_bijective_lemma. Qed.
Print Assumptions c29_octant_ordering_bijective.
Example c29_octant_ordering_bijective_example : octant_to_index ZXY O6 = (1, 1, 0) /\ octant_to_index YZX O6 = (1, 0, 1).
Proof. concrete. Qed.

Theorem c29_octant_ordering_documented : forall o q,
  octant_to_index o q = (oct_x o q, oct_y o q, oct_z o q) /\ oct_x o q < 2 /\ oct_y o q < 2 /\ oct_z o q < 2
  /\ octant_to_index o O0 = (0, 0, 0)
  /\ (octant_to_index o O1, octant_to_index o O2, octant_to_index o O4)
     = match o with
       | XYZ => ((1, 0, 0), (0, 1, 0), (0, 0, 1))
       | XZY => ((1, 0, 0), (0, 0, 1), (0, 1, 0))
       | YXZ => ((0, 1, 0), (1, 0, 0), (0, 0, 1))
       | YZX => ((0, 1, 0), (0, 0, 1), (1, 0, 0))
       | ZXY => ((0, 0, 1), (1, 0, 0), (0, 1, 0))
       | ZYX => ((0, 0, 1), (0, 1, 0), (1, 0, 0))
       end.
Proof. exact c29_octant_ordering_documented_lemma. Qed.
Print Assumptions c29_octant_ordering_documented.
Example c29_octant_ordering_documented_example : octant_to_index YZX O1 = (0, 1, 0) /\ octant_to_index YZX O2 = (0, 0, 1).
Proof. concrete. Qed.

Theorem c29_bit_shifts : forall o q sx sy sz, get_bit_shifts_for_xyz o = (sx, sy, sz) ->
  octant_to_index o q = (octant_index q / 2 ^ sx mod 2, octant_index q / 2 ^ sy mod 2, octant_index q / 2 ^ sz mod 2)
  /\ (sx < 3 /\ sy < 3 /\ sz < 3) /\ sx <> sy /\ sy <> sz /\ sx <> sz.
Proof. exact c29_bit_shifts_lemma. Qed.
Print Assumptions c29_bit_shifts.
Example c29_bit_shifts_example : get_bit_shifts_for_xyz YZX = (2, 0, 1) /\ octant_to_index YZX O6 = (1, 0, 1).
Proof. concrete. Qed.

(* ---------- C30 ---------- *)
Theorem c30_get_bits : forall c t v s e, v < 2 ^ BITS c t -> s <= e -> e <= BITS c t ->
  num_get_bits c t v s e = Ret (v / 2 ^ s mod 2 ^ (e - s)).
Proof. exact c30_get_bits_lemma. Qed.
Print Assumptions c30_get_bits.
Example c30_get_bits_example : 0xABCD < 2 ^ BITS debug64 U16 /\ num_get_bits debug64 U16 0xABCD 4 12 = Ret 0xBC
  /\ num_get_bits debug64 U16 0xABCD 0 16 = Ret 0xABCD /\ num_get_bits debug64 U16 0xABCD 16 16 = Ret 0.
Proof. concrete. Qed.

Theorem c30_get_bits_as_usize : forall c t v s e, v < 2 ^ BITS c t -> s <= e -> e <= BITS c t ->
  num_get_bits_as_usize c t v s e = Ret (v / 2 ^ s mod 2 ^ (e - s) mod 2 ^ usize_bits c).
Proof. exact c30_get_bits_as_usize_lemma. Qed.
Print Assumptions c30_get_bits_as_usize.
Example c30_get_bits_as_usize_example : num_get_bits_as_usize debug64 U128 (0xABCD * 2 ^ 64) 64 72 = Ret 0xCD
  /\ num_get_bits_as_usize debug32 U64 0x1234567890 0 64 = Ret 0x34567890.
Proof. concrete. Qed.

Theorem c30_set_bits : forall c t v s e x,
  v < 2 ^ BITS c t -> s <= e -> e <= BITS c t -> s < BITS c t -> x < 2 ^ (e - s) ->
  exists v', num_set_bits c t v s e x = Ret v' /\ v' < 2 ^ BITS c t /\ bits_replaced v s (e - s) x v'
    /\ num_get_bits c t v' s e = Ret x.
Proof. exact c30_set_bits_lemma. Qed.
Print Assumptions c30_set_bits.
Example c30_set_bits_example : 0x1F < 2 ^ (12 - 4) /\ num_set_bits debug64 U16 0xABCD 4 12 0x1F = Ret 0xA1FD.
Proof. concrete. Qed.

Theorem c30_set_bits_any_value : forall c t v s e x,
  v < 2 ^ BITS c t -> s <= e -> e <= BITS c t -> s < BITS c t ->
  exists v', num_set_bits c t v s e x = Ret v' /\ forall i, N.testbit v' i =
    if i <? s then N.testbit v i
    else if i <? e then N.testbit x (i - s)
    else (i <? BITS c t) && (N.testbit v i || N.testbit x (i - s)).
Proof. exact c30_set_bits_any_value_lemma. Qed.
Print Assumptions c30_set_bits_any_value.
Example c30_set_bits_any_value_example : num_set_bits debug64 U16 0xABCD 4 8 0x4F = Ret 0xAFFD.
Proof. concrete. Qed.

Theorem c30_set_bits_at_top : forall c t v x, overflow_checks c = true ->
  num_set_bits c t v (BITS c t) (BITS c t) x = Panic.
Proof. exact c30_set_bits_at_top_lemma. Qed.
Print Assumptions c30_set_bits_at_top.
Example c30_set_bits_at_top_example : num_set_bits debug64 U16 0xABCD 16 16 0 = Panic.
Proof. concrete. Qed.

(* ---------- C31 ---------- *)
Theorem c31_vec_set_bits : forall c vec s e value,
  target_endian c = LittleEndian -> Forall (fun b => b < 256) value -> 0 < len value -> e - s <= 8 * len value ->
  Forall (fun b => b < 256) vec -> s <= e -> e <= 8 * len vec -> 8 * len vec + 8 <= 2 ^ usize_bits c ->
  exists vec', vec_set_bits c vec s e value = Ret vec' /\ Forall (fun b => b < 256) vec' /\ len vec' = len vec
    /\ bits_replaced (bytes_value vec) s (e - s) (bytes_value value) (bytes_value vec').
Proof. exact c31_vec_set_bits_lemma. Qed.
Print Assumptions c31_vec_set_bits.
Example c31_vec_set_bits_example :
  vec_set_bits debug64 [0; 0; 0xFF] 5 14 [0xAB; 1] = Ret [0x60; 0x35; 0xFF] /\ bytes_value [0xAB; 1] = 0x1AB.
Proof. concrete. Qed.

Theorem c31_vec_set_bits_from_usize : forall c vec s e x,
  target_endian c = LittleEndian -> x < 2 ^ usize_bits c -> e - s <= usize_bits c ->
  Forall (fun b => b < 256) vec -> s <= e -> e <= 8 * len vec -> 8 * len vec + 8 <= 2 ^ usize_bits c ->
  exists vec', vec_set_bits_from_usize c vec s e x = Ret vec' /\ Forall (fun b => b < 256) vec' /\ len vec' = len vec
    /\ bits_replaced (bytes_value vec) s (e - s) x (bytes_value vec')
    /\ vec_get_bits_as_usize c vec' s e = Ret (x mod 2 ^ (e - s)).
Proof. exact c31_vec_set_bits_from_usize_lemma. Qed.
Print Assumptions c31_vec_set_bits_from_usize.
Example c31_vec_set_bits_from_usize_example :
  vec_set_bits_from_usize debug64 [0; 0; 0xFF] 5 14 0x1AB = Ret [0x60; 0x35; 0xFF]
  /\ vec_get_bits_as_usize debug64 [0x60; 0x35; 0xFF] 5 14 = Ret 0x1AB.
Proof. concrete. Qed.

(* Also on big-endian targets and for values that are shorter than the range; the hypothesis is exact (c48_vec_set_bits_short_value). *)
Theorem c31_vec_set_bits_every_target : forall c vec s e value,
  Forall (fun b => b < 256) value -> last_source_byte s e < len value ->
  Forall (fun b => b < 256) vec -> s <= e -> e <= 8 * len vec -> 8 * len vec + 8 <= 2 ^ usize_bits c ->
  exists vec', vec_set_bits c vec s e value = Ret vec' /\ Forall (fun b => b < 256) vec' /\ len vec' = len vec
    /\ forall i, N.testbit (bytes_value vec') i
        = if (s <=? i) && (i <? e) then source_bit (target_endian c) value s (i - s) else N.testbit (bytes_value vec) i.
Proof. exact c31_vec_set_bits_every_target_lemma. Qed.
Print Assumptions c31_vec_set_bits_every_target.
Example c31_vec_set_bits_every_target_example :
  last_source_byte 4 17 < len [0xAB; 0xCD] /\ vec_set_bits big64 [0; 0; 0] 4 17 [0xAB; 0xCD] = Ret [0xD0; 0xBC; 0]
  /\ vec_set_bits debug64 [0; 0; 0] 4 17 [0xAB; 0xCD] = Ret [0xB0; 0xDA; 0]
  /\ map (source_bit BigEndian [0xAB; 0xCD] 4) [0; 1; 2; 3; 4; 8; 12] = [true; false; true; true; false; true; false].
Proof. concrete. Qed.

(* on every target *)
Theorem c31_vec_get_bits_as_usize : forall c vec s e,
  Forall (fun b => b < 256) vec -> s <= e -> e - s <= usize_bits c -> e <= 8 * len vec -> 8 * len vec + 8 <= 2 ^ usize_bits c ->
  vec_get_bits_as_usize c vec s e = Ret (bytes_value vec / 2 ^ s mod 2 ^ (e - s)).
Proof. exact c31_vec_get_bits_as_usize_lemma. Qed.
Print Assumptions c31_vec_get_bits_as_usize.
Example c31_vec_get_bits_as_usize_example : vec_get_bits_as_usize big64 [0x60; 0x35; 0xFF] 5 14 = Ret 0x1AB.
Proof. concrete. Qed.

Theorem c31_bit_string : forall l i, Forall (fun b => b < 256) l ->
  N.testbit (bytes_value l) i = match nth_error l (N.to_nat (i / 8)) with Some b => N.testbit b (i mod 8) | None => false end.
Proof. exact c31_bit_string_lemma. Qed.
Print Assumptions c31_bit_string.
Example c31_bit_string_example : bytes_value [0x60; 0x35] = 0x3560 /\ N.testbit (bytes_value [0x60; 0x35]) 10 = N.testbit 0x35 2.
Proof. concrete. Qed.

(* ---------- C32 ---------- *)
(* what get_bits returns for every range: when the end is not on a byte boundary and lies lower within its byte than the start, the last returned byte also holds the bits after the range *)
Theorem c32_vec_get_bits_returns : forall c v s e,
  Forall (fun b => b < 256) v -> s <= e -> e <= 8 * len v -> 8 * len v + 8 <= 2 ^ usize_bits c ->
  exists r, vec_get_bits c v s e = Ret r /\ Forall (fun b => b < 256) r /\ len r = (e - s + 7) / 8
    /\ bytes_value r = bytes_value v / 2 ^ s
         mod 2 ^ (if (0 <? e mod 8) && (e mod 8 <? s mod 8) then 8 * ((e - s + 7) / 8) else e - s).
Proof. exact c32_vec_get_bits_returns_lemma. Qed.
Print Assumptions c32_vec_get_bits_returns.
Example c32_vec_get_bits_returns_example :
  vec_get_bits debug64 [0; 0xFF] 4 9 = Ret [0xF0] /\ vec_get_bits debug64 [0xAB; 0x3C; 0x1D] 3 13 = Ret [0x95; 0x03].
Proof. concrete. Qed.

(* the ranges for which exactly the range is returned *)
Theorem c32_vec_get_bits_partial : forall c v s e,
  Forall (fun b => b < 256) v -> s <= e -> e <= 8 * len v -> 8 * len v + 8 <= 2 ^ usize_bits c ->
  e mod 8 = 0 \/ s mod 8 <= e mod 8 ->
  exists r, vec_get_bits c v s e = Ret r /\ Forall (fun b => b < 256) r /\ len r = (e - s + 7) / 8
    /\ bytes_value r = bytes_value v / 2 ^ s mod 2 ^ (e - s).
Proof. exact c32_vec_get_bits_partial_lemma. Qed.
Print Assumptions c32_vec_get_bits_partial.
Example c32_vec_get_bits_example : 3 mod 8 <= 13 mod 8 /\ vec_get_bits debug64 [0xAB; 0x3C; 0x1D] 3 13 = Ret [0x95; 0x03]
  /\ bytes_value [0xAB; 0x3C; 0x1D] / 2 ^ 3 mod 2 ^ 10 = 0x395.
Proof. concrete. Qed.

(* witness: the bits 4..9 of [0x00, 0xFF] are 0b10000, the result is 0xF0 *)
Theorem c32_vec_get_bits_refuted :
  ~ (forall c v s e, Forall (fun b => b < 256) v -> s <= e -> e <= 8 * len v -> 8 * len v + 8 <= 2 ^ usize_bits c ->
     exists r, vec_get_bits c v s e = Ret r /\ bytes_value r = bytes_value v / 2 ^ s mod 2 ^ (e - s)).
Proof. exact c32_vec_get_bits_refuted_lemma. Qed.
Print Assumptions c32_vec_get_bits_refuted.

(* ---------- C33 ---------- *)
(* the arguments with bits above the lower 4 are missing: those bits are not ignored, see below *)
Theorem c33_zero_before_u8_partial : forall v, v < 16 -> forall i,
  N.testbit (add_zero_before_every_bit_u8 v) i = (i mod 2 =? 0) && N.testbit v (i / 2).
Proof. exact c33_zero_before_u8_partial_lemma. Qed.
Print Assumptions c33_zero_before_u8_partial.
Example c33_zero_before_u8_example : 13 < 16 /\ add_zero_before_every_bit_u8 13 = 0x51.
Proof. concrete. Qed.

(* as above *)
Theorem c33_zero_behind_u8_partial : forall v, v < 16 -> forall i,
  N.testbit (add_zero_behind_every_bit_u8 v) i = (i mod 2 =? 1) && N.testbit v (i / 2).
Proof. exact c33_zero_behind_u8_partial_lemma. Qed.
Print Assumptions c33_zero_behind_u8_partial.
Example c33_zero_behind_u8_example : 13 < 16 /\ add_zero_behind_every_bit_u8 13 = 0xA2.
Proof. concrete. Qed.

(* as above for the lower 8 bits *)
Theorem c33_zero_before_u16_partial : forall v, v < 256 -> forall i,
  N.testbit (add_zero_before_every_bit_u16 v) i = (i mod 2 =? 0) && N.testbit v (i / 2).
Proof. exact c33_zero_before_u16_partial_lemma. Qed.
Print Assumptions c33_zero_before_u16_partial.
Example c33_zero_before_u16_example : 0xCB < 256 /\ add_zero_before_every_bit_u16 0xCB = 0x5045.
Proof. concrete. Qed.

Theorem c33_two_zeroes_u8 : forall v, v < 256 -> forall i,
  N.testbit (add_two_zeroes_before_every_bit_u8 v) i = (i mod 3 =? 0) && N.testbit v (i / 3).
Proof. exact c33_two_zeroes_u8_lemma. Qed.
Print Assumptions c33_two_zeroes_u8.
Example c33_two_zeroes_u8_example : add_two_zeroes_before_every_bit_u8 0xCB = 0x240209.
Proof. concrete. Qed.

Theorem c33_two_zeroes_u32 : forall v, v < 2 ^ 32 -> forall i,
  N.testbit (add_two_zeroes_before_every_bit_u32 v) i = (i mod 3 =? 0) && N.testbit (v mod 2 ^ 21) (i / 3).
Proof. exact c33_two_zeroes_u32_lemma. Qed.
Print Assumptions c33_two_zeroes_u32.
Example c33_two_zeroes_u32_example : add_two_zeroes_before_every_bit_u32 0xFFE00005 = 0x41.
Proof. concrete. Qed.

Theorem c33_zero_before_u8_high_bits : forall v, v < 256 ->
  add_zero_before_every_bit_u8 v
  = N.lor (add_zero_before_every_bit_u8 (v mod 16)) (N.lor (v / 16 mod 2 * 16) (v / 32 mod 2 * 64)).
Proof. exact c33_zero_before_u8_high_bits_lemma. Qed.
Print Assumptions c33_zero_before_u8_high_bits.
Example c33_zero_before_u8_high_bits_example : add_zero_before_every_bit_u8 0x10 = 0x10 /\ add_zero_before_every_bit_u8 0x2D = 0x51.
Proof. concrete. Qed.

(* witnesses 0x10 and 0x100 *)
Theorem c33_spreading_ignores_high_bits_refuted :
  ~ (forall v, v < 256 -> add_zero_before_every_bit_u8 v = add_zero_before_every_bit_u8 (v mod 16))
  /\ ~ (forall v, v < 256 -> add_zero_behind_every_bit_u8 v = add_zero_behind_every_bit_u8 (v mod 16))
  /\ ~ (forall v, v < 2 ^ 16 -> add_zero_before_every_bit_u16 v = add_zero_before_every_bit_u16 (v mod 256)).
Proof. exact c33_spreading_ignores_high_bits_refuted_lemma. Qed.
Print Assumptions c33_spreading_ignores_high_bits_refuted.

(* ---------- C34 ---------- *)
Theorem c34_align_zero : forall c t x, align_to c t x 0 = Ret x.
Proof. exact c34_align_zero_lemma. Qed.
Print Assumptions c34_align_zero.
Example c34_align_zero_example : align_to debug64 U8 77 0 = Ret 77.
Proof. concrete. Qed.

(* the missing arguments are those where x + a overflows, see below *)
Theorem c34_align_to_partial : forall c t x a, x < 2 ^ BITS c t -> 0 < a -> x + a < 2 ^ BITS c t ->
  exists r, align_to c t x a = Ret r /\ r < 2 ^ BITS c t
    /\ (exists q, r = q * a) /\ x <= r /\ forall q, x <= q * a -> r <= q * a.
Proof. exact c34_align_to_partial_lemma. Qed.
Print Assumptions c34_align_to_partial.
Example c34_align_to_example : align_to debug64 U8 77 16 = Ret 80 /\ align_to debug64 U8 80 16 = Ret 80.
Proof. concrete. Qed.

Theorem c34_align_to_overflow : forall c t x a, 0 < a -> 2 ^ BITS c t <= x + a -> overflow_checks c = true ->
  align_to c t x a = Panic.
Proof. exact c34_align_to_overflow_lemma. Qed.
Print Assumptions c34_align_to_overflow.
Example c34_align_to_overflow_example : 2 ^ BITS debug64 U8 <= 248 + 8 /\ align_to debug64 U8 248 8 = Panic.
Proof. concrete. Qed.

Theorem c34_align_to_wraps : forall c t x a, x < 2 ^ BITS c t -> 0 < a -> a < 2 ^ BITS c t -> 2 ^ BITS c t < x + a ->
  overflow_checks c = false -> align_to c t x a = Ret 0.
Proof. exact c34_align_to_wraps_lemma. Qed.
Print Assumptions c34_align_to_wraps.
Example c34_align_to_wraps_example : 2 ^ BITS release64 U8 < 240 + 20 /\ align_to release64 U8 240 20 = Ret 0 /\ 240 = 12 * 20.
Proof. concrete. Qed.

(* witness: 248u8.align_to(8) *)
Theorem c34_align_to_refuted :
  ~ (forall c t x a, x < 2 ^ BITS c t -> 0 < a -> (exists q, x <= q * a < 2 ^ BITS c t) ->
     exists r, align_to c t x a = Ret r /\ rounded_up x a r).
Proof. exact c34_align_to_refuted_lemma. Qed.
Print Assumptions c34_align_to_refuted.

(* ---------- C37 ---------- *)
Theorem c37_from_u8_slice : forall c t bytes e, Forall (fun b => b < 256) bytes ->
  let n := BITS c t / 8 in
  let used := firstn (N.to_nat n) (bytes ++ repeat 0 (N.to_nat (n - len bytes))) in
  num_from_u8_slice c t bytes e = bytes_value (match e with LittleEndian => used | BigEndian => rev used end)
  /\ len used = n.
Proof. exact c37_from_u8_slice_lemma. Qed.
Print Assumptions c37_from_u8_slice.
Example c37_from_u8_slice_example :
  num_from_u8_slice debug64 U32 [1; 2; 3] LittleEndian = 0x30201 /\ num_from_u8_slice debug64 U32 [1; 2; 3] BigEndian = 0x1020300
  /\ num_from_u8_slice debug64 U16 [1; 2; 3] BigEndian = 0x102.
Proof. concrete. Qed.

Theorem c37_slice_round_trip : forall c t v, v < 2 ^ BITS c t ->
  num_from_u8_slice c t (num_as_u8_slice c t v) (target_endian c) = v
  /\ len (num_as_u8_slice c t v) = BITS c t / 8.
Proof. exact c37_slice_round_trip_lemma. Qed.
Print Assumptions c37_slice_round_trip.
Example c37_slice_round_trip_example : num_as_u8_slice big64 U32 0x10203 = [0; 1; 2; 3] /\ num_as_u8_slice debug64 U32 0x10203 = [3; 2; 1; 0].
Proof. concrete. Qed.

Theorem c37_slice_between_types : forall c t t' v, v < 2 ^ BITS c t -> target_endian c = LittleEndian ->
  num_from_u8_slice c t' (num_as_u8_slice c t v) LittleEndian = v mod 2 ^ BITS c t'.
Proof. exact c37_slice_between_types_lemma. Qed.
Print Assumptions c37_slice_between_types.
Example c37_slice_between_types_example : num_from_u8_slice debug64 U16 (num_as_u8_slice debug64 U32 0x10203) LittleEndian = 0x203.
Proof. concrete. Qed.

Theorem c37_vec_from_u8_slice : forall c bytes e, 
  (e = target_endian c -> vec_from_u8_slice c bytes e = bytes)
  /\ (e <> target_endian c -> vec_from_u8_slice c bytes e = rev bytes)
  /\ vec_from_u8_slice c (vec_from_u8_slice c bytes e) e = bytes
  /\ vec_size (vec_from_u8_slice c bytes e) = len bytes.
Proof. exact c37_vec_from_u8_slice_lemma. Qed.
Print Assumptions c37_vec_from_u8_slice.
Example c37_vec_from_u8_slice_example : vec_from_u8_slice debug64 [1; 2; 3] BigEndian = [3; 2; 1] /\ vec_from_u8_slice big64 [1; 2; 3] BigEndian = [1; 2; 3].
Proof. concrete. Qed.

Theorem c37_vec_as : forall c t l, t <> U8 ->
  vec_as c t l = if len l =? BITS c t / 8
                 then Ret (bytes_value (match target_endian c with LittleEndian => l | BigEndian => rev l end)) else Panic.
Proof. exact c37_vec_as_lemma. Qed.
Print Assumptions c37_vec_as.
Example c37_vec_as_example : vec_as debug64 U16 [1; 2] = Ret 0x201 /\ vec_as big64 U16 [1; 2] = Ret 0x102 /\ vec_as debug64 U32 [1; 2] = Panic.
Proof. concrete. Qed.

Theorem c37_vec_from_as : forall c t v, v < 2 ^ BITS c t -> vec_as c t (vec_from c t v) = Ret v.
Proof. exact c37_vec_from_as_lemma. Qed.
Print Assumptions c37_vec_from_as.
Example c37_vec_from_as_example : vec_from debug64 U32 0x10203 = [3; 2; 1; 0] /\ vec_as debug64 U32 [3; 2; 1; 0] = Ret 0x10203.
Proof. concrete. Qed.
