(* PropInts.v - The integer types as bit stores: conversions, every bit range, writes through the byte view (C30, C37, C54) *)
From Verif Require Import Base ModelNumber Spec ExampleTools FactsInts.

(* ---------- C30 ---------- *)
Theorem c30_set_bits_from_usize : forall c t v s e x,
  v < 2 ^ BITS c t -> s <= e -> e <= BITS c t -> s < BITS c t -> x < 2 ^ (e - s) ->
  exists v', num_set_bits_from_usize c t v s e x = Ret v' /\ v' < 2 ^ BITS c t /\ bits_replaced v s (e - s) x v'
    /\ num_get_bits_as_usize c t v' s e = Ret (x mod 2 ^ usize_bits c).
Proof. exact c30_set_bits_from_usize_lemma. Qed.
Print Assumptions c30_set_bits_from_usize.
Example c30_set_bits_from_usize_example : num_set_bits_from_usize debug64 U32 0xFFFF 8 24 0xABC = Ret 0xABCFF
  /\ num_get_bits_as_usize debug64 U32 0xABCFF 8 24 = Ret 0xABC.
Proof. concrete. Qed.

Theorem c30_casts : forall c t v i,
  N.testbit (num_as c t v) i = (i <? BITS c t) && N.testbit v i
  /\ N.testbit (num_from c t v) i = (i <? BITS c t) && N.testbit v i.
Proof. exact c30_casts_lemma. Qed.
Print Assumptions c30_casts.
Example c30_casts_example : num_as debug64 U16 0x12345 = 0x2345 /\ num_from debug64 U8 0x2345 = 0x45.
Proof. concrete. Qed.

Theorem c30_casts_round_trip : forall c t t' v, v < 2 ^ BITS c t ->
  num_from c t (num_as c t' v) = v mod 2 ^ BITS c t' /\ (BITS c t <= BITS c t' -> num_from c t (num_as c t' v) = v).
Proof. exact c30_casts_round_trip_lemma. Qed.
Print Assumptions c30_casts_round_trip.
Example c30_casts_round_trip_example : num_from debug64 U16 (num_as debug64 U64 0x2345) = 0x2345
  /\ num_from debug64 U16 (num_as debug64 U8 0x2345) = 0x45.
Proof. concrete. Qed.

Theorem c30_size : forall c t, 8 * num_size c t = BITS c t.
Proof. exact c30_size_lemma. Qed.
Print Assumptions c30_size.
Example c30_size_example : num_size debug64 U128 = 16 /\ num_size debug16 USize = 2.
Proof. concrete. Qed.

(* ---------- C37 ---------- *)
Theorem c37_slice_write : forall c t v i b, v < 2 ^ BITS c t -> b < 256 ->
  let n := BITS c t / 8 in
  if i <? n
  then exists v', num_slice_write c t v i b = Ret v' /\ v' < 2 ^ BITS c t
         /\ bits_replaced v (8 * match target_endian c with LittleEndian => i | BigEndian => n - 1 - i end) 8 b v'
         /\ num_as_u8_slice c t v' = update (num_as_u8_slice c t v) (N.to_nat i) b
  else num_slice_write c t v i b = Panic.
Proof. exact c37_slice_write_lemma. Qed.
Print Assumptions c37_slice_write.
Example c37_slice_write_example : num_slice_write debug64 U32 0x11223344 1 0xFF = Ret 0x1122FF44
  /\ num_slice_write big64 U32 0x11223344 1 0xFF = Ret 0x11FF3344 /\ num_slice_write debug64 U32 0x11223344 4 0xFF = Panic.
Proof. concrete. Qed.

Theorem c37_vec_slice_write : forall vec i b, Forall (fun x => x < 256) vec -> b < 256 ->
  vec_as_u8_slice vec = vec
  /\ if i <? len vec
     then exists vec', vec_slice_write vec i b = Ret vec' /\ len vec' = len vec /\ Forall (fun x => x < 256) vec'
            /\ bits_replaced (bytes_value vec) (8 * i) 8 b (bytes_value vec')
     else vec_slice_write vec i b = Panic.
Proof. exact c37_vec_slice_write_lemma. Qed.
Print Assumptions c37_vec_slice_write.
Example c37_vec_slice_write_example : vec_slice_write [1; 2; 3] 2 0xFF = Ret [1; 2; 0xFF] /\ vec_slice_write [1; 2; 3] 3 0xFF = Panic.
Proof. concrete. Qed.

(* ---------- C54 ---------- *)
(* The start of the range is first cut to the width of the integer and to 32 bits *)
Theorem c54_get_bits_every_range : forall c t v s e, v < 2 ^ BITS c t -> range_len s e <= BITS c t ->
  num_get_bits c t v s e = Ret (v / 2 ^ (s mod 2 ^ N.min 32 (BITS c t)) mod 2 ^ range_len s e).
Proof. exact c54_get_bits_every_range_lemma. Qed.
Print Assumptions c54_get_bits_every_range.
Example c54_get_bits_every_range_example : num_get_bits debug64 U8 0xAB 4 12 = Ret 0xA
  /\ num_get_bits debug64 U8 0xAB 100 108 = Ret 0 /\ num_get_bits debug64 U8 0xAB 260 268 = Ret 0xA
  /\ num_get_bits debug64 U64 0xAB (2 ^ 32) (2 ^ 32 + 8) = Ret 0xAB.
Proof. concrete. Qed.

Theorem c54_get_bits_too_long : forall c t v s e, overflow_checks c = true ->
  (num_get_bits c t v s e = Panic <-> BITS c t < range_len s e).
Proof. exact c54_get_bits_too_long_lemma. Qed.
Print Assumptions c54_get_bits_too_long.
Example c54_get_bits_too_long_example : num_get_bits debug64 U8 0xAB 0 9 = Panic.
Proof. concrete. Qed.

(* What is missing: a start that does not fit the integer type or 32 bits, see the refutation *)
Theorem c54_get_bits_beyond_end_partial : forall c t v s e, v < 2 ^ BITS c t -> range_len s e <= BITS c t ->
  BITS c t <= s -> s < 2 ^ BITS c t -> s < 2 ^ 32 -> num_get_bits c t v s e = Ret 0.
Proof. exact c54_get_bits_beyond_end_partial_lemma. Qed.
Print Assumptions c54_get_bits_beyond_end_partial.
Example c54_get_bits_beyond_end_partial_example : num_get_bits debug64 U32 0xFFFFFFFF 40 72 = Ret 0.
Proof. concrete. Qed.

(* Reading past the end does not always give zero *)
Theorem c54_get_bits_beyond_end_refuted :
  ~ (forall c t v s e, v < 2 ^ BITS c t -> s < 2 ^ usize_bits c -> e < 2 ^ usize_bits c -> range_len s e <= BITS c t ->
     BITS c t <= s -> num_get_bits c t v s e = Ret 0).
Proof. exact c54_get_bits_beyond_end_refuted_lemma. Qed.
Print Assumptions c54_get_bits_beyond_end_refuted.

Theorem c54_set_bits_every_range : forall c t v s e x, v < 2 ^ BITS c t -> range_len s e <= BITS c t ->
  let w := BITS c t in
  let s0 := s mod 2 ^ w in
  if overflow_checks c && (w <=? s0) then num_set_bits c t v s e x = Panic
  else exists v', num_set_bits c t v s e x = Ret v' /\ v' < 2 ^ w /\ forall i, i < w ->
    let s1 := s0 mod w in
    N.testbit v' i = if i <? s1 then N.testbit v i
                     else if i <? s1 + range_len s e then N.testbit x (i - s1)
                     else N.testbit v i || N.testbit x (i - s1).
Proof. exact c54_set_bits_every_range_lemma. Qed.
Print Assumptions c54_set_bits_every_range.
Example c54_set_bits_every_range_example : num_set_bits debug64 U8 0x01 4 12 0x0A = Ret 0xA1
  /\ num_set_bits debug64 U8 0x01 8 12 0x0A = Panic /\ num_set_bits debug64 U8 0x01 260 264 0x0A = Ret 0xA1
  /\ num_set_bits release64 U8 0x01 12 16 0x0A = Ret 0xA1.
Proof. concrete. Qed.

Theorem c54_set_bits_too_long : forall c t v s e x, overflow_checks c = true ->
  BITS c t < range_len s e -> num_set_bits c t v s e x = Panic.
Proof. exact c54_set_bits_too_long_lemma. Qed.
Print Assumptions c54_set_bits_too_long.
Example c54_set_bits_too_long_example : num_set_bits debug64 U8 0x01 0 9 0x0A = Panic.
Proof. concrete. Qed.
