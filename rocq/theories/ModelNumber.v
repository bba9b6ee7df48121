(* ModelNumber.v - model of src/number.rs *)
From Verif Require Import Base.

(* ---------- impl_bits! (the Bits implementation of the unsigned integer types), Self = t ---------- *)

(* src/number.rs lines 5-13.  `start as Self` and `as u32` are casts; size_of::<Self>() * 8 is BITS (a constant). *)
Definition num_get_bits (c : cfg) (t : uty) (self s e : N) : outcome N :=
  let w := BITS c t in
  let shift := cast w s in
  let! shift_right := sub c (usize_bits c) w (range_len s e) in
  let mask := unwrap_or_0 (checked_shr w (lnot w 0) (cast 32 shift_right)) in
  Ret (N.land (unwrap_or_0 (checked_shr w self (cast 32 shift))) mask).

(* src/number.rs lines 14-16 *)
Definition num_get_bits_as_usize (c : cfg) (t : uty) (self s e : N) : outcome N :=
  let! v := num_get_bits c t self s e in Ret (cast (usize_bits c) v).

(* src/number.rs lines 17-23 *)
Definition num_set_bits (c : cfg) (t : uty) (self s e new_value : N) : outcome N :=
  let w := BITS c t in
  let shift := cast w s in
  let! shift_right := sub c (usize_bits c) w (range_len s e) in
  let mask := unwrap_or_0 (checked_shr w (lnot w 0) (cast 32 shift_right)) in
  let! shifted_mask := shl c w mask shift in
  let clear_mask := lnot w shifted_mask in
  let! shifted_value := shl c w new_value shift in
  Ret (N.lor (N.land self clear_mask) shifted_value).

(* src/number.rs lines 24-26 *)
Definition num_set_bits_from_usize (c : cfg) (t : uty) (self s e new_value : N) : outcome N :=
  num_set_bits c t self s e (cast (BITS c t) new_value).

(* src/number.rs lines 28-45: as_u8 .. as_usize, `to` is the target type *)
Definition num_as (c : cfg) (to : uty) (self : N) : N := cast (BITS c to) self.
(* src/number.rs lines 53-70: from_u8 .. from_usize, t is Self *)
Definition num_from (c : cfg) (t : uty) (val : N) : N := cast (BITS c t) val.
(* src/number.rs lines 72-74 *)
Definition num_size (c : cfg) (t : uty) : N := BITS c t / 8.
(* src/number.rs lines 46-48: bytemuck::bytes_of gives the bytes in native order *)
Definition num_as_u8_slice (c : cfg) (t : uty) (self : N) : list N :=
  to_bytes (target_endian c) (N.to_nat (num_size c t)) self.

(* src/number.rs lines 49-51: bytemuck::bytes_of_mut gives write access to the bytes in native order.  Modelled as the effect
   of one write `self.as_u8_slice_mut()[i] = b`; any use of the slice is a sequence of such writes. *)
Definition num_slice_write (c : cfg) (t : uty) (self i b : N) : outcome N :=
  let! bytes := vec_set (num_as_u8_slice c t self) i b in Ret (from_bytes (target_endian c) bytes).

(* src/number.rs lines 125-131 (u8), 139-155 (u16), 163-179 (u32), 187-205 (u64), 213-233 (u128).
   The u16..u128 texts differ only in the number n of bytes.  The index expressions bytes[0]..bytes[n-1] of the
   trimming branch are modelled as the n-byte prefix: they are in range because len >= n in that branch. *)
Definition from_u8_slice_n (n : N) (bytes : list N) (e : endianness) : N :=
  if len bytes <? n then
    from_bytes e (bytes ++ zeros (n - len bytes))
  else
    from_bytes e (firstn (N.to_nat n) bytes).
(* src/number.rs lines 125-131 *)
Definition u8_from_u8_slice (bytes : list N) : N :=
  match bytes with [] => 0 | b :: _ => b end.
(* usize: src/number.rs lines 241-254 *)
Definition num_from_u8_slice (c : cfg) (t : uty) (bytes : list N) (e : endianness) : N :=
  match t with
  | U8 => u8_from_u8_slice bytes
  | U16 => from_u8_slice_n 2 bytes e
  | U32 => from_u8_slice_n 4 bytes e
  | U64 => from_u8_slice_n 8 bytes e
  | U128 => from_u8_slice_n 16 bytes e
  | USize =>
      match pointer c with
      | PW16 => cast (usize_bits c) (from_u8_slice_n 2 bytes e)
      | PW32 => cast (usize_bits c) (from_u8_slice_n 4 bytes e)
      | PW64 => cast (usize_bits c) (from_u8_slice_n 8 bytes e)
      end
  end.

(* ---------- Vec<u8> ---------- *)

(* The unaligned u16 read at src/number.rs lines 292-293: reads bytes i and i+1 of the slice in native byte order;
   reading past the end of the slice is undefined behaviour. *)
Definition read_u16 (c : cfg) (l : list N) (i : N) : outcome N :=
  match nth_error l (N.to_nat i), nth_error l (N.to_nat (i + 1)) with
  | Some a, Some b => Ret (from_bytes (target_endian c) [a; b])
  | _, _ => UB
  end.

(* Body of the loop in src/number.rs lines 276-306; the state is (vec, self_start_bit, new_val_start_bit). *)
Definition set_vec_u8_bits_step (c : cfg) (s_end : N) (new_value : list N)
    (st : list N * N * N) (self_byte_idx : N) : outcome (list N * N * N) :=
  let W := usize_bits c in
  let '(vec, self_start_bit, new_val_start_bit) := st in
  let! next_byte := add c W self_byte_idx 1 in
  let! next_bit := mul c W next_byte 8 in
  let self_end_bit := N.min next_bit s_end in
  let! num_bits_in_chunk := sub c W self_end_bit self_start_bit in
  let! new_val_end_bit := add c W new_val_start_bit num_bits_in_chunk in
  let new_val_byte_idx := new_val_start_bit / 8 in
  let! last := sub c W (len new_value) 1 in
  let! combined_byte :=
    if new_val_byte_idx =? last then
      let dst_start_in_byte := new_val_start_bit mod 8 in
      let! dst_end_in_byte := add c W dst_start_in_byte num_bits_in_chunk in
      let! byte := vec_get new_value new_val_byte_idx in
      num_get_bits c U8 byte dst_start_in_byte dst_end_in_byte
    else
      let! two_bytes := read_u16 c new_value new_val_byte_idx in
      let! base := mul c W new_val_byte_idx 8 in
      let! start_bit_in_two_bytes := sub c W new_val_start_bit base in
      let! base2 := mul c W new_val_byte_idx 8 in
      let! end_bit_in_two_bytes := sub c W new_val_end_bit base2 in
      let! v := num_get_bits c U16 two_bytes start_bit_in_two_bytes end_bit_in_two_bytes in
      Ret (cast 8 v)
  in
  let! old := vec_get vec self_byte_idx in
  let! base3 := mul c W self_byte_idx 8 in
  let! lo := sub c W self_start_bit base3 in
  let! hi := sub c W self_end_bit base3 in
  let! byte := num_set_bits c U8 old lo hi combined_byte in
  let! vec' := vec_set vec self_byte_idx byte in
  let! new_val_start_bit' := add c W new_val_start_bit num_bits_in_chunk in
  Ret (vec', self_end_bit, new_val_start_bit').

(* src/number.rs lines 266-307 *)
Definition set_vec_u8_bits (c : cfg) (vec : list N) (s e : N) (new_value : list N) : outcome (list N) :=
  let self_start_byte := s / 8 in
  let! e7 := add c (usize_bits c) e 7 in
  let self_end_byte := e7 / 8 in
  let! st := foldM (set_vec_u8_bits_step c e new_value) (range self_start_byte self_end_byte) (vec, s, 0) in
  Ret (fst (fst st)).

(* Body of the loop in src/number.rs lines 322-337 *)
Definition vec_get_bits_step (c : cfg) (e shift_within_byte end_byte : N) (bytes : list N) (idx : N)
    : outcome (list N) :=
  let W := usize_bits c in
  let! bytes :=
    if (0 <? idx) && (0 <? shift_within_byte) then
      let! cur := vec_get bytes idx in
      let! carry := num_get_bits c U8 cur 0 shift_within_byte in
      let! prev_idx := sub c W idx 1 in
      let! prev := vec_get bytes prev_idx in
      let! lo := sub c W 8 shift_within_byte in
      let! prev' := num_set_bits c U8 prev lo 8 carry in
      vec_set bytes prev_idx prev'
    else Ret bytes in
  let! last := sub c W (len bytes) 1 in
  let! bytes :=
    if idx =? last then
      let! end_bits := mul c W end_byte 8 in
      let! excess_bits := sub c W end_bits e in
      let! mask := shr c 8 255 excess_bits in
      let! b := vec_get bytes idx in
      vec_set bytes idx (N.land b mask)
    else Ret bytes in
  let! b := vec_get bytes idx in
  let! b' := shr c 8 b shift_within_byte in
  vec_set bytes idx b'.

(* src/number.rs lines 312-345 *)
Definition vec_get_bits (c : cfg) (self : list N) (s e : N) : outcome (list N) :=
  let W := usize_bits c in
  let num_bits := range_len s e in
  let! nb7 := add c W num_bits 7 in
  let num_bytes := nb7 / 8 in
  let start_byte := s / 8 in
  let! e7 := add c W e 7 in
  let end_byte := e7 / 8 in
  let shift_within_byte := s mod 8 in
  let! bytes := vec_slice self start_byte end_byte in
  let! bytes := foldM (vec_get_bits_step c e shift_within_byte end_byte) (range 0 (len bytes)) bytes in
  let! d := sub c W end_byte start_byte in
  Ret (if num_bytes <? d then removelast bytes else bytes).

(* src/number.rs lines 347-349 *)
Definition vec_set_bits (c : cfg) (self : list N) (s e : N) (new_value : list N) : outcome (list N) :=
  set_vec_u8_bits c self s e new_value.

(* src/number.rs lines 351-353 *)
Definition vec_as_u8 (self : list N) : outcome N := vec_get self 0.
(* src/number.rs lines 355-373 (as_u16 .. as_usize): try_into().unwrap() panics unless the length matches *)
Definition vec_as (c : cfg) (to : uty) (self : list N) : outcome N :=
  match to with
  | U8 => vec_as_u8 self
  | _ => if len self =? num_size c to then Ret (from_bytes (target_endian c) self) else Panic
  end.
(* src/number.rs lines 375-381: as_u8_slice and as_u8_slice_mut of Vec<u8> are the vector itself *)
Definition vec_as_u8_slice (self : list N) : list N := self.
Definition vec_slice_write (self : list N) (i b : N) : outcome (list N) := vec_set self i b.
(* src/number.rs lines 383-405 (from_u8 .. from_usize), `from` is the argument type *)
Definition vec_from (c : cfg) (from : uty) (val : N) : list N := num_as_u8_slice c from val.

(* #[derive(PartialEq)] on Endianness, src/number.rs line 78, used as a match against a constant at line 413 *)
Definition endianness_eqb (a b : endianness) : bool :=
  match a, b with BigEndian, BigEndian | LittleEndian, LittleEndian => true | _, _ => false end.
(* src/number.rs lines 407-417 *)
Definition vec_from_u8_slice (c : cfg) (bytes : list N) (e : endianness) : list N :=
  if endianness_eqb e (target_endian c) then bytes else rev bytes.

(* Body of the loop in src/number.rs lines 426-441; the state is (ret, current_start_bit, usize_start_bit). *)
Definition vec_get_bits_as_usize_step (c : cfg) (self : list N) (e : N) (st : N * N * N) (idx : N)
    : outcome (N * N * N) :=
  let W := usize_bits c in
  let '(ret, current_start_bit, usize_start_bit) := st in
  let! next_byte := add c W idx 1 in
  let! next_bit := mul c W next_byte 8 in
  let current_end_bit := N.min next_bit e in
  let! bits_within_current_byte := sub c W current_end_bit current_start_bit in
  let start_within_byte := current_start_bit mod 8 in
  let! end_within_byte := add c W start_within_byte bits_within_current_byte in
  let! b := vec_get self idx in
  let! byte := num_get_bits c U8 b start_within_byte end_within_byte in
  let! usize_end_bit := add c W usize_start_bit bits_within_current_byte in
  let! ret := num_set_bits c USize ret usize_start_bit usize_end_bit (cast W byte) in
  let! usize_start_bit' := add c W usize_start_bit bits_within_current_byte in
  Ret (ret, current_end_bit, usize_start_bit').

(* src/number.rs lines 419-444 *)
Definition vec_get_bits_as_usize (c : cfg) (self : list N) (s e : N) : outcome N :=
  let start_byte := s / 8 in
  let! e7 := add c (usize_bits c) e 7 in
  let end_byte := e7 / 8 in
  let! st := foldM (vec_get_bits_as_usize_step c self e) (range start_byte end_byte) (0, s, 0) in
  Ret (fst (fst st)).

(* src/number.rs lines 446-449: the bytes of new_value are in native order *)
Definition vec_set_bits_from_usize (c : cfg) (self : list N) (s e new_value : N) : outcome (list N) :=
  set_vec_u8_bits c self s e (num_as_u8_slice c USize new_value).

(* src/number.rs lines 451-453 *)
Definition vec_size (self : list N) : N := len self.

(* ---------- bit spreading helpers ---------- *)
(* The shift amounts are constants smaller than the width, so << never panics; bits shifted out are dropped. *)
Definition shl_const (w a s : N) : N := cast w (N.shiftl a s).

(* src/number.rs lines 478-483 *)
Definition add_zero_before_every_bit_u8 (val : N) : N :=
  let ret := val in
  let ret := N.land (N.lor ret (shl_const 8 ret 2)) 51 (* 0b00110011 *) in
  let ret := N.land (N.lor ret (shl_const 8 ret 1)) 85 (* 0b01010101 *) in
  ret.
(* src/number.rs lines 472-474 *)
Definition add_zero_behind_every_bit_u8 (val : N) : N := shl_const 8 (add_zero_before_every_bit_u8 val) 1.
(* src/number.rs lines 487-493 *)
Definition add_zero_before_every_bit_u16 (val : N) : N :=
  let ret := val in
  let ret := N.land (N.lor ret (shl_const 16 ret 4)) 0x0F0F in
  let ret := N.land (N.lor ret (shl_const 16 ret 2)) 0x3333 in
  let ret := N.land (N.lor ret (shl_const 16 ret 1)) 0x5555 in
  ret.
(* src/number.rs lines 497-503 *)
Definition add_two_zeroes_before_every_bit_u8 (val : N) : N :=
  let val := cast 32 val in
  let val := N.land (N.lor val (shl_const 32 val 8)) 0x0F00F00F in
  let val := N.land (N.lor val (shl_const 32 val 4)) 0xC30C30C3 in
  let val := N.land (N.lor val (shl_const 32 val 2)) 0x49249249 in
  val.
(* src/number.rs lines 506-515 *)
Definition add_two_zeroes_before_every_bit_u32 (val : N) : N :=
  let val := cast 64 val in
  let val := N.land val 0x1FFFFF (* 21 ones *) in
  let val := N.land (N.lor val (shl_const 64 val 32)) 0x00FF00000000FFFF in
  let val := N.land (N.lor val (shl_const 64 val 16)) 0x00FF0000FF0000FF in
  let val := N.land (N.lor val (shl_const 64 val 8)) 0xF00F00F00F00F00F in
  let val := N.land (N.lor val (shl_const 64 val 4)) 0x30C30C30C30C30C3 in
  let val := N.land (N.lor val (shl_const 64 val 2)) 0x1249249249249249 in
  val.
