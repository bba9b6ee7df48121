(* PropWide.v - What happens where the general statements stop: small usize, no overflow checks, mismatched sizes, high bits (C07, C08, C09, C24, C33, C34, C54) *)
From Verif Require Import Base ModelNumber ModelDim ModelStorage Model2D Model3D Spec History ModelAlign ExampleTools FactsWide.

(* ---------- C54 ---------- *)
Theorem c54_get_bits_too_long_release : forall c t v s e, overflow_checks c = false -> s <= e -> BITS c t < e - s ->
  e - s <= 2 ^ 16 -> num_get_bits c t v s e = Ret 0.
Proof. exact c54_get_bits_too_long_release_lemma. Qed.
Print Assumptions c54_get_bits_too_long_release.
Example c54_get_bits_too_long_release_example : overflow_checks release64 = false /\ num_get_bits release64 U8 0xFF 0 9 = Ret 0
  /\ num_get_bits release64 U64 0xFF 3 (3 + 2 ^ 16) = Ret 0.
Proof. concrete. Qed.

(* Without overflow checks nothing is cleared and the new value is merged into the old one *)
Theorem c54_set_bits_too_long_release : forall c t v s e x, overflow_checks c = false -> s <= e -> BITS c t < e - s ->
  e - s <= 2 ^ 16 -> v < 2 ^ BITS c t -> s < BITS c t ->
  exists v', num_set_bits c t v s e x = Ret v' /\ v' < 2 ^ BITS c t
    /\ forall i, N.testbit v' i = N.testbit v i || ((s <=? i) && (i <? BITS c t) && N.testbit x (i - s)).
Proof. exact c54_set_bits_too_long_release_lemma. Qed.
Print Assumptions c54_set_bits_too_long_release.
Example c54_set_bits_too_long_release_example : num_set_bits release64 U8 0x81 1 10 0x06 = Ret 0x8D.
Proof. concrete. Qed.

(* ---------- C07 ---------- *)
(* With usize >= 32 bits see c07_fixed_3d_round_trip_partial *)
Theorem c07_fixed_3d_16_bit : forall c t x y z o, usize_bits c = 16 ->
  fixed_from_grid_index_3d c t x y z o
  = if overflow_checks c || (16 <? BITS c t / 3) then Panic else Ret (MkFixed 0).
Proof. exact c07_fixed_3d_16_bit_lemma. Qed.
Print Assumptions c07_fixed_3d_16_bit.
Example c07_fixed_3d_16_bit_example : usize_bits debug16 = 16 /\ fixed_from_grid_index_3d debug16 U32 1 2 3 XYZ = Panic
  /\ fixed_from_grid_index_3d (Cfg false PW16 LittleEndian) U32 1 2 3 XYZ = Ret (MkFixed 0)
  /\ fixed_from_grid_index_3d (Cfg false PW16 LittleEndian) U64 1 2 3 XYZ = Panic.
Proof. concrete. Qed.

(* ---------- C08 ---------- *)
(* Together with c08_static_2d_round_trip_partial and c08_static_2d_panics this covers every input *)
Theorem c08_static_2d_wide_release : forall c t x y d o, overflow_checks c = false ->
  usize_bits c < BITS c t / 2 -> x < 2 ^ usize_bits c -> y < 2 ^ usize_bits c -> d <= BITS c t / 2 ->
  static_from_grid_index_2d c t x y d o = Ret (Ok (MkStatic 0 d)).
Proof. exact c08_static_2d_wide_release_lemma. Qed.
Print Assumptions c08_static_2d_wide_release.
Example c08_static_2d_wide_release_example : let c := Cfg false PW32 LittleEndian in
  usize_bits c < BITS c U128 / 2 /\ static_from_grid_index_2d c U128 5 6 32 XY = Ret (Ok (MkStatic 0 32))
  /\ static_from_grid_index_2d c U128 5 6 64 XY = Ret (Ok (MkStatic 0 64)).
Proof. concrete. Qed.

(* ---------- C09 ---------- *)
(* Together with c09_static_3d_loses_low_bits this covers every input *)
Theorem c09_static_3d_wide : forall c t x y z d o,
  usize_bits c < BITS c t / 3 -> x < 2 ^ usize_bits c -> y < 2 ^ usize_bits c -> z < 2 ^ usize_bits c -> d <= BITS c t / 3 ->
  let W := usize_bits c in
  let M := BITS c t / 3 in
  let lost := 8 * ((M + 7) / 8 - (d + 7) / 8) - (M - d) in
  let kept v := v mod 2 ^ (W - (M - d)) / 2 ^ lost * 2 ^ lost in
  if (d <=? W) && (M - d <? W)
  then exists s, static_from_grid_index_3d c t x y z d o = Ret (Ok s) /\ valid c Dim3D (KStatic t) s
         /\ st_depth (static_ops c Dim3D t) s = d
         /\ to_grid_index_3d c (static_ops c Dim3D t) s o = Ret (kept x, kept y, kept z)
  else static_from_grid_index_3d c t x y z d o = if overflow_checks c then Panic else Ret (Ok (MkStatic 0 d)).
Proof. exact c09_static_3d_wide_lemma. Qed.
Print Assumptions c09_static_3d_wide.
Example c09_static_3d_wide_example : usize_bits debug32 < BITS debug32 U128 / 3
  /\ (exists s, static_from_grid_index_3d debug32 U128 0xFFFFFFFF 0x123456 0x40 32 XYZ = Ret (Ok s)
        /\ to_grid_index_3d debug32 (static_ops debug32 Dim3D U128) s XYZ = Ret (0x3FFFC0, 0x123440, 0x40))
  /\ static_from_grid_index_3d debug32 U128 1 2 3 10 XYZ = Panic
  /\ static_from_grid_index_3d debug32 U128 1 2 3 33 XYZ = Panic
  /\ static_from_grid_index_3d (Cfg false PW32 LittleEndian) U128 1 2 3 10 XYZ = Ret (Ok (MkStatic 0 10)).
Proof. split; [reflexivity|]. split; [eexists; split; [vm_compute; reflexivity|]; vm_compute; reflexivity|]. concrete. Qed.

(* ---------- C24 ---------- *)
(* On little-endian targets the bytes of the correct fixed index arrive too low, on big-endian targets in reverse order *)
Theorem c24_dynamic_to_fixed_bytes : forall c D L t (s : storage KDynamic) l,
  made c D L KDynamic true s l -> len l <= BITS c t / dim D ->
  let nb := BITS c t / 8 in let n := (dim D * len l + 7) / 8 in let byte v k := v / 2 ^ (8 * k) mod 256 in
  exists s0 s', valid c D (KFixed t) s0
    /\ shows (fixed_ops c D t) s0 (l ++ repeat (cell_zero D) (N.to_nat (BITS c t / dim D - len l)))
    /\ fixed_from_dynamic c D t s = Ok s'
    /\ forall k, k < nb -> byte (fx_bits s') k =
         match target_endian c with
         | LittleEndian => if k <? n then byte (fx_bits s0) (nb - n + k) else 0
         | BigEndian => if k <? nb - n then 0 else byte (fx_bits s0) (nb - n + (nb - 1 - k))
         end.
Proof. exact c24_dynamic_to_fixed_bytes_lemma. Qed.
Print Assumptions c24_dynamic_to_fixed_bytes.
Example c24_dynamic_to_fixed_bytes_example : let big16 := Cfg true PW16 BigEndian in
  made debug64 Dim3D layout3D KDynamic true (MkDynamic [0x80; 0x29] 3) [O1; O2; O3]
  /\ made big16 Dim3D layout3D KDynamic true (MkDynamic [0x80; 0x29] 3) [O1; O2; O3]
  /\ (let s0 := MkFixed 0x29800000 in shows (fixed_ops debug64 Dim3D U32) s0 [O1; O2; O3; O0; O0; O0; O0; O0; O0; O0])
  /\ fixed_from_dynamic debug64 Dim3D U32 (MkDynamic [0x80; 0x29] 3) = Ok (MkFixed 0x2980)
  /\ fixed_from_dynamic big16 Dim3D U32 (MkDynamic [0x80; 0x29] 3) = Ok (MkFixed 0x80290000).
Proof.
  cbv zeta. split; [made_by (start_dynamic_cells debug64 Dim3D layout3D [O1; O2; O3]) (@nil (call Dim3D))|].
  split; [made_by (start_dynamic_cells (Cfg true PW16 BigEndian) Dim3D layout3D [O1; O2; O3]) (@nil (call Dim3D))|]. concrete.
Qed.

(* In 2D every number of missing bytes is a whole number of cells *)
Theorem c24_dynamic_to_fixed_cells : forall c D L t (s : storage KDynamic) l z,
  made c D L KDynamic true s l -> target_endian c = LittleEndian -> len l <= BITS c t / dim D ->
  dim D * z = 8 * (BITS c t / 8 - (dim D * len l + 7) / 8) ->
  exists s', fixed_from_dynamic c D t s = Ok s'
    /\ shows (fixed_ops c D t) s' (repeat (cell_zero D) (N.to_nat z) ++ l ++ repeat (cell_zero D) (N.to_nat (BITS c t / dim D - z - len l))).
Proof. exact c24_dynamic_to_fixed_cells_lemma. Qed.
Print Assumptions c24_dynamic_to_fixed_cells.
Example c24_dynamic_to_fixed_cells_example :
  made debug64 Dim2D layout2D KDynamic true (MkDynamic [0x6C] 3) [Q1; Q2; Q3]
  /\ dim Dim2D * 4 = 8 * (BITS debug64 U16 / 8 - (dim Dim2D * len [Q1; Q2; Q3] + 7) / 8)
  /\ fixed_from_dynamic debug64 Dim2D U16 (MkDynamic [0x6C] 3) = Ok (MkFixed 0x6C)
  /\ shows (fixed_ops debug64 Dim2D U16) (MkFixed 0x6C) [Q0; Q0; Q0; Q0; Q1; Q2; Q3; Q0].
Proof. split; [made_by (start_dynamic_cells debug64 Dim2D layout2D [Q1; Q2; Q3]) (@nil (call Dim2D))|]. concrete. Qed.

(* ---------- C33 ---------- *)
(* Bits 4 and 5 of the argument are merged into bits 2 and 3 before they are spread *)
Theorem c33_zero_before_u8_every_value : forall v, v < 256 -> forall i,
  N.testbit (add_zero_before_every_bit_u8 v) i = (i mod 2 =? 0) && N.testbit (N.lor (v mod 16) (v / 16 mod 4 * 4)) (i / 2).
Proof. exact c33_zero_before_u8_every_value_lemma. Qed.
Print Assumptions c33_zero_before_u8_every_value.
Example c33_zero_before_u8_every_value_example : add_zero_before_every_bit_u8 0xF3 = 0x55 /\ add_zero_before_every_bit_u8 0xC3 = 0x05.
Proof. concrete. Qed.

Theorem c33_zero_behind_u8_every_value : forall v, v < 256 -> forall i,
  N.testbit (add_zero_behind_every_bit_u8 v) i = (i mod 2 =? 1) && N.testbit (N.lor (v mod 16) (v / 16 mod 4 * 4)) (i / 2).
Proof. exact c33_zero_behind_u8_every_value_lemma. Qed.
Print Assumptions c33_zero_behind_u8_every_value.
Example c33_zero_behind_u8_every_value_example : add_zero_behind_every_bit_u8 0xF3 = 0xAA /\ add_zero_behind_every_bit_u8 0xC3 = 0x0A.
Proof. concrete. Qed.

(* Bits 8 to 11 of the argument are merged into bits 4 to 7 before they are spread *)
Theorem c33_zero_before_u16_every_value : forall v, v < 2 ^ 16 -> forall i,
  N.testbit (add_zero_before_every_bit_u16 v) i = (i mod 2 =? 0) && N.testbit (N.lor (v mod 256) (v / 256 mod 16 * 16)) (i / 2).
Proof. exact c33_zero_before_u16_every_value_lemma. Qed.
Print Assumptions c33_zero_before_u16_every_value.
Example c33_zero_before_u16_every_value_example : add_zero_before_every_bit_u16 0xFF0F = 0x5555 /\ add_zero_before_every_bit_u16 0xF00F = 0x0055.
Proof. concrete. Qed.

(* ---------- C34 ---------- *)
(* Together with c34_align_to_partial, c34_align_to_overflow and c34_align_to_wraps this covers every alignment that fits the type *)
Theorem c34_align_to_boundary : forall c t x a, 0 < a -> x + a = 2 ^ BITS c t -> overflow_checks c = false ->
  exists r, align_to c t x a = Ret r /\ r < 2 ^ BITS c t /\ rounded_up x a r.
Proof. exact c34_align_to_boundary_lemma. Qed.
Print Assumptions c34_align_to_boundary.
Example c34_align_to_boundary_example : 250 + 6 = 2 ^ BITS release64 U8 /\ align_to release64 U8 250 6 = Ret 252
  /\ align_to release64 U8 248 8 = Ret 248 /\ align_to debug64 U8 248 8 = Panic.
Proof. concrete. Qed.
