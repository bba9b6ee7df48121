(* PropUserGrid.v - C69 grid indices and dynamic indices over a type of bits implemented outside the crate *)
From Coq Require Import Bool.
From Verif Require Import Base ModelNumber ModelDim ModelStorage Model2D Model3D ModelBits ModelUser ModelUserGrid Spec SpecUserBits SpecUserGrid ExampleTools FactsUserGrid.

(* ---------- C69 ---------- *)
(* the laws are met by some type of every number of bits from 8 *)
Theorem c69_every_width : forall c n, 8 <= n -> n < 2 ^ usize_bits c ->
  from_laws c (wide_user c n) (fun v => v < 2 ^ n) (fun v => v) /\ (n mod 8 = 0 -> byte_laws c (wide_user c n) (fun v => v < 2 ^ n) (fun v => v)).
Proof. exact c69_every_width_lemma. Qed.
Print Assumptions c69_every_width.
Example c69_every_width_example : 73 < 2 ^ usize_bits debug64 /\ ut_from_u64 (wide_user debug64 73) (2 ^ 64 - 1) = 2 ^ 64 - 1
  /\ ut_as_u8_slice (wide_user debug64 72) (2 ^ 64 + 3) = [3; 0; 0; 0; 0; 0; 0; 0; 1]
  /\ ut_as_u8_slice (wide_user big64 72) (2 ^ 64 + 3) = [1; 0; 0; 0; 0; 0; 0; 0; 3]
  /\ ut_from_u8_slice (wide_user debug64 72) [5] BigEndian = 5 * 2 ^ 64.
Proof. concrete. Qed.

(* and by the integers of the crate *)
Theorem c69_integers : forall c t, from_laws c (num_user c t) (fun v => v < 2 ^ BITS c t) (fun v => v) /\ byte_laws c (num_user c t) (fun v => v < 2 ^ BITS c t) (fun v => v).
Proof. exact c69_integers_lemma. Qed.
Print Assumptions c69_integers.
Example c69_integers_example : ut_from_u32 (num_user debug64 U16) 65535 = 65535 /\ ut_from_u8_slice (num_user debug64 U16) [5] BigEndian = 5 * 2 ^ 8.
Proof. concrete. Qed.

(* types of whole bytes: the cells lead to the point, as in C07 *)
Theorem c69_fixed_grid_2d : forall T c (B : FixedType T) inv val x y o, fixed_type_laws c B inv val -> ft_BITS B mod 8 = 0 ->
  x < 2 ^ usize_bits c -> y < 2 ^ usize_bits c ->
  if ft_BITS B / 2 <=? usize_bits c
  then exists v l, user_fixed_from_grid_2d c B x y o = Ret v /\ inv v /\ shows (user_fixed_ops c Dim2D B) v l /\ path_to2 o (ft_BITS B / 2) x y l
  else user_fixed_from_grid_2d c B x y o = Panic.
Proof. exact c69_fixed_grid_2d_lemma. Qed.
Print Assumptions c69_fixed_grid_2d.
Example c69_fixed_grid_2d_example : ft_BITS (wide_type 72) mod 8 = 0 /\ user_fixed_from_grid_2d debug64 (wide_type 72) 1 2 XY = Ret 9
  /\ user_fixed_from_grid_2d debug64 (wide_type 72) 1 2 YX = Ret 6
  /\ user_fixed_from_grid_2d debug32 (wide_type 72) 1 2 XY = Panic.
Proof. concrete. Qed.

(* as in C08; with M > usize::BITS levels the high bits of the coordinates are lost, or all of them *)
Theorem c69_static_grid_2d : forall T c (B : FixedType T) inv val x y d o, fixed_type_laws c B inv val -> ft_BITS B mod 8 = 0 -> ft_BITS B <= 2 ^ 32 ->
  x < 2 ^ usize_bits c -> y < 2 ^ usize_bits c ->
  let W := usize_bits c in let M := ft_BITS B / 2 in let kept v := v mod 2 ^ (W - (M - d)) in
  if M <? d then user_static_from_grid_2d c B x y d o = Ret (Err (DepthLimitedExceeded M))
  else if (d <=? W) && (M - d <? W)
  then exists s l, user_static_from_grid_2d c B x y d o = Ret (Ok s) /\ user_static_valid Dim2D B inv s
         /\ shows (user_static_ops c Dim2D B) s l /\ path_to2 o d (kept x) (kept y) l /\ (M <= W -> path_to2 o d x y l)
  else if overflow_checks c then user_static_from_grid_2d c B x y d o = Panic
  else exists s, user_static_from_grid_2d c B x y d o = Ret (Ok s) /\ user_static_valid Dim2D B inv s
         /\ shows (user_static_ops c Dim2D B) s (repeat Q0 (N.to_nat (d mod 256))).
Proof. exact c69_static_grid_2d_lemma. Qed.
Print Assumptions c69_static_grid_2d.
Example c69_static_grid_2d_example : user_static_from_grid_2d debug64 (wide_type 72) 1 2 2 XY = Ret (Ok (MkUserStatic (9 * 2 ^ 68) 2))
  /\ user_static_from_grid_2d debug64 (wide_type 72) 1 2 37 XY = Ret (Err (DepthLimitedExceeded 36))
  /\ 64 - (160 / 2 - 64) = 48 /\ user_static_from_grid_2d debug64 (wide_type 160) (2 ^ 48 + 1) 2 64 XY = user_static_from_grid_2d debug64 (wide_type 160) 1 2 64 XY
  /\ user_static_from_grid_2d debug64 (wide_type 256) 1 2 2 XY = Panic
  /\ user_static_from_grid_2d release64 (wide_type 256) 1 2 2 XY = Ret (Ok (MkUserStatic 0 2)).
Proof. concrete. Qed.

(* any number of bits; Panic stands for a program that does not compile or panics *)
Theorem c69_fixed_grid_3d : forall T c (U : UserType T) inv val x y z o, from_laws c U inv val ->
  let M := ft_BITS (ut_type U) / 3 in
  if usize_bits c <=? M then user_fixed_from_grid_3d c U x y z o = Panic
  else if 32 <=? usize_bits c
  then exists v l, user_fixed_from_grid_3d c U x y z o = Ret v /\ inv v /\ shows (user_fixed_ops c Dim3D (ut_type U)) v l /\ path_to3 o M x y z l
  else if overflow_checks c then user_fixed_from_grid_3d c U x y z o = Panic
  else exists v, user_fixed_from_grid_3d c U x y z o = Ret v /\ inv v /\ shows (user_fixed_ops c Dim3D (ut_type U)) v (repeat O0 (N.to_nat M)).
Proof. exact c69_fixed_grid_3d_lemma. Qed.
Print Assumptions c69_fixed_grid_3d.
Example c69_fixed_grid_3d_example : user_fixed_from_grid_3d debug64 (wide_user debug64 73) 1 2 4 XYZ = Ret (273 * 2)
  /\ user_fixed_from_grid_3d debug64 (wide_user debug64 256) 1 2 4 XYZ = Panic
  /\ user_fixed_from_grid_3d debug16 (wide_user debug16 16) 1 2 4 XYZ = Panic
  /\ user_fixed_from_grid_3d (Cfg false PW16 LittleEndian) (wide_user (Cfg false PW16 LittleEndian) 16) 1 2 4 XYZ = Ret 0.
Proof. concrete. Qed.

(* the low bits of the coordinates that C09 describes are lost for every type, and the high ones of C69 in 2D *)
Theorem c69_static_grid_3d : forall T c (U : UserType T) inv val x y z d o, from_laws c U inv val -> ft_BITS (ut_type U) + 24 <= 2 ^ N.min 32 (usize_bits c) ->
  x < 2 ^ usize_bits c -> y < 2 ^ usize_bits c -> z < 2 ^ usize_bits c ->
  let W := usize_bits c in let M := ft_BITS (ut_type U) / 3 in
  let lost := 8 * ((M + 7) / 8 - (d + 7) / 8) - (M - d) in let kept v := v mod 2 ^ (W - (M - d)) / 2 ^ lost * 2 ^ lost in
  if M <? d then user_static_from_grid_3d c U x y z d o = Ret (Err (DepthLimitedExceeded M))
  else if (d <=? W) && (M - d <? W)
  then exists s l, user_static_from_grid_3d c U x y z d o = Ret (Ok s) /\ user_static_valid Dim3D (ut_type U) inv s
         /\ shows (user_static_ops c Dim3D (ut_type U)) s l /\ path_to3 o d (kept x) (kept y) (kept z) l
  else if overflow_checks c then user_static_from_grid_3d c U x y z d o = Panic
  else exists s, user_static_from_grid_3d c U x y z d o = Ret (Ok s) /\ user_static_valid Dim3D (ut_type U) inv s
         /\ shows (user_static_ops c Dim3D (ut_type U)) s (repeat O0 (N.to_nat (d mod 256))).
Proof. exact c69_static_grid_3d_lemma. Qed.
Print Assumptions c69_static_grid_3d.
Example c69_static_grid_3d_example : user_static_from_grid_3d debug64 (wide_user debug64 72) 1 2 4 3 XYZ = Ret (Ok (MkUserStatic (273 * 2 ^ 63) 3))
  /\ 8 * ((21 + 7) / 8 - (8 + 7) / 8) - (21 - 8) = 3
  /\ user_static_from_grid_3d debug64 (wide_user debug64 65) 255 0 0 8 XYZ = user_static_from_grid_3d debug64 (wide_user debug64 65) 248 0 0 8 XYZ
  /\ 64 - (256 / 3 - 64) = 43
  /\ user_static_from_grid_3d debug64 (wide_user debug64 256) (2 ^ 43 + 15) 0 0 64 XYZ = user_static_from_grid_3d debug64 (wide_user debug64 256) 8 0 0 64 XYZ
  /\ user_static_from_grid_3d release64 (wide_user release64 256) 1 2 4 2 XYZ = Ret (Ok (MkUserStatic 0 2)).
Proof. concrete. Qed.

(* one bit more than whole bytes: the bits are written one position too low *)
Theorem c69_grid_2d_cells_refuted : ~ (forall T c (B : FixedType T) inv val x y o v l, fixed_type_laws c B inv val -> ft_BITS B / 2 <= usize_bits c ->
  x < 2 ^ usize_bits c -> y < 2 ^ usize_bits c -> user_fixed_from_grid_2d c B x y o = Ret v -> shows (user_fixed_ops c Dim2D B) v l ->
  path_to2 o (ft_BITS B / 2) x y l).
Proof. exact c69_grid_2d_cells_refuted_lemma. Qed.
Print Assumptions c69_grid_2d_cells_refuted.

(* otherwise set_bits is called with bits outside of the type *)
Theorem c69_grid_2d_range_refuted : ~ (forall T c (B : FixedType T) inv val x y o, fixed_type_laws c B inv val -> ft_BITS B / 2 <= usize_bits c ->
  x < 2 ^ usize_bits c -> y < 2 ^ usize_bits c -> user_fixed_from_grid_2d c B x y o <> UB).
Proof. exact c69_grid_2d_range_refuted_lemma. Qed.
Print Assumptions c69_grid_2d_range_refuted.

Theorem c69_fixed_to_dynamic : forall T c D L (U : UserType T) inv val v l, is_dim D L -> fixed_type_laws c (ut_type U) inv val -> byte_laws c U inv val ->
  inv v -> shows (user_fixed_ops c D (ut_type U)) v l ->
  valid c D KDynamic (user_dynamic_from_fixed c D U v) /\ shows (dynamic_ops c D) (user_dynamic_from_fixed c D U v) l.
Proof. exact c69_fixed_to_dynamic_lemma. Qed.
Print Assumptions c69_fixed_to_dynamic.
Example c69_fixed_to_dynamic_example : user_dynamic_from_fixed debug64 Dim2D (wide_user debug64 72) (9 * 2 ^ 68) = MkDynamic [0; 0; 0; 0; 0; 0; 0; 0; 144] 36
  /\ user_dynamic_from_fixed big64 Dim2D (wide_user big64 72) (9 * 2 ^ 68) = MkDynamic [0; 0; 0; 0; 0; 0; 0; 0; 144] 36.
Proof. concrete. Qed.

(* stored: what C36 says about writes to dynamic indices *)
Theorem c69_static_to_dynamic : forall T c D L (B : FixedType T) inv val s l, is_dim D L -> fixed_type_laws c B inv val ->
  user_static_valid D B inv s -> shows (user_static_ops c D B) s l ->
  exists s', user_dynamic_from_static c D L B s = Ret s' /\ valid c D KDynamic s' /\ shows (dynamic_ops c D) s' (map (stored c D KDynamic) l).
Proof. exact c69_static_to_dynamic_lemma. Qed.
Print Assumptions c69_static_to_dynamic.
Example c69_static_to_dynamic_example : shows (user_static_ops debug64 Dim2D (wide_type 72)) (MkUserStatic (9 * 2 ^ 68) 2) [Q2; Q1]
  /\ user_dynamic_from_static debug64 Dim2D layout2D (wide_type 72) (MkUserStatic (9 * 2 ^ 68) 2) = Ret (MkDynamic [144] 2).
Proof. concrete. Qed.

Theorem c69_dynamic_to_static : forall T c D L (B : FixedType T) inv val s l, is_dim D L -> fixed_type_laws c B inv val ->
  valid c D KDynamic s -> shows (dynamic_ops c D) s l ->
  if len l <=? ft_BITS B / dim D
  then exists s', user_static_from_dynamic c D B s = Ret (Ok s') /\ user_static_valid D B inv s'
         /\ shows (user_static_ops c D B) s' (firstn (N.to_nat (len l mod 256)) l)
  else user_static_from_dynamic c D B s = Ret (Err (DepthLimitedExceeded (ft_BITS B / dim D))).
Proof. exact c69_dynamic_to_static_lemma. Qed.
Print Assumptions c69_dynamic_to_static.
Example c69_dynamic_to_static_example : shows (dynamic_ops debug64 Dim2D) (MkDynamic [144] 2) [Q2; Q1]
  /\ user_static_from_dynamic debug64 Dim2D (wide_type 72) (MkDynamic [144] 2) = Ret (Ok (MkUserStatic (9 * 2 ^ 68) 2)).
Proof. concrete. Qed.

(* the bytes are taken over as they are, so that the cells stay in place only if there are BITS / 8 bytes (C24) *)
Theorem c69_dynamic_to_fixed : forall T c D L (U : UserType T) inv val s l, is_dim D L -> fixed_type_laws c (ut_type U) inv val -> byte_laws c U inv val ->
  valid c D KDynamic s -> shows (dynamic_ops c D) s l ->
  let nb := ft_BITS (ut_type U) / 8 in
  if len l <=? ft_BITS (ut_type U) / dim D
  then exists v, user_fixed_from_dynamic c D U s = Ok v /\ inv v
         /\ (forall k, k < nb -> val v / 2 ^ (8 * k) mod 256
               = nth (N.to_nat (match target_endian c with LittleEndian => k | BigEndian => nb - 1 - k end)) (dy_bits s) 0)
         /\ (target_endian c = LittleEndian -> len (dy_bits s) = nb -> exists r, shows (user_fixed_ops c D (ut_type U)) v (l ++ r))
  else user_fixed_from_dynamic c D U s = Err (DepthLimitedExceeded (ft_BITS (ut_type U) / dim D)).
Proof. exact c69_dynamic_to_fixed_lemma. Qed.
Print Assumptions c69_dynamic_to_fixed.
Example c69_dynamic_to_fixed_example : user_fixed_from_dynamic debug64 Dim2D (wide_user debug64 72) (MkDynamic [144] 2) = Ok 144
  /\ shows (dynamic_ops debug64 Dim2D) (MkDynamic [5; 144] 5) [Q2; Q1; Q0; Q0; Q0]
  /\ user_fixed_from_dynamic debug64 Dim2D (wide_user debug64 16) (MkDynamic [5; 144] 5) = Ok (144 * 256 + 5)
  /\ shows (user_fixed_ops debug64 Dim2D (wide_type 16)) (144 * 256 + 5) [Q2; Q1; Q0; Q0; Q0; Q0; Q1; Q1].
Proof. concrete. Qed.
