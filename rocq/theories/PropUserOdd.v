(* PropUserOdd.v - C68, C69 hashing, and 2D grid indices over types of bits that do not fill whole bytes *)
From Coq Require Import Bool.
From Verif Require Import Base ModelNumber ModelDim ModelStorage Model2D ModelBits ModelUser ModelUserGrid Spec SpecUser SpecUserBits SpecUserGrid ExampleTools FactsUserOdd.

(* ---------- C69 ---------- *)
(* one bit more than whole bytes: the bits are stored one position too low *)
Theorem c69_fixed_grid_2d_odd : forall T c (B : FixedType T) inv val x y o, fixed_type_laws c B inv val -> ft_BITS B mod 8 = 1 ->
  x < 2 ^ usize_bits c -> y < 2 ^ usize_bits c ->
  let M := ft_BITS B / 2 in
  if M <=? usize_bits c
  then exists v l, user_fixed_from_grid_2d c B x y o = Ret v /\ inv v /\ shows (user_fixed_ops c Dim2D B) v l
         /\ path_to2 o M (fst (one_too_low o M x y)) (snd (one_too_low o M x y)) l
  else user_fixed_from_grid_2d c B x y o = Panic.
Proof. exact c69_fixed_grid_2d_odd_lemma. Qed.
Print Assumptions c69_fixed_grid_2d_odd.
Example c69_fixed_grid_2d_odd_example : ft_BITS (wide_type 17) mod 8 = 1 /\ one_too_low XY 8 3 1 = (1, 1)
  /\ user_fixed_from_grid_2d debug64 (wide_type 17) 3 1 XY = Ret 7
  /\ get_cell_at_level (user_fixed_ops debug64 Dim2D (wide_type 17)) 7 6 = Ret Q0
  /\ get_cell_at_level (user_fixed_ops debug64 Dim2D (wide_type 17)) 7 7 = Ret Q3.
Proof. concrete. Qed.

(* static indices likewise *)
Theorem c69_static_grid_2d_odd : forall T c (B : FixedType T) inv val x y d o, fixed_type_laws c B inv val -> ft_BITS B mod 8 = 1 -> ft_BITS B <= 2 ^ 32 ->
  x < 2 ^ usize_bits c -> y < 2 ^ usize_bits c ->
  let W := usize_bits c in let M := ft_BITS B / 2 in let kept v := v mod 2 ^ (W - (M - d)) in let p := one_too_low o d (kept x) (kept y) in
  if M <? d then user_static_from_grid_2d c B x y d o = Ret (Err (DepthLimitedExceeded M))
  else if (d <=? W) && (M - d <? W)
  then exists s l, user_static_from_grid_2d c B x y d o = Ret (Ok s) /\ user_static_valid Dim2D B inv s
         /\ shows (user_static_ops c Dim2D B) s l /\ path_to2 o d (fst p) (snd p) l
  else if overflow_checks c then user_static_from_grid_2d c B x y d o = Panic
  else exists s, user_static_from_grid_2d c B x y d o = Ret (Ok s) /\ user_static_valid Dim2D B inv s
         /\ shows (user_static_ops c Dim2D B) s (repeat Q0 (N.to_nat (d mod 256))).
Proof. exact c69_static_grid_2d_odd_lemma. Qed.
Print Assumptions c69_static_grid_2d_odd.
Example c69_static_grid_2d_odd_example : one_too_low YX 2 1 2 = (1, 1)
  /\ user_static_from_grid_2d debug64 (wide_type 17) 1 2 2 YX = Ret (Ok (MkUserStatic (6 * 2 ^ 12) 2))
  /\ get_cell_at_level (user_static_ops debug64 Dim2D (wide_type 17)) (MkUserStatic (6 * 2 ^ 12) 2) 0 = Ret Q0
  /\ get_cell_at_level (user_static_ops debug64 Dim2D (wide_type 17)) (MkUserStatic (6 * 2 ^ 12) 2) 1 = Ret Q3
  /\ user_static_from_grid_2d release64 (wide_type 257) 1 2 2 YX = Ret (Ok (MkUserStatic 0 2)).
Proof. concrete. Qed.

(* two or more bits more: the result is that of a call of set_bits with a range that ends behind BITS *)
Theorem c69_fixed_grid_2d_outside : forall T c (B : FixedType T) inv val x y o, fixed_type_laws c B inv val -> 2 <= ft_BITS B mod 8 ->
  x < 2 ^ usize_bits c -> y < 2 ^ usize_bits c ->
  if ft_BITS B / 2 <=? usize_bits c
  then exists v s e u, inv v /\ inv u /\ s <= ft_BITS B < e /\ user_fixed_from_grid_2d c B x y o = bo_set_bits (ft_bits B) v s e u
  else user_fixed_from_grid_2d c B x y o = Panic.
Proof. exact c69_fixed_grid_2d_outside_lemma. Qed.
Print Assumptions c69_fixed_grid_2d_outside.
Example c69_fixed_grid_2d_outside_example : 2 <= ft_BITS (wide_type 12) mod 8
  /\ user_fixed_from_grid_2d debug64 (wide_type 12) 1 2 XY = UB /\ bo_set_bits (ft_bits (wide_type 12)) 9 8 16 0 = UB
  /\ user_fixed_from_grid_2d debug64 (wide_type 130) 1 2 XY = Panic.
Proof. concrete. Qed.

(* static indices likewise, except at depth 0 *)
Theorem c69_static_grid_2d_outside : forall T c (B : FixedType T) inv val x y d o, fixed_type_laws c B inv val -> 2 <= ft_BITS B mod 8 ->
  ft_BITS B + 8 <= 2 ^ N.min 32 (usize_bits c) -> x < 2 ^ usize_bits c -> y < 2 ^ usize_bits c ->
  let W := usize_bits c in let M := ft_BITS B / 2 in
  if M <? d then user_static_from_grid_2d c B x y d o = Ret (Err (DepthLimitedExceeded M))
  else if overflow_checks c && negb ((d <=? W) && (M - d <? W)) then user_static_from_grid_2d c B x y d o = Panic
  else if d =? 0 then exists s, user_static_from_grid_2d c B x y d o = Ret (Ok s) /\ user_static_valid Dim2D B inv s /\ shows (user_static_ops c Dim2D B) s []
  else exists v s e u, inv v /\ inv u /\ s <= ft_BITS B < e
         /\ (bo_set_bits (ft_bits B) v s e u = Panic -> user_static_from_grid_2d c B x y d o = Panic)
         /\ (bo_set_bits (ft_bits B) v s e u = UB -> user_static_from_grid_2d c B x y d o = UB).
Proof. exact c69_static_grid_2d_outside_lemma. Qed.
Print Assumptions c69_static_grid_2d_outside.
Example c69_static_grid_2d_outside_example : user_static_from_grid_2d debug64 (wide_type 12) 1 2 1 XY = UB
  /\ bo_set_bits (ft_bits (wide_type 12)) 0 8 16 7 = UB
  /\ user_static_from_grid_2d debug64 (wide_type 12) 1 2 0 XY = Ret (Ok (MkUserStatic 0 0))
  /\ user_static_from_grid_2d debug64 (wide_type 12) 1 2 7 XY = Ret (Err (DepthLimitedExceeded 6))
  /\ user_static_from_grid_2d debug64 (wide_type 130) 1 2 1 XY = Panic.
Proof. concrete. Qed.

(* ---------- C68 ---------- *)
(* equal indices feed equal data to the hasher if the type of bits does so; different ones feed different data if the type does so *)
Theorem c68_hash : forall T c D L (B : FixedType T) inv val hash, is_dim D L -> fixed_type_laws c B inv val ->
  (forall v w, inv v -> inv w -> ft_eq B v w = true -> hash v = hash w) ->
  (forall v w, inv v -> inv w -> user_fixed_eq B v w = true -> user_fixed_hash hash v = user_fixed_hash hash w)
  /\ (forall a b, user_static_valid D B inv a -> user_static_valid D B inv b -> user_static_eq B a b = true -> user_static_hash hash a = user_static_hash hash b)
  /\ ((forall v w, inv v -> inv w -> hash v = hash w -> ft_eq B v w = true) ->
      forall a b, user_static_valid D B inv a -> user_static_valid D B inv b -> user_static_hash hash a = user_static_hash hash b -> user_static_eq B a b = true).
Proof. exact c68_hash_lemma. Qed.
Print Assumptions c68_hash.
Example c68_hash_example : user_static_hash (fun v => [v]) (MkUserStatic (9 * 2 ^ 68) 2) = [9 * 2 ^ 68; 2]
  /\ user_static_eq (wide_type 72) (MkUserStatic (9 * 2 ^ 68) 2) (MkUserStatic (9 * 2 ^ 68) 3) = false.
Proof. concrete. Qed.
