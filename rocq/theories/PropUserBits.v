(* PropUserBits.v - C68 index storages over a type of bits implemented outside the crate *)
From Coq Require Import Bool ZifyBool ZifyNat ZifyN.
From Verif Require Import Base ModelNumber ModelDim ModelStorage ModelBits ModelUser Spec SpecUser SpecUserBits ExampleTools FactsUserBits.

(* ---------- C68 ---------- *)
(* the laws are met by some type of every number of bits from 8 *)
Theorem c68_every_width : forall c n, 8 <= n -> n < 2 ^ usize_bits c -> fixed_type_laws c (wide_type n) (fun v => v < 2 ^ n) (fun v => v) /\ ft_BITS (wide_type n) = n.
Proof. exact c68_every_width_lemma. Qed.
Print Assumptions c68_every_width.
Example c68_every_width_example : 256 < 2 ^ usize_bits debug64 /\ bo_set_bits (ft_bits (wide_type 256)) 0 254 256 3 = Ret (3 * 2 ^ 254)
  /\ bo_get_bits (ft_bits (wide_type 256)) (3 * 2 ^ 254) 250 256 = Ret 48.
Proof. concrete. Qed.

(* and by the integers of the crate *)
Theorem c68_integers : forall c t, fixed_type_laws c (num_type c t) (fun v => v < 2 ^ BITS c t) (fun v => v).
Proof. exact c68_integers_lemma. Qed.
Print Assumptions c68_integers.
Example c68_integers_example : fixed_type_laws debug64 (num_type debug64 U128) (fun v => v < 2 ^ BITS debug64 U128) (fun v => v).
Proof. exact (c68_integers debug64 U128). Qed.

(* fixed-depth storages: every value holds BITS / DIM cells, writing one replaces it; C67 gives the methods on top *)
Theorem c68_fixed_storage : forall T c D L (B : FixedType T) inv val, is_dim D L -> fixed_type_laws c B inv val ->
  writes_cells (user_fixed_ops c D B) inv
  /\ forall v, inv v -> exists l, shows (user_fixed_ops c D B) v l /\ len l = ft_BITS B / dim D
       /\ forall i x, nth_error l (N.to_nat i) = Some x -> bits_of (val v) (ft_BITS B - (i + 1) * dim D) (dim D) = cell_index D x.
Proof. exact c68_fixed_storage_lemma. Qed.
Print Assumptions c68_fixed_storage.
Example c68_fixed_storage_example : exists v, user_fixed_set debug64 Dim3D (wide_type 256) 0 84 O5 = Ret v /\ v < 2 ^ 256 /\ v = 10
  /\ user_fixed_get debug64 Dim3D (wide_type 256) v 84 = Ret O5 /\ user_fixed_get debug64 Dim3D (wide_type 256) v 83 = Ret O0.
Proof. exists 10. concrete. Qed.

(* static storages likewise, up to their depth *)
Theorem c68_static_storage : forall T c D L (B : FixedType T) inv val, is_dim D L -> fixed_type_laws c B inv val ->
  writes_cells (user_static_ops c D B) (user_static_valid D B inv)
  /\ forall s, user_static_valid D B inv s -> exists l, shows (user_static_ops c D B) s l /\ len l = us_depth s
       /\ forall i x, nth_error l (N.to_nat i) = Some x -> bits_of (val (us_bits s)) (ft_BITS B - (i + 1) * dim D) (dim D) = cell_index D x.
Proof. exact c68_static_storage_lemma. Qed.
Print Assumptions c68_static_storage.
Example c68_static_storage_example : user_static_valid Dim2D (wide_type 256) (fun v => v < 2 ^ 256) (MkUserStatic (7 * 2 ^ 252) 2)
  /\ shows (user_static_ops debug64 Dim2D (wide_type 256)) (MkUserStatic (7 * 2 ^ 252) 2) [Q1; Q3]
  /\ set_cell_at_level (user_static_ops debug64 Dim2D (wide_type 256)) (MkUserStatic (7 * 2 ^ 252) 2) 1 Q2 = Ret (MkUserStatic (6 * 2 ^ 252) 2).
Proof. split; [split; [vm_compute; reflexivity|split; vm_compute; reflexivity || discriminate]|]. concrete. Qed.

Theorem c68_fixed_try_from : forall T c D L (B : FixedType T) inv val cells, is_dim D L -> fixed_type_laws c B inv val ->
  if len cells <=? ft_BITS B / dim D
  then exists v, user_fixed_try_from c D B cells = Ret (Ok v) /\ inv v
         /\ shows (user_fixed_ops c D B) v (cells ++ repeat (cell_zero D) (N.to_nat (ft_BITS B / dim D - len cells)))
  else user_fixed_try_from c D B cells = Ret (Err (DepthLimitedExceeded (ft_BITS B / dim D))).
Proof. exact c68_fixed_try_from_lemma. Qed.
Print Assumptions c68_fixed_try_from.
Example c68_fixed_try_from_example : user_fixed_try_from debug64 Dim2D (wide_type 256) [Q1; Q3] = Ret (Ok (7 * 2 ^ 252))
  /\ user_fixed_try_from debug64 Dim3D (wide_type 16) (repeat O1 6) = Ret (Err (DepthLimitedExceeded 5)).
Proof. concrete. Qed.

(* the depth is stored as u8: beyond 255 cells it is wrong *)
Theorem c68_static_try_from : forall T c D L (B : FixedType T) inv val cells, is_dim D L -> fixed_type_laws c B inv val ->
  if len cells <=? ft_BITS B / dim D
  then exists s, user_static_try_from c D B cells = Ret (Ok s) /\ user_static_valid D B inv s
         /\ shows (user_static_ops c D B) s (firstn (N.to_nat (len cells mod 256)) cells)
  else user_static_try_from c D B cells = Ret (Err (DepthLimitedExceeded (ft_BITS B / dim D))).
Proof. exact c68_static_try_from_lemma. Qed.
Print Assumptions c68_static_try_from.
Example c68_static_try_from_example : user_static_try_from debug64 Dim2D (wide_type 1024) (repeat Q3 258) = Ret (Ok (MkUserStatic ((2 ^ 516 - 1) * 2 ^ 508) 2)).
Proof. concrete. Qed.

Theorem c68_static_ancestor : forall T c D L (B : FixedType T) inv val s l g, is_dim D L -> fixed_type_laws c B inv val ->
  user_static_valid D B inv s -> shows (user_static_ops c D B) s l ->
  if g <=? len l
  then exists s', user_static_ancestor c D B s g = Ret (Some s') /\ user_static_valid D B inv s'
         /\ shows (user_static_ops c D B) s' (firstn (N.to_nat (len l - g)) l)
  else user_static_ancestor c D B s g = Ret None.
Proof. exact c68_static_ancestor_lemma. Qed.
Print Assumptions c68_static_ancestor.
Example c68_static_ancestor_example : user_static_ancestor debug64 Dim2D (wide_type 256) (MkUserStatic (7 * 2 ^ 252) 2) 1 = Ret (Some (MkUserStatic (4 * 2 ^ 252) 1)).
Proof. concrete. Qed.

Theorem c68_static_descendant : forall T c D L (B : FixedType T) inv val s l cells, is_dim D L -> fixed_type_laws c B inv val ->
  user_static_valid D B inv s -> shows (user_static_ops c D B) s l -> len l + len cells < 2 ^ usize_bits c ->
  if len l + len cells <=? ft_BITS B / dim D
  then exists s', user_static_descendant c D B s cells = Ret (Some s') /\ user_static_valid D B inv s'
         /\ shows (user_static_ops c D B) s' (firstn (N.to_nat ((len l + len cells) mod 256)) (l ++ cells))
  else user_static_descendant c D B s cells = Ret None.
Proof. exact c68_static_descendant_lemma. Qed.
Print Assumptions c68_static_descendant.
Example c68_static_descendant_example : user_static_descendant debug64 Dim2D (wide_type 256) (MkUserStatic (4 * 2 ^ 252) 1) [Q3; Q2] = Ret (Some (MkUserStatic (30 * 2 ^ 250) 3)).
Proof. concrete. Qed.

(* up to 255 levels static storages behave like lists, so C67 gives with_depth, parent and child *)
Theorem c68_static_walks : forall T c D L (B : FixedType T) inv val, is_dim D L -> fixed_type_laws c B inv val -> ft_BITS B / dim D < 256 ->
  walks c (user_static_vops c D B) (user_static_valid D B inv) (fun n => n <=? ft_BITS B / dim D).
Proof. exact c68_static_walks_lemma. Qed.
Print Assumptions c68_static_walks.
Example c68_static_walks_example : ft_BITS (wide_type 256) / dim Dim2D < 256
  /\ child (user_static_vops debug64 Dim2D (wide_type 256)) (MkUserStatic (7 * 2 ^ 252) 2) Q1 = Ret (Some (MkUserStatic (29 * 2 ^ 250) 3)).
Proof. concrete. Qed.

Theorem c68_static_cmp : forall T c D L (B : FixedType T) inv val a b la lb, is_dim D L -> fixed_type_laws c B inv val ->
  user_static_valid D B inv a -> user_static_valid D B inv b -> shows (user_static_ops c D B) a la -> shows (user_static_ops c D B) b lb ->
  user_static_cmp c D B a b = Ret (path_cmp la lb).
Proof. exact c68_static_cmp_lemma. Qed.
Print Assumptions c68_static_cmp.
Example c68_static_cmp_example : shows (user_static_ops debug64 Dim2D (wide_type 256)) (MkUserStatic (7 * 2 ^ 252) 2) [Q1; Q3]
  /\ shows (user_static_ops debug64 Dim2D (wide_type 256)) (MkUserStatic (29 * 2 ^ 250) 3) [Q1; Q3; Q1]
  /\ user_static_cmp debug64 Dim2D (wide_type 256) (MkUserStatic (29 * 2 ^ 250) 3) (MkUserStatic (7 * 2 ^ 252) 2) = Ret Gt.
Proof. concrete. Qed.

(* the bits behind the cells decide between indices with the same cells *)
Theorem c68_fixed_cmp : forall T c D L (B : FixedType T) inv val a b la lb, is_dim D L -> fixed_type_laws c B inv val ->
  inv a -> inv b -> shows (user_fixed_ops c D B) a la -> shows (user_fixed_ops c D B) b lb ->
  user_fixed_cmp B a b = match path_cmp la lb with
                         | Eq => N.compare (val a mod 2 ^ (ft_BITS B mod dim D)) (val b mod 2 ^ (ft_BITS B mod dim D))
                         | r => r
                         end.
Proof. exact c68_fixed_cmp_lemma. Qed.
Print Assumptions c68_fixed_cmp.
Example c68_fixed_cmp_example : (2 ^ 253 + 1) mod 2 ^ (ft_BITS (wide_type 256) mod dim Dim3D) = 1
  /\ user_fixed_get debug64 Dim3D (wide_type 256) (2 ^ 253 + 1) 0 = Ret O1 /\ user_fixed_cmp (wide_type 256) (2 ^ 253) (2 ^ 253 + 1) = Lt.
Proof. concrete. Qed.

Theorem c68_equal : forall T c D L (B : FixedType T) inv val la lb a b, is_dim D L -> fixed_type_laws c B inv val ->
  (len la < 256 -> len lb < 256 -> user_static_try_from c D B la = Ret (Ok a) -> user_static_try_from c D B lb = Ret (Ok b) ->
   (user_static_eq B a b = true <-> la = lb)).
Proof. exact c68_equal_lemma. Qed.
Print Assumptions c68_equal.
Example c68_equal_example : user_static_try_from debug64 Dim2D (wide_type 256) [Q1; Q0] = Ret (Ok (MkUserStatic (4 * 2 ^ 252) 2))
  /\ user_static_try_from debug64 Dim2D (wide_type 256) [Q1] = Ret (Ok (MkUserStatic (4 * 2 ^ 252) 1))
  /\ user_static_eq (wide_type 256) (MkUserStatic (4 * 2 ^ 252) 2) (MkUserStatic (4 * 2 ^ 252) 1) = false.
Proof. concrete. Qed.

(* fixed -> static keeps the cells if there are fewer than 256, static -> fixed puts cells behind *)
Theorem c68_conversions : forall T c D L (B : FixedType T) inv val, is_dim D L -> fixed_type_laws c B inv val ->
  (forall v l, inv v -> shows (user_fixed_ops c D B) v l ->
     user_static_valid D B inv (user_static_from_fixed D B v)
     /\ shows (user_static_ops c D B) (user_static_from_fixed D B v) (firstn (N.to_nat (len l mod 256)) l))
  /\ (forall s l, user_static_valid D B inv s -> shows (user_static_ops c D B) s l ->
     exists r, inv (user_fixed_from_static s) /\ shows (user_fixed_ops c D B) (user_fixed_from_static s) (l ++ r)).
Proof. exact c68_conversions_lemma. Qed.
Print Assumptions c68_conversions.
Example c68_conversions_example : user_static_from_fixed Dim2D (wide_type 256) (7 * 2 ^ 252) = MkUserStatic (7 * 2 ^ 252) 128
  /\ user_static_from_fixed Dim2D (wide_type 512) (7 * 2 ^ 508) = MkUserStatic (7 * 2 ^ 508) 0.
Proof. concrete. Qed.

Theorem c68_zeroed : forall T c D L (B : FixedType T) inv val n, is_dim D L -> fixed_type_laws c B inv val -> n < 256 ->
  if n <=? ft_BITS B / dim D
  then exists s, user_static_zeroed c D B n = Some s /\ user_static_valid D B inv s /\ shows (user_static_ops c D B) s (repeat (cell_zero D) (N.to_nat n))
  else user_static_zeroed c D B n = None.
Proof. exact c68_zeroed_lemma. Qed.
Print Assumptions c68_zeroed.
Example c68_zeroed_example : user_static_zeroed debug64 Dim3D (wide_type 256) 85 = Some (MkUserStatic 0 85) /\ user_static_zeroed debug64 Dim3D (wide_type 256) 86 = None.
Proof. concrete. Qed.

Theorem c68_depth_refuted : ~ (forall T c D L (B : FixedType T) inv val cells s, is_dim D L -> fixed_type_laws c B inv val ->
  user_static_try_from c D B cells = Ret (Ok s) -> us_depth s = len cells).
Proof. exact c68_depth_refuted_lemma. Qed.
Print Assumptions c68_depth_refuted.
