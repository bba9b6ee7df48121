(* PropKinds.v - Storage types on bits of any type (C57) and storages whose bits were replaced (C58) *)
From Coq Require Import ZifyBool ZifyNat ZifyN.
From Verif Require Import Base ModelNumber ModelDim ModelStorage Model2D Model3D ModelBits Spec ExampleTools FactsKinds.

(* ---------- C57 ---------- *)
(* t is the integer type of the storage type, t' the one of the bits; the last hypothesis says that the bits reach up to the cell *)
Theorem c57_get_integer : forall c D L t t' v level, is_dim D L -> v < 2 ^ BITS c t' ->
  dim D * (level + 1) <= BITS c t -> BITS c t - dim D * level <= BITS c t' ->
  exists x, cell_index D x = v / 2 ^ (BITS c t - dim D * (level + 1)) mod 2 ^ dim D
    /\ fixed_type_get c D t (num_bits c t') v level = Ret x /\ static_type_get c D t (num_bits c t') v level = Ret x
    /\ (BITS c t' = BITS c t -> dynamic_type_get c D (num_bits c t') v level = Ret x).
Proof. exact c57_get_integer_lemma. Qed.
Print Assumptions c57_get_integer.
Example c57_get_integer_example :
  0x2C1D < 2 ^ BITS debug64 U16 /\ dim Dim3D * (1 + 1) <= BITS debug64 U8 /\ BITS debug64 U8 - dim Dim3D * 1 <= BITS debug64 U16
  /\ fixed_type_get debug64 Dim3D U8 (num_bits debug64 U16) 0x2C1D 1 = Ret O7
  /\ dynamic_type_get debug64 Dim3D (num_bits debug64 U16) 0x2C1D 1 = Ret O3.
Proof. concrete. Qed.

Theorem c57_set_integer : forall c D L t t' v level x, is_dim D L -> v < 2 ^ BITS c t' ->
  dim D * (level + 1) <= BITS c t -> BITS c t - dim D * level <= BITS c t' ->
  exists v', v' < 2 ^ BITS c t' /\ bits_replaced v (BITS c t - dim D * (level + 1)) (dim D) (cell_index D x) v'
    /\ fixed_type_set c D t (num_bits c t') v level x = Ret v' /\ static_type_set c D t (num_bits c t') v level x = Ret v'
    /\ (BITS c t' = BITS c t -> dynamic_type_set c D (num_bits c t') v level x = Ret v').
Proof. exact c57_set_integer_lemma. Qed.
Print Assumptions c57_set_integer.
Example c57_set_integer_example :
  0x2C1D < 2 ^ BITS debug64 U16 /\ dim Dim3D * (1 + 1) <= BITS debug64 U8 /\ BITS debug64 U8 - dim Dim3D * 1 <= BITS debug64 U16
  /\ static_type_set debug64 Dim3D U8 (num_bits debug64 U16) 0x2C1D 1 O2 = Ret 0x2C09
  /\ dynamic_type_set debug64 Dim3D (num_bits debug64 U16) 0x2C1D 1 O2 = Ret 0x281D.
Proof. concrete. Qed.

(* on every target, unlike writes of DynamicStorage (C36) *)
Theorem c57_set_vec : forall c D L t vec level x, is_dim D L -> Forall (fun b => b < 256) vec -> 8 * len vec + 8 <= 2 ^ usize_bits c ->
  dim D * (level + 1) <= BITS c t -> BITS c t - dim D * level <= 8 * len vec ->
  exists vec', fixed_type_set c D t (vec_bits c) vec level x = Ret vec' /\ static_type_set c D t (vec_bits c) vec level x = Ret vec'
    /\ Forall (fun b => b < 256) vec' /\ len vec' = len vec
    /\ bits_replaced (bytes_value vec) (BITS c t - dim D * (level + 1)) (dim D) (cell_index D x) (bytes_value vec').
Proof. exact c57_set_vec_lemma. Qed.
Print Assumptions c57_set_vec.
Example c57_set_vec_example :
  8 * len [1; 0xFF; 3] + 8 <= 2 ^ usize_bits big64 /\ dim Dim3D * (2 + 1) <= BITS big64 U16 /\ BITS big64 U16 - dim Dim3D * 2 <= 8 * len [1; 0xFF; 3]
  /\ fixed_type_set big64 Dim3D U16 (vec_bits big64) [1; 0xFF; 3] 2 O2 = Ret [1; 0xFD; 3].
Proof. concrete. Qed.

Theorem c57_get_vec_2d : forall c t vec level, Forall (fun b => b < 256) vec -> 8 * len vec + 8 <= 2 ^ usize_bits c ->
  2 * (level + 1) <= BITS c t -> BITS c t - 2 * level <= 8 * len vec ->
  exists x, quadrant_index x = bytes_value vec / 2 ^ (BITS c t - 2 * (level + 1)) mod 4
    /\ fixed_type_get c Dim2D t (vec_bits c) vec level = Ret x /\ static_type_get c Dim2D t (vec_bits c) vec level = Ret x.
Proof. exact c57_get_vec_2d_lemma. Qed.
Print Assumptions c57_get_vec_2d.
Example c57_get_vec_2d_example :
  8 * len [0x1B; 0x2C] + 8 <= 2 ^ usize_bits debug64 /\ 2 * (5 + 1) <= BITS debug64 U16 /\ BITS debug64 U16 - 2 * 5 <= 8 * len [0x1B; 0x2C]
  /\ fixed_type_get debug64 Dim2D U16 (vec_bits debug64) [0x1B; 0x2C] 5 = Ret Q1.
Proof. concrete. Qed.

(* Missing: octants that cross a byte boundary, see the next theorem *)
Theorem c57_get_vec_3d_partial : forall c t vec level, Forall (fun b => b < 256) vec -> 8 * len vec + 8 <= 2 ^ usize_bits c ->
  3 * (level + 1) <= BITS c t -> BITS c t - 3 * level <= 8 * len vec -> (BITS c t - 3 * (level + 1)) mod 8 <= 5 ->
  exists x, octant_index x = bytes_value vec / 2 ^ (BITS c t - 3 * (level + 1)) mod 8
    /\ fixed_type_get c Dim3D t (vec_bits c) vec level = Ret x /\ static_type_get c Dim3D t (vec_bits c) vec level = Ret x.
Proof. exact c57_get_vec_3d_partial_lemma. Qed.
Print Assumptions c57_get_vec_3d_partial.
Example c57_get_vec_3d_partial_example :
  8 * len [0x1B; 0x2C] + 8 <= 2 ^ usize_bits debug64 /\ 3 * (1 + 1) <= BITS debug64 U16 /\ BITS debug64 U16 - 3 * 1 <= 8 * len [0x1B; 0x2C]
  /\ (BITS debug64 U16 - 3 * (1 + 1)) mod 8 <= 5
  /\ fixed_type_get debug64 Dim3D U16 (vec_bits debug64) [0x1B; 0x2C] 1 = Ret O3.
Proof. concrete. Qed.

(* An octant that crosses a byte boundary is read together with the bits above it *)
Theorem c57_get_vec_3d_straddling : forall c t vec level, Forall (fun b => b < 256) vec -> 8 * len vec + 8 <= 2 ^ usize_bits c ->
  3 * (level + 1) <= BITS c t -> BITS c t - 3 * level <= 8 * len vec -> 5 < (BITS c t - 3 * (level + 1)) mod 8 ->
  let r := bytes_value vec / 2 ^ (BITS c t - 3 * (level + 1)) mod 256 in
  if r <? 8
  then exists x, octant_index x = r
    /\ fixed_type_get c Dim3D t (vec_bits c) vec level = Ret x /\ static_type_get c Dim3D t (vec_bits c) vec level = Ret x
  else fixed_type_get c Dim3D t (vec_bits c) vec level = Panic /\ static_type_get c Dim3D t (vec_bits c) vec level = Panic.
Proof. exact c57_get_vec_3d_straddling_lemma. Qed.
Print Assumptions c57_get_vec_3d_straddling.
Example c57_get_vec_3d_straddling_example :
  8 * len [0x80; 0x01] + 8 <= 2 ^ usize_bits debug64 /\ 3 * (2 + 1) <= BITS debug64 U16 /\ BITS debug64 U16 - 3 * 2 <= 8 * len [0x80; 0x01]
  /\ 5 < (BITS debug64 U16 - 3 * (2 + 1)) mod 8
  /\ fixed_type_get debug64 Dim3D U16 (vec_bits debug64) [0x80; 0x01] 2 = Ret O3
  /\ fixed_type_get debug64 Dim3D U16 (vec_bits debug64) [0x80; 0x05] 2 = Panic.
Proof. concrete. Qed.

(* witness: the bytes [0; 0x30] hold the octants 1, 4, 0, ...; reading level 2 panics *)
Theorem c57_get_vec_3d_refuted :
  ~ (forall c t vec level, Forall (fun b => b < 256) vec -> 8 * len vec + 8 <= 2 ^ usize_bits c ->
     3 * (level + 1) <= BITS c t -> BITS c t - 3 * level <= 8 * len vec ->
     exists x, octant_index x = bytes_value vec / 2 ^ (BITS c t - 3 * (level + 1)) mod 8
       /\ fixed_type_get c Dim3D t (vec_bits c) vec level = Ret x).
Proof. exact c57_get_vec_3d_refuted_lemma. Qed.
Print Assumptions c57_get_vec_3d_refuted.

(* DynamicStorage on byte vectors: the root cell is at the top of the last byte *)
Theorem c57_dynamic_vec : forall c D L vec level, is_dim D L -> Forall (fun b => b < 256) vec -> 8 * len vec + 8 <= 2 ^ usize_bits c ->
  dim D * (level + 1) <= 8 * len vec ->
  let pos := 8 * len vec - dim D * (level + 1) in
  (exists x, cell_index D x = bytes_value vec / 2 ^ pos mod 2 ^ dim D /\ dynamic_type_get c D (vec_bits c) vec level = Ret x)
  /\ forall x, exists vec', dynamic_type_set c D (vec_bits c) vec level x = Ret vec'
       /\ Forall (fun b => b < 256) vec' /\ len vec' = len vec
       /\ bits_replaced (bytes_value vec) pos (dim D) (cell_index D (stored c D KDynamic x)) (bytes_value vec').
Proof. exact c57_dynamic_vec_lemma. Qed.
Print Assumptions c57_dynamic_vec.
Example c57_dynamic_vec_example :
  Forall (fun b => b < 256) [0x80; 0x29] /\ 8 * len [0x80; 0x29] + 8 <= 2 ^ usize_bits debug64 /\ dim Dim3D * (2 + 1) <= 8 * len [0x80; 0x29]
  /\ dynamic_type_get debug64 Dim3D (vec_bits debug64) [0x80; 0x29] 2 = Ret O3
  /\ dynamic_type_set debug64 Dim3D (vec_bits debug64) [0x80; 0x29] 2 O6 = Ret [0; 0x2B].
Proof. split; [repeat apply Forall_cons; try apply Forall_nil; reflexivity|]. concrete. Qed.

(* ---------- C58 ---------- *)
(* bits_mut gives access to all bits; after any change the cells are those of the new bits *)
Theorem c58_fixed_bits : forall c D L t (s : storage (KFixed t)) b, is_dim D L -> b < 2 ^ BITS c t ->
  valid c D (KFixed t) (fixed_put_bits s b)
  /\ exists l, shows (fixed_ops c D t) (fixed_put_bits s b) l /\ len l = BITS c t / dim D
     /\ forall i x, nth_error l (N.to_nat i) = Some x -> cell_index D x = b / 2 ^ (BITS c t - dim D * (i + 1)) mod 2 ^ dim D.
Proof. exact c58_fixed_bits_lemma. Qed.
Print Assumptions c58_fixed_bits.
Example c58_fixed_bits_example :
  0xB7 < 2 ^ BITS debug64 U8 /\ shows (fixed_ops debug64 Dim2D U8) (fixed_put_bits (MkFixed 3) 0xB7) [Q2; Q3; Q1; Q3].
Proof. concrete. Qed.

Theorem c58_static_bits : forall c D L t (s : storage (KStatic t)) b, is_dim D L -> valid c D (KStatic t) s -> b < 2 ^ BITS c t ->
  valid c D (KStatic t) (static_put_bits s b)
  /\ exists l, shows (static_ops c D t) (static_put_bits s b) l /\ len l = sx_depth s
     /\ forall i x, nth_error l (N.to_nat i) = Some x -> cell_index D x = b / 2 ^ (BITS c t - dim D * (i + 1)) mod 2 ^ dim D.
Proof. exact c58_static_bits_lemma. Qed.
Print Assumptions c58_static_bits.
Example c58_static_bits_example :
  valid debug64 Dim3D (KStatic U8) (MkStatic 0 2) /\ 0xBF < 2 ^ BITS debug64 U8
  /\ shows (static_ops debug64 Dim3D U8) (static_put_bits (MkStatic 0 2) 0xBF) [O5; O7].
Proof. concrete. Qed.

(* the new vector may have any length that holds the cells *)
Theorem c58_dynamic_bits : forall c D L (s : storage KDynamic) b, is_dim D L ->
  Forall (fun x => x < 256) b -> dim D * dy_depth s <= 8 * len b -> 8 * len b + 8 <= 2 ^ usize_bits c ->
  valid c D KDynamic (dynamic_put_bits s b)
  /\ exists l, shows (dynamic_ops c D) (dynamic_put_bits s b) l /\ len l = dy_depth s
     /\ forall i x, nth_error l (N.to_nat i) = Some x -> cell_index D x = bytes_value b / 2 ^ (8 * len b - dim D * (i + 1)) mod 2 ^ dim D.
Proof. exact c58_dynamic_bits_lemma. Qed.
Print Assumptions c58_dynamic_bits.
Example c58_dynamic_bits_example :
  dim Dim2D * dy_depth (MkDynamic [0x40] 3) <= 8 * len [1; 2; 0xB7] /\ 8 * len [1; 2; 0xB7] + 8 <= 2 ^ usize_bits debug64
  /\ shows (dynamic_ops debug64 Dim2D) (dynamic_put_bits (MkDynamic [0x40] 3) [1; 2; 0xB7]) [Q2; Q3; Q1].
Proof. concrete. Qed.

(* With overflow checks exactly the levels without bits panic *)
Theorem c58_short_vector : forall c D L (s : storage KDynamic) b i, is_dim D L -> overflow_checks c = true ->
  Forall (fun x => x < 256) b -> 8 * len b + 8 <= 2 ^ usize_bits c -> i < dy_depth s -> dy_depth s < 2 ^ usize_bits c ->
  if dim D * (i + 1) <=? 8 * len b
  then exists x, get_cell_at_level (dynamic_ops c D) (dynamic_put_bits s b) i = Ret x
         /\ cell_index D x = bytes_value b / 2 ^ (8 * len b - dim D * (i + 1)) mod 2 ^ dim D
  else get_cell_at_level (dynamic_ops c D) (dynamic_put_bits s b) i = Panic.
Proof. exact c58_short_vector_lemma. Qed.
Print Assumptions c58_short_vector.
Example c58_short_vector_example : let s := dynamic_put_bits (MkDynamic [0; 0x40] 5) [0xB7] in
  8 * len [0xB7] + 8 <= 2 ^ usize_bits debug64 /\ dy_depth s < 2 ^ usize_bits debug64
  /\ get_cell_at_level (dynamic_ops debug64 Dim2D) s 3 = Ret Q3 /\ get_cell_at_level (dynamic_ops debug64 Dim2D) s 4 = Panic.
Proof. concrete. Qed.

(* An edited storage equals the one made from its cells exactly when the bits behind the cells are zero *)
Theorem c58_fixed_equality : forall c D L t (s : storage (KFixed t)) b, is_dim D L -> b < 2 ^ BITS c t ->
  exists l s', shows (fixed_ops c D t) (fixed_put_bits s b) l /\ fixed_try_from c D t l = Ret (Ok s')
    /\ (idx_eq (KFixed t) (fixed_put_bits s b) s' = true <-> b mod 2 ^ (BITS c t mod dim D) = 0).
Proof. exact c58_fixed_equality_lemma. Qed.
Print Assumptions c58_fixed_equality.
Example c58_fixed_equality_example :
  0xB6 < 2 ^ BITS debug64 U8 /\ fixed_try_from debug64 Dim3D U8 [O5; O5] = Ret (Ok (MkFixed 0xB4))
  /\ shows (fixed_ops debug64 Dim3D U8) (fixed_put_bits (MkFixed 0) 0xB6) [O5; O5] /\ 0xB6 mod 2 ^ (BITS debug64 U8 mod dim Dim3D) <> 0
  /\ idx_eq (KFixed U8) (fixed_put_bits (MkFixed 0) 0xB6) (MkFixed 0xB4) = false.
Proof. concrete. Qed.

Theorem c58_static_equality : forall c D L t (s : storage (KStatic t)) b, is_dim D L -> valid c D (KStatic t) s -> b < 2 ^ BITS c t ->
  exists l s', shows (static_ops c D t) (static_put_bits s b) l /\ static_try_from c D t l = Ret (Ok s')
    /\ (idx_eq (KStatic t) (static_put_bits s b) s' = true <-> b mod 2 ^ (BITS c t - dim D * sx_depth s) = 0).
Proof. exact c58_static_equality_lemma. Qed.
Print Assumptions c58_static_equality.
Example c58_static_equality_example :
  valid debug64 Dim2D (KStatic U8) (MkStatic 0 2) /\ 0xB0 < 2 ^ BITS debug64 U8
  /\ static_try_from debug64 Dim2D U8 [Q2; Q3] = Ret (Ok (static_put_bits (MkStatic 0 2) 0xB0))
  /\ 0xB0 mod 2 ^ (BITS debug64 U8 - dim Dim2D * 2) = 0 /\ 0xB1 mod 2 ^ (BITS debug64 U8 - dim Dim2D * 2) <> 0.
Proof. concrete. Qed.

(* For byte vectors the length has to be minimal, too *)
Theorem c58_dynamic_equality : forall c D L (s : storage KDynamic) b, is_dim D L -> writable c KDynamic ->
  Forall (fun x => x < 256) b -> dim D * dy_depth s <= 8 * len b -> 8 * len b + 8 <= 2 ^ usize_bits c ->
  exists l s', shows (dynamic_ops c D) (dynamic_put_bits s b) l /\ dynamic_try_from c D L l = Ret (Ok s')
    /\ (idx_eq KDynamic (dynamic_put_bits s b) s' = true
        <-> len b = (dim D * dy_depth s + 7) / 8 /\ bytes_value b mod 2 ^ (8 * len b - dim D * dy_depth s) = 0).
Proof. exact c58_dynamic_equality_lemma. Qed.
Print Assumptions c58_dynamic_equality.
Example c58_dynamic_equality_example :
  dynamic_try_from debug64 Dim2D layout2D [Q2; Q3; Q1] = Ret (Ok (dynamic_put_bits (MkDynamic [0x40] 3) [0xB4]))
  /\ shows (dynamic_ops debug64 Dim2D) (dynamic_put_bits (MkDynamic [0x40] 3) [0; 0xB4]) [Q2; Q3; Q1]
  /\ idx_eq KDynamic (dynamic_put_bits (MkDynamic [0x40] 3) [0; 0xB4]) (MkDynamic [0xB4] 3) = false
  /\ len [0; 0xB4] <> (dim Dim2D * 3 + 7) / 8.
Proof. concrete. Qed.

(* cmp looks at the cells only *)
Theorem c58_static_comparison : forall c D L t (s s' : storage (KStatic t)) b b', is_dim D L ->
  valid c D (KStatic t) s -> valid c D (KStatic t) s' -> b < 2 ^ BITS c t -> b' < 2 ^ BITS c t ->
  exists l l', shows (static_ops c D t) (static_put_bits s b) l /\ shows (static_ops c D t) (static_put_bits s' b') l'
    /\ static_cmp c D t (static_put_bits s b) (static_put_bits s' b') = Ret (path_cmp l l').
Proof. exact c58_static_comparison_lemma. Qed.
Print Assumptions c58_static_comparison.
Example c58_static_comparison_example :
  valid debug64 Dim2D (KStatic U8) (MkStatic 0 2) /\ 0xB1 < 2 ^ BITS debug64 U8 /\ 0xB0 < 2 ^ BITS debug64 U8
  /\ static_cmp debug64 Dim2D U8 (static_put_bits (MkStatic 0 2) 0xB1) (static_put_bits (MkStatic 0 2) 0xB0) = Ret Eq.
Proof. concrete. Qed.

Theorem c58_dynamic_comparison : forall c D L (s s' : storage KDynamic) b b', is_dim D L ->
  valid c D KDynamic (dynamic_put_bits s b) -> valid c D KDynamic (dynamic_put_bits s' b') ->
  exists l l', shows (dynamic_ops c D) (dynamic_put_bits s b) l /\ shows (dynamic_ops c D) (dynamic_put_bits s' b') l'
    /\ dynamic_cmp c D (dynamic_put_bits s b) (dynamic_put_bits s' b') = Ret (path_cmp l l').
Proof. exact c58_dynamic_comparison_lemma. Qed.
Print Assumptions c58_dynamic_comparison.
Example c58_dynamic_comparison_example :
  valid debug64 Dim2D KDynamic (dynamic_put_bits (MkDynamic [0x40] 3) [9; 0xB4]) /\ valid debug64 Dim2D KDynamic (dynamic_put_bits (MkDynamic [0x40] 2) [0xB7])
  /\ dynamic_cmp debug64 Dim2D (dynamic_put_bits (MkDynamic [0x40] 3) [9; 0xB4]) (dynamic_put_bits (MkDynamic [0x40] 2) [0xB7]) = Ret Gt.
Proof. concrete. Qed.

(* In 2D there are no bits behind the cells; in 3D they decide between equal paths *)
Theorem c58_fixed_comparison : forall c D L t (s s' : storage (KFixed t)) b b', is_dim D L -> b < 2 ^ BITS c t -> b' < 2 ^ BITS c t ->
  exists l l', shows (fixed_ops c D t) (fixed_put_bits s b) l /\ shows (fixed_ops c D t) (fixed_put_bits s' b') l'
    /\ let n := 2 ^ (BITS c t mod dim D) in
       fixed_cmp (fixed_put_bits s b) (fixed_put_bits s' b')
       = match path_cmp l l' with Eq => N.compare (b mod n) (b' mod n) | r => r end.
Proof. exact c58_fixed_comparison_lemma. Qed.
Print Assumptions c58_fixed_comparison.
Example c58_fixed_comparison_example :
  0xB6 < 2 ^ BITS debug64 U8 /\ 0xB5 < 2 ^ BITS debug64 U8
  /\ fixed_cmp (fixed_put_bits (MkFixed 0) 0xB6) (fixed_put_bits (MkFixed 0) 0xB5) = Gt
  /\ shows (fixed_ops debug64 Dim3D U8) (MkFixed 0xB6) [O5; O5] /\ shows (fixed_ops debug64 Dim3D U8) (MkFixed 0xB5) [O5; O5].
Proof. concrete. Qed.
