(* PropLimits.v - Big-endian targets, raw construction, capacity of dynamic indices (C36, C43, C46) *)
From Verif Require Import Base ModelNumber ModelDim ModelStorage Model2D Model3D Spec History ExampleTools FactsLimits.

(* ---------- C36 ---------- *)
Theorem c36_try_from_16_bit : forall c D L cells, is_dim D L -> target_endian c = BigEndian -> usize_bits c = 16 ->
  dim D * len cells + 8 <= 2 ^ usize_bits c ->
  exists s, dynamic_try_from c D L cells = Ret (Ok s) /\ valid c D KDynamic s /\ shows (dynamic_ops c D) s cells.
Proof. exact c36_try_from_16_bit_lemma. Qed.
Print Assumptions c36_try_from_16_bit.
Example c36_try_from_16_bit_example :
  let c := Cfg true PW16 BigEndian in
  target_endian c = BigEndian /\ usize_bits c = 16 /\ dim Dim3D * len [O1; O2; O3] + 8 <= 2 ^ usize_bits c
  /\ dynamic_try_from c Dim3D layout3D [O1; O2; O3] = Ret (Ok (MkDynamic [0x80; 0x29] 3))
  /\ shows (dynamic_ops c Dim3D) (MkDynamic [0x80; 0x29] 3) [O1; O2; O3].
Proof. concrete. Qed.

Theorem c36_try_from_writes_zero : forall c D L cells, is_dim D L -> target_endian c = BigEndian -> usize_bits c <> 16 ->
  dim D * len cells + 8 <= 2 ^ usize_bits c ->
  exists s, dynamic_try_from c D L cells = Ret (Ok s) /\ valid c D KDynamic s
    /\ shows (dynamic_ops c D) s (repeat (cell_zero D) (List.length cells)).
Proof. exact c36_try_from_writes_zero_lemma. Qed.
Print Assumptions c36_try_from_writes_zero.
Example c36_try_from_writes_zero_example :
  target_endian big64 = BigEndian /\ usize_bits big64 <> 16 /\ dim Dim3D * len [O1; O2; O3] + 8 <= 2 ^ usize_bits big64
  /\ dynamic_try_from big64 Dim3D layout3D [O1; O2; O3] = Ret (Ok (MkDynamic [0; 0] 3))
  /\ shows (dynamic_ops big64 Dim3D) (MkDynamic [0; 0] 3) [O0; O0; O0].
Proof. concrete. Qed.

(* The property holds exactly on 16-bit targets and for all-Zero paths. *)
Theorem c36_reads_back_partial : forall c D L cells, is_dim D L -> target_endian c = BigEndian ->
  dim D * len cells + 8 <= 2 ^ usize_bits c ->
  exists s, dynamic_try_from c D L cells = Ret (Ok s)
    /\ (shows (dynamic_ops c D) s cells <-> usize_bits c = 16 \/ cells = repeat (cell_zero D) (List.length cells)).
Proof. exact c36_reads_back_partial_lemma. Qed.
Print Assumptions c36_reads_back_partial.
Example c36_reads_back_partial_example :
  target_endian big64 = BigEndian /\ dim Dim2D * len [Q0; Q0] + 8 <= 2 ^ usize_bits big64
  /\ dynamic_try_from big64 Dim2D layout2D [Q0; Q0] = Ret (Ok (MkDynamic [0] 2)) /\ [Q0; Q0] = repeat Q0 2.
Proof. concrete. Qed.

Theorem c36_reads_back_refuted :
  ~ (forall c D L cells, is_dim D L -> target_endian c = BigEndian -> dim D * len cells + 8 <= 2 ^ usize_bits c ->
     exists s, dynamic_try_from c D L cells = Ret (Ok s) /\ shows (dynamic_ops c D) s cells).
Proof. exact c36_reads_back_refuted_lemma. Qed.
Print Assumptions c36_reads_back_refuted.

Theorem c36_set_cell : forall c D L s l i x, is_dim D L -> target_endian c = BigEndian ->
  valid c D KDynamic s -> shows (dynamic_ops c D) s l -> i < len l ->
  exists s', set_cell_at_level (dynamic_ops c D) s i x = Ret s' /\ valid c D KDynamic s'
    /\ shows (dynamic_ops c D) s'
         (firstn (N.to_nat i) l ++ (if usize_bits c =? 16 then x else cell_zero D) :: skipn (N.to_nat i + 1) l).
Proof. exact c36_set_cell_lemma. Qed.
Print Assumptions c36_set_cell.
Example c36_set_cell_example :
  valid big64 Dim2D KDynamic (MkDynamic [0x6C] 3) /\ shows (dynamic_ops big64 Dim2D) (MkDynamic [0x6C] 3) [Q1; Q2; Q3]
  /\ set_cell_at_level (dynamic_ops big64 Dim2D) (MkDynamic [0x6C] 3) 1 Q3 = Ret (MkDynamic [0x4C] 3).
Proof. concrete. Qed.

(* The other operations that write: every cell they write is Zero on 32-bit and 64-bit big-endian targets. *)
Theorem c36_descendant : forall c D L s l cells, is_dim D L -> target_endian c = BigEndian ->
  valid c D KDynamic s -> shows (dynamic_ops c D) s l ->
  8 * len (dy_bits s) + dim D * len cells + 16 <= 2 ^ usize_bits c ->
  exists s', descendant (dynamic_vops c D L) s cells = Ret (Some s') /\ valid c D KDynamic s'
    /\ shows (dynamic_ops c D) s' (l ++ if usize_bits c =? 16 then cells else repeat (cell_zero D) (List.length cells)).
Proof. exact c36_descendant_lemma. Qed.
Print Assumptions c36_descendant.
Example c36_descendant_example :
  valid big64 Dim2D KDynamic (MkDynamic [0x6C] 3) /\ shows (dynamic_ops big64 Dim2D) (MkDynamic [0x6C] 3) [Q1; Q2; Q3]
  /\ 8 * len (dy_bits (MkDynamic [0x6C] 3)) + dim Dim2D * len [Q3; Q1] + 16 <= 2 ^ usize_bits big64
  /\ descendant (dynamic_vops big64 Dim2D layout2D) (MkDynamic [0x6C] 3) [Q3; Q1] = Ret (Some (MkDynamic [0; 0x6C] 5))
  /\ shows (dynamic_ops big64 Dim2D) (MkDynamic [0; 0x6C] 5) [Q1; Q2; Q3; Q0; Q0].
Proof. concrete. Qed.

Theorem c36_inverted : forall c D L s l, is_dim D L -> target_endian c = BigEndian ->
  valid c D KDynamic s -> shows (dynamic_ops c D) s l ->
  exists s', inverted c (dynamic_ops c D) s = Ret s' /\ valid c D KDynamic s'
    /\ shows (dynamic_ops c D) s' (if usize_bits c =? 16 then rev l else repeat (cell_zero D) (List.length l)).
Proof. exact c36_inverted_lemma. Qed.
Print Assumptions c36_inverted.
Example c36_inverted_example :
  valid big64 Dim2D KDynamic (MkDynamic [0x6C] 3) /\ shows (dynamic_ops big64 Dim2D) (MkDynamic [0x6C] 3) [Q1; Q2; Q3]
  /\ inverted big64 (dynamic_ops big64 Dim2D) (MkDynamic [0x6C] 3) = Ret (MkDynamic [0] 3).
Proof. concrete. Qed.

Theorem c36_from_static : forall c D L t (s : storage (KStatic t)) l, is_dim D L -> target_endian c = BigEndian ->
  valid c D (KStatic t) s -> shows (static_ops c D t) s l ->
  exists s', dynamic_from_static c D L t s = Ret s' /\ valid c D KDynamic s'
    /\ shows (dynamic_ops c D) s' (if usize_bits c =? 16 then l else repeat (cell_zero D) (List.length l)).
Proof. exact c36_from_static_lemma. Qed.
Print Assumptions c36_from_static.
Example c36_from_static_example :
  valid big64 Dim2D (KStatic U8) (MkStatic 0x6C 3) /\ shows (static_ops big64 Dim2D U8) (MkStatic 0x6C 3) [Q1; Q2; Q3]
  /\ dynamic_from_static big64 Dim2D layout2D U8 (MkStatic 0x6C 3) = Ret (MkDynamic [0] 3).
Proof. concrete. Qed.

Theorem c36_from_grid_index_3d : forall c x y z d o, target_endian c = BigEndian -> usize_bits c <> 16 ->
  d <= usize_bits c / 2 -> x < 2 ^ usize_bits c -> y < 2 ^ usize_bits c -> z < 2 ^ usize_bits c ->
  exists s, dynamic_from_grid_index_3d c x y z d o = Ret s /\ valid c Dim3D KDynamic s
    /\ shows (dynamic_ops c Dim3D) s (repeat O0 (N.to_nat d)).
Proof. exact c36_from_grid_index_3d_lemma. Qed.
Print Assumptions c36_from_grid_index_3d.
Example c36_from_grid_index_3d_example :
  target_endian big64 = BigEndian /\ usize_bits big64 <> 16 /\ 3 <= usize_bits big64 / 2
  /\ dynamic_from_grid_index_3d big64 1 2 3 3 XYZ = Ret (MkDynamic [0; 0] 3).
Proof. concrete. Qed.

(* ---------- C43 ---------- *)
(* Equality of raw values is equality of cells exactly for bits that are zero behind the path. *)
Theorem c43_static_raw_equality_partial : forall c t b d, b < 2 ^ BITS c t -> d <= BITS c t / 3 ->
  exists l s, shows (static_ops c Dim3D t) (static_from_raw_index b d) l
    /\ static_try_from c Dim3D t l = Ret (Ok s)
    /\ (idx_eq (KStatic t) (static_from_raw_index b d) s = true <-> b mod 2 ^ (BITS c t - 3 * d) = 0).
Proof. exact c43_static_raw_equality_partial_lemma. Qed.
Print Assumptions c43_static_raw_equality_partial.
Example c43_static_raw_equality_partial_example :
  0x20 < 2 ^ BITS debug64 U8 /\ 1 <= BITS debug64 U8 / 3 /\ 0x20 mod 2 ^ (BITS debug64 U8 - 3 * 1) = 0 /\ 0x21 mod 2 ^ (BITS debug64 U8 - 3 * 1) <> 0
  /\ static_try_from debug64 Dim3D U8 [O1] = Ret (Ok (static_from_raw_index 0x20 1)).
Proof. concrete. Qed.

Theorem c43_fixed_raw_equality_partial : forall c t b, b < 2 ^ BITS c t ->
  exists l s, shows (fixed_ops c Dim3D t) (fixed_from_raw_index b) l
    /\ fixed_try_from c Dim3D t l = Ret (Ok s)
    /\ (idx_eq (KFixed t) (fixed_from_raw_index b) s = true <-> b mod 2 ^ (BITS c t mod 3) = 0).
Proof. exact c43_fixed_raw_equality_partial_lemma. Qed.
Print Assumptions c43_fixed_raw_equality_partial.
Example c43_fixed_raw_equality_partial_example :
  0x2C < 2 ^ BITS debug64 U8 /\ 0x2C mod 2 ^ (BITS debug64 U8 mod 3) = 0 /\ 0x2D mod 2 ^ (BITS debug64 U8 mod 3) <> 0
  /\ fixed_try_from debug64 Dim3D U8 [O1; O3] = Ret (Ok (fixed_from_raw_index 0x2C)).
Proof. concrete. Qed.

(* Comparison of raw values within the capacity never panics and looks at the cells only. *)
Theorem c43_raw_cmp_returns : forall c t b d b' d',
  b < 2 ^ BITS c t -> d <= BITS c t / 3 -> b' < 2 ^ BITS c t -> d' <= BITS c t / 3 ->
  exists l l', shows (static_ops c Dim3D t) (static_from_raw_index b d) l
    /\ shows (static_ops c Dim3D t) (static_from_raw_index b' d') l'
    /\ static_cmp c Dim3D t (static_from_raw_index b d) (static_from_raw_index b' d') = Ret (path_cmp l l').
Proof. exact c43_raw_cmp_returns_lemma. Qed.
Print Assumptions c43_raw_cmp_returns.
Example c43_raw_cmp_returns_example :
  0x21 < 2 ^ BITS debug64 U8 /\ 0x20 < 2 ^ BITS debug64 U8 /\ 1 <= BITS debug64 U8 / 3
  /\ static_cmp debug64 Dim3D U8 (static_from_raw_index 0x21 1) (static_from_raw_index 0x20 1) = Ret Eq.
Proof. concrete. Qed.

Theorem c43_too_deep_cmp_panics : forall c t b d b' d', overflow_checks c = true -> d < 2 ^ 8 -> d' < 2 ^ 8 ->
  BITS c t / 3 < d \/ BITS c t / 3 < d' ->
  static_cmp c Dim3D t (static_from_raw_index b d) (static_from_raw_index b' d') = Panic.
Proof. exact c43_too_deep_cmp_panics_lemma. Qed.
Print Assumptions c43_too_deep_cmp_panics.
Example c43_too_deep_cmp_panics_example :
  overflow_checks debug64 = true /\ 3 < 2 ^ 8 /\ BITS debug64 U8 / 3 < 3
  /\ static_cmp debug64 Dim3D U8 (static_from_raw_index 0 1) (static_from_raw_index 0 3) = Panic.
Proof. concrete. Qed.

Theorem c43_raw_equality_refuted :
  ~ (forall c t b d b' d' l, b < 2 ^ BITS c t -> d < 2 ^ 8 -> b' < 2 ^ BITS c t -> d' < 2 ^ 8 ->
     shows (static_ops c Dim3D t) (static_from_raw_index b d) l -> shows (static_ops c Dim3D t) (static_from_raw_index b' d') l ->
     idx_eq (KStatic t) (static_from_raw_index b d) (static_from_raw_index b' d') = true)
  /\ ~ (forall c t b b' l, b < 2 ^ BITS c t -> b' < 2 ^ BITS c t ->
     shows (fixed_ops c Dim3D t) (fixed_from_raw_index b) l -> shows (fixed_ops c Dim3D t) (fixed_from_raw_index b') l ->
     idx_eq (KFixed t) (fixed_from_raw_index b) (fixed_from_raw_index b') = true).
Proof. exact c43_raw_equality_refuted_lemma. Qed.
Print Assumptions c43_raw_equality_refuted.

(* ---------- C46 ---------- *)
(* The exact capacity of a dynamic index with overflow checks. *)
Theorem c46_capacity_partial : forall c D L cells, is_dim D L -> overflow_checks c = true ->
  ((exists s, dynamic_try_from c D L cells = Ret (Ok s)) <-> dim D * len cells + 8 <= 2 ^ usize_bits c)
  /\ (2 ^ usize_bits c < dim D * len cells + 8 -> dynamic_try_from c D L cells = Panic).
Proof. exact c46_capacity_partial_lemma. Qed.
Print Assumptions c46_capacity_partial.
Example c46_capacity_partial_example :
  overflow_checks debug16 = true /\ dim Dim3D * 21842 + 8 <= 2 ^ usize_bits debug16 /\ 2 ^ usize_bits debug16 < dim Dim3D * 21843 + 8.
Proof. concrete. Qed.

Theorem c46_too_many_bytes_partial : forall c D L s, is_dim D L -> overflow_checks c = true ->
  2 ^ usize_bits c <= 8 * len (dy_bits s) ->
  (forall i, get_cell_at_level (dynamic_ops c D) s i = Panic) /\ (forall i x, set_cell_at_level (dynamic_ops c D) s i x = Panic).
Proof. exact c46_too_many_bytes_partial_lemma. Qed.
Print Assumptions c46_too_many_bytes_partial.
Example c46_too_many_bytes_partial_example :
  2 ^ usize_bits debug16 <= 8 * len (dy_bits (dynamic_zeroed_2d 32764))
  /\ get_cell_at_level (dynamic_ops debug16 Dim2D) (dynamic_zeroed_2d 32764) 0 = Panic.
Proof. concrete. Qed.

Theorem c46_unlimited_depth_refuted :
  ~ (forall c D L cells, is_dim D L -> target_endian c = LittleEndian -> exists s, dynamic_try_from c D L cells = Ret (Ok s))
  /\ ~ (forall c d, d < 2 ^ usize_bits c -> exists s, dynamic_zeroed_3d c d = Ret s)
  /\ ~ (forall c d, 0 < d -> d < 2 ^ usize_bits c -> exists x, get_cell_at_level (dynamic_ops c Dim2D) (dynamic_zeroed_2d d) 0 = Ret x).
Proof. exact c46_unlimited_depth_refuted_lemma. Qed.
Print Assumptions c46_unlimited_depth_refuted.
