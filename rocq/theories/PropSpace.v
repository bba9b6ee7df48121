(* PropSpace.v - Morton codes and order (C59), nesting of regions (C60), subtrees as ranges (C61) *)
From Coq Require Import ZifyBool ZifyNat ZifyN.
From Verif Require Import Base ModelNumber ModelDim ModelStorage Model2D Model3D Spec SpecSpace History ExampleTools FactsSpace.

(* ---------- C59 ---------- *)
(* the order of indices is the order of the Morton codes of their grid cells, brought to a common depth; equal codes: the shallower one is first *)
Theorem c59_order_2d : forall c L k e e' (a b : storage k) la lb o x y x' y',
  made c Dim2D L k e a la -> made c Dim2D L k e' b lb -> len la <= usize_bits c -> len lb <= usize_bits c ->
  to_grid_index_2d c (ops c Dim2D k) a o = Ret (x, y) -> to_grid_index_2d c (ops c Dim2D k) b o = Ret (x', y') ->
  idx_cmp c Dim2D k a b = Ret (compare_codes 2 (len la) (morton2 o (len la) x y) (len lb) (morton2 o (len lb) x' y')).
Proof. exact c59_order_2d_lemma. Qed.
Print Assumptions c59_order_2d.
Example c59_order_2d_example :
  made debug64 Dim2D layout2D (KStatic U16) true (MkStatic 0xB000 2) [Q2; Q3]
  /\ made debug64 Dim2D layout2D (KStatic U16) true (MkStatic 0x8000 1) [Q2]
  /\ to_grid_index_2d debug64 (ops debug64 Dim2D (KStatic U16)) (MkStatic 0xB000 2) XY = Ret (1, 3)
  /\ to_grid_index_2d debug64 (ops debug64 Dim2D (KStatic U16)) (MkStatic 0x8000 1) XY = Ret (0, 1)
  /\ morton2 XY 2 1 3 = 11 /\ morton2 YX 2 1 3 = 7 /\ morton2 XY 1 0 1 = 2 /\ compare_codes 2 2 11 1 2 = Gt.
Proof.
  split; [made_by (start_static_cells debug64 Dim2D layout2D U16 [Q2; Q3]) (@nil (call Dim2D))|].
  split; [made_by (start_static_default debug64 Dim2D layout2D U16) [CChild (D:=Dim2D) Q2]|]. concrete.
Qed.

Theorem c59_order_3d : forall c L k e e' (a b : storage k) la lb o x y z x' y' z',
  (forall t, k = KFixed t -> e = true /\ e' = true) ->
  made c Dim3D L k e a la -> made c Dim3D L k e' b lb -> len la <= usize_bits c -> len lb <= usize_bits c ->
  to_grid_index_3d c (ops c Dim3D k) a o = Ret (x, y, z) -> to_grid_index_3d c (ops c Dim3D k) b o = Ret (x', y', z') ->
  idx_cmp c Dim3D k a b = Ret (compare_codes 3 (len la) (morton3 o (len la) x y z) (len lb) (morton3 o (len lb) x' y' z')).
Proof. exact c59_order_3d_lemma. Qed.
Print Assumptions c59_order_3d.
Example c59_order_3d_example :
  made debug64 Dim3D layout3D KDynamic true (MkDynamic [0x80; 0x29] 3) [O1; O2; O3]
  /\ made debug64 Dim3D layout3D KDynamic true (MkDynamic [0x20] 1) [O1]
  /\ to_grid_index_3d debug64 (ops debug64 Dim3D KDynamic) (MkDynamic [0x80; 0x29] 3) XYZ = Ret (5, 3, 0)
  /\ to_grid_index_3d debug64 (ops debug64 Dim3D KDynamic) (MkDynamic [0x20] 1) XYZ = Ret (1, 0, 0)
  /\ morton3 XYZ 3 5 3 0 = 83 /\ morton3 ZYX 3 5 3 0 = 278 /\ morton3 XYZ 1 1 0 0 = 1 /\ compare_codes 3 3 83 1 1 = Gt.
Proof.
  split; [made_by (start_dynamic_cells debug64 Dim3D layout3D [O1; O2; O3]) (@nil (call Dim3D))|].
  split; [made_by (start_dynamic_cells debug64 Dim3D layout3D [O1; O2; O3]) [CParent (D:=Dim3D); CAncestor (D:=Dim3D) 1]|]. concrete.
Qed.

(* the raw index of a grid cell is its Morton code followed by the unused bits *)
Theorem c59_fixed_raw : forall c t x y z o, 32 <= usize_bits c -> BITS c t / 3 < usize_bits c ->
  fixed_from_grid_index_3d c t x y z o = Ret (fixed_from_raw_index (morton3 o (BITS c t / 3) x y z * 2 ^ (BITS c t mod 3))).
Proof. exact c59_fixed_raw_lemma. Qed.
Print Assumptions c59_fixed_raw.
Example c59_fixed_raw_example :
  32 <= usize_bits debug64 /\ BITS debug64 U16 / 3 < usize_bits debug64 /\ morton3 XZY 5 1 2 31 = 9395
  /\ fixed_from_grid_index_3d debug64 U16 1 2 31 XZY = Ret (fixed_from_raw_index 18790).
Proof. concrete. Qed.

Theorem c59_fast_raw : forall c x y z o, 32 <= usize_bits c ->
  from_grid_index_fast c x y z o = Ret (fixed_from_raw_index (morton3 o 21 x y z * 2)).
Proof. exact c59_fast_raw_lemma. Qed.
Print Assumptions c59_fast_raw.
Example c59_fast_raw_example :
  32 <= usize_bits debug64 /\ from_grid_index_fast debug64 (2 ^ 40 + 1) 2 7 YXZ = Ret (fixed_from_raw_index (2 * morton3 YXZ 21 1 2 7)).
Proof. concrete. Qed.

(* lost is 0 at the depths at which conversion from grid indices is exact, see C09 *)
Theorem c59_static_raw : forall c t x y z d o,
  BITS c t / 3 <= usize_bits c -> x < 2 ^ usize_bits c -> y < 2 ^ usize_bits c -> z < 2 ^ usize_bits c -> d <= BITS c t / 3 ->
  let M := BITS c t / 3 in
  let lost := 8 * ((M + 7) / 8 - (d + 7) / 8) - (M - d) in
  static_from_grid_index_3d c t x y z d o
  = Ret (Ok (static_from_raw_index
      (morton3 o d (x / 2 ^ lost * 2 ^ lost) (y / 2 ^ lost * 2 ^ lost) (z / 2 ^ lost * 2 ^ lost) * 2 ^ (BITS c t - 3 * d)) d)).
Proof. exact c59_static_raw_lemma. Qed.
Print Assumptions c59_static_raw.
Example c59_static_raw_example :
  BITS debug64 U64 / 3 <= usize_bits debug64 /\ 300 < 2 ^ usize_bits debug64 /\ 20 <= BITS debug64 U64 / 3
  /\ static_from_grid_index_3d debug64 U64 300 21 7 20 XYZ = Ret (Ok (static_from_raw_index (morton3 XYZ 20 300 21 7 * 16) 20))
  /\ static_from_grid_index_3d debug64 U64 300 21 7 16 XYZ = Ret (Ok (static_from_raw_index (morton3 XYZ 16 296 16 0 * 65536) 16)).
Proof. concrete. Qed.

(* ---------- C60 ---------- *)
(* a is b or an ancestor of b: with_depth at the depth of a turns b into a *)
Theorem c60_with_depth_finds_ancestors : forall c D L k v (a b : storage k) la lb,
  made c D L k true a la -> made c D L k true b lb -> var_ops c D L k = Some v ->
  ((exists s, with_depth c v b (st_depth (ops c D k) a) = Ret (Some s) /\ idx_eq k s a = true) <-> is_prefix la lb).
Proof. exact c60_with_depth_finds_ancestors_lemma. Qed.
Print Assumptions c60_with_depth_finds_ancestors.
Example c60_with_depth_finds_ancestors_example :
  made debug64 Dim2D layout2D (KStatic U16) true (MkStatic 0x8000 1) [Q2]
  /\ made debug64 Dim2D layout2D (KStatic U16) true (MkStatic 0xB000 2) [Q2; Q3]
  /\ with_depth debug64 (static_vops debug64 Dim2D U16) (MkStatic 0xB000 2) 1 = Ret (Some (MkStatic 0x8000 1)).
Proof.
  split; [made_by (start_static_default debug64 Dim2D layout2D U16) [CChild (D:=Dim2D) Q2]|].
  split; [made_by (start_static_cells debug64 Dim2D layout2D U16 [Q2; Q3]) (@nil (call Dim2D))|]. concrete.
Qed.

(* node a of depth len la at (x, y) covers the grid cells of b's resolution with coordinates x and y after dropping the last bits *)
Theorem c60_nesting_2d : forall c L k e e' (a b : storage k) la lb o x y x' y',
  made c Dim2D L k e a la -> made c Dim2D L k e' b lb -> len la <= usize_bits c -> len lb <= usize_bits c ->
  to_grid_index_2d c (ops c Dim2D k) a o = Ret (x, y) -> to_grid_index_2d c (ops c Dim2D k) b o = Ret (x', y') ->
  (is_prefix la lb <-> len la <= len lb /\ covers (len la) x (len lb) x' /\ covers (len la) y (len lb) y').
Proof. exact c60_nesting_2d_lemma. Qed.
Print Assumptions c60_nesting_2d.
Example c60_nesting_2d_example :
  made debug64 Dim2D layout2D (KStatic U16) true (MkStatic 0x8000 1) [Q2]
  /\ made debug64 Dim2D layout2D (KStatic U16) true (MkStatic 0xB000 2) [Q2; Q3]
  /\ to_grid_index_2d debug64 (ops debug64 Dim2D (KStatic U16)) (MkStatic 0x8000 1) XY = Ret (0, 1)
  /\ to_grid_index_2d debug64 (ops debug64 Dim2D (KStatic U16)) (MkStatic 0xB000 2) XY = Ret (1, 3)
  /\ 1 / 2 ^ (2 - 1) = 0 /\ 3 / 2 ^ (2 - 1) = 1.
Proof.
  split; [made_by (start_static_default debug64 Dim2D layout2D U16) [CChild (D:=Dim2D) Q2]|].
  split; [made_by (start_static_cells debug64 Dim2D layout2D U16 [Q2; Q3]) (@nil (call Dim2D))|]. concrete.
Qed.

Theorem c60_nesting_3d : forall c L k e e' (a b : storage k) la lb o x y z x' y' z',
  made c Dim3D L k e a la -> made c Dim3D L k e' b lb -> len la <= usize_bits c -> len lb <= usize_bits c ->
  to_grid_index_3d c (ops c Dim3D k) a o = Ret (x, y, z) -> to_grid_index_3d c (ops c Dim3D k) b o = Ret (x', y', z') ->
  (is_prefix la lb <-> len la <= len lb /\ covers (len la) x (len lb) x' /\ covers (len la) y (len lb) y' /\ covers (len la) z (len lb) z').
Proof. exact c60_nesting_3d_lemma. Qed.
Print Assumptions c60_nesting_3d.
Example c60_nesting_3d_example :
  made debug64 Dim3D layout3D KDynamic true (MkDynamic [0x20] 1) [O1]
  /\ made debug64 Dim3D layout3D KDynamic true (MkDynamic [0x80; 0x29] 3) [O1; O2; O3]
  /\ to_grid_index_3d debug64 (ops debug64 Dim3D KDynamic) (MkDynamic [0x20] 1) XYZ = Ret (1, 0, 0)
  /\ to_grid_index_3d debug64 (ops debug64 Dim3D KDynamic) (MkDynamic [0x80; 0x29] 3) XYZ = Ret (5, 3, 0)
  /\ 5 / 2 ^ (3 - 1) = 1 /\ 3 / 2 ^ (3 - 1) = 0.
Proof.
  split; [made_by (start_dynamic_cells debug64 Dim3D layout3D [O1; O2; O3]) [CParent (D:=Dim3D); CAncestor (D:=Dim3D) 1]|].
  split; [made_by (start_dynamic_cells debug64 Dim3D layout3D [O1; O2; O3]) (@nil (call Dim3D))|]. concrete.
Qed.

(* nodes that share a grid cell are nested *)
Theorem c60_overlap_2d : forall c L k e e' (a b : storage k) la lb o x y x' y' n,
  made c Dim2D L k e a la -> made c Dim2D L k e' b lb -> len la <= usize_bits c -> len lb <= usize_bits c ->
  to_grid_index_2d c (ops c Dim2D k) a o = Ret (x, y) -> to_grid_index_2d c (ops c Dim2D k) b o = Ret (x', y') ->
  len la <= n -> len lb <= n ->
  ((exists X Y, covers (len la) x n X /\ covers (len la) y n Y /\ covers (len lb) x' n X /\ covers (len lb) y' n Y)
   <-> is_prefix la lb \/ is_prefix lb la).
Proof. exact c60_overlap_2d_lemma. Qed.
Print Assumptions c60_overlap_2d.
Example c60_overlap_2d_example :
  made debug64 Dim2D layout2D (KStatic U16) true (MkStatic 0x8000 1) [Q2]
  /\ made debug64 Dim2D layout2D (KStatic U16) true (MkStatic 0xB000 2) [Q2; Q3]
  /\ to_grid_index_2d debug64 (ops debug64 Dim2D (KStatic U16)) (MkStatic 0x8000 1) XY = Ret (0, 1)
  /\ to_grid_index_2d debug64 (ops debug64 Dim2D (KStatic U16)) (MkStatic 0xB000 2) XY = Ret (1, 3)
  /\ covers 1 0 5 13 /\ covers 1 1 5 24 /\ covers 2 1 5 13 /\ covers 2 3 5 24.
Proof.
  split; [made_by (start_static_default debug64 Dim2D layout2D U16) [CChild (D:=Dim2D) Q2]|].
  split; [made_by (start_static_cells debug64 Dim2D layout2D U16 [Q2; Q3]) (@nil (call Dim2D))|]. unfold covers. concrete.
Qed.

Theorem c60_overlap_3d : forall c L k e e' (a b : storage k) la lb o x y z x' y' z' n,
  made c Dim3D L k e a la -> made c Dim3D L k e' b lb -> len la <= usize_bits c -> len lb <= usize_bits c ->
  to_grid_index_3d c (ops c Dim3D k) a o = Ret (x, y, z) -> to_grid_index_3d c (ops c Dim3D k) b o = Ret (x', y', z') ->
  len la <= n -> len lb <= n ->
  ((exists X Y Z, covers (len la) x n X /\ covers (len la) y n Y /\ covers (len la) z n Z
     /\ covers (len lb) x' n X /\ covers (len lb) y' n Y /\ covers (len lb) z' n Z)
   <-> is_prefix la lb \/ is_prefix lb la).
Proof. exact c60_overlap_3d_lemma. Qed.
Print Assumptions c60_overlap_3d.
Example c60_overlap_3d_example :
  made debug64 Dim3D layout3D KDynamic true (MkDynamic [0x20] 1) [O1]
  /\ made debug64 Dim3D layout3D KDynamic true (MkDynamic [0x80; 0x29] 3) [O1; O2; O3]
  /\ to_grid_index_3d debug64 (ops debug64 Dim3D KDynamic) (MkDynamic [0x20] 1) XYZ = Ret (1, 0, 0)
  /\ to_grid_index_3d debug64 (ops debug64 Dim3D KDynamic) (MkDynamic [0x80; 0x29] 3) XYZ = Ret (5, 3, 0)
  /\ covers 1 1 4 11 /\ covers 1 0 4 6 /\ covers 1 0 4 1 /\ covers 3 5 4 11 /\ covers 3 3 4 6 /\ covers 3 0 4 1.
Proof.
  split; [made_by (start_dynamic_cells debug64 Dim3D layout3D [O1; O2; O3]) [CParent (D:=Dim3D); CAncestor (D:=Dim3D) 1]|].
  split; [made_by (start_dynamic_cells debug64 Dim3D layout3D [O1; O2; O3]) (@nil (call Dim3D))|]. unfold covers. concrete.
Qed.

(* ---------- C61 ---------- *)
(* hi is the last descendant of p, n levels below it: up to its depth, the subtree of p is exactly the range from p to hi *)
Theorem c61_subtree_is_a_range : forall c D L k e e' e2 (p x hi : storage k) lp lx n q,
  (forall t, k = KFixed t -> dim D = 2 \/ (e = true /\ e' = true /\ e2 = true)) ->
  made c D L k e p lp -> made c D L k e' x lx ->
  cell_index D q = 2 ^ dim D - 1 -> made c D L k e2 hi (lp ++ repeat q (N.to_nat n)) -> len lx <= len lp + n ->
  exists r r', idx_cmp c D k p x = Ret r /\ idx_cmp c D k x hi = Ret r' /\ (r <> Gt /\ r' <> Gt <-> is_prefix lp lx).
Proof. exact c61_subtree_is_a_range_lemma. Qed.
Print Assumptions c61_subtree_is_a_range.
Example c61_subtree_is_a_range_example :
  made debug64 Dim2D layout2D (KStatic U16) true (MkStatic 0x8000 1) [Q2]
  /\ made debug64 Dim2D layout2D (KStatic U16) true (MkStatic 0x9000 2) [Q2; Q1]
  /\ made debug64 Dim2D layout2D (KStatic U16) true (MkStatic 0xBC00 3) ([Q2] ++ repeat Q3 (N.to_nat 2))
  /\ cell_index Dim2D Q3 = 2 ^ dim Dim2D - 1
  /\ idx_cmp debug64 Dim2D (KStatic U16) (MkStatic 0x8000 1) (MkStatic 0x9000 2) = Ret Lt
  /\ idx_cmp debug64 Dim2D (KStatic U16) (MkStatic 0x9000 2) (MkStatic 0xBC00 3) = Ret Lt.
Proof.
  split; [made_by (start_static_default debug64 Dim2D layout2D U16) [CChild (D:=Dim2D) Q2]|].
  split; [made_by (start_static_cells debug64 Dim2D layout2D U16 [Q2; Q1]) (@nil (call Dim2D))|].
  split; [made_by (start_static_default debug64 Dim2D layout2D U16) [CChild (D:=Dim2D) Q2; CDescendant (D:=Dim2D) [Q3; Q3]]|]. concrete.
Qed.

(* the limit on the depth of x is needed *)
Theorem c61_deeper_is_after : forall c D L k e e' (hi x : storage k) lh r,
  made c D L k e hi lh -> made c D L k e' x (lh ++ r) -> r <> [] -> idx_cmp c D k x hi = Ret Gt.
Proof. exact c61_deeper_is_after_lemma. Qed.
Print Assumptions c61_deeper_is_after.
Example c61_deeper_is_after_example :
  made debug64 Dim2D layout2D (KStatic U16) true (MkStatic 0x8000 1) [Q2]
  /\ made debug64 Dim2D layout2D (KStatic U16) true (MkStatic 0x9000 2) ([Q2] ++ [Q1])
  /\ idx_cmp debug64 Dim2D (KStatic U16) (MkStatic 0x9000 2) (MkStatic 0x8000 1) = Ret Gt.
Proof.
  split; [made_by (start_static_default debug64 Dim2D layout2D U16) [CChild (D:=Dim2D) Q2]|].
  split; [made_by (start_static_cells debug64 Dim2D layout2D U16 [Q2; Q1]) (@nil (call Dim2D))|]. concrete.
Qed.
