(* PropMono.v - Operations and the order, inverted and grid coordinates (C71, C72) *)
From Verif Require Import Base ModelNumber ModelDim ModelStorage Model2D Model3D Spec SpecMono History ExampleTools FactsMono.

(* ---------- C71 ---------- *)
(* replacing a cell moves the index in the order like the cell indices compare *)
Theorem c71_set_cell : forall c D L k (s s' : storage k) i x y,
  is_dim D L -> writable c k -> valid c D k s ->
  get_cell_at_level (ops c D k) s i = Ret y -> set_cell_at_level (ops c D k) s i x = Ret s' ->
  idx_cmp c D k s' s = Ret (N.compare (cell_index D x) (cell_index D y)).
Proof. exact c71_set_cell_lemma. Qed.
Print Assumptions c71_set_cell.
Example c71_set_cell_example :
  is_dim Dim3D layout3D /\ writable debug64 KDynamic /\ valid debug64 Dim3D KDynamic (MkDynamic [0x80; 0x29] 3)
  /\ get_cell_at_level (ops debug64 Dim3D KDynamic) (MkDynamic [0x80; 0x29] 3) 1 = Ret O2
  /\ set_cell_at_level (ops debug64 Dim3D KDynamic) (MkDynamic [0x80; 0x29] 3) 1 O7 = Ret (MkDynamic [0x80; 0x3D] 3)
  /\ idx_cmp debug64 Dim3D KDynamic (MkDynamic [0x80; 0x3D] 3) (MkDynamic [0x80; 0x29] 3) = Ret Gt
  /\ set_cell_at_level (ops debug64 Dim3D (KFixed U8)) (MkFixed 0x2B) 0 O0 = Ret (MkFixed 0x0B)
  /\ idx_cmp debug64 Dim3D (KFixed U8) (MkFixed 0x0B) (MkFixed 0x2B) = Ret Lt.
Proof. concrete. Qed.

(* truncating two indices to the same depth keeps their order or makes them equal *)
Theorem c71_with_depth : forall c D L k v (a b a' b' : storage k) n r,
  is_dim D L -> var_ops c D L k = Some v -> valid c D k a -> valid c D k b ->
  with_depth c v a n = Ret (Some a') -> with_depth c v b n = Ret (Some b') ->
  idx_cmp c D k a b = Ret r -> idx_cmp c D k a' b' = Ret r \/ idx_cmp c D k a' b' = Ret Eq.
Proof. exact c71_with_depth_lemma. Qed.
Print Assumptions c71_with_depth.
Example c71_with_depth_example :
  let o := KStatic U16 in let v := static_vops debug64 Dim2D U16 in
  valid debug64 Dim2D o (MkStatic 0xB000 3) /\ valid debug64 Dim2D o (MkStatic 0xB800 3)
  /\ idx_cmp debug64 Dim2D o (MkStatic 0xB000 3) (MkStatic 0xB800 3) = Ret Lt
  /\ with_depth debug64 v (MkStatic 0xB000 3) 2 = Ret (Some (MkStatic 0xB000 2))
  /\ with_depth debug64 v (MkStatic 0xB800 3) 2 = Ret (Some (MkStatic 0xB000 2))
  /\ idx_cmp debug64 Dim2D o (MkStatic 0xB000 2) (MkStatic 0xB000 2) = Ret Eq
  /\ with_depth debug64 v (MkStatic 0x6000 3) 2 = Ret (Some (MkStatic 0x6000 2))
  /\ idx_cmp debug64 Dim2D o (MkStatic 0xB000 3) (MkStatic 0x6000 3) = Ret Gt
  /\ idx_cmp debug64 Dim2D o (MkStatic 0xB000 2) (MkStatic 0x6000 2) = Ret Gt.
Proof. concrete. Qed.

(* the same for ancestor when both indices have the same depth *)
Theorem c71_ancestor_of_equal_depth : forall c D L k v (a b a' b' : storage k) g r,
  is_dim D L -> var_ops c D L k = Some v -> valid c D k a -> valid c D k b ->
  st_depth (ops c D k) a = st_depth (ops c D k) b ->
  ancestor v a g = Ret (Some a') -> ancestor v b g = Ret (Some b') ->
  idx_cmp c D k a b = Ret r -> idx_cmp c D k a' b' = Ret r \/ idx_cmp c D k a' b' = Ret Eq.
Proof. exact c71_ancestor_of_equal_depth_lemma. Qed.
Print Assumptions c71_ancestor_of_equal_depth.
Example c71_ancestor_of_equal_depth_example :
  let o := KDynamic in let v := dynamic_vops debug64 Dim3D layout3D in
  valid debug64 Dim3D o (MkDynamic [0x80; 0x29] 3) /\ valid debug64 Dim3D o (MkDynamic [0x80; 0x3D] 3)
  /\ idx_cmp debug64 Dim3D o (MkDynamic [0x80; 0x29] 3) (MkDynamic [0x80; 0x3D] 3) = Ret Lt
  /\ ancestor v (MkDynamic [0x80; 0x29] 3) 1 = Ret (Some (MkDynamic [0x28] 2))
  /\ ancestor v (MkDynamic [0x80; 0x3D] 3) 1 = Ret (Some (MkDynamic [0x3C] 2))
  /\ idx_cmp debug64 Dim3D o (MkDynamic [0x28] 2) (MkDynamic [0x3C] 2) = Ret Lt.
Proof. concrete. Qed.

(* descendants of one node compare like the appended cells *)
Theorem c71_descendants_of_one_node : forall c D L k v (s a b : storage k) p q,
  is_dim D L -> writable c k -> var_ops c D L k = Some v -> valid c D k s ->
  appendable c D k s p -> appendable c D k s q ->
  descendant v s p = Ret (Some a) -> descendant v s q = Ret (Some b) ->
  idx_cmp c D k a b = Ret (path_cmp p q).
Proof. exact c71_descendants_of_one_node_lemma. Qed.
Print Assumptions c71_descendants_of_one_node.
Example c71_descendants_of_one_node_example :
  let v := dynamic_vops debug64 Dim3D layout3D in
  valid debug64 Dim3D KDynamic (MkDynamic [0x20] 1) /\ writable debug64 KDynamic
  /\ appendable debug64 Dim3D KDynamic (MkDynamic [0x20] 1) [O2; O3]
  /\ descendant v (MkDynamic [0x20] 1) [O2; O3] = Ret (Some (MkDynamic [0x80; 0x29] 3))
  /\ descendant v (MkDynamic [0x20] 1) [O7] = Ret (Some (MkDynamic [0x3C] 2))
  /\ idx_cmp debug64 Dim3D KDynamic (MkDynamic [0x80; 0x29] 3) (MkDynamic [0x3C] 2) = Ret Lt.
Proof. cbv zeta. split; [concrete|]. split; [concrete|]. split; [vm_compute; discriminate|]. concrete. Qed.

(* descendants of two different nodes of one level compare like the nodes *)
Theorem c71_descendants_stay_apart : forall c D L k v (a b a' b' : storage k) p q r,
  is_dim D L -> writable c k -> var_ops c D L k = Some v -> valid c D k a -> valid c D k b ->
  appendable c D k a p -> appendable c D k b q ->
  st_depth (ops c D k) a = st_depth (ops c D k) b -> idx_cmp c D k a b = Ret r -> r <> Eq ->
  descendant v a p = Ret (Some a') -> descendant v b q = Ret (Some b') ->
  idx_cmp c D k a' b' = Ret r.
Proof. exact c71_descendants_stay_apart_lemma. Qed.
Print Assumptions c71_descendants_stay_apart.
Example c71_descendants_stay_apart_example :
  let v := static_vops debug64 Dim2D U16 in let o := KStatic U16 in
  valid debug64 Dim2D o (MkStatic 0x4000 1) /\ valid debug64 Dim2D o (MkStatic 0x8000 1)
  /\ appendable debug64 Dim2D o (MkStatic 0x4000 1) [Q3; Q3]
  /\ idx_cmp debug64 Dim2D o (MkStatic 0x4000 1) (MkStatic 0x8000 1) = Ret Lt
  /\ descendant v (MkStatic 0x4000 1) [Q3; Q3] = Ret (Some (MkStatic 0x7C00 3))
  /\ descendant v (MkStatic 0x8000 1) [Q0] = Ret (Some (MkStatic 0x8000 2))
  /\ idx_cmp debug64 Dim2D o (MkStatic 0x7C00 3) (MkStatic 0x8000 2) = Ret Lt.
Proof. cbv zeta. split; [concrete|]. split; [concrete|]. split; [vm_compute; reflexivity|]. concrete. Qed.

(* equal depth is needed: parents of indices of different depths can be in the opposite order *)
Theorem c71_parents_can_swap : forall c D L, is_dim D L ->
  exists (a b a' b' : storage (KStatic U8)),
    valid c D (KStatic U8) a /\ valid c D (KStatic U8) b
    /\ parent (static_vops c D U8) a = Ret (Some a') /\ parent (static_vops c D U8) b = Ret (Some b')
    /\ idx_cmp c D (KStatic U8) a b = Ret Lt /\ idx_cmp c D (KStatic U8) a' b' = Ret Gt.
Proof. exact c71_parents_can_swap_lemma. Qed.
Print Assumptions c71_parents_can_swap.
Example c71_parents_can_swap_example :
  parent (static_vops debug64 Dim2D U8) (MkStatic 0x10 2) = Ret (Some (MkStatic 0 1))
  /\ parent (static_vops debug64 Dim2D U8) (MkStatic 0x40 1) = Ret (Some (MkStatic 0 0))
  /\ idx_cmp debug64 Dim2D (KStatic U8) (MkStatic 0x10 2) (MkStatic 0x40 1) = Ret Lt
  /\ idx_cmp debug64 Dim2D (KStatic U8) (MkStatic 0 1) (MkStatic 0 0) = Ret Gt.
Proof. concrete. Qed.

(* ---------- C72 ---------- *)
(* inverted() reads the bits of both coordinates in the opposite direction *)
Theorem c72_inverted_2d : forall c L k (s s' : storage k) o x y,
  is_dim Dim2D L -> writable c k -> valid c Dim2D k s -> st_depth (ops c Dim2D k) s <= usize_bits c ->
  to_grid_index_2d c (ops c Dim2D k) s o = Ret (x, y) -> inverted c (ops c Dim2D k) s = Ret s' ->
  exists x' y', to_grid_index_2d c (ops c Dim2D k) s' o = Ret (x', y')
    /\ bit_reversal (st_depth (ops c Dim2D k) s) x x' /\ bit_reversal (st_depth (ops c Dim2D k) s) y y'.
Proof. exact c72_inverted_2d_lemma. Qed.
Print Assumptions c72_inverted_2d.
Example c72_inverted_2d_example :
  let o := ops debug64 Dim2D (KStatic U16) in
  valid debug64 Dim2D (KStatic U16) (MkStatic 0xB400 3) /\ st_depth o (MkStatic 0xB400 3) = 3
  /\ to_grid_index_2d debug64 o (MkStatic 0xB400 3) XY = Ret (3, 6)
  /\ inverted debug64 o (MkStatic 0xB400 3) = Ret (MkStatic 0x7800 3)
  /\ to_grid_index_2d debug64 o (MkStatic 0x7800 3) XY = Ret (6, 3).
Proof. concrete. Qed.

(* the same in 3D *)
Theorem c72_inverted_3d : forall c L k (s s' : storage k) o x y z,
  is_dim Dim3D L -> writable c k -> valid c Dim3D k s -> st_depth (ops c Dim3D k) s <= usize_bits c ->
  to_grid_index_3d c (ops c Dim3D k) s o = Ret (x, y, z) -> inverted c (ops c Dim3D k) s = Ret s' ->
  exists x' y' z', to_grid_index_3d c (ops c Dim3D k) s' o = Ret (x', y', z')
    /\ bit_reversal (st_depth (ops c Dim3D k) s) x x' /\ bit_reversal (st_depth (ops c Dim3D k) s) y y'
    /\ bit_reversal (st_depth (ops c Dim3D k) s) z z'.
Proof. exact c72_inverted_3d_lemma. Qed.
Print Assumptions c72_inverted_3d.
Example c72_inverted_3d_example :
  let o := ops debug64 Dim3D KDynamic in
  valid debug64 Dim3D KDynamic (MkDynamic [0x80; 0x29] 3) /\ st_depth o (MkDynamic [0x80; 0x29] 3) = 3
  /\ to_grid_index_3d debug64 o (MkDynamic [0x80; 0x29] 3) XYZ = Ret (5, 3, 0)
  /\ inverted debug64 o (MkDynamic [0x80; 0x29] 3) = Ret (MkDynamic [0x80; 0x68] 3)
  /\ to_grid_index_3d debug64 o (MkDynamic [0x80; 0x68] 3) XYZ = Ret (5, 6, 0).
Proof. concrete. Qed.

(* the cell of a level consists of one bit of each coordinate *)
Theorem c72_cells_are_bits_2d : forall c L k (s : storage k) o i q x y,
  is_dim Dim2D L -> valid c Dim2D k s -> st_depth (ops c Dim2D k) s <= usize_bits c ->
  to_grid_index_2d c (ops c Dim2D k) s o = Ret (x, y) -> get_cell_at_level (ops c Dim2D k) s i = Ret q ->
  let j := st_depth (ops c Dim2D k) s - 1 - i in
  N.testbit x j = (quad_x o q =? 1) /\ N.testbit y j = (quad_y o q =? 1).
Proof. exact c72_cells_are_bits_2d_lemma. Qed.
Print Assumptions c72_cells_are_bits_2d.
Example c72_cells_are_bits_2d_example :
  let o := ops debug64 Dim2D (KStatic U16) in
  valid debug64 Dim2D (KStatic U16) (MkStatic 0x6C00 3) /\ to_grid_index_2d debug64 o (MkStatic 0x6C00 3) XY = Ret (5, 3)
  /\ get_cell_at_level o (MkStatic 0x6C00 3) 1 = Ret Q2 /\ N.testbit 5 1 = false /\ N.testbit 3 1 = true
  /\ quad_x XY Q2 = 0 /\ quad_y XY Q2 = 1.
Proof. concrete. Qed.

(* writing a cell replaces one bit of each coordinate *)
Theorem c72_set_cell_2d : forall c L k (s s' : storage k) o i q x y,
  is_dim Dim2D L -> writable c k -> valid c Dim2D k s -> st_depth (ops c Dim2D k) s <= usize_bits c ->
  to_grid_index_2d c (ops c Dim2D k) s o = Ret (x, y) -> set_cell_at_level (ops c Dim2D k) s i q = Ret s' ->
  exists x' y', to_grid_index_2d c (ops c Dim2D k) s' o = Ret (x', y')
    /\ let j := st_depth (ops c Dim2D k) s - 1 - i in
       bit_replaced j (quad_x o q) x x' /\ bit_replaced j (quad_y o q) y y'.
Proof. exact c72_set_cell_2d_lemma. Qed.
Print Assumptions c72_set_cell_2d.
Example c72_set_cell_2d_example :
  let o := ops debug64 Dim2D (KStatic U16) in
  valid debug64 Dim2D (KStatic U16) (MkStatic 0x6C00 3) /\ to_grid_index_2d debug64 o (MkStatic 0x6C00 3) XY = Ret (5, 3)
  /\ set_cell_at_level o (MkStatic 0x6C00 3) 1 Q1 = Ret (MkStatic 0x5C00 3)
  /\ to_grid_index_2d debug64 o (MkStatic 0x5C00 3) XY = Ret (7, 1).
Proof. concrete. Qed.

(* every appended cell doubles the coordinates and adds its offset *)
Theorem c72_descendant_2d : forall c L k v (s s' : storage k) o cells x y,
  is_dim Dim2D L -> writable c k -> var_ops c Dim2D L k = Some v -> valid c Dim2D k s -> appendable c Dim2D k s cells ->
  st_depth (ops c Dim2D k) s + len cells <= usize_bits c ->
  to_grid_index_2d c (ops c Dim2D k) s o = Ret (x, y) -> descendant v s cells = Ret (Some s') ->
  to_grid_index_2d c (ops c Dim2D k) s' o
  = Ret (x * 2 ^ len cells + coord (quad_x o) cells, y * 2 ^ len cells + coord (quad_y o) cells).
Proof. exact c72_descendant_2d_lemma. Qed.
Print Assumptions c72_descendant_2d.
Example c72_descendant_2d_example :
  let v := static_vops debug64 Dim2D U16 in let o := ops debug64 Dim2D (KStatic U16) in
  valid debug64 Dim2D (KStatic U16) (MkStatic 0x6C00 3) /\ to_grid_index_2d debug64 o (MkStatic 0x6C00 3) XY = Ret (5, 3)
  /\ appendable debug64 Dim2D (KStatic U16) (MkStatic 0x6C00 3) [Q1; Q2]
  /\ descendant v (MkStatic 0x6C00 3) [Q1; Q2] = Ret (Some (MkStatic 0x6D80 5))
  /\ to_grid_index_2d debug64 o (MkStatic 0x6D80 5) XY = Ret (22, 13)
  /\ coord (quad_x XY) [Q1; Q2] = 2 /\ coord (quad_y XY) [Q1; Q2] = 1.
Proof. cbv zeta. split; [concrete|]. split; [concrete|]. split; [vm_compute; reflexivity|]. concrete. Qed.

(* the same in 3D *)
Theorem c72_cells_are_bits_3d : forall c L k (s : storage k) o i q x y z,
  is_dim Dim3D L -> valid c Dim3D k s -> st_depth (ops c Dim3D k) s <= usize_bits c ->
  to_grid_index_3d c (ops c Dim3D k) s o = Ret (x, y, z) -> get_cell_at_level (ops c Dim3D k) s i = Ret q ->
  let j := st_depth (ops c Dim3D k) s - 1 - i in
  N.testbit x j = (oct_x o q =? 1) /\ N.testbit y j = (oct_y o q =? 1) /\ N.testbit z j = (oct_z o q =? 1).
Proof. exact c72_cells_are_bits_3d_lemma. Qed.
Print Assumptions c72_cells_are_bits_3d.
Example c72_cells_are_bits_3d_example :
  let o := ops debug64 Dim3D KDynamic in
  valid debug64 Dim3D KDynamic (MkDynamic [0x80; 0x29] 3) /\ to_grid_index_3d debug64 o (MkDynamic [0x80; 0x29] 3) XYZ = Ret (5, 3, 0)
  /\ get_cell_at_level o (MkDynamic [0x80; 0x29] 3) 1 = Ret O2 /\ N.testbit 5 1 = false /\ N.testbit 3 1 = true
  /\ oct_x XYZ O2 = 0 /\ oct_y XYZ O2 = 1 /\ oct_z XYZ O2 = 0.
Proof. concrete. Qed.

(* the same in 3D *)
Theorem c72_set_cell_3d : forall c L k (s s' : storage k) o i q x y z,
  is_dim Dim3D L -> writable c k -> valid c Dim3D k s -> st_depth (ops c Dim3D k) s <= usize_bits c ->
  to_grid_index_3d c (ops c Dim3D k) s o = Ret (x, y, z) -> set_cell_at_level (ops c Dim3D k) s i q = Ret s' ->
  exists x' y' z', to_grid_index_3d c (ops c Dim3D k) s' o = Ret (x', y', z')
    /\ let j := st_depth (ops c Dim3D k) s - 1 - i in
       bit_replaced j (oct_x o q) x x' /\ bit_replaced j (oct_y o q) y y' /\ bit_replaced j (oct_z o q) z z'.
Proof. exact c72_set_cell_3d_lemma. Qed.
Print Assumptions c72_set_cell_3d.
Example c72_set_cell_3d_example :
  let o := ops debug64 Dim3D KDynamic in
  valid debug64 Dim3D KDynamic (MkDynamic [0x80; 0x29] 3) /\ to_grid_index_3d debug64 o (MkDynamic [0x80; 0x29] 3) XYZ = Ret (5, 3, 0)
  /\ set_cell_at_level o (MkDynamic [0x80; 0x29] 3) 1 O7 = Ret (MkDynamic [0x80; 0x3D] 3)
  /\ to_grid_index_3d debug64 o (MkDynamic [0x80; 0x3D] 3) XYZ = Ret (7, 3, 2).
Proof. concrete. Qed.

(* the same in 3D *)
Theorem c72_descendant_3d : forall c L k v (s s' : storage k) o cells x y z,
  is_dim Dim3D L -> writable c k -> var_ops c Dim3D L k = Some v -> valid c Dim3D k s -> appendable c Dim3D k s cells ->
  st_depth (ops c Dim3D k) s + len cells <= usize_bits c ->
  to_grid_index_3d c (ops c Dim3D k) s o = Ret (x, y, z) -> descendant v s cells = Ret (Some s') ->
  to_grid_index_3d c (ops c Dim3D k) s' o
  = Ret (x * 2 ^ len cells + coord (oct_x o) cells, y * 2 ^ len cells + coord (oct_y o) cells, z * 2 ^ len cells + coord (oct_z o) cells).
Proof. exact c72_descendant_3d_lemma. Qed.
Print Assumptions c72_descendant_3d.
Example c72_descendant_3d_example :
  let v := dynamic_vops debug64 Dim3D layout3D in let o := ops debug64 Dim3D KDynamic in
  valid debug64 Dim3D KDynamic (MkDynamic [0x80; 0x29] 3) /\ to_grid_index_3d debug64 o (MkDynamic [0x80; 0x29] 3) XYZ = Ret (5, 3, 0)
  /\ appendable debug64 Dim3D KDynamic (MkDynamic [0x80; 0x29] 3) [O6]
  /\ descendant v (MkDynamic [0x80; 0x29] 3) [O6] = Ret (Some (MkDynamic [0xE0; 0x29] 4))
  /\ to_grid_index_3d debug64 o (MkDynamic [0xE0; 0x29] 4) XYZ = Ret (10, 7, 1)
  /\ coord (oct_x XYZ) [O6] = 0 /\ coord (oct_y XYZ) [O6] = 1 /\ coord (oct_z XYZ) [O6] = 1.
Proof. cbv zeta. split; [concrete|]. split; [concrete|]. split; [vm_compute; discriminate|]. concrete. Qed.
