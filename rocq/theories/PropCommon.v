(* PropCommon.v - nearest common ancestors (C79) *)
From Verif Require Import Base ModelNumber ModelDim ModelStorage Model2D Model3D Spec SpecCommon History ExampleTools FactsCommon.

(* ---------- C79 ---------- *)
(* any two indices have exactly one nearest common ancestor *)
Theorem c79_exists : forall c D L k e (a b : storage k) la lb, made c D L k e a la -> made c D L k e b lb ->
  exists p, longest_common p la lb /\ forall q, longest_common q la lb -> q = p.
Proof. exact c79_exists_lemma. Qed.
Print Assumptions c79_exists.
Example c79_exists_example :
  made debug64 Dim2D layout2D KDynamic true (MkDynamic [0x1C] 3) [Q0; Q1; Q3] /\ made debug64 Dim2D layout2D KDynamic true (MkDynamic [0x18] 3) [Q0; Q1; Q2]
  /\ longest_common [Q0; Q1] [Q0; Q1; Q3] [Q0; Q1; Q2].
Proof.
  split; [made_by (start_dynamic_cells debug64 Dim2D layout2D [Q0; Q1; Q3]) (@nil (call Dim2D))|].
  split; [made_by (start_dynamic_cells debug64 Dim2D layout2D [Q0; Q1; Q2]) (@nil (call Dim2D))|].
  apply (common_intro [Q0; Q1] [] [] Q3 Q2). discriminate.
Qed.

(* with_depth turns two indices into equal ones exactly up to the depth of their nearest common ancestor, where it gives the ancestor itself *)
Theorem c79_meet : forall c D L k v (a b : storage k) la lb p n,
  made c D L k true a la -> made c D L k true b lb -> var_ops c D L k = Some v -> longest_common p la lb -> n <= len la -> n <= len lb ->
  exists a' b', with_depth c v a n = Ret (Some a') /\ with_depth c v b n = Ret (Some b') /\ (idx_eq k a' b' = true <-> n <= len p)
  /\ (n = len p -> shows (ops c D k) a' p).
Proof. exact c79_meet_lemma. Qed.
Print Assumptions c79_meet.
Example c79_meet_example :
  made debug64 Dim2D layout2D (KStatic U16) true (MkStatic 0x1C00 3) [Q0; Q1; Q3] /\ made debug64 Dim2D layout2D (KStatic U16) true (MkStatic 0x2000 2) [Q0; Q2]
  /\ var_ops debug64 Dim2D layout2D (KStatic U16) = Some (static_vops debug64 Dim2D U16)
  /\ longest_common [Q0] [Q0; Q1; Q3] [Q0; Q2]
  /\ with_depth debug64 (static_vops debug64 Dim2D U16) (MkStatic 0x1C00 3) 1 = Ret (Some (MkStatic 0 1))
  /\ with_depth debug64 (static_vops debug64 Dim2D U16) (MkStatic 0x2000 2) 1 = Ret (Some (MkStatic 0 1))
  /\ with_depth debug64 (static_vops debug64 Dim2D U16) (MkStatic 0x1C00 3) 2 = Ret (Some (MkStatic 0x1000 2)).
Proof.
  split; [made_by (start_static_cells debug64 Dim2D layout2D U16 [Q0; Q1; Q3]) (@nil (call Dim2D))|].
  split; [made_by (start_static_cells debug64 Dim2D layout2D U16 [Q0; Q2]) (@nil (call Dim2D))|].
  split; [reflexivity|]. split; [apply (common_intro [Q0] [Q3] [] Q1 Q2); discriminate|]. concrete.
Qed.

(* every index between two others lies below their nearest common ancestor *)
Theorem c79_between : forall c D L k v (a m b : storage k) la lm lb p,
  made c D L k true a la -> made c D L k true m lm -> made c D L k true b lb -> var_ops c D L k = Some v -> longest_common p la lb ->
  idx_cmp c D k a m <> Ret Gt -> idx_cmp c D k m b <> Ret Gt ->
  exists s s', with_depth c v a (len p) = Ret (Some s) /\ with_depth c v m (len p) = Ret (Some s') /\ idx_eq k s s' = true.
Proof. exact c79_between_lemma. Qed.
Print Assumptions c79_between.
Example c79_between_example :
  made debug64 Dim3D layout3D KDynamic true (MkDynamic [0x34] 2) [O1; O5] /\ made debug64 Dim3D layout3D KDynamic true (MkDynamic [0x38] 2) [O1; O6]
  /\ made debug64 Dim3D layout3D KDynamic true (MkDynamic [0x3C] 2) [O1; O7]
  /\ var_ops debug64 Dim3D layout3D KDynamic = Some (dynamic_vops debug64 Dim3D layout3D)
  /\ longest_common [O1] [O1; O5] [O1; O7]
  /\ idx_cmp debug64 Dim3D KDynamic (MkDynamic [0x34] 2) (MkDynamic [0x38] 2) = Ret Lt
  /\ idx_cmp debug64 Dim3D KDynamic (MkDynamic [0x38] 2) (MkDynamic [0x3C] 2) = Ret Lt.
Proof.
  split; [made_by (start_dynamic_cells debug64 Dim3D layout3D [O1; O5]) (@nil (call Dim3D))|].
  split; [made_by (start_dynamic_cells debug64 Dim3D layout3D [O1; O6]) (@nil (call Dim3D))|].
  split; [made_by (start_dynamic_cells debug64 Dim3D layout3D [O1; O7]) (@nil (call Dim3D))|].
  split; [reflexivity|]. split; [apply (common_intro [O1] [] [] O5 O7); discriminate|]. concrete.
Qed.

(* the order of two indices is the order of their cells below the nearest common ancestor *)
Theorem c79_first_difference : forall c D L k (a b : storage k) la lb p,
  made c D L k true a la -> made c D L k true b lb -> longest_common p la lb -> len p < len la -> len p < len lb ->
  exists x y, get_cell_at_level (ops c D k) a (len p) = Ret x /\ get_cell_at_level (ops c D k) b (len p) = Ret y
  /\ cell_index D x <> cell_index D y /\ idx_cmp c D k a b = Ret (N.compare (cell_index D x) (cell_index D y)).
Proof. exact c79_first_difference_lemma. Qed.
Print Assumptions c79_first_difference.
Example c79_first_difference_example :
  made debug64 Dim3D layout3D (KFixed U8) true (MkFixed 0x34) [O1; O5] /\ made debug64 Dim3D layout3D (KFixed U8) true (MkFixed 0xA4) [O5; O1]
  /\ longest_common [] [O1; O5] [O5; O1] /\ idx_cmp debug64 Dim3D (KFixed U8) (MkFixed 0x34) (MkFixed 0xA4) = Ret Lt.
Proof.
  split; [made_by (start_fixed_cells debug64 Dim3D layout3D U8 [O1; O5]) (@nil (call Dim3D))|].
  split; [made_by (start_fixed_cells debug64 Dim3D layout3D U8 [O5; O1]) (@nil (call Dim3D))|].
  split; [apply (common_intro [] [O5] [O1] O1 O5); discriminate|]. concrete.
Qed.

(* the depth of the nearest common ancestor from the grid coordinates: the number of leading bits that agree along both axes *)
Theorem c79_grid_2d : forall c L k e e' (a b : storage k) la lb p o x y x' y' n,
  made c Dim2D L k e a la -> made c Dim2D L k e' b lb -> len la <= usize_bits c -> len lb <= usize_bits c -> longest_common p la lb ->
  to_grid_index_2d c (ops c Dim2D k) a o = Ret (x, y) -> to_grid_index_2d c (ops c Dim2D k) b o = Ret (x', y') ->
  n <= len la -> n <= len lb ->
  (n <= len p <-> x / 2 ^ (len la - n) = x' / 2 ^ (len lb - n) /\ y / 2 ^ (len la - n) = y' / 2 ^ (len lb - n)).
Proof. exact c79_grid_2d_lemma. Qed.
Print Assumptions c79_grid_2d.
Example c79_grid_2d_example :
  made debug64 Dim2D layout2D (KStatic U16) true (MkStatic 0x1C00 3) [Q0; Q1; Q3] /\ made debug64 Dim2D layout2D (KStatic U16) true (MkStatic 0x2000 2) [Q0; Q2]
  /\ longest_common [Q0] [Q0; Q1; Q3] [Q0; Q2]
  /\ to_grid_index_2d debug64 (ops debug64 Dim2D (KStatic U16)) (MkStatic 0x1C00 3) XY = Ret (3, 1)
  /\ to_grid_index_2d debug64 (ops debug64 Dim2D (KStatic U16)) (MkStatic 0x2000 2) XY = Ret (0, 1).
Proof.
  split; [made_by (start_static_cells debug64 Dim2D layout2D U16 [Q0; Q1; Q3]) (@nil (call Dim2D))|].
  split; [made_by (start_static_cells debug64 Dim2D layout2D U16 [Q0; Q2]) (@nil (call Dim2D))|].
  split; [apply (common_intro [Q0] [Q3] [] Q1 Q2); discriminate|]. concrete.
Qed.

(* the same in 3D *)
Theorem c79_grid_3d : forall c L k e e' (a b : storage k) la lb p o x y z x' y' z' n,
  made c Dim3D L k e a la -> made c Dim3D L k e' b lb -> len la <= usize_bits c -> len lb <= usize_bits c -> longest_common p la lb ->
  to_grid_index_3d c (ops c Dim3D k) a o = Ret (x, y, z) -> to_grid_index_3d c (ops c Dim3D k) b o = Ret (x', y', z') ->
  n <= len la -> n <= len lb ->
  (n <= len p <-> x / 2 ^ (len la - n) = x' / 2 ^ (len lb - n) /\ y / 2 ^ (len la - n) = y' / 2 ^ (len lb - n)
                  /\ z / 2 ^ (len la - n) = z' / 2 ^ (len lb - n)).
Proof. exact c79_grid_3d_lemma. Qed.
Print Assumptions c79_grid_3d.
Example c79_grid_3d_example :
  made debug64 Dim3D layout3D KDynamic true (MkDynamic [0x34] 2) [O1; O5] /\ made debug64 Dim3D layout3D KDynamic true (MkDynamic [0x38] 2) [O1; O6]
  /\ longest_common [O1] [O1; O5] [O1; O6]
  /\ to_grid_index_3d debug64 (ops debug64 Dim3D KDynamic) (MkDynamic [0x34] 2) XYZ = Ret (3, 0, 1)
  /\ to_grid_index_3d debug64 (ops debug64 Dim3D KDynamic) (MkDynamic [0x38] 2) XYZ = Ret (2, 1, 1).
Proof.
  split; [made_by (start_dynamic_cells debug64 Dim3D layout3D [O1; O5]) (@nil (call Dim3D))|].
  split; [made_by (start_dynamic_cells debug64 Dim3D layout3D [O1; O6]) (@nil (call Dim3D))|].
  split; [apply (common_intro [O1] [] [] O5 O6); discriminate|]. concrete.
Qed.
