(* PropNear.v - neighbours: indices that are one apart along an axis (C78) *)
From Verif Require Import Base ModelNumber ModelDim ModelStorage Model2D Model3D Spec SpecNear History ExampleTools FactsNear.

(* ---------- C78 ---------- *)
(* the path of the next node along an axis is found from the leaf up, exactly as the coordinates say *)
Theorem c78_neighbours_2d : forall c k k' (s : storage k) (s' : storage k') l l' o x y x' y',
  valid c Dim2D k s -> shows (ops c Dim2D k) s l -> valid c Dim2D k' s' -> shows (ops c Dim2D k') s' l' ->
  len l = len l' -> len l <= usize_bits c ->
  to_grid_index_2d c (ops c Dim2D k) s o = Ret (x, y) -> to_grid_index_2d c (ops c Dim2D k') s' o = Ret (x', y') ->
  neighbours2 o l l' x y x' y'.
Proof. exact c78_neighbours_2d_lemma. Qed.
Print Assumptions c78_neighbours_2d.
Example c78_neighbours_2d_example :
  let o := ops debug64 Dim2D (KStatic U16) in let a := MkStatic 0x1C00 3 in let b := MkStatic 0x4800 3 in
  valid debug64 Dim2D (KStatic U16) a /\ shows o a [Q0; Q1; Q3] /\ valid debug64 Dim2D (KStatic U16) b /\ shows o b [Q1; Q0; Q2]
  /\ to_grid_index_2d debug64 o a XY = Ret (3, 1) /\ to_grid_index_2d debug64 o b XY = Ret (4, 1)
  /\ next_along (quad_x XY) (quad_y XY) [Q0; Q1; Q3] [Q1; Q0; Q2].
Proof.
  cbv zeta. do 6 (split; [concrete|]). apply (next_of_parent _ _ [Q0; Q1] [Q1; Q0] Q3 Q2); try reflexivity.
  apply (next_of_parent _ _ [Q0] [Q1] Q1 Q0); try reflexivity. apply (next_sibling _ _ [] Q0 Q1); reflexivity.
Qed.

(* the same in 3D *)
Theorem c78_neighbours_3d : forall c k k' (s : storage k) (s' : storage k') l l' o x y z x' y' z',
  valid c Dim3D k s -> shows (ops c Dim3D k) s l -> valid c Dim3D k' s' -> shows (ops c Dim3D k') s' l' ->
  len l = len l' -> len l <= usize_bits c ->
  to_grid_index_3d c (ops c Dim3D k) s o = Ret (x, y, z) -> to_grid_index_3d c (ops c Dim3D k') s' o = Ret (x', y', z') ->
  neighbours3 o l l' x y z x' y' z'.
Proof. exact c78_neighbours_3d_lemma. Qed.
Print Assumptions c78_neighbours_3d.
Example c78_neighbours_3d_example :
  let o := ops debug64 Dim3D KDynamic in let a := MkDynamic [0x34] 2 in let b := MkDynamic [0xA4] 2 in
  valid debug64 Dim3D KDynamic a /\ shows o a [O1; O5] /\ valid debug64 Dim3D KDynamic b /\ shows o b [O5; O1]
  /\ to_grid_index_3d debug64 o a XYZ = Ret (3, 0, 1) /\ to_grid_index_3d debug64 o b XYZ = Ret (3, 0, 2)
  /\ next_along (oct_z XYZ) (fun q => (oct_x XYZ q, oct_y XYZ q)) [O1; O5] [O5; O1].
Proof.
  cbv zeta. do 6 (split; [concrete|]). apply (next_of_parent _ _ [O1] [O5] O5 O1); try reflexivity.
  apply (next_sibling _ _ [] O1 O5); reflexivity.
Qed.

(* nodes at the border have no next node, all others have *)
Theorem c78_border_2d : forall c k (s : storage k) l o x y,
  valid c Dim2D k s -> shows (ops c Dim2D k) s l -> len l <= usize_bits c -> to_grid_index_2d c (ops c Dim2D k) s o = Ret (x, y) ->
  ((exists l', next_along (quad_x o) (quad_y o) l l') <-> x + 1 < 2 ^ len l)
  /\ ((exists l', next_along (quad_y o) (quad_x o) l l') <-> y + 1 < 2 ^ len l).
Proof. exact c78_border_2d_lemma. Qed.
Print Assumptions c78_border_2d.
Example c78_border_2d_example :
  let o := ops debug64 Dim2D (KStatic U16) in
  valid debug64 Dim2D (KStatic U16) (MkStatic 0xB000 2) /\ shows o (MkStatic 0xB000 2) [Q2; Q3]
  /\ to_grid_index_2d debug64 o (MkStatic 0xB000 2) XY = Ret (1, 3) /\ 1 + 1 < 2 ^ len [Q2; Q3] /\ ~ 3 + 1 < 2 ^ len [Q2; Q3].
Proof. cbv zeta. do 3 (split; [concrete|]). split; [vm_compute; reflexivity|vm_compute; discriminate]. Qed.

(* the same in 3D *)
Theorem c78_border_3d : forall c k (s : storage k) l o x y z,
  valid c Dim3D k s -> shows (ops c Dim3D k) s l -> len l <= usize_bits c -> to_grid_index_3d c (ops c Dim3D k) s o = Ret (x, y, z) ->
  ((exists l', next_along (oct_x o) (fun q => (oct_y o q, oct_z o q)) l l') <-> x + 1 < 2 ^ len l)
  /\ ((exists l', next_along (oct_y o) (fun q => (oct_x o q, oct_z o q)) l l') <-> y + 1 < 2 ^ len l)
  /\ ((exists l', next_along (oct_z o) (fun q => (oct_x o q, oct_y o q)) l l') <-> z + 1 < 2 ^ len l).
Proof. exact c78_border_3d_lemma. Qed.
Print Assumptions c78_border_3d.
Example c78_border_3d_example :
  let o := ops debug64 Dim3D KDynamic in
  valid debug64 Dim3D KDynamic (MkDynamic [0x34] 2) /\ shows o (MkDynamic [0x34] 2) [O1; O5]
  /\ to_grid_index_3d debug64 o (MkDynamic [0x34] 2) XYZ = Ret (3, 0, 1).
Proof. concrete. Qed.

(* from_grid_index with a coordinate changed by one finds the neighbour *)
Theorem c78_find_fixed_2d : forall c t (s : storage (KFixed t)) l o x y x' y',
  valid c Dim2D (KFixed t) s -> shows (fixed_ops c Dim2D t) s l -> BITS c t / 2 <= usize_bits c ->
  to_grid_index_2d c (fixed_ops c Dim2D t) s o = Ret (x, y) -> x' < 2 ^ len l -> y' < 2 ^ len l ->
  exists s' l', fixed_from_grid_index_2d c t x' y' o = Ret s' /\ shows (fixed_ops c Dim2D t) s' l' /\ neighbours2 o l l' x y x' y'.
Proof. exact c78_find_fixed_2d_lemma. Qed.
Print Assumptions c78_find_fixed_2d.
Example c78_find_fixed_2d_example :
  valid debug64 Dim2D (KFixed U8) (MkFixed 0x1C) /\ shows (fixed_ops debug64 Dim2D U8) (MkFixed 0x1C) [Q0; Q1; Q3; Q0]
  /\ to_grid_index_2d debug64 (fixed_ops debug64 Dim2D U8) (MkFixed 0x1C) XY = Ret (6, 2)
  /\ fixed_from_grid_index_2d debug64 U8 7 2 XY = Ret (MkFixed 0x1D).
Proof. concrete. Qed.

(* at the depth of the index *)
Theorem c78_find_static_2d : forall c t (s : storage (KStatic t)) l o x y x' y',
  valid c Dim2D (KStatic t) s -> shows (static_ops c Dim2D t) s l -> BITS c t / 2 <= usize_bits c ->
  to_grid_index_2d c (static_ops c Dim2D t) s o = Ret (x, y) -> l <> [] -> x' < 2 ^ len l -> y' < 2 ^ len l ->
  exists s' l', static_from_grid_index_2d c t x' y' (sx_depth s) o = Ret (Ok s') /\ shows (static_ops c Dim2D t) s' l'
    /\ neighbours2 o l l' x y x' y'.
Proof. exact c78_find_static_2d_lemma. Qed.
Print Assumptions c78_find_static_2d.
Example c78_find_static_2d_example :
  valid debug64 Dim2D (KStatic U16) (MkStatic 0x1C00 3) /\ shows (static_ops debug64 Dim2D U16) (MkStatic 0x1C00 3) [Q0; Q1; Q3]
  /\ to_grid_index_2d debug64 (static_ops debug64 Dim2D U16) (MkStatic 0x1C00 3) XY = Ret (3, 1)
  /\ static_from_grid_index_2d debug64 U16 4 1 3 XY = Ret (Ok (MkStatic 0x4800 3)).
Proof. concrete. Qed.

(* the same for dynamic indices *)
Theorem c78_find_dynamic_2d : forall c (s : storage KDynamic) l o x y x' y',
  valid c Dim2D KDynamic s -> shows (dynamic_ops c Dim2D) s l -> len l <= usize_bits c / 2 ->
  to_grid_index_2d c (dynamic_ops c Dim2D) s o = Ret (x, y) -> x' < 2 ^ len l -> y' < 2 ^ len l ->
  exists s' l', dynamic_from_grid_index_2d c x' y' (dy_depth s) o = Ret s' /\ shows (dynamic_ops c Dim2D) s' l'
    /\ neighbours2 o l l' x y x' y'.
Proof. exact c78_find_dynamic_2d_lemma. Qed.
Print Assumptions c78_find_dynamic_2d.
Example c78_find_dynamic_2d_example :
  valid debug64 Dim2D KDynamic (MkDynamic [0x1C] 3) /\ shows (dynamic_ops debug64 Dim2D) (MkDynamic [0x1C] 3) [Q0; Q1; Q3]
  /\ to_grid_index_2d debug64 (dynamic_ops debug64 Dim2D) (MkDynamic [0x1C] 3) XY = Ret (3, 1)
  /\ dynamic_from_grid_index_2d debug64 4 1 3 XY = Ret (MkDynamic [0x48] 3).
Proof. concrete. Qed.

(* the same in 3D *)
Theorem c78_find_fixed_3d : forall c t (s : storage (KFixed t)) l o x y z x' y' z',
  valid c Dim3D (KFixed t) s -> shows (fixed_ops c Dim3D t) s l -> 32 <= usize_bits c -> BITS c t / 3 <= usize_bits c ->
  to_grid_index_3d c (fixed_ops c Dim3D t) s o = Ret (x, y, z) -> x' < 2 ^ len l -> y' < 2 ^ len l -> z' < 2 ^ len l ->
  exists s' l', fixed_from_grid_index_3d c t x' y' z' o = Ret s' /\ shows (fixed_ops c Dim3D t) s' l' /\ neighbours3 o l l' x y z x' y' z'.
Proof. exact c78_find_fixed_3d_lemma. Qed.
Print Assumptions c78_find_fixed_3d.
Example c78_find_fixed_3d_example :
  valid debug64 Dim3D (KFixed U8) (MkFixed 0x34) /\ shows (fixed_ops debug64 Dim3D U8) (MkFixed 0x34) [O1; O5]
  /\ to_grid_index_3d debug64 (fixed_ops debug64 Dim3D U8) (MkFixed 0x34) XYZ = Ret (3, 0, 1)
  /\ fixed_from_grid_index_3d debug64 U8 3 0 2 XYZ = Ret (MkFixed 0xA4).
Proof. concrete. Qed.

(* the same for dynamic indices *)
Theorem c78_find_dynamic_3d : forall c (s : storage KDynamic) l o x y z x' y' z', writable c KDynamic ->
  valid c Dim3D KDynamic s -> shows (dynamic_ops c Dim3D) s l -> len l <= usize_bits c / 2 ->
  to_grid_index_3d c (dynamic_ops c Dim3D) s o = Ret (x, y, z) -> x' < 2 ^ len l -> y' < 2 ^ len l -> z' < 2 ^ len l ->
  exists s' l', dynamic_from_grid_index_3d c x' y' z' (dy_depth s) o = Ret s' /\ shows (dynamic_ops c Dim3D) s' l'
    /\ neighbours3 o l l' x y z x' y' z'.
Proof. exact c78_find_dynamic_3d_lemma. Qed.
Print Assumptions c78_find_dynamic_3d.
Example c78_find_dynamic_3d_example :
  writable debug64 KDynamic /\ valid debug64 Dim3D KDynamic (MkDynamic [0x34] 2) /\ shows (dynamic_ops debug64 Dim3D) (MkDynamic [0x34] 2) [O1; O5]
  /\ to_grid_index_3d debug64 (dynamic_ops debug64 Dim3D) (MkDynamic [0x34] 2) XYZ = Ret (3, 0, 1)
  /\ dynamic_from_grid_index_3d debug64 3 0 2 2 XYZ = Ret (MkDynamic [0xA4] 2).
Proof. split; [vm_compute; tauto|]. concrete. Qed.

(* the next node along any axis comes later in the order *)
Theorem c78_next_is_greater_2d : forall c L k (a b : storage k) la lb o,
  made c Dim2D L k true a la -> made c Dim2D L k true b lb -> len la <= usize_bits c ->
  next_along (quad_x o) (quad_y o) la lb \/ next_along (quad_y o) (quad_x o) la lb -> idx_cmp c Dim2D k a b = Ret Lt.
Proof. exact c78_next_is_greater_2d_lemma. Qed.
Print Assumptions c78_next_is_greater_2d.
Example c78_next_is_greater_2d_example :
  made debug64 Dim2D layout2D KDynamic true (MkDynamic [0x1C] 3) [Q0; Q1; Q3] /\ made debug64 Dim2D layout2D KDynamic true (MkDynamic [0x48] 3) [Q1; Q0; Q2]
  /\ next_along (quad_x XY) (quad_y XY) [Q0; Q1; Q3] [Q1; Q0; Q2].
Proof.
  split; [made_by (start_dynamic_cells debug64 Dim2D layout2D [Q0; Q1; Q3]) (@nil (call Dim2D))|].
  split; [made_by (start_dynamic_cells debug64 Dim2D layout2D [Q1; Q0; Q2]) (@nil (call Dim2D))|].
  apply (next_of_parent _ _ [Q0; Q1] [Q1; Q0] Q3 Q2); try reflexivity.
  apply (next_of_parent _ _ [Q0] [Q1] Q1 Q0); try reflexivity. apply (next_sibling _ _ [] Q0 Q1); reflexivity.
Qed.

(* the same in 3D *)
Theorem c78_next_is_greater_3d : forall c L k (a b : storage k) la lb o,
  made c Dim3D L k true a la -> made c Dim3D L k true b lb -> len la <= usize_bits c ->
  next_along (oct_x o) (fun q => (oct_y o q, oct_z o q)) la lb \/ next_along (oct_y o) (fun q => (oct_x o q, oct_z o q)) la lb
  \/ next_along (oct_z o) (fun q => (oct_x o q, oct_y o q)) la lb -> idx_cmp c Dim3D k a b = Ret Lt.
Proof. exact c78_next_is_greater_3d_lemma. Qed.
Print Assumptions c78_next_is_greater_3d.
Example c78_next_is_greater_3d_example :
  made debug64 Dim3D layout3D (KFixed U8) true (MkFixed 0x34) [O1; O5] /\ made debug64 Dim3D layout3D (KFixed U8) true (MkFixed 0xA4) [O5; O1]
  /\ next_along (oct_z XYZ) (fun q => (oct_x XYZ q, oct_y XYZ q)) [O1; O5] [O5; O1].
Proof.
  split; [made_by (start_fixed_cells debug64 Dim3D layout3D U8 [O1; O5]) (@nil (call Dim3D))|].
  split; [made_by (start_fixed_cells debug64 Dim3D layout3D U8 [O5; O1]) (@nil (call Dim3D))|].
  apply (next_of_parent _ _ [O1] [O5] O5 O1); try reflexivity. apply (next_sibling _ _ [] O1 O5); reflexivity.
Qed.

(* not for static 3D indices: from_grid_index loses bits (C09); the node found is the one started from *)
Theorem c78_find_static_3d_refuted :
  ~ (forall c t (s : storage (KStatic t)) l o x y z x' y' z',
     valid c Dim3D (KStatic t) s -> shows (static_ops c Dim3D t) s l -> 32 <= usize_bits c -> BITS c t / 3 <= usize_bits c ->
     to_grid_index_3d c (static_ops c Dim3D t) s o = Ret (x, y, z) -> l <> [] -> x' < 2 ^ len l -> y' < 2 ^ len l -> z' < 2 ^ len l ->
     exists s' l', static_from_grid_index_3d c t x' y' z' (sx_depth s) o = Ret (Ok s') /\ shows (static_ops c Dim3D t) s' l'
       /\ neighbours3 o l l' x y z x' y' z').
Proof. exact c78_find_static_3d_refuted_lemma. Qed.
Print Assumptions c78_find_static_3d_refuted.
