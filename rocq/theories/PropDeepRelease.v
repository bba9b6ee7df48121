(* PropDeepRelease.v - C65 static 3D indices made from a raw value with more levels than fit, without overflow checks *)
From Coq Require Import Bool.
From Verif Require Import Base ModelNumber ModelDim ModelStorage Model2D Model3D ModelBits Spec SpecDeep ExampleTools FactsDeepRelease.

(* ---------- C65 ---------- *)
(* l: the cells of c65_cells_release *)
Theorem c65_reading_release : forall c t b d l, overflow_checks c = false -> BITS c t / 3 < d -> d < 2 ^ 8 ->
  let s := static_from_raw_index b d in
  shows (static_ops c Dim3D t) s l ->
  collect_cells c (static_ops c Dim3D t) s = Ret l
  /\ (forall o, exists x y z, to_grid_index_3d c (static_ops c Dim3D t) s o = Ret (x, y, z)
        /\ folded (usize_bits c) (coord (oct_x o) l) x /\ folded (usize_bits c) (coord (oct_y o) l) y /\ folded (usize_bits c) (coord (oct_z o) l) z)
  /\ to_string_3d c (static_ops c Dim3D t) s CellConcatenation = Ret (String.concat "" (map (fun q => decimal (octant_index q)) l))
  /\ (exists text, to_string_3d c (static_ops c Dim3D t) s GridIndex = Ret text)
  /\ exists s', dynamic_from_static c Dim3D layout3D t s = Ret s' /\ valid c Dim3D KDynamic s'
       /\ shows (dynamic_ops c Dim3D) s' (map (stored c Dim3D KDynamic) l).
Proof. exact c65_reading_release_lemma. Qed.
Print Assumptions c65_reading_release.
Example c65_reading_release_example :
  overflow_checks release64 = false /\ BITS release64 U16 / 3 < 7 /\ 7 < 2 ^ 8
  /\ shows (static_ops release64 Dim3D U16) (static_from_raw_index 0x1234 7) [O0; O4; O4; O3; O2; O0; O0]
  /\ to_grid_index_3d release64 (static_ops release64 Dim3D U16) (static_from_raw_index 0x1234 7) XYZ = Ret (8, 12, 48)
  /\ dynamic_from_static release64 Dim3D layout3D U16 (static_from_raw_index 0x1234 7) = Ret (MkDynamic [0; 52; 18] 7).
Proof. concrete. Qed.

(* the levels that fit are those of the inverted list, the others get lost *)
Theorem c65_inverted_release : forall c t b d l, overflow_checks c = false -> b < 2 ^ BITS c t -> BITS c t / 3 < d -> d < 2 ^ 8 ->
  shows (static_ops c Dim3D t) (static_from_raw_index b d) l ->
  exists b', inverted c (static_ops c Dim3D t) (static_from_raw_index b d) = Ret (static_from_raw_index b' d) /\ b' < 2 ^ BITS c t
    /\ forall i, i < BITS c t / 3 -> get_cell_at_level (static_ops c Dim3D t) (static_from_raw_index b' d) i
                 = get_cell_at_level (static_ops c Dim3D t) (static_from_raw_index b d) (d - 1 - i).
Proof. exact c65_inverted_release_lemma. Qed.
Print Assumptions c65_inverted_release.
Example c65_inverted_release_example :
  overflow_checks release64 = false /\ 0x1234 < 2 ^ BITS release64 U16 /\ BITS release64 U16 / 3 < 7 /\ 7 < 2 ^ 8
  /\ shows (static_ops release64 Dim3D U16) (static_from_raw_index 0x1234 7) [O0; O4; O4; O3; O2; O0; O0]
  /\ inverted release64 (static_ops release64 Dim3D U16) (static_from_raw_index 0x1234 7) = Ret (static_from_raw_index 312 7)
  /\ collect_cells release64 (static_ops release64 Dim3D U16) (static_from_raw_index 312 7) = Ret [O0; O0; O2; O3; O4; O0; O0].
Proof. concrete. Qed.

(* an ancestor also loses the bits that the removed levels wrap around to *)
Theorem c65_tree_release : forall c t b d, overflow_checks c = false -> b < 2 ^ BITS c t -> BITS c t / 3 < d -> d < 2 ^ 8 ->
  let s := static_from_raw_index b d in
  (forall g, if d <? g then ancestor (static_vops c Dim3D t) s g = Ret None
     else exists b', ancestor (static_vops c Dim3D t) s g = Ret (Some (static_from_raw_index b' (d - g))) /\ b' < 2 ^ BITS c t
            /\ forall j, j < BITS c t -> N.testbit b' j = negb (existsb (fun i => clears (BITS c t) i j) (range (d - g) d)) && N.testbit b j)
  /\ parent (static_vops c Dim3D t) s = ancestor (static_vops c Dim3D t) s 1
  /\ (forall n, with_depth c (static_vops c Dim3D t) s n = if d <? n then Ret None else if n =? d then Ret (Some s) else ancestor (static_vops c Dim3D t) s (d - n))
  /\ (forall cells, d + len cells < 2 ^ usize_bits c -> descendant (static_vops c Dim3D t) s cells = Ret None)
  /\ (forall x, child (static_vops c Dim3D t) s x = Ret None)
  /\ fixed_from_static s = fixed_from_raw_index b.
Proof. exact c65_tree_release_lemma. Qed.
Print Assumptions c65_tree_release.
Example c65_tree_release_example :
  overflow_checks release64 = false /\ 0x1234 < 2 ^ BITS release64 U16 /\ BITS release64 U16 / 3 < 7 /\ 7 < 2 ^ 8
  /\ map (clears (BITS release64 U16) 6) [10; 11; 12; 13; 14] = [false; true; true; true; false]
  /\ parent (static_vops release64 Dim3D U16) (static_from_raw_index 0x1234 7) = Ret (Some (static_from_raw_index 0x0234 6))
  /\ parent (static_vops release64 Dim3D U16) (static_from_raw_index 0x1234 6) = Ret (Some (static_from_raw_index 0x1234 5)).
Proof. concrete. Qed.
