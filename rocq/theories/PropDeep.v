(* PropDeep.v - C65 static 3D indices made from a raw value with more levels than fit *)
From Coq Require Import ZifyBool ZifyNat ZifyN.
From Verif Require Import Base ModelNumber ModelDim ModelStorage Model2D Model3D ModelBits Spec History ExampleTools FactsDeep.

(* ---------- C65 ---------- *)
(* with overflow checks: the levels that fit read as usual, the others panic *)
Theorem c65_cells : forall c t b d, overflow_checks c = true -> b < 2 ^ BITS c t -> BITS c t / 3 < d -> d < 2 ^ 8 ->
  let s := static_from_raw_index b d in
  st_depth (static_ops c Dim3D t) s = d
  /\ (forall i, i < BITS c t / 3 -> exists x, get_cell_at_level (static_ops c Dim3D t) s i = Ret x
        /\ cell_index Dim3D x = b / 2 ^ (BITS c t - 3 * (i + 1)) mod 2 ^ 3)
  /\ (forall i, BITS c t / 3 <= i -> get_cell_at_level (static_ops c Dim3D t) s i = Panic).
Proof. exact c65_cells_lemma. Qed.
Print Assumptions c65_cells.
Example c65_cells_example :
  overflow_checks debug64 = true /\ 0x1234 < 2 ^ BITS debug64 U16 /\ BITS debug64 U16 / 3 < 7 /\ 7 < 2 ^ 8
  /\ mapM (get_cell_at_level (static_ops debug64 Dim3D U16) (static_from_raw_index 0x1234 7)) [0; 1; 2; 3; 4] = Ret [O0; O4; O4; O3; O2]
  /\ map (get_cell_at_level (static_ops debug64 Dim3D U16) (static_from_raw_index 0x1234 7)) [5; 6; 7; 2 ^ 63] = [Panic; Panic; Panic; Panic].
Proof. concrete. Qed.

(* writing *)
Theorem c65_set_cell : forall c t b d i x, overflow_checks c = true -> b < 2 ^ BITS c t -> BITS c t / 3 < d -> d < 2 ^ 8 ->
  let s := static_from_raw_index b d in
  if i <? BITS c t / 3
  then exists b', set_cell_at_level (static_ops c Dim3D t) s i x = Ret (static_from_raw_index b' d) /\ b' < 2 ^ BITS c t
         /\ get_cell_at_level (static_ops c Dim3D t) (static_from_raw_index b' d) i = Ret x
         /\ forall j, j <> i -> get_cell_at_level (static_ops c Dim3D t) (static_from_raw_index b' d) j = get_cell_at_level (static_ops c Dim3D t) s j
  else set_cell_at_level (static_ops c Dim3D t) s i x = Panic.
Proof. exact c65_set_cell_lemma. Qed.
Print Assumptions c65_set_cell.
Example c65_set_cell_example :
  overflow_checks debug64 = true /\ 0x1234 < 2 ^ BITS debug64 U16 /\ BITS debug64 U16 / 3 < 7 /\ 7 < 2 ^ 8
  /\ set_cell_at_level (static_ops debug64 Dim3D U16) (static_from_raw_index 0x1234 7) 1 O7 = Ret (static_from_raw_index 0x1E34 7)
  /\ set_cell_at_level (static_ops debug64 Dim3D U16) (static_from_raw_index 0x1234 7) 5 O7 = Panic.
Proof. concrete. Qed.

(* everything that reads all levels panics *)
Theorem c65_reading_operations_panic : forall c t b d, overflow_checks c = true -> BITS c t / 3 < d -> d < 2 ^ 8 ->
  let s := static_from_raw_index b d in
  collect_cells c (static_ops c Dim3D t) s = Panic
  /\ (forall o, to_grid_index_3d c (static_ops c Dim3D t) s o = Panic)
  /\ (forall n, to_string_3d c (static_ops c Dim3D t) s n = Panic)
  /\ inverted c (static_ops c Dim3D t) s = Panic
  /\ dynamic_from_static c Dim3D layout3D t s = Panic.
Proof. exact c65_reading_operations_panic_lemma. Qed.
Print Assumptions c65_reading_operations_panic.
Example c65_reading_operations_panic_example :
  overflow_checks debug64 = true /\ BITS debug64 U16 / 3 < 7 /\ 7 < 2 ^ 8
  /\ collect_cells debug64 (static_ops debug64 Dim3D U16) (static_from_raw_index 0x1234 7) = Panic
  /\ collect_cells debug64 (static_ops debug64 Dim3D U16) (static_from_raw_index 0x1234 5) = Ret [O0; O4; O4; O3; O2].
Proof. concrete. Qed.

(* walking the tree *)
Theorem c65_tree_operations : forall c t b d, overflow_checks c = true -> BITS c t / 3 < d -> d < 2 ^ 8 ->
  let s := static_from_raw_index b d in
  (forall g, 0 < g -> ancestor (static_vops c Dim3D t) s g = if d <? g then Ret None else Panic)
  /\ parent (static_vops c Dim3D t) s = Panic
  /\ (forall n, with_depth c (static_vops c Dim3D t) s n = if d <? n then Ret None else if n =? d then Ret (Some s) else Panic)
  /\ (forall cells, d + len cells < 2 ^ usize_bits c -> descendant (static_vops c Dim3D t) s cells = Ret None)
  /\ (forall x, child (static_vops c Dim3D t) s x = Ret None)
  /\ fixed_from_static s = fixed_from_raw_index b.
Proof. exact c65_tree_operations_lemma. Qed.
Print Assumptions c65_tree_operations.
Example c65_tree_operations_example :
  overflow_checks debug64 = true /\ BITS debug64 U16 / 3 < 7 /\ 7 < 2 ^ 8
  /\ parent (static_vops debug64 Dim3D U16) (static_from_raw_index 0x1234 7) = Panic
  /\ ancestor (static_vops debug64 Dim3D U16) (static_from_raw_index 0x1234 7) 8 = Ret None
  /\ child (static_vops debug64 Dim3D U16) (static_from_raw_index 0x1234 7) O1 = Ret None
  /\ descendant (static_vops debug64 Dim3D U16) (static_from_raw_index 0x1234 7) [] = Ret None.
Proof. concrete. Qed.

(* without overflow checks nothing panics: levels beyond the maximum read as zero, except for 8-bit values *)
Theorem c65_cells_release : forall c t b d, overflow_checks c = false -> b < 2 ^ BITS c t -> BITS c t / 3 < d -> d < 2 ^ 8 ->
  exists l, shows (static_ops c Dim3D t) (static_from_raw_index b d) l /\ len l = d
    /\ forall i x, nth_error l (N.to_nat i) = Some x ->
         cell_index Dim3D x = if i <? BITS c t / 3 then b / 2 ^ (BITS c t - 3 * (i + 1)) mod 2 ^ 3
                              else if BITS c t =? 8 then b / 2 ^ ((1032 - 3 * (i + 1)) mod 256) mod 2 ^ 3 else 0.
Proof. exact c65_cells_release_lemma. Qed.
Print Assumptions c65_cells_release.
Example c65_cells_release_example :
  overflow_checks release64 = false /\ 0x1234 < 2 ^ BITS release64 U16 /\ BITS release64 U16 / 3 < 7 /\ 7 < 2 ^ 8
  /\ collect_cells release64 (static_ops release64 Dim3D U16) (static_from_raw_index 0x1234 7) = Ret [O0; O4; O4; O3; O2; O0; O0]
  /\ BITS release64 U8 / 3 < 88
  /\ get_cell_at_level (static_ops release64 Dim3D U8) (static_from_raw_index 0xB7 88) 87 = Ret O7.
Proof. concrete. Qed.

(* and writing such a level changes other levels *)
Theorem c65_set_cell_release : forall c t b d i x, overflow_checks c = false -> b < 2 ^ BITS c t -> BITS c t / 3 <= i -> i < d -> d < 2 ^ 8 ->
  let w := BITS c t in
  let p := (w - 3 * (i + 1) mod w) mod w in
  let n := if 3 * (i + 1) <=? w + 3 then 0 else 3 in
  exists b', set_cell_at_level (static_ops c Dim3D t) (static_from_raw_index b d) i x = Ret (static_from_raw_index b' d) /\ b' < 2 ^ w
    /\ forall j, j < w -> N.testbit b' j = if j <? p then N.testbit b j
                                          else if j <? p + n then N.testbit (cell_index Dim3D x) (j - p)
                                          else N.testbit b j || N.testbit (cell_index Dim3D x) (j - p).
Proof. exact c65_set_cell_release_lemma. Qed.
Print Assumptions c65_set_cell_release.
Example c65_set_cell_release_example :
  overflow_checks release64 = false /\ 0x1234 < 2 ^ BITS release64 U16 /\ BITS release64 U16 / 3 <= 6 /\ 6 < 7 /\ 7 < 2 ^ 8
  /\ set_cell_at_level (static_ops release64 Dim3D U16) (static_from_raw_index 0x1234 7) 6 O7 = Ret (static_from_raw_index 0x3A34 7)
  /\ get_cell_at_level (static_ops release64 Dim3D U16) (static_from_raw_index 0x3A34 7) 6 = Ret O0.
Proof. concrete. Qed.
