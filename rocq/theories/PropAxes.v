(* PropAxes.v - Orderings are permutations of the axes (C51) *)
From Verif Require Import Base ModelNumber ModelDim ModelStorage ModelTraits Model2D Model3D Spec SpecTraits ExampleTools FactsAxes.

(* ---------- C51 ---------- *)
Theorem c51_fixed_2d : forall c t x y o,
  fixed_from_grid_index_2d c t x y o = let '(a, b) := axes2 o (x, y) in fixed_from_grid_index_2d c t a b XY.
Proof. exact c51_fixed_2d_lemma. Qed.
Print Assumptions c51_fixed_2d.
Example c51_fixed_2d_example :
  fixed_from_grid_index_2d debug64 U8 3 5 YX = fixed_from_grid_index_2d debug64 U8 5 3 XY
  /\ fixed_from_grid_index_2d debug64 U8 3 5 YX = Ret (MkFixed 0x1B)
  /\ fixed_from_grid_index_2d debug64 U8 3 5 XY = Ret (MkFixed 0x27).
Proof. concrete. Qed.

(* the calls that panic are the same ones *)
Theorem c51_static_2d : forall c t x y d o,
  static_from_grid_index_2d c t x y d o = let '(a, b) := axes2 o (x, y) in static_from_grid_index_2d c t a b d XY.
Proof. exact c51_static_2d_lemma. Qed.
Print Assumptions c51_static_2d.
Example c51_static_2d_example :
  static_from_grid_index_2d debug64 U8 3 5 3 YX = static_from_grid_index_2d debug64 U8 5 3 3 XY
  /\ static_from_grid_index_2d debug64 U8 3 5 3 YX = Ret (Ok (MkStatic 0x6C 3))
  /\ static_from_grid_index_2d debug32 U128 3 5 3 YX = Panic.
Proof. concrete. Qed.

Theorem c51_dynamic_2d : forall c x y d o,
  dynamic_from_grid_index_2d c x y d o = let '(a, b) := axes2 o (x, y) in dynamic_from_grid_index_2d c a b d XY.
Proof. exact c51_dynamic_2d_lemma. Qed.
Print Assumptions c51_dynamic_2d.
Example c51_dynamic_2d_example :
  dynamic_from_grid_index_2d debug64 3 5 5 YX = dynamic_from_grid_index_2d debug64 5 3 5 XY
  /\ dynamic_from_grid_index_2d debug64 3 5 5 YX = Ret (MkDynamic [0xC0; 0x06] 5).
Proof. concrete. Qed.

(* for every storage, also when the index is too deep for a grid index *)
Theorem c51_to_grid_2d : forall S c (op : StorageOps Dim2D S) s o,
  (let! p := to_grid_index_2d c op s o in Ret (axes2 o p)) = to_grid_index_2d c op s XY.
Proof. exact c51_to_grid_2d_lemma. Qed.
Print Assumptions c51_to_grid_2d.
Example c51_to_grid_2d_example :
  to_grid_index_2d debug64 (fixed_ops debug64 Dim2D U8) (MkFixed 0x1B) YX = Ret (3, 5)
  /\ to_grid_index_2d debug64 (fixed_ops debug64 Dim2D U8) (MkFixed 0x1B) XY = Ret (5, 3).
Proof. concrete. Qed.

Theorem c51_fixed_3d : forall c t x y z o,
  fixed_from_grid_index_3d c t x y z o = let '(a, b, d) := axes3 o (x, y, z) in fixed_from_grid_index_3d c t a b d XYZ.
Proof. exact c51_fixed_3d_lemma. Qed.
Print Assumptions c51_fixed_3d.
Example c51_fixed_3d_example :
  axes3 YZX (1, 2, 3) = (2, 3, 1)
  /\ fixed_from_grid_index_3d debug64 U8 1 2 3 YZX = fixed_from_grid_index_3d debug64 U8 2 3 1 XYZ
  /\ fixed_from_grid_index_3d debug64 U8 1 2 3 YZX = Ret (MkFixed 0x78).
Proof. concrete. Qed.

Theorem c51_fast_3d : forall c x y z o,
  from_grid_index_fast c x y z o = let '(a, b, d) := axes3 o (x, y, z) in from_grid_index_fast c a b d XYZ.
Proof. exact c51_fast_3d_lemma. Qed.
Print Assumptions c51_fast_3d.
Example c51_fast_3d_example :
  from_grid_index_fast debug64 1 2 3 ZXY = from_grid_index_fast debug64 3 1 2 XYZ
  /\ from_grid_index_fast debug64 1 2 3 ZXY = Ret (MkFixed 0x56).
Proof. concrete. Qed.

(* also when low bits get lost (property C09) *)
Theorem c51_static_3d : forall c t x y z n o,
  static_from_grid_index_3d c t x y z n o = let '(a, b, d) := axes3 o (x, y, z) in static_from_grid_index_3d c t a b d n XYZ.
Proof. exact c51_static_3d_lemma. Qed.
Print Assumptions c51_static_3d.
Example c51_static_3d_example :
  static_from_grid_index_3d debug64 U32 1 2 3 9 ZYX = static_from_grid_index_3d debug64 U32 3 2 1 9 XYZ.
Proof. concrete. Qed.

(* also on big-endian targets *)
Theorem c51_dynamic_3d : forall c x y z n o,
  dynamic_from_grid_index_3d c x y z n o = let '(a, b, d) := axes3 o (x, y, z) in dynamic_from_grid_index_3d c a b d n XYZ.
Proof. exact c51_dynamic_3d_lemma. Qed.
Print Assumptions c51_dynamic_3d.
Example c51_dynamic_3d_example :
  dynamic_from_grid_index_3d debug64 1 2 3 2 XZY = dynamic_from_grid_index_3d debug64 1 3 2 2 XYZ
  /\ dynamic_from_grid_index_3d debug64 1 2 3 2 XZY = Ret (MkDynamic [0xCC] 2).
Proof. concrete. Qed.

Theorem c51_to_grid_3d : forall S c (op : StorageOps Dim3D S) s o,
  (let! p := to_grid_index_3d c op s o in Ret (axes3 o p)) = to_grid_index_3d c op s XYZ.
Proof. exact c51_to_grid_3d_lemma. Qed.
Print Assumptions c51_to_grid_3d.
Example c51_to_grid_3d_example :
  to_grid_index_3d debug64 (fixed_ops debug64 Dim3D U8) (MkFixed 0x78) YZX = Ret (1, 2, 3)
  /\ to_grid_index_3d debug64 (fixed_ops debug64 Dim3D U8) (MkFixed 0x78) XYZ = Ret (2, 3, 1).
Proof. concrete. Qed.
