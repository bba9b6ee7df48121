(* PropGrid.v - Grid indices (C06 to C13, C40 to C42) *)
From Verif Require Import Base ModelNumber ModelDim ModelStorage Model2D Model3D Spec History ExampleTools FactsGrid.

(* ---------- C06 ---------- *)
Theorem c06_fixed_2d_round_trip : forall c t x y o,
  BITS c t / 2 <= usize_bits c -> x < 2 ^ usize_bits c -> y < 2 ^ usize_bits c ->
  exists s, fixed_from_grid_index_2d c t x y o = Ret s /\ valid c Dim2D (KFixed t) s
    /\ to_grid_index_2d c (fixed_ops c Dim2D t) s o = Ret (x mod 2 ^ (BITS c t / 2), y mod 2 ^ (BITS c t / 2)).
Proof. exact c06_fixed_2d_round_trip_lemma. Qed.
Print Assumptions c06_fixed_2d_round_trip.
Example c06_fixed_2d_round_trip_example :
  BITS debug64 U16 / 2 <= usize_bits debug64 /\ 300 < 2 ^ usize_bits debug64 /\ 77 < 2 ^ usize_bits debug64
  /\ fixed_from_grid_index_2d debug64 U16 300 77 YX = Ret (MkFixed 6385)
  /\ to_grid_index_2d debug64 (fixed_ops debug64 Dim2D U16) (MkFixed 6385) YX = Ret (44, 77).
Proof. concrete. Qed.

Theorem c06_fixed_2d_panics_iff : forall c t x y o, x < 2 ^ usize_bits c -> y < 2 ^ usize_bits c ->
  (fixed_from_grid_index_2d c t x y o = Panic <-> usize_bits c < BITS c t / 2).
Proof. exact c06_fixed_2d_panics_iff_lemma. Qed.
Print Assumptions c06_fixed_2d_panics_iff.
Example c06_fixed_2d_panics_iff_example :
  usize_bits debug32 < BITS debug32 U128 / 2 /\ fixed_from_grid_index_2d debug32 U128 300 77 XY = Panic
  /\ fixed_from_grid_index_2d debug32 U64 300 77 XY = Ret (MkFixed 74994).
Proof. concrete. Qed.

(* ---------- C07 ---------- *)
(* the 16-bit targets are missing: there the property is false (see below) *)
Theorem c07_fixed_3d_round_trip_partial : forall c t x y z o,
  32 <= usize_bits c -> BITS c t / 3 <= usize_bits c ->
  exists s, fixed_from_grid_index_3d c t x y z o = Ret s /\ valid c Dim3D (KFixed t) s
    /\ to_grid_index_3d c (fixed_ops c Dim3D t) s o
       = Ret (x mod 2 ^ (BITS c t / 3), y mod 2 ^ (BITS c t / 3), z mod 2 ^ (BITS c t / 3)).
Proof. exact c07_fixed_3d_round_trip_partial_lemma. Qed.
Print Assumptions c07_fixed_3d_round_trip_partial.
Example c07_fixed_3d_round_trip_example :
  32 <= usize_bits debug32 /\ BITS debug32 U32 / 3 <= usize_bits debug32
  /\ fixed_from_grid_index_3d debug32 U32 300 77 1025 ZXY = Ret (MkFixed 138688020)
  /\ to_grid_index_3d debug32 (fixed_ops debug32 Dim3D U32) (MkFixed 138688020) ZXY = Ret (300, 77, 1).
Proof. concrete. Qed.

Theorem c07_fixed_3d_panics : forall c t x y z o,
  usize_bits c < BITS c t / 3 -> fixed_from_grid_index_3d c t x y z o = Panic.
Proof. exact c07_fixed_3d_panics_lemma. Qed.
Print Assumptions c07_fixed_3d_panics.
Example c07_fixed_3d_panics_example :
  usize_bits debug32 < BITS debug32 U128 / 3 /\ fixed_from_grid_index_3d debug32 U128 1 2 3 XYZ = Panic.
Proof. concrete. Qed.

(* witness: a 16-bit target *)
Theorem c07_fixed_3d_round_trip_refuted :
  ~ (forall c t x y z o, BITS c t / 3 <= usize_bits c ->
     x < 2 ^ usize_bits c -> y < 2 ^ usize_bits c -> z < 2 ^ usize_bits c ->
     exists s, fixed_from_grid_index_3d c t x y z o = Ret s
       /\ to_grid_index_3d c (fixed_ops c Dim3D t) s o
          = Ret (x mod 2 ^ (BITS c t / 3), y mod 2 ^ (BITS c t / 3), z mod 2 ^ (BITS c t / 3))).
Proof. exact c07_fixed_3d_round_trip_refuted_lemma. Qed.
Print Assumptions c07_fixed_3d_round_trip_refuted.

Theorem c07_fixed_3d_release16_refuted :
  exists s, fixed_from_grid_index_3d (Cfg false PW16 LittleEndian) U8 1 2 3 XYZ = Ret s
    /\ to_grid_index_3d (Cfg false PW16 LittleEndian) (fixed_ops (Cfg false PW16 LittleEndian) Dim3D U8) s XYZ <> Ret (1, 2, 3).
Proof. exact c07_fixed_3d_release16_refuted_lemma. Qed.
Print Assumptions c07_fixed_3d_release16_refuted.

(* ---------- C08 ---------- *)
Theorem c08_static_2d_error_iff : forall c t x y d o,
  BITS c t / 2 < d <-> static_from_grid_index_2d c t x y d o = Ret (Err (DepthLimitedExceeded (BITS c t / 2))).
Proof. exact c08_static_2d_error_iff_lemma. Qed.
Print Assumptions c08_static_2d_error_iff.
Example c08_static_2d_error_example :
  BITS debug64 U64 / 2 < 33 /\ static_from_grid_index_2d debug64 U64 300 77 33 YX = Ret (Err (DepthLimitedExceeded 32)).
Proof. concrete. Qed.

(* the missing cases are those of c08_static_2d_panics and, without overflow checks, integers more than twice as wide as usize *)
Theorem c08_static_2d_round_trip_partial : forall c t x y d o,
  BITS c t / 2 <= usize_bits c -> x < 2 ^ usize_bits c -> y < 2 ^ usize_bits c -> d <= BITS c t / 2 ->
  (d <> 0 \/ BITS c t / 2 < usize_bits c \/ overflow_checks c = false) ->
  exists s, static_from_grid_index_2d c t x y d o = Ret (Ok s) /\ valid c Dim2D (KStatic t) s
    /\ st_depth (static_ops c Dim2D t) s = d
    /\ to_grid_index_2d c (static_ops c Dim2D t) s o = Ret (x mod 2 ^ d, y mod 2 ^ d).
Proof. exact c08_static_2d_round_trip_partial_lemma. Qed.
Print Assumptions c08_static_2d_round_trip_partial.
Example c08_static_2d_round_trip_example :
  BITS debug64 U64 / 2 <= usize_bits debug64 /\ 300 < 2 ^ usize_bits debug64 /\ 77 < 2 ^ usize_bits debug64 /\ 7 <= BITS debug64 U64 / 2
  /\ (7 <> 0 \/ BITS debug64 U64 / 2 < usize_bits debug64 \/ overflow_checks debug64 = false)
  /\ static_from_grid_index_2d debug64 U64 300 77 7 YX = Ret (Ok (MkStatic 7188870905190154240 7))
  /\ to_grid_index_2d debug64 (static_ops debug64 Dim2D U64) (MkStatic 7188870905190154240 7) YX = Ret (44, 77).
Proof. do 4 (split; [concrete|]). split; [left; discriminate|]. concrete. Qed.

Theorem c08_static_2d_panics : forall c t x y d o,
  overflow_checks c = true -> x < 2 ^ usize_bits c -> d <= BITS c t / 2 ->
  usize_bits c < BITS c t / 2 \/ (usize_bits c = BITS c t / 2 /\ d = 0) ->
  static_from_grid_index_2d c t x y d o = Panic.
Proof. exact c08_static_2d_panics_lemma. Qed.
Print Assumptions c08_static_2d_panics.
Example c08_static_2d_panics_example :
  static_from_grid_index_2d debug64 U128 0 0 0 YX = Panic /\ static_from_grid_index_2d debug32 U128 5 6 40 YX = Panic.
Proof. concrete. Qed.

(* witness: StaticMortonIndex2D128 at depth 0 on a 64-bit target with overflow checks *)
Theorem c08_static_2d_round_trip_refuted :
  ~ (forall c t x y d o, x < 2 ^ usize_bits c -> y < 2 ^ usize_bits c -> d <= BITS c t / 2 ->
     exists s, static_from_grid_index_2d c t x y d o = Ret (Ok s)
       /\ to_grid_index_2d c (static_ops c Dim2D t) s o = Ret (x mod 2 ^ d, y mod 2 ^ d)).
Proof. exact c08_static_2d_round_trip_refuted_lemma. Qed.
Print Assumptions c08_static_2d_round_trip_refuted.

Theorem c08_static_2d_release32_refuted :
  exists s, static_from_grid_index_2d (Cfg false PW32 LittleEndian) U128 5 6 32 XY = Ret (Ok s)
    /\ to_grid_index_2d (Cfg false PW32 LittleEndian) (static_ops (Cfg false PW32 LittleEndian) Dim2D U128) s XY <> Ret (5, 6).
Proof. exact c08_static_2d_release32_refuted_lemma. Qed.
Print Assumptions c08_static_2d_release32_refuted.

(* ---------- C09 ---------- *)
Theorem c09_static_3d_error : forall c t x y z d o, BITS c t / 3 < d ->
  static_from_grid_index_3d c t x y z d o = Ret (Err (DepthLimitedExceeded (BITS c t / 3))).
Proof. exact c09_static_3d_error_lemma. Qed.
Print Assumptions c09_static_3d_error.
Example c09_static_3d_error_example :
  BITS debug64 U64 / 3 < 22 /\ static_from_grid_index_3d debug64 U64 1 2 3 22 XYZ = Ret (Err (DepthLimitedExceeded 21)).
Proof. concrete. Qed.

(* what the code does at every depth: the lowest bits of each coordinate are replaced by zeros *)
Theorem c09_static_3d_loses_low_bits : forall c t x y z d o,
  BITS c t / 3 <= usize_bits c -> x < 2 ^ usize_bits c -> y < 2 ^ usize_bits c -> z < 2 ^ usize_bits c -> d <= BITS c t / 3 ->
  let M := BITS c t / 3 in
  let lost := 8 * ((M + 7) / 8 - (d + 7) / 8) - (M - d) in
  exists s, static_from_grid_index_3d c t x y z d o = Ret (Ok s) /\ valid c Dim3D (KStatic t) s
    /\ st_depth (static_ops c Dim3D t) s = d
    /\ to_grid_index_3d c (static_ops c Dim3D t) s o
       = Ret (x mod 2 ^ d / 2 ^ lost * 2 ^ lost, y mod 2 ^ d / 2 ^ lost * 2 ^ lost, z mod 2 ^ d / 2 ^ lost * 2 ^ lost).
Proof. exact c09_static_3d_loses_low_bits_lemma. Qed.
Print Assumptions c09_static_3d_loses_low_bits.
Example c09_static_3d_loses_low_bits_example :
  8 * ((21 + 7) / 8 - (6 + 7) / 8) - (21 - 6) = 1
  /\ static_from_grid_index_3d debug64 U64 0x2F 0x3F 0x5D 6 ZYX = Ret (Ok (MkStatic 14986853659982168064 6))
  /\ to_grid_index_3d debug64 (static_ops debug64 Dim3D U64) (MkStatic 14986853659982168064 6) ZYX = Ret (0x2E, 0x3E, 0x1C).
Proof. concrete. Qed.

(* exactly the depths at which the round trip holds *)
Theorem c09_static_3d_round_trip_partial : forall c t d,
  BITS c t / 3 <= usize_bits c -> d <= BITS c t / 3 ->
  let M := BITS c t / 3 in
  (d = 0 \/ 8 * ((M + 7) / 8 - (d + 7) / 8) <= M - d) <->
  (forall x y z o, x < 2 ^ usize_bits c -> y < 2 ^ usize_bits c -> z < 2 ^ usize_bits c ->
   exists s, static_from_grid_index_3d c t x y z d o = Ret (Ok s)
     /\ to_grid_index_3d c (static_ops c Dim3D t) s o = Ret (x mod 2 ^ d, y mod 2 ^ d, z mod 2 ^ d)).
Proof. exact c09_static_3d_round_trip_partial_lemma. Qed.
Print Assumptions c09_static_3d_round_trip_partial.
Example c09_static_3d_round_trip_example :
  8 * ((21 + 7) / 8 - (9 + 7) / 8) <= 21 - 9
  /\ static_from_grid_index_3d debug64 U64 0x12F 0x13F 0x15D 9 ZYX = Ret (Ok (MkStatic 16206202022142148608 9))
  /\ to_grid_index_3d debug64 (static_ops debug64 Dim3D U64) (MkStatic 16206202022142148608 9) ZYX = Ret (0x12F, 0x13F, 0x15D).
Proof. concrete. Qed.

(* witness: StaticMortonIndex3D64, grid index (1,0,0), depth 6 *)
Theorem c09_static_3d_round_trip_refuted :
  ~ (forall c t x y z d o, x < 2 ^ usize_bits c -> y < 2 ^ usize_bits c -> z < 2 ^ usize_bits c -> d <= BITS c t / 3 ->
     exists s, static_from_grid_index_3d c t x y z d o = Ret (Ok s)
       /\ to_grid_index_3d c (static_ops c Dim3D t) s o = Ret (x mod 2 ^ d, y mod 2 ^ d, z mod 2 ^ d)).
Proof. exact c09_static_3d_round_trip_refuted_lemma. Qed.
Print Assumptions c09_static_3d_round_trip_refuted.

Theorem c09_static_3d_debug32_refuted :
  exists s, static_from_grid_index_3d (Cfg true PW32 LittleEndian) U128 (2 ^ 31) 0 0 32 XYZ = Ret (Ok s)
    /\ to_grid_index_3d (Cfg true PW32 LittleEndian) (static_ops (Cfg true PW32 LittleEndian) Dim3D U128) s XYZ <> Ret (2 ^ 31, 0, 0).
Proof. exact c09_static_3d_debug32_refuted_lemma. Qed.
Print Assumptions c09_static_3d_debug32_refuted.

(* ---------- C10 ---------- *)
Theorem c10_dynamic_2d_round_trip : forall c x y d o,
  d <= usize_bits c / 2 -> x < 2 ^ usize_bits c -> y < 2 ^ usize_bits c ->
  exists s, dynamic_from_grid_index_2d c x y d o = Ret s /\ valid c Dim2D KDynamic s
    /\ st_depth (dynamic_ops c Dim2D) s = d
    /\ to_grid_index_2d c (dynamic_ops c Dim2D) s o = Ret (x mod 2 ^ d, y mod 2 ^ d).
Proof. exact c10_dynamic_2d_round_trip_lemma. Qed.
Print Assumptions c10_dynamic_2d_round_trip.
Example c10_dynamic_2d_round_trip_example :
  7 <= usize_bits debug64 / 2 /\ dynamic_from_grid_index_2d debug64 300 77 7 YX = Ret (MkDynamic [196; 99] 7)
  /\ to_grid_index_2d debug64 (dynamic_ops debug64 Dim2D) (MkDynamic [196; 99] 7) YX = Ret (44, 77).
Proof. concrete. Qed.

Theorem c10_dynamic_2d_panics_iff : forall c x y d o, x < 2 ^ usize_bits c -> y < 2 ^ usize_bits c ->
  (dynamic_from_grid_index_2d c x y d o = Panic <-> usize_bits c / 2 < d).
Proof. exact c10_dynamic_2d_panics_iff_lemma. Qed.
Print Assumptions c10_dynamic_2d_panics_iff.
Example c10_dynamic_2d_panics_iff_example : dynamic_from_grid_index_2d debug64 300 77 33 YX = Panic.
Proof. concrete. Qed.

Theorem c10_dynamic_3d_round_trip : forall c x y z d o, writable c KDynamic ->
  d <= usize_bits c / 2 -> x < 2 ^ usize_bits c -> y < 2 ^ usize_bits c -> z < 2 ^ usize_bits c ->
  exists s, dynamic_from_grid_index_3d c x y z d o = Ret s /\ valid c Dim3D KDynamic s
    /\ st_depth (dynamic_ops c Dim3D) s = d
    /\ to_grid_index_3d c (dynamic_ops c Dim3D) s o = Ret (x mod 2 ^ d, y mod 2 ^ d, z mod 2 ^ d).
Proof. exact c10_dynamic_3d_round_trip_lemma. Qed.
Print Assumptions c10_dynamic_3d_round_trip.
Example c10_dynamic_3d_round_trip_example :
  writable debug64 KDynamic /\ 7 <= usize_bits debug64 / 2
  /\ dynamic_from_grid_index_3d debug64 300 77 1234 7 YXZ = Ret (MkDynamic [8; 55; 170] 7)
  /\ to_grid_index_3d debug64 (dynamic_ops debug64 Dim3D) (MkDynamic [8; 55; 170] 7) YXZ = Ret (44, 77, 82).
Proof. concrete. Qed.

Theorem c10_dynamic_3d_panics_iff : forall c x y z d o, writable c KDynamic ->
  x < 2 ^ usize_bits c -> y < 2 ^ usize_bits c -> z < 2 ^ usize_bits c ->
  (dynamic_from_grid_index_3d c x y z d o = Panic <-> usize_bits c / 2 < d).
Proof. exact c10_dynamic_3d_panics_iff_lemma. Qed.
Print Assumptions c10_dynamic_3d_panics_iff.
Example c10_dynamic_3d_panics_iff_example : dynamic_from_grid_index_3d debug32 300 77 1234 17 YXZ = Panic.
Proof. concrete. Qed.

(* ---------- C11 ---------- *)
Theorem c11_to_grid_index_2d : forall c k (s : storage k) l o,
  valid c Dim2D k s -> shows (ops c Dim2D k) s l -> len l <= usize_bits c ->
  to_grid_index_2d c (ops c Dim2D k) s o = Ret (coord (quad_x o) l, coord (quad_y o) l)
  /\ coord (quad_x o) l < 2 ^ len l /\ coord (quad_y o) l < 2 ^ len l.
Proof. exact c11_to_grid_index_2d_lemma. Qed.
Print Assumptions c11_to_grid_index_2d.
Example c11_to_grid_index_2d_example :
  valid debug64 Dim2D (KStatic U16) (MkStatic 0x6C00 3) /\ shows (static_ops debug64 Dim2D U16) (MkStatic 0x6C00 3) [Q1; Q2; Q3]
  /\ to_grid_index_2d debug64 (static_ops debug64 Dim2D U16) (MkStatic 0x6C00 3) XY = Ret (5, 3).
Proof. concrete. Qed.

Theorem c11_to_grid_index_3d : forall c k (s : storage k) l o,
  valid c Dim3D k s -> shows (ops c Dim3D k) s l -> len l <= usize_bits c ->
  to_grid_index_3d c (ops c Dim3D k) s o = Ret (coord (oct_x o) l, coord (oct_y o) l, coord (oct_z o) l)
  /\ coord (oct_x o) l < 2 ^ len l /\ coord (oct_y o) l < 2 ^ len l /\ coord (oct_z o) l < 2 ^ len l.
Proof. exact c11_to_grid_index_3d_lemma. Qed.
Print Assumptions c11_to_grid_index_3d.
Example c11_to_grid_index_3d_example :
  valid debug64 Dim3D KDynamic (MkDynamic [128; 57] 3) /\ shows (dynamic_ops debug64 Dim3D) (MkDynamic [128; 57] 3) [O1; O6; O3]
  /\ to_grid_index_3d debug64 (dynamic_ops debug64 Dim3D) (MkDynamic [128; 57] 3) XYZ = Ret (5, 3, 2).
Proof. concrete. Qed.

Theorem c11_grid_index_2d_injective : forall o (l l' : list quadrant), len l = len l' -> grid2 o l = grid2 o l' -> l = l'.
Proof. exact c11_grid_index_2d_injective_lemma. Qed.
Print Assumptions c11_grid_index_2d_injective.
Example c11_grid_index_2d_injective_example : grid2 XY [Q1; Q2; Q3] = (5, 3) /\ grid2 XY [Q2; Q1; Q3] = (3, 5).
Proof. concrete. Qed.

Theorem c11_grid_index_3d_injective : forall o (l l' : list octant), len l = len l' -> grid3 o l = grid3 o l' -> l = l'.
Proof. exact c11_grid_index_3d_injective_lemma. Qed.
Print Assumptions c11_grid_index_3d_injective.
Example c11_grid_index_3d_injective_example : grid3 XYZ [O1; O6; O3] = (5, 3, 2) /\ grid3 XYZ [O1; O6; O2] = (4, 3, 2).
Proof. concrete. Qed.

(* ---------- C12 ---------- *)
Theorem c12_fixed_2d : forall c L t (s : storage (KFixed t)) l o,
  made c Dim2D L (KFixed t) true s l -> BITS c t / 2 <= usize_bits c ->
  exists x y s', to_grid_index_2d c (fixed_ops c Dim2D t) s o = Ret (x, y)
    /\ fixed_from_grid_index_2d c t x y o = Ret s' /\ idx_eq (KFixed t) s' s = true.
Proof. exact c12_fixed_2d_lemma. Qed.
Print Assumptions c12_fixed_2d.
Example c12_fixed_2d_example :
  made debug64 Dim2D layout2D (KFixed U16) true (MkFixed 6385) [Q0; Q1; Q2; Q0; Q3; Q3; Q0; Q1] /\ BITS debug64 U16 / 2 <= usize_bits debug64
  /\ to_grid_index_2d debug64 (fixed_ops debug64 Dim2D U16) (MkFixed 6385) YX = Ret (44, 77).
Proof. split; [made_by (start_fixed_cells debug64 Dim2D layout2D U16 [Q0; Q1; Q2; Q0; Q3; Q3; Q0; Q1]) (@nil (call Dim2D))|]. concrete. Qed.

Theorem c12_fixed_3d : forall c L t (s : storage (KFixed t)) l o,
  made c Dim3D L (KFixed t) true s l -> 32 <= usize_bits c -> BITS c t / 3 <= usize_bits c ->
  exists x y z s', to_grid_index_3d c (fixed_ops c Dim3D t) s o = Ret (x, y, z)
    /\ fixed_from_grid_index_3d c t x y z o = Ret s' /\ idx_eq (KFixed t) s' s = true.
Proof. exact c12_fixed_3d_lemma. Qed.
Print Assumptions c12_fixed_3d.
Example c12_fixed_3d_example :
  made debug64 Dim3D layout3D (KFixed U8) true (MkFixed 212) [O6; O5]
  /\ to_grid_index_3d debug64 (fixed_ops debug64 Dim3D U8) (MkFixed 212) ZYX = Ret (3, 2, 1)
  /\ fixed_from_grid_index_3d debug64 U8 3 2 1 ZYX = Ret (MkFixed 212).
Proof. split; [made_by (start_fixed_default debug64 Dim3D layout3D U8) [CSet (D:=Dim3D) 0 O6; CSet (D:=Dim3D) 1 O5]|]. concrete. Qed.

Theorem c12_static_2d : forall c L t (s : storage (KStatic t)) l o,
  made c Dim2D L (KStatic t) true s l -> BITS c t / 2 <= usize_bits c ->
  (sx_depth s <> 0 \/ BITS c t / 2 < usize_bits c \/ overflow_checks c = false) ->
  exists x y s', to_grid_index_2d c (static_ops c Dim2D t) s o = Ret (x, y)
    /\ static_from_grid_index_2d c t x y (sx_depth s) o = Ret (Ok s') /\ idx_eq (KStatic t) s' s = true.
Proof. exact c12_static_2d_lemma. Qed.
Print Assumptions c12_static_2d.
Example c12_static_2d_example :
  made debug64 Dim2D layout2D (KStatic U16) true (MkStatic 0x6C00 3) [Q1; Q2; Q3]
  /\ to_grid_index_2d debug64 (static_ops debug64 Dim2D U16) (MkStatic 0x6C00 3) XY = Ret (5, 3)
  /\ static_from_grid_index_2d debug64 U16 5 3 3 XY = Ret (Ok (MkStatic 0x6C00 3)).
Proof. split; [made_by (start_static_cells debug64 Dim2D layout2D U16 [Q1; Q2; Q3]) (@nil (call Dim2D))|]. concrete. Qed.

(* equal exactly if the coordinate bits that static 3D from_grid_index loses (C09) are zero *)
Theorem c12_static_3d : forall c L t (s : storage (KStatic t)) l o,
  made c Dim3D L (KStatic t) true s l -> BITS c t / 3 <= usize_bits c ->
  let M := BITS c t / 3 in let lost := 8 * ((M + 7) / 8 - (sx_depth s + 7) / 8) - (M - sx_depth s) in
  exists x y z s', to_grid_index_3d c (static_ops c Dim3D t) s o = Ret (x, y, z)
    /\ static_from_grid_index_3d c t x y z (sx_depth s) o = Ret (Ok s')
    /\ (idx_eq (KStatic t) s' s = true <-> x mod 2 ^ lost = 0 /\ y mod 2 ^ lost = 0 /\ z mod 2 ^ lost = 0).
Proof. exact c12_static_3d_lemma. Qed.
Print Assumptions c12_static_3d.
Example c12_static_3d_example :
  made debug64 Dim3D layout3D (KStatic U16) true (MkStatic 0x3980 3) [O1; O6; O3]
  /\ 8 * ((BITS debug64 U16 / 3 + 7) / 8 - (3 + 7) / 8) - (BITS debug64 U16 / 3 - 3) = 0
  /\ to_grid_index_3d debug64 (static_ops debug64 Dim3D U16) (MkStatic 0x3980 3) XYZ = Ret (5, 3, 2)
  /\ 8 * ((BITS debug64 U64 / 3 + 7) / 8 - (6 + 7) / 8) - (BITS debug64 U64 / 3 - 6) = 1
  /\ static_from_grid_index_3d debug64 U64 1 0 0 6 XYZ = Ret (Ok (MkStatic 0 6)).
Proof. split; [made_by (start_static_cells debug64 Dim3D layout3D U16 [O1; O6; O3]) (@nil (call Dim3D))|]. concrete. Qed.

Theorem c12_dynamic_2d : forall c L (s : storage KDynamic) l o,
  made c Dim2D L KDynamic true s l -> dy_depth s <= usize_bits c / 2 ->
  exists x y s', to_grid_index_2d c (dynamic_ops c Dim2D) s o = Ret (x, y)
    /\ dynamic_from_grid_index_2d c x y (dy_depth s) o = Ret s' /\ idx_eq KDynamic s' s = true.
Proof. exact c12_dynamic_2d_lemma. Qed.
Print Assumptions c12_dynamic_2d.
Example c12_dynamic_2d_example :
  made debug64 Dim2D layout2D KDynamic true (MkDynamic [128; 108] 5) [Q1; Q2; Q3; Q0; Q2] /\ 5 <= usize_bits debug64 / 2
  /\ to_grid_index_2d debug64 (dynamic_ops debug64 Dim2D) (MkDynamic [128; 108] 5) XY = Ret (20, 13).
Proof. split; [made_by (start_dynamic_cells debug64 Dim2D layout2D [Q1; Q2; Q3; Q0; Q2]) (@nil (call Dim2D))|]. concrete. Qed.

Theorem c12_dynamic_3d : forall c L (s : storage KDynamic) l o,
  made c Dim3D L KDynamic true s l -> writable c KDynamic -> dy_depth s <= usize_bits c / 2 ->
  exists x y z s', to_grid_index_3d c (dynamic_ops c Dim3D) s o = Ret (x, y, z)
    /\ dynamic_from_grid_index_3d c x y z (dy_depth s) o = Ret s' /\ idx_eq KDynamic s' s = true.
Proof. exact c12_dynamic_3d_lemma. Qed.
Print Assumptions c12_dynamic_3d.
Example c12_dynamic_3d_example :
  made debug64 Dim3D layout3D KDynamic true (MkDynamic [128; 57] 3) [O1; O6; O3] /\ 3 <= usize_bits debug64 / 2
  /\ to_grid_index_3d debug64 (dynamic_ops debug64 Dim3D) (MkDynamic [128; 57] 3) XYZ = Ret (5, 3, 2).
Proof. split; [made_by (start_dynamic_cells debug64 Dim3D layout3D [O1; O6; O3]) (@nil (call Dim3D))|]. concrete. Qed.

(* ---------- C13 ---------- *)
(* as values and as panics *)
Theorem c13_fast_equals_from_grid_index : forall c x y z o,
  from_grid_index_fast c x y z o = fixed_from_grid_index_3d c U64 x y z o.
Proof. exact c13_fast_equals_from_grid_index_lemma. Qed.
Print Assumptions c13_fast_equals_from_grid_index.
Example c13_fast_example : from_grid_index_fast debug64 1000000 2000001 1234567 YZX = Ret (MkFixed 8572866056436056358).
Proof. concrete. Qed.

(* ---------- C40 ---------- *)
Theorem c40_z_order_2d : forall c L k (a b : storage k) la lb o x y x' y',
  made c Dim2D L k true a la -> made c Dim2D L k true b lb ->
  st_depth (ops c Dim2D k) a = st_depth (ops c Dim2D k) b -> st_depth (ops c Dim2D k) a <= usize_bits c ->
  to_grid_index_2d c (ops c Dim2D k) a o = Ret (x, y) -> to_grid_index_2d c (ops c Dim2D k) b o = Ret (x', y') ->
  x <= x' -> y <= y' ->
  exists r, idx_cmp c Dim2D k a b = Ret r /\ r <> Gt /\ (r = Eq <-> x = x' /\ y = y').
Proof. exact c40_z_order_2d_lemma. Qed.
Print Assumptions c40_z_order_2d.
Example c40_z_order_2d_example :
  made debug64 Dim2D layout2D (KStatic U16) true (MkStatic 0x6C00 3) [Q1; Q2; Q3]
  /\ made debug64 Dim2D layout2D (KStatic U16) true (MkStatic 0x7C00 3) [Q1; Q3; Q3]
  /\ to_grid_index_2d debug64 (static_ops debug64 Dim2D U16) (MkStatic 0x6C00 3) XY = Ret (5, 3)
  /\ to_grid_index_2d debug64 (static_ops debug64 Dim2D U16) (MkStatic 0x7C00 3) XY = Ret (7, 3)
  /\ static_cmp debug64 Dim2D U16 (MkStatic 0x6C00 3) (MkStatic 0x7C00 3) = Ret Lt.
Proof.
  split; [made_by (start_static_cells debug64 Dim2D layout2D U16 [Q1; Q2; Q3]) (@nil (call Dim2D))|].
  split; [made_by (start_static_cells debug64 Dim2D layout2D U16 [Q1; Q3; Q3]) (@nil (call Dim2D))|]. concrete.
Qed.

Theorem c40_z_order_3d : forall c L k (a b : storage k) la lb o x y z x' y' z',
  made c Dim3D L k true a la -> made c Dim3D L k true b lb ->
  st_depth (ops c Dim3D k) a = st_depth (ops c Dim3D k) b -> st_depth (ops c Dim3D k) a <= usize_bits c ->
  to_grid_index_3d c (ops c Dim3D k) a o = Ret (x, y, z) -> to_grid_index_3d c (ops c Dim3D k) b o = Ret (x', y', z') ->
  x <= x' -> y <= y' -> z <= z' ->
  exists r, idx_cmp c Dim3D k a b = Ret r /\ r <> Gt /\ (r = Eq <-> x = x' /\ y = y' /\ z = z').
Proof. exact c40_z_order_3d_lemma. Qed.
Print Assumptions c40_z_order_3d.
Example c40_z_order_3d_example :
  made debug64 Dim3D layout3D KDynamic true (MkDynamic [128; 57] 3) [O1; O6; O3]
  /\ made debug64 Dim3D layout3D KDynamic true (MkDynamic [128; 59] 3) [O1; O6; O7]
  /\ to_grid_index_3d debug64 (dynamic_ops debug64 Dim3D) (MkDynamic [128; 57] 3) XYZ = Ret (5, 3, 2)
  /\ to_grid_index_3d debug64 (dynamic_ops debug64 Dim3D) (MkDynamic [128; 59] 3) XYZ = Ret (5, 3, 3)
  /\ dynamic_cmp debug64 Dim3D (MkDynamic [128; 57] 3) (MkDynamic [128; 59] 3) = Ret Lt.
Proof.
  split; [made_by (start_dynamic_cells debug64 Dim3D layout3D [O1; O6; O3]) (@nil (call Dim3D))|].
  split; [made_by (start_dynamic_cells debug64 Dim3D layout3D [O1; O6; O7]) (@nil (call Dim3D))|]. concrete.
Qed.

Theorem c40_from_grid_2d_monotone : forall c t x y x' y' o, BITS c t / 2 <= usize_bits c ->
  x <= x' -> y <= y' -> x' < 2 ^ (BITS c t / 2) -> y' < 2 ^ (BITS c t / 2) ->
  exists a b, fixed_from_grid_index_2d c t x y o = Ret a /\ fixed_from_grid_index_2d c t x' y' o = Ret b
    /\ fixed_cmp a b <> Gt /\ (fixed_cmp a b = Eq <-> x = x' /\ y = y').
Proof. exact c40_from_grid_2d_monotone_lemma. Qed.
Print Assumptions c40_from_grid_2d_monotone.
Example c40_from_grid_2d_monotone_example :
  fixed_from_grid_index_2d debug64 U16 44 70 YX = Ret (MkFixed 6324) /\ fixed_from_grid_index_2d debug64 U16 44 77 YX = Ret (MkFixed 6385).
Proof. concrete. Qed.

Theorem c40_from_grid_3d_monotone : forall c t x y z x' y' z' o, 32 <= usize_bits c -> BITS c t / 3 <= usize_bits c ->
  x <= x' -> y <= y' -> z <= z' -> x' < 2 ^ (BITS c t / 3) -> y' < 2 ^ (BITS c t / 3) -> z' < 2 ^ (BITS c t / 3) ->
  exists a b, fixed_from_grid_index_3d c t x y z o = Ret a /\ fixed_from_grid_index_3d c t x' y' z' o = Ret b
    /\ fixed_cmp a b <> Gt /\ (fixed_cmp a b = Eq <-> x = x' /\ y = y' /\ z = z').
Proof. exact c40_from_grid_3d_monotone_lemma. Qed.
Print Assumptions c40_from_grid_3d_monotone.
Example c40_from_grid_3d_monotone_example :
  fixed_from_grid_index_3d debug64 U8 2 2 1 ZYX = Ret (MkFixed 196) /\ fixed_from_grid_index_3d debug64 U8 3 2 1 ZYX = Ret (MkFixed 212).
Proof. concrete. Qed.

(* ---------- C41 ---------- *)
Theorem c41_ancestor_2d : forall c L k v (s s' : storage k) o g x y,
  is_dim Dim2D L -> var_ops c Dim2D L k = Some v -> valid c Dim2D k s -> st_depth (ops c Dim2D k) s <= usize_bits c ->
  to_grid_index_2d c (ops c Dim2D k) s o = Ret (x, y) -> ancestor v s g = Ret (Some s') ->
  to_grid_index_2d c (ops c Dim2D k) s' o = Ret (x / 2 ^ g, y / 2 ^ g).
Proof. exact c41_ancestor_2d_lemma. Qed.
Print Assumptions c41_ancestor_2d.
Example c41_ancestor_2d_example :
  to_grid_index_2d debug64 (static_ops debug64 Dim2D U16) (MkStatic 0x6C00 3) XY = Ret (5, 3)
  /\ ancestor (static_vops debug64 Dim2D U16) (MkStatic 0x6C00 3) 1 = Ret (Some (MkStatic 0x6000 2))
  /\ to_grid_index_2d debug64 (static_ops debug64 Dim2D U16) (MkStatic 0x6000 2) XY = Ret (2, 1).
Proof. concrete. Qed.

Theorem c41_ancestor_3d : forall c L k v (s s' : storage k) o g x y z,
  is_dim Dim3D L -> var_ops c Dim3D L k = Some v -> valid c Dim3D k s -> st_depth (ops c Dim3D k) s <= usize_bits c ->
  to_grid_index_3d c (ops c Dim3D k) s o = Ret (x, y, z) -> ancestor v s g = Ret (Some s') ->
  to_grid_index_3d c (ops c Dim3D k) s' o = Ret (x / 2 ^ g, y / 2 ^ g, z / 2 ^ g).
Proof. exact c41_ancestor_3d_lemma. Qed.
Print Assumptions c41_ancestor_3d.
Example c41_ancestor_3d_example :
  to_grid_index_3d debug64 (dynamic_ops debug64 Dim3D) (MkDynamic [128; 57] 3) XYZ = Ret (5, 3, 2)
  /\ ancestor (dynamic_vops debug64 Dim3D layout3D) (MkDynamic [128; 57] 3) 1 = Ret (Some (MkDynamic [56] 2))
  /\ to_grid_index_3d debug64 (dynamic_ops debug64 Dim3D) (MkDynamic [56] 2) XYZ = Ret (2, 1, 1).
Proof. concrete. Qed.

Theorem c41_static_child_2d : forall c L t (s s' : storage (KStatic t)) o q x y,
  is_dim Dim2D L -> valid c Dim2D (KStatic t) s -> sx_depth s < usize_bits c ->
  to_grid_index_2d c (static_ops c Dim2D t) s o = Ret (x, y) -> child (static_vops c Dim2D t) s q = Ret (Some s') ->
  to_grid_index_2d c (static_ops c Dim2D t) s' o = Ret (2 * x + quad_x o q, 2 * y + quad_y o q).
Proof. exact c41_static_child_2d_lemma. Qed.
Print Assumptions c41_static_child_2d.
Example c41_static_child_2d_example :
  child (static_vops debug64 Dim2D U16) (MkStatic 0x6000 2) Q3 = Ret (Some (MkStatic 0x6C00 3))
  /\ to_grid_index_2d debug64 (static_ops debug64 Dim2D U16) (MkStatic 0x6000 2) XY = Ret (2, 1)
  /\ to_grid_index_2d debug64 (static_ops debug64 Dim2D U16) (MkStatic 0x6C00 3) XY = Ret (5, 3).
Proof. concrete. Qed.

Theorem c41_dynamic_child_2d : forall c L (s : storage KDynamic) o q x y,
  is_dim Dim2D L -> writable c KDynamic -> valid c Dim2D KDynamic s -> dy_depth s < usize_bits c ->
  8 * len (dy_bits s) + 18 <= 2 ^ usize_bits c ->
  to_grid_index_2d c (dynamic_ops c Dim2D) s o = Ret (x, y) ->
  exists s', child (dynamic_vops c Dim2D L) s q = Ret (Some s')
    /\ to_grid_index_2d c (dynamic_ops c Dim2D) s' o = Ret (2 * x + quad_x o q, 2 * y + quad_y o q).
Proof. exact c41_dynamic_child_2d_lemma. Qed.
Print Assumptions c41_dynamic_child_2d.
Example c41_dynamic_child_2d_example :
  child (dynamic_vops debug64 Dim2D layout2D) (MkDynamic [128; 108] 5) Q1 = Ret (Some (MkDynamic [144; 108] 6))
  /\ to_grid_index_2d debug64 (dynamic_ops debug64 Dim2D) (MkDynamic [144; 108] 6) XY = Ret (41, 26).
Proof. concrete. Qed.

Theorem c41_static_child_3d : forall c L t (s s' : storage (KStatic t)) o q x y z,
  is_dim Dim3D L -> valid c Dim3D (KStatic t) s -> sx_depth s < usize_bits c ->
  to_grid_index_3d c (static_ops c Dim3D t) s o = Ret (x, y, z) -> child (static_vops c Dim3D t) s q = Ret (Some s') ->
  to_grid_index_3d c (static_ops c Dim3D t) s' o = Ret (2 * x + oct_x o q, 2 * y + oct_y o q, 2 * z + oct_z o q).
Proof. exact c41_static_child_3d_lemma. Qed.
Print Assumptions c41_static_child_3d.
Example c41_static_child_3d_example :
  child (static_vops debug64 Dim3D U16) (MkStatic 0x3800 2) O3 = Ret (Some (MkStatic 0x3980 3))
  /\ to_grid_index_3d debug64 (static_ops debug64 Dim3D U16) (MkStatic 0x3800 2) XYZ = Ret (2, 1, 1)
  /\ to_grid_index_3d debug64 (static_ops debug64 Dim3D U16) (MkStatic 0x3980 3) XYZ = Ret (5, 3, 2).
Proof. concrete. Qed.

Theorem c41_dynamic_child_3d : forall c L (s : storage KDynamic) o q x y z,
  is_dim Dim3D L -> writable c KDynamic -> valid c Dim3D KDynamic s -> dy_depth s < usize_bits c ->
  8 * len (dy_bits s) + 19 <= 2 ^ usize_bits c ->
  to_grid_index_3d c (dynamic_ops c Dim3D) s o = Ret (x, y, z) ->
  exists s', child (dynamic_vops c Dim3D L) s q = Ret (Some s')
    /\ to_grid_index_3d c (dynamic_ops c Dim3D) s' o = Ret (2 * x + oct_x o q, 2 * y + oct_y o q, 2 * z + oct_z o q).
Proof. exact c41_dynamic_child_3d_lemma. Qed.
Print Assumptions c41_dynamic_child_3d.
Example c41_dynamic_child_3d_example :
  child (dynamic_vops debug64 Dim3D layout3D) (MkDynamic [56] 2) O3 = Ret (Some (MkDynamic [128; 57] 3))
  /\ to_grid_index_3d debug64 (dynamic_ops debug64 Dim3D) (MkDynamic [128; 57] 3) XYZ = Ret (5, 3, 2).
Proof. concrete. Qed.

(* ---------- C42 ---------- *)
Theorem c42_deep_to_grid_index_2d_panics : forall c k (s : storage k) o,
  overflow_checks c = true -> valid c Dim2D k s -> usize_bits c < st_depth (ops c Dim2D k) s ->
  to_grid_index_2d c (ops c Dim2D k) s o = Panic.
Proof. exact c42_deep_to_grid_index_2d_panics_lemma. Qed.
Print Assumptions c42_deep_to_grid_index_2d_panics.
Example c42_deep_to_grid_index_2d_panics_example :
  valid debug64 Dim2D KDynamic (MkDynamic (zeros 17) 65)
  /\ to_grid_index_2d debug64 (dynamic_ops debug64 Dim2D) (MkDynamic (zeros 17) 65) XY = Panic.
Proof. concrete. Qed.

Theorem c42_deep_to_grid_index_3d_panics : forall c k (s : storage k) o,
  overflow_checks c = true -> valid c Dim3D k s -> usize_bits c < st_depth (ops c Dim3D k) s ->
  to_grid_index_3d c (ops c Dim3D k) s o = Panic.
Proof. exact c42_deep_to_grid_index_3d_panics_lemma. Qed.
Print Assumptions c42_deep_to_grid_index_3d_panics.
Example c42_deep_to_grid_index_3d_panics_example :
  valid debug32 Dim3D (KStatic U128) (MkStatic 0 33)
  /\ to_grid_index_3d debug32 (static_ops debug32 Dim3D U128) (MkStatic 0 33) XYZ = Panic.
Proof. concrete. Qed.

(* what a build without overflow checks returns at any depth *)
Theorem c42_release_2d_folds : forall c k (s : storage k) l o,
  overflow_checks c = false -> valid c Dim2D k s -> shows (ops c Dim2D k) s l ->
  exists x y, to_grid_index_2d c (ops c Dim2D k) s o = Ret (x, y)
    /\ folded (usize_bits c) (coord (quad_x o) l) x /\ folded (usize_bits c) (coord (quad_y o) l) y.
Proof. exact c42_release_2d_folds_lemma. Qed.
Print Assumptions c42_release_2d_folds.
Example c42_release_2d_folds_example :
  shows (dynamic_ops release64 Dim2D) (MkDynamic (64 :: zeros 15 ++ [64]) 66) (Q1 :: repeat Q0 62 ++ [Q0; Q1; Q0])
  /\ coord (quad_x XY) (Q1 :: repeat Q0 62 ++ [Q0; Q1; Q0]) = 2 ^ 65 + 2
  /\ to_grid_index_2d release64 (dynamic_ops release64 Dim2D) (MkDynamic (64 :: zeros 15 ++ [64]) 66) XY = Ret (2, 0).
Proof. concrete. Qed.

Theorem c42_release_3d_folds : forall c k (s : storage k) l o,
  overflow_checks c = false -> valid c Dim3D k s -> shows (ops c Dim3D k) s l ->
  exists x y z, to_grid_index_3d c (ops c Dim3D k) s o = Ret (x, y, z)
    /\ folded (usize_bits c) (coord (oct_x o) l) x /\ folded (usize_bits c) (coord (oct_y o) l) y
    /\ folded (usize_bits c) (coord (oct_z o) l) z.
Proof. exact c42_release_3d_folds_lemma. Qed.
Print Assumptions c42_release_3d_folds.
Example c42_release_3d_folds_example :
  coord (oct_x XYZ) (O1 :: repeat O0 64) = 2 ^ 64
  /\ to_grid_index_3d release64 (dynamic_ops release64 Dim3D) (MkDynamic (zeros 24 ++ [32]) 65) XYZ = Ret (1, 0, 0).
Proof. concrete. Qed.

(* witness: the path One, Zero, ..., Zero of depth 65 *)
Theorem c42_deep_to_grid_index_refuted :
  ~ (forall c s (l : list quadrant) o, made c Dim2D layout2D KDynamic true s l ->
     exists x y, to_grid_index_2d c (dynamic_ops c Dim2D) s o = Ret (x, y)
       /\ x = coord (quad_x o) l mod 2 ^ usize_bits c /\ y = coord (quad_y o) l mod 2 ^ usize_bits c).
Proof. exact c42_deep_to_grid_index_refuted_lemma. Qed.
Print Assumptions c42_deep_to_grid_index_refuted.
