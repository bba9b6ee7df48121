(* PropSuite.v - the theorems about the randomised tests of the repository *)
From Verif Require Import Base ModelNumber ModelDim ModelStorage Model2D Model3D Spec History ModelSuite ExampleTools FactsSuite.

(* ---------- C76 ---------- *)
(* the cells the tests draw: never one of the octants 4 to 7 *)
Theorem c76_drawn_cells : forall D L n r, is_dim D L ->
  exists l, draw D n r = Ret (l, Rng (numbers r) (used r + n))
    /\ map (cell_index D) l = map (fun i => numbers r i mod 4) (range (used r) (used r + n))
    /\ Forall (fun x => cell_index D x < 4) l.
Proof. exact c76_drawn_cells_lemma. Qed.
Print Assumptions c76_drawn_cells.
Example c76_drawn_cells_example :
  is_dim Dim3D layout3D
  /\ draw Dim3D 6 (Rng (fun i => i * i + i / 2) 3) = Ret ([O2; O2; O3; O3; O0; O0], Rng (fun i => i * i + i / 2) 9).
Proof. split; [constructor|reflexivity]. Qed.

(* test_fixed_depth!, without the grid indices *)
Theorem c76_fixed_2d : forall c t m r, In (t, m) tested_2d ->
  Forall (fun test => snd test = Ret tt) (fixed_tests_2d c t m r).
Proof. exact c76_fixed_2d_lemma. Qed.
Print Assumptions c76_fixed_2d.
Example c76_fixed_2d_example :
  In (U16, 8) tested_2d /\ List.length (fixed_tests_2d big64 U16 8 (Rng (fun i => i * 3) 0)) = 10%nat
  /\ map fst (fixed_tests_2d big64 U16 8 (Rng (fun i => i * 3) 0)) = ["default"; "from_cells"; "from_array"; "from_too_many"; "from_fewer";
       "set_cell"; "set_cell_oob_panics"; "cells_iter"; "ordering"; "inverted"]%string.
Proof. split; [cbn; tauto|]. split; reflexivity. Qed.

Theorem c76_fixed_3d : forall c t m r, In (t, m) tested_3d ->
  Forall (fun test => snd test = Ret tt) (fixed_tests_3d c t m r).
Proof. exact c76_fixed_3d_lemma. Qed.
Print Assumptions c76_fixed_3d.
Example c76_fixed_3d_example :
  In (U16, 5) tested_3d /\ List.length (fixed_tests_3d debug16 U16 5 (Rng (fun i => i * 3) 0)) = 10%nat.
Proof. split; [cbn; tauto|]. reflexivity. Qed.

(* test_static!, without the grid indices *)
Theorem c76_static_2d : forall c t m r, In (t, m) tested_2d ->
  Forall (fun test => snd test = Ret tt) (static_tests_2d c t m r).
Proof. exact c76_static_2d_lemma. Qed.
Print Assumptions c76_static_2d.
Example c76_static_2d_example :
  In (U16, 8) tested_2d /\ List.length (static_tests_2d debug32 U16 8 (Rng (fun i => i * 3) 0)) = 19%nat.
Proof. split; [cbn; tauto|]. reflexivity. Qed.

Theorem c76_static_3d : forall c t m r, In (t, m) tested_3d ->
  Forall (fun test => snd test = Ret tt) (static_tests_3d c t m r).
Proof. exact c76_static_3d_lemma. Qed.
Print Assumptions c76_static_3d.
Example c76_static_3d_example :
  In (U128, 42) tested_3d /\ List.length (static_tests_3d big64 U128 42 (Rng (fun i => i * 3) 0)) = 20%nat.
Proof. split; [cbn; tauto|]. reflexivity. Qed.

(* test_dynamic!, without the grid indices *)
Theorem c76_dynamic_2d : forall c r, writable c KDynamic ->
  Forall (fun test => snd test = Ret tt) (dynamic_tests_2d c r).
Proof. exact c76_dynamic_2d_lemma. Qed.
Print Assumptions c76_dynamic_2d.
Example c76_dynamic_2d_example :
  writable (Cfg true PW16 BigEndian) KDynamic /\ List.length (dynamic_tests_2d (Cfg true PW16 BigEndian) (Rng (fun i => i * 3) 0)) = 18%nat.
Proof. split; [right; reflexivity|]. reflexivity. Qed.

Theorem c76_dynamic_3d : forall c r, writable c KDynamic ->
  Forall (fun test => snd test = Ret tt) (dynamic_tests_3d c r).
Proof. exact c76_dynamic_3d_lemma. Qed.
Print Assumptions c76_dynamic_3d.
Example c76_dynamic_3d_example :
  writable debug32 KDynamic /\ List.length (dynamic_tests_3d debug32 (Rng (fun i => i * 3) 0)) = 18%nat.
Proof. split; [left; reflexivity|]. reflexivity. Qed.

(* test_conversions! *)
Theorem c76_conversions_2d : forall c t m r, target_endian c = LittleEndian -> In (t, m) tested_2d ->
  Forall (fun test => snd test = Ret tt) (conversion_tests_2d c t m r).
Proof. exact c76_conversions_2d_lemma. Qed.
Print Assumptions c76_conversions_2d.
Example c76_conversions_2d_example :
  target_endian debug16 = LittleEndian /\ In (U64, 32) tested_2d
  /\ List.length (conversion_tests_2d debug16 U64 32 (Rng (fun i => i * 3) 0)) = 10%nat.
Proof. split; [reflexivity|]. split; [cbn; tauto|reflexivity]. Qed.

Theorem c76_conversions_3d : forall c t m r, target_endian c = LittleEndian -> In (t, m) tested_3d ->
  Forall (fun test => snd test = Ret tt) (conversion_tests_3d c t m r).
Proof. exact c76_conversions_3d_lemma. Qed.
Print Assumptions c76_conversions_3d.
Example c76_conversions_3d_example :
  target_endian debug64 = LittleEndian /\ In (U8, 2) tested_3d
  /\ List.length (conversion_tests_3d debug64 U8 2 (Rng (fun i => i * 3) 0)) = 10%nat.
Proof. split; [reflexivity|]. split; [cbn; tauto|reflexivity]. Qed.

(* roundtrip_grid_index: passes with every generator or fails with every generator *)
Theorem c76_fixed_grid_2d : forall c t m r, In (t, m) tested_2d ->
  (Forall (fun test => snd test = Ret tt) (fixed_grid_tests_2d c t m r) <-> m <= usize_bits c).
Proof. exact c76_fixed_grid_2d_lemma. Qed.
Print Assumptions c76_fixed_grid_2d.
Example c76_fixed_grid_2d_example :
  In (U128, 64) tested_2d /\ 64 <= usize_bits debug64 /\ usize_bits debug32 < 64
  /\ fixed_grid_tests_2d debug32 U128 64 (Rng (fun i => i * 3) 0) = [("roundtrip_grid_index"%string, Panic)].
Proof. split; [cbn; tauto|]. concrete. Qed.

Theorem c76_fixed_grid_3d : forall c t m r, In (t, m) tested_3d -> 32 <= usize_bits c ->
  (Forall (fun test => snd test = Ret tt) (fixed_grid_tests_3d c t m r) <-> m <= usize_bits c).
Proof. exact c76_fixed_grid_3d_lemma. Qed.
Print Assumptions c76_fixed_grid_3d.
Example c76_fixed_grid_3d_example :
  In (U64, 21) tested_3d /\ 32 <= usize_bits debug32 /\ 21 <= usize_bits debug32
  /\ fixed_grid_tests_3d debug32 U128 42 (Rng (fun i => i * 3) 0) = [("roundtrip_grid_index"%string, Panic)].
Proof. split; [cbn; tauto|]. concrete. Qed.

(* the three round trips of test_static! *)
Theorem c76_static_grid_2d : forall c t m r, In (t, m) tested_2d -> m <= usize_bits c ->
  Forall (fun test => snd test = Ret tt) (static_grid_tests_2d c t m r).
Proof. exact c76_static_grid_2d_lemma. Qed.
Print Assumptions c76_static_grid_2d.
Example c76_static_grid_2d_example :
  In (U64, 32) tested_2d /\ 32 <= usize_bits debug32 /\ List.length (static_grid_tests_2d debug32 U64 32 (Rng (fun i => i * 3) 0)) = 3%nat.
Proof. split; [cbn; tauto|]. concrete. Qed.

Theorem c76_static_grid_3d : forall c t m r, In (t, m) tested_3d -> m <= usize_bits c ->
  Forall (fun test => snd test = Ret tt) (static_grid_tests_3d c t m r).
Proof. exact c76_static_grid_3d_lemma. Qed.
Print Assumptions c76_static_grid_3d.
Example c76_static_grid_3d_example :
  In (U128, 42) tested_3d /\ 42 <= usize_bits debug64 /\ List.length (static_grid_tests_3d debug64 U128 42 (Rng (fun i => i * 3) 0)) = 3%nat.
Proof. split; [cbn; tauto|]. concrete. Qed.

(* the two round trips of test_dynamic! *)
Theorem c76_dynamic_grid_2d : forall c r, writable c KDynamic ->
  (Forall (fun test => snd test = Ret tt) (dynamic_grid_tests_2d c r) <-> usize_bits c = 64).
Proof. exact c76_dynamic_grid_2d_lemma. Qed.
Print Assumptions c76_dynamic_grid_2d.
Example c76_dynamic_grid_2d_example :
  writable debug64 KDynamic /\ usize_bits debug64 = 64 /\ writable debug32 KDynamic
  /\ map snd (dynamic_grid_tests_2d debug32 (Rng (fun i => i * 3) 0)) = [Panic; Panic].
Proof. split; [left; reflexivity|]. split; [reflexivity|]. split; [left; reflexivity|]. concrete. Qed.

Theorem c76_dynamic_grid_3d : forall c r, writable c KDynamic ->
  (Forall (fun test => snd test = Ret tt) (dynamic_grid_tests_3d c r) <-> usize_bits c = 64).
Proof. exact c76_dynamic_grid_3d_lemma. Qed.
Print Assumptions c76_dynamic_grid_3d.
Example c76_dynamic_grid_3d_example :
  writable debug64 KDynamic /\ usize_bits debug64 = 64 /\ writable debug32 KDynamic
  /\ map snd (dynamic_grid_tests_3d debug32 (Rng (fun i => i * 3) 0)) = [Panic; Panic].
Proof. split; [left; reflexivity|]. split; [reflexivity|]. split; [left; reflexivity|]. concrete. Qed.

(* all of them on 64-bit little-endian targets *)
Theorem c76_all_tests : forall c r, target_endian c = LittleEndian -> usize_bits c = 64 ->
  (forall t m, In (t, m) tested_2d -> Forall (fun test => snd test = Ret tt)
     (fixed_tests_2d c t m r ++ fixed_grid_tests_2d c t m r ++ static_tests_2d c t m r ++ static_grid_tests_2d c t m r
        ++ conversion_tests_2d c t m r))
  /\ (forall t m, In (t, m) tested_3d -> Forall (fun test => snd test = Ret tt)
     (fixed_tests_3d c t m r ++ fixed_grid_tests_3d c t m r ++ static_tests_3d c t m r ++ static_grid_tests_3d c t m r
        ++ conversion_tests_3d c t m r))
  /\ Forall (fun test => snd test = Ret tt)
     (dynamic_tests_2d c r ++ dynamic_grid_tests_2d c r ++ dynamic_tests_3d c r ++ dynamic_grid_tests_3d c r).
Proof. exact c76_all_tests_lemma. Qed.
Print Assumptions c76_all_tests.
Example c76_all_tests_example :
  target_endian release64 = LittleEndian /\ usize_bits release64 = 64 /\ In (U32, 16) tested_2d /\ In (U32, 10) tested_3d
  /\ draw Dim2D 5 (Rng (fun i => i * 7 + i / 3) 0) = Ret ([Q0; Q3; Q2; Q2; Q1], Rng (fun i => i * 7 + i / 3) 5).
Proof. split; [reflexivity|]. split; [reflexivity|]. split; [cbn; tauto|]. split; [cbn; tauto|reflexivity]. Qed.

(* the depths at which the round trip test of static 3D indices cannot fail; the depths the tests use are among them *)
Theorem c76_static_3d_depths : forall c t n, BITS c t / 3 <= usize_bits c -> 1 <= n -> n <= BITS c t / 3 ->
  ((forall r, roundtrip_3d c (KStatic t) n (fun x y z o => expect (static_from_grid_index_3d c t x y z n o)) r = Ret tt)
   <-> 8 * ((BITS c t / 3 + 7) / 8 - (n + 7) / 8) <= BITS c t / 3 - n).
Proof. exact c76_static_3d_depths_lemma. Qed.
Print Assumptions c76_static_3d_depths.
Example c76_static_3d_depths_example :
  BITS debug64 U128 / 3 <= usize_bits debug64
  /\ 8 * ((BITS debug64 U128 / 3 + 7) / 8 - (41 + 7) / 8) <= BITS debug64 U128 / 3 - 41
  /\ BITS debug64 U128 / 3 - 40 < 8 * ((BITS debug64 U128 / 3 + 7) / 8 - (40 + 7) / 8)
  /\ roundtrip_3d debug64 (KStatic U128) 40 (fun x y z o => expect (static_from_grid_index_3d debug64 U128 x y z 40 o)) (Rng (fun _ => 3) 0) = Panic.
Proof. concrete. Qed.

(* on big-endian targets the tests from_even_number_of_quadrants (n = 8) and from_odd_number_of_quadrants (n = 9) depend on luck *)
Theorem c76_big_endian : forall c D L n r, is_dim D L -> target_endian c = BigEndian -> usize_bits c <> 16 -> n <= 1000 ->
  (from_cells c D L KDynamic n r = Ret tt <-> forall i, i < n -> numbers r (used r + i) mod 4 = 0).
Proof. exact c76_big_endian_lemma. Qed.
Print Assumptions c76_big_endian.
Example c76_big_endian_example :
  is_dim Dim2D layout2D /\ target_endian big64 = BigEndian /\ usize_bits big64 <> 16
  /\ from_cells big64 Dim2D layout2D KDynamic 8 (Rng (fun i => 4 * i) 0) = Ret tt
  /\ from_cells big64 Dim2D layout2D KDynamic 8 (Rng (fun i => 3 * i) 0) = Panic.
Proof. split; [constructor|]. split; [reflexivity|]. split; [discriminate|]. concrete. Qed.

(* with overflow checks (cargo test): the same for every generator *)
Theorem c76_static_grid_checked : forall c r, overflow_checks c = true ->
  (forall t m, In (t, m) tested_2d -> (Forall (fun test => snd test = Ret tt) (static_grid_tests_2d c t m r) <-> m <= usize_bits c))
  /\ (forall t m, In (t, m) tested_3d -> (Forall (fun test => snd test = Ret tt) (static_grid_tests_3d c t m r) <-> m <= usize_bits c)).
Proof. exact c76_static_grid_checked_lemma. Qed.
Print Assumptions c76_static_grid_checked.
Example c76_static_grid_checked_example :
  overflow_checks debug32 = true /\ In (U128, 64) tested_2d /\ In (U128, 42) tested_3d /\ usize_bits debug32 < 42
  /\ map snd (static_grid_tests_2d debug32 U128 64 (Rng (fun i => i * 3) 0)) = [Panic; Panic; Panic].
Proof. split; [reflexivity|]. split; [cbn; tauto|]. split; [cbn; tauto|]. concrete. Qed.

(* 16-bit targets: the test fails with overflow checks and depends on luck without *)
Theorem c76_fixed_grid_3d_16_bit : forall c t m r, In (t, m) tested_3d -> usize_bits c = 16 ->
  (Forall (fun test => snd test = Ret tt) (fixed_grid_tests_3d c t m r)
   <-> overflow_checks c = false /\ m <= 16 /\ forall i, i < m -> numbers r (used r + i) mod 4 = 0).
Proof. exact c76_fixed_grid_3d_16_bit_lemma. Qed.
Print Assumptions c76_fixed_grid_3d_16_bit.
Example c76_fixed_grid_3d_16_bit_example :
  In (U32, 10) tested_3d /\ usize_bits debug16 = 16
  /\ map snd (fixed_grid_tests_3d debug16 U32 10 (Rng (fun i => 4 * i) 0)) = [Panic]
  /\ map snd (fixed_grid_tests_3d (Cfg false PW16 LittleEndian) U32 10 (Rng (fun i => 4 * i) 0)) = [Ret tt]
  /\ map snd (fixed_grid_tests_3d (Cfg false PW16 LittleEndian) U32 10 (Rng (fun i => 3 * i) 0)) = [Panic].
Proof. split; [cbn; tauto|]. concrete. Qed.

(* the benchmark converts the grid indices it draws, whatever they are *)
Theorem c76_benchmark : forall c r, 32 <= usize_bits c ->
  exists l, bench c r = Ret l /\ len l = 1024
    /\ forall i, i < 1024 -> exists s, nth_error l (N.to_nat i) = Some s /\ valid c Dim3D (KFixed U64) s
       /\ to_grid_index_3d c (fixed_ops c Dim3D U64) s XYZ
          = Ret (numbers r (used r + 3 * i) mod 2 ^ 21, numbers r (used r + 3 * i + 1) mod 2 ^ 21, numbers r (used r + 3 * i + 2) mod 2 ^ 21).
Proof. exact c76_benchmark_lemma. Qed.
Print Assumptions c76_benchmark.
Example c76_benchmark_example :
  32 <= usize_bits debug64
  /\ exists s, match bench debug64 (Rng (fun i => i * 1000003) 0) with Ret l => nth_error l 1 | _ => None end = Some s
     /\ to_grid_index_3d debug64 (fixed_ops debug64 Dim3D U64) s XYZ = Ret (3000009 mod 2 ^ 21, 4000012 mod 2 ^ 21, 5000015 mod 2 ^ 21).
Proof. split; [discriminate|]. eexists. split; vm_compute; reflexivity. Qed.

(* without overflow checks: the static grid tests pass on narrow targets exactly when only the number 0 is drawn *)
Theorem c76_static_grid_unchecked : forall c r, overflow_checks c = false ->
  (forall t m, In (t, m) tested_2d -> (Forall (fun test => snd test = Ret tt) (static_grid_tests_2d c t m r)
     <-> m <= usize_bits c \/ forall i, i < m -> numbers r (used r + i) mod 4 = 0))
  /\ (forall t m, In (t, m) tested_3d -> (Forall (fun test => snd test = Ret tt) (static_grid_tests_3d c t m r)
     <-> m <= usize_bits c \/ forall i, i < m -> numbers r (used r + i) mod 4 = 0)).
Proof. exact c76_static_grid_unchecked_lemma. Qed.
Print Assumptions c76_static_grid_unchecked.
Example c76_static_grid_unchecked_example : let c := Cfg false PW32 LittleEndian in
  overflow_checks c = false /\ In (U128, 64) tested_2d /\ In (U128, 42) tested_3d /\ usize_bits c < 42
  /\ map snd (static_grid_tests_2d c U128 64 (Rng (fun i => i * 4) 0)) = [Ret tt; Ret tt; Ret tt]
  /\ map snd (static_grid_tests_2d c U128 64 (Rng (fun i => i * 3) 0)) = [Panic; Panic; Ret tt]
  /\ map snd (static_grid_tests_3d c U128 42 (Rng (fun i => i * 4) 0)) = [Ret tt; Ret tt; Ret tt]
  /\ map snd (static_grid_tests_3d c U128 42 (Rng (fun i => i + 1) 0)) = [Panic; Panic; Panic].
Proof. split; [reflexivity|]. split; [cbn; tauto|]. split; [cbn; tauto|]. concrete. Qed.
