(* ModelTests.v - the test suite and the example programs of the repository, replayed on the model.
   These examples check the model, they are not theorems.  The randomised tests are in ModelSuite.v; property C76 is about
   every random generator, here they run with one.  A failed assertion of a test is Panic. *)
From Verif Require Import Base ModelNumber ModelDim ModelStorage Model2D Model3D ModelHelper ModelTraits ModelSuite Spec SpecTraits ExampleTools.

Definition passes (r : outcome unit) : bool := match r with Ret _ => true | _ => false end.

(* ---------- src/number.rs lines 522-825 ---------- *)
Definition test_set_bits_u8 (c : cfg) : outcome unit :=
  let val := 0 in
  let! val := num_set_bits c U8 val 0 2 3 in
  let! _ := check (val =? 3) in
  let! v := num_get_bits c U8 val 0 2 in let! _ := check (v =? 3) in
  let val := 0 in
  let! val := num_set_bits c U8 val 2 4 3 in
  let! _ := check (val =? 12) in
  let! v := num_get_bits c U8 val 2 4 in let! _ := check (v =? 3) in
  let val := 0 in
  let! val := num_set_bits c U8 val 6 8 3 in
  let! _ := check (val =? 192) in
  let! v := num_get_bits c U8 val 6 8 in let! _ := check (v =? 3) in
  let val := 0 in
  let! val := num_set_bits c U8 val 0 8 1 in
  let! _ := check (val =? 1) in
  let! v := num_get_bits c U8 val 0 8 in let! _ := check (v =? 1) in
  let val := 0 in
  let! val := num_set_bits c U8 val 0 8 255 in
  let! _ := check (val =? 255) in
  let! v := num_get_bits c U8 val 0 8 in let! _ := check (v =? 255) in
  Ret tt.
Definition test_set_bits_u16 (c : cfg) : outcome unit :=
  let val := 0 in
  let! val := num_set_bits c U16 val 0 3 7 in
  let! _ := check (val =? 7) in
  let! v := num_get_bits c U16 val 0 3 in let! _ := check (v =? 7) in
  let val := 0 in
  let! val := num_set_bits c U16 val 3 6 7 in
  let! _ := check (val =? 56) in
  let! v := num_get_bits c U16 val 3 6 in let! _ := check (v =? 7) in
  let val := 0 in
  let! val := num_set_bits c U16 val 8 11 7 in
  let! _ := check (val =? 1792) in
  let! v := num_get_bits c U16 val 8 11 in let! _ := check (v =? 7) in
  let val := 0 in
  let! val := num_set_bits c U16 val 6 9 7 in
  let! _ := check (val =? 448) in
  let! v := num_get_bits c U16 val 6 9 in let! _ := check (v =? 7) in
  let val := 0 in
  let! val := num_set_bits c U16 val 0 8 255 in
  let! _ := check (val =? 255) in
  let! v := num_get_bits c U16 val 0 8 in let! _ := check (v =? 255) in
  let val := 0 in
  let! val := num_set_bits c U16 val 0 16 65535 in
  let! _ := check (val =? 65535) in
  let! v := num_get_bits c U16 val 0 16 in let! _ := check (v =? 65535) in
  let val := 0 in
  let! val := num_set_bits c U16 val 0 2 3 in
  let! val := num_set_bits c U16 val 9 12 5 in
  let! _ := check (val =? 2563) in
  let! v := num_get_bits c U16 val 9 12 in let! _ := check (v =? 5) in
  let! v := num_get_bits c U16 val 0 2 in let! _ := check (v =? 3) in
  Ret tt.
Definition test_expand_u8_by_2 : bool :=
  (add_zero_behind_every_bit_u8 0 =? 0)
  && (add_zero_behind_every_bit_u8 15 =? 170)
  && (add_zero_behind_every_bit_u8 3 =? 10)
  && (add_zero_behind_every_bit_u8 9 =? 130)
  && (add_zero_behind_every_bit_u8 10 =? 136)
  && (add_zero_before_every_bit_u8 0 =? 0)
  && (add_zero_before_every_bit_u8 15 =? 85)
  && (add_zero_before_every_bit_u8 3 =? 5)
  && (add_zero_before_every_bit_u8 9 =? 65)
  && (add_zero_before_every_bit_u8 10 =? 68).
Definition test_add_two_zeroes_before_every_bit_u8 : bool :=
  (add_two_zeroes_before_every_bit_u8 1 =? 1)
  && (add_two_zeroes_before_every_bit_u8 3 =? 9)
  && (add_two_zeroes_before_every_bit_u8 2 =? 8)
  && (add_two_zeroes_before_every_bit_u8 7 =? 73)
  && (add_two_zeroes_before_every_bit_u8 15 =? 585)
  && (add_two_zeroes_before_every_bit_u8 31 =? 4681)
  && (add_two_zeroes_before_every_bit_u8 63 =? 37449)
  && (add_two_zeroes_before_every_bit_u8 127 =? 299593)
  && (add_two_zeroes_before_every_bit_u8 255 =? 2396745).
Definition test_add_two_zeroes_before_every_bit_u32 : bool :=
  (add_two_zeroes_before_every_bit_u32 1 =? 1)
  && (add_two_zeroes_before_every_bit_u32 3 =? 9)
  && (add_two_zeroes_before_every_bit_u32 2 =? 8)
  && (add_two_zeroes_before_every_bit_u32 7 =? 73)
  && (add_two_zeroes_before_every_bit_u32 15 =? 585)
  && (add_two_zeroes_before_every_bit_u32 31 =? 4681)
  && (add_two_zeroes_before_every_bit_u32 63 =? 37449)
  && (add_two_zeroes_before_every_bit_u32 127 =? 299593)
  && (add_two_zeroes_before_every_bit_u32 255 =? 2396745)
  && (add_two_zeroes_before_every_bit_u32 511 =? 19173961)
  && (add_two_zeroes_before_every_bit_u32 1023 =? 153391689)
  && (add_two_zeroes_before_every_bit_u32 2047 =? 1227133513)
  && (add_two_zeroes_before_every_bit_u32 4095 =? 9817068105)
  && (add_two_zeroes_before_every_bit_u32 8191 =? 78536544841)
  && (add_two_zeroes_before_every_bit_u32 16383 =? 628292358729)
  && (add_two_zeroes_before_every_bit_u32 32767 =? 5026338869833)
  && (add_two_zeroes_before_every_bit_u32 65535 =? 40210710958665)
  && (add_two_zeroes_before_every_bit_u32 131071 =? 321685687669321)
  && (add_two_zeroes_before_every_bit_u32 262143 =? 2573485501354569)
  && (add_two_zeroes_before_every_bit_u32 524287 =? 20587884010836553)
  && (add_two_zeroes_before_every_bit_u32 1048575 =? 164703072086692425)
  && (add_two_zeroes_before_every_bit_u32 2097151 =? 1317624576693539401).
Definition test_vec : list N := [170; 105; 58; 238].
Definition test_expected (c : cfg) : N := match target_endian c with LittleEndian => 3996805546 | BigEndian => 2859023086 end.
Definition test_get_bits_vec_u8 (c : cfg) : outcome unit :=
  let! e0 := num_get_bits c U32 (test_expected c) 0 8 in
  let! v := vec_get_bits c test_vec 0 8 in
  let! _ := check (bytes_eq (match target_endian c with LittleEndian => [cast 8 e0] | BigEndian => rev [cast 8 e0] end) v) in
  let! e2 := num_get_bits c U32 (test_expected c) 2 6 in
  let! v := vec_get_bits c test_vec 2 6 in
  let! _ := check (bytes_eq (match target_endian c with LittleEndian => [cast 8 e2] | BigEndian => rev [cast 8 e2] end) v) in
  let! e0 := num_get_bits c U32 (test_expected c) 0 8 in
  let! e8 := num_get_bits c U32 (test_expected c) 8 12 in
  let! v := vec_get_bits c test_vec 0 12 in
  let! _ := check (bytes_eq (match target_endian c with LittleEndian => [cast 8 e0; cast 8 e8] | BigEndian => rev [cast 8 e0; cast 8 e8] end) v) in
  let! e4 := num_get_bits c U32 (test_expected c) 4 12 in
  let! v := vec_get_bits c test_vec 4 12 in
  let! _ := check (bytes_eq (match target_endian c with LittleEndian => [cast 8 e4] | BigEndian => rev [cast 8 e4] end) v) in
  let! e12 := num_get_bits c U32 (test_expected c) 12 20 in
  let! e20 := num_get_bits c U32 (test_expected c) 20 28 in
  let! e28 := num_get_bits c U32 (test_expected c) 28 32 in
  let! v := vec_get_bits c test_vec 12 32 in
  let! _ := check (bytes_eq (match target_endian c with LittleEndian => [cast 8 e12; cast 8 e20; cast 8 e28] | BigEndian => rev [cast 8 e12; cast 8 e20; cast 8 e28] end) v) in
  let! v := vec_get_bits c test_vec 0 32 in let! _ := check (bytes_eq test_vec v) in
  Ret tt.
Definition test_set_bits_vec_u8 (c : cfg) : outcome unit :=
  let vec := [0; 0; 0; 0] in
  let! vec := vec_set_bits c vec 0 8 [197] in
  let! _ := check (bytes_eq [197; 0; 0; 0] vec) in
  let vec := [0; 0; 0; 0] in
  let! vec := vec_set_bits c vec 2 6 [15] in
  let! _ := check (bytes_eq [60; 0; 0; 0] vec) in
  let vec := [0; 0; 0; 0] in
  let! vec := vec_set_bits c vec 20 24 [15] in
  let! _ := check (bytes_eq [0; 0; 240; 0] vec) in
  let vec := [0; 0; 0; 0] in
  let! vec := vec_set_bits c vec 0 12 [202; 9] in
  let! _ := check (bytes_eq [202; 9; 0; 0] vec) in
  let vec := [0; 0; 0; 0] in
  let! vec := vec_set_bits c vec 4 16 [202; 9] in
  let! _ := check (bytes_eq [160; 156; 0; 0] vec) in
  let vec := [0; 0; 0; 0] in
  let! vec := vec_set_bits c vec 3 23 [202; 151; 14] in
  let! _ := check (bytes_eq [80; 190; 116; 0] vec) in
  let vec := [0; 0; 0; 0] in
  let! vec := vec_set_bits c vec 0 32 test_vec in
  let! _ := check (bytes_eq test_vec vec) in
  Ret tt.
Definition test_set_bits_from_usize_vec_u8 (c : cfg) : outcome unit :=
  let vec := [0; 0; 0; 0] in
  let! vec := vec_set_bits_from_usize c vec 0 8 197 in
  let! _ := check (bytes_eq [197; 0; 0; 0] vec) in
  let vec := [0; 0; 0; 0] in
  let! vec := vec_set_bits_from_usize c vec 2 6 15 in
  let! _ := check (bytes_eq [60; 0; 0; 0] vec) in
  let vec := [0; 0; 0; 0] in
  let! vec := vec_set_bits_from_usize c vec 20 24 15 in
  let! _ := check (bytes_eq [0; 0; 240; 0] vec) in
  let vec := [0; 0; 0; 0] in
  let! vec := vec_set_bits_from_usize c vec 0 12 2506 in
  let! _ := check (bytes_eq [202; 9; 0; 0] vec) in
  let vec := [0; 0; 0; 0] in
  let! vec := vec_set_bits_from_usize c vec 4 16 2506 in
  let! _ := check (bytes_eq [160; 156; 0; 0] vec) in
  let vec := [0; 0; 0; 0] in
  let! vec := vec_set_bits_from_usize c vec 3 23 956362 in
  let! _ := check (bytes_eq [80; 190; 116; 0] vec) in
  let vec := [0; 0; 0; 0] in
  let! vec := vec_set_bits_from_usize c vec 0 32 3996805546 in
  let! _ := check (bytes_eq test_vec vec) in
  Ret tt.
Definition test_get_bits_as_usize_vec_u8 (c : cfg) : outcome unit :=
  let! e := num_get_bits c USize (test_expected c) 0 8 in let! v := vec_get_bits_as_usize c test_vec 0 8 in let! _ := check (e =? v) in
  let! e := num_get_bits c USize (test_expected c) 2 6 in let! v := vec_get_bits_as_usize c test_vec 2 6 in let! _ := check (e =? v) in
  let! e := num_get_bits c USize (test_expected c) 20 24 in let! v := vec_get_bits_as_usize c test_vec 20 24 in let! _ := check (e =? v) in
  let! e := num_get_bits c USize (test_expected c) 0 12 in let! v := vec_get_bits_as_usize c test_vec 0 12 in let! _ := check (e =? v) in
  let! e := num_get_bits c USize (test_expected c) 1 13 in let! v := vec_get_bits_as_usize c test_vec 1 13 in let! _ := check (e =? v) in
  let! e := num_get_bits c USize (test_expected c) 4 24 in let! v := vec_get_bits_as_usize c test_vec 4 24 in let! _ := check (e =? v) in
  let! e := num_get_bits c USize (test_expected c) 3 23 in let! v := vec_get_bits_as_usize c test_vec 3 23 in let! _ := check (e =? v) in
  let! e := num_get_bits c USize (test_expected c) 0 32 in let! v := vec_get_bits_as_usize c test_vec 0 32 in let! _ := check (e =? v) in
  Ret tt.

Definition little_endian_targets : list cfg := [debug64; release64; debug32; Cfg false PW32 LittleEndian].
Example number_tests_integers :
  forallb (fun c => passes (test_set_bits_u8 c) && passes (test_set_bits_u16 c)) (big64 :: debug16 :: little_endian_targets)
  && test_expand_u8_by_2 && test_add_two_zeroes_before_every_bit_u8 && test_add_two_zeroes_before_every_bit_u32 = true.
Proof. vm_compute. reflexivity. Qed.
Example number_tests_vec :
  forallb (fun c => passes (test_get_bits_vec_u8 c) && passes (test_set_bits_vec_u8 c)
    && passes (test_set_bits_from_usize_vec_u8 c) && passes (test_get_bits_as_usize_vec_u8 c)) little_endian_targets = true.
Proof. vm_compute. reflexivity. Qed.

(* ---------- the randomised test modules (ModelSuite.v) with one generator ---------- *)
Definition generators : list rng := map (fun seed => Rng (fun i => ((i + seed) * 1103515245 + 12345) mod 2 ^ 31 / 65536) 0) [22].
Definition hosts : list cfg := [debug64; release64].
Definition all_pass (s : suite) : bool := forallb (fun p => passes (snd p)) s.
Definition runs (types : list (uty * N)) (f : cfg -> uty -> N -> rng -> suite) : bool :=
  forallb (fun c => forallb (fun tm => forallb (fun r => all_pass (f c (fst tm) (snd tm) r)) generators) types) hosts.

Example fixed_tests_pass : runs tested_2d fixed_tests_2d && runs tested_3d fixed_tests_3d = true.
Proof. vm_compute. reflexivity. Qed.
Example static_tests_pass : runs tested_2d static_tests_2d && runs tested_3d static_tests_3d = true.
Proof. vm_compute. reflexivity. Qed.
Example dynamic_tests_pass :
  forallb (fun c => forallb (fun r => all_pass (dynamic_tests_2d c r) && all_pass (dynamic_tests_3d c r)) generators) hosts = true.
Proof. vm_compute. reflexivity. Qed.
Example conversion_tests_pass : runs tested_2d conversion_tests_2d && runs tested_3d conversion_tests_3d = true.
Proof. vm_compute. reflexivity. Qed.
Example grid_tests_pass :
  runs tested_2d fixed_grid_tests_2d && runs tested_3d fixed_grid_tests_3d
  && runs tested_2d static_grid_tests_2d && runs tested_3d static_grid_tests_3d
  && forallb (fun c => forallb (fun r => all_pass (dynamic_grid_tests_2d c r) && all_pass (dynamic_grid_tests_3d c r)) generators) hosts = true.
Proof. vm_compute. reflexivity. Qed.

(* from_grid_index_fixed_u16, _static_u16, _dynamic: morton_index_2d.rs lines 1876-2045 *)
Definition cells_xy : list quadrant := [Q1; Q3; Q2; Q0; Q2; Q3; Q0; Q1].
Definition cells_yx : list quadrant := [Q2; Q3; Q1; Q0; Q1; Q3; Q0; Q2].
Definition test_predefined (c : cfg) : outcome unit :=
  for_all [(XY, cells_xy); (YX, cells_yx)] (fun p =>
    let '(o, l) := p in
    let! f := fixed_from_grid_index_2d c U16 197 108 o in let! _ := collects c Dim2D (KFixed U16) f l in
    let! s := expect (static_from_grid_index_2d c U16 197 108 8 o) in let! _ := collects c Dim2D (KStatic U16) s l in
    let! s := expect (static_from_grid_index_2d c U16 197 108 5 o) in let! _ := collects c Dim2D (KStatic U16) s (skipn 3 l) in
    let! d := dynamic_from_grid_index_2d c 197 108 8 o in let! _ := collects c Dim2D KDynamic d l in
    let! d := dynamic_from_grid_index_2d c 197 108 5 o in collects c Dim2D KDynamic d (skipn 3 l)).
Example predefined_tests : forallb (fun c => passes (test_predefined c)) hosts = true.
Proof. vm_compute. reflexivity. Qed.

(* README.md, section Example *)
Definition readme (c : cfg) : outcome unit :=
  let o := fixed_ops c Dim2D U8 in
  let! i := expect (fixed_try_from c Dim2D U8 [Q0; Q1; Q2; Q3]) in
  let! _ := check (st_depth o i =? 4) in
  let! _ := level_is c Dim2D (KFixed U8) i 1 Q1 in
  let! l := collect_cells c o i in let! _ := check (cells_eq Dim2D [List.last l Q0] [Q3]) in
  let! g := fixed_from_grid_index_2d c U8 5 3 XY in check (fixed_eq i g).
(* examples/morton_2d.rs lines 7-64 *)
Definition example_2d (c : cfg) : outcome unit :=
  let o := fixed_ops c Dim2D U8 in
  let name i n s := let! r := to_string_2d c o i n in check (String.eqb r s) in
  let! i := expect (fixed_try_from c Dim2D U8 [Q0; Q1; Q2; Q3]) in
  let! _ := check (st_depth o i =? 4) in
  let! _ := level_is c Dim2D (KFixed U8) i 1 Q1 in
  let! l := collect_cells c o i in let! _ := check (cells_eq Dim2D [List.last l Q0] [Q3]) in
  let! i := set_cell_at_level o i 0 Q2 in let! _ := level_is c Dim2D (KFixed U8) i 0 Q2 in
  let! _ := name i CellConcatenation "2123"%string in
  let! _ := name i CellConcatenationWithRoot "r2123"%string in
  let! _ := name i GridIndex "4-5-11"%string in
  let! (x, y) := to_grid_index_2d c o i XY in let! _ := check ((x =? 5) && (y =? 11)) in
  let! g := fixed_from_grid_index_2d c U8 5 11 XY in check (fixed_eq i g).
(* examples/morton_3d.rs lines 7-63 *)
Definition example_3d (c : cfg) : outcome unit :=
  let o := fixed_ops c Dim3D U16 in
  let name i n s := let! r := to_string_3d c o i n in check (String.eqb r s) in
  let! i := expect (fixed_try_from c Dim3D U16 [O0; O1; O2; O3; O4]) in
  let! _ := check (st_depth o i =? 5) in
  let! _ := level_is c Dim3D (KFixed U16) i 1 O1 in
  let! l := collect_cells c o i in let! _ := check (cells_eq Dim3D [List.last l O0] [O4]) in
  let! i := set_cell_at_level o i 0 O2 in let! _ := level_is c Dim3D (KFixed U16) i 0 O2 in
  let! _ := name i CellConcatenation "21234"%string in
  let! _ := name i CellConcatenationWithRoot "r21234"%string in
  let! _ := name i GridIndex "5-10-22-1"%string in
  let! (x, y, z) := to_grid_index_3d c o i XYZ in let! _ := check ((x =? 10) && (y =? 22) && (z =? 1)) in
  let! g := fixed_from_grid_index_3d c U16 10 22 1 XYZ in check (fixed_eq i g).
(* examples/storage_types.rs lines 6-97 *)
Definition example_storage_types (c : cfg) : outcome unit :=
  let is d x := match d, x with Some a, Some b => check (a =? b) | None, None => Ret tt | _, _ => Panic end in
  let! _ := is (fixed_max_depth c Dim2D U8) (Some 4) in
  let! _ := is (fixed_max_depth c Dim2D U16) (Some 8) in
  let! f1 := expect (fixed_try_from c Dim2D U8 [Q3; Q2; Q0; Q1]) in let! _ := check (st_depth (fixed_ops c Dim2D U8) f1 =? 4) in
  let! f2 := expect (fixed_try_from c Dim2D U8 [Q1; Q0; Q3; Q2]) in let! _ := check (st_depth (fixed_ops c Dim2D U8) f2 =? 4) in
  let! f3 := expect (fixed_try_from c Dim2D U8 [Q1]) in let! _ := check (st_depth (fixed_ops c Dim2D U8) f3 =? 4) in
  let! s1 := expect (static_try_from c Dim2D U8 [Q3; Q2; Q0; Q1]) in let! _ := check (st_depth (static_ops c Dim2D U8) s1 =? 4) in
  let! s2 := expect (static_try_from c Dim2D U8 [Q3]) in let! _ := check (st_depth (static_ops c Dim2D U8) s2 =? 1) in
  let! p := expect_some (parent (static_vops c Dim2D U8) s2) in let! _ := check (static_eq static_default p) in
  let! ch := expect_some (child (static_vops c Dim2D U8) static_default Q3) in let! _ := check (static_eq s2 ch) in
  let! _ := is_err (static_try_from c Dim2D U8 [Q0; Q0; Q0; Q0; Q0]) in
  let! _ := is dynamic_max_depth None in
  let! d := expect (dynamic_try_from c Dim2D layout2D [Q0; Q0; Q0; Q0; Q0]) in check (st_depth (dynamic_ops c Dim2D) d =? 5).
Example example_programs :
  forallb (fun c => passes (readme c) && passes (example_2d c) && passes (example_3d c) && passes (example_storage_types c)) hosts = true.
Proof. vm_compute. reflexivity. Qed.
