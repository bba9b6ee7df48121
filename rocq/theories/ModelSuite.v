(* ModelSuite.v - the test modules of morton_index_2d.rs (lines 921-1873) and morton_index_3d.rs (lines 981-1937) as functions
   of the numbers drawn by the random generator.

   Line numbers of 2D are given first, those of 3D after the slash.  A failed assertion is Panic.  The texts of failed
   assertions are not modelled.  `expect` of an Err or None is Panic. *)
From Verif Require Import Base ModelNumber ModelDim ModelStorage Model2D Model3D Spec.

(* ---------- rand ---------- *)
(* A random generator: the numbers it will give and how many were used.  Nothing is assumed about the numbers. *)
Record rng := Rng { numbers : N -> N; used : N }.
(* Rng::gen_range(0..n): some number below n; every sequence of such numbers comes from some generator *)
Definition gen_range (n : N) (r : rng) : N * rng := (numbers r (used r) mod n, Rng (numbers r) (used r + 1)).
(* get_test_quadrants / get_test_octants, lines 927-935 / 987-995; both draw from 0..4 *)
Fixpoint get_test_cells (D : Dimension) (count : nat) (r : rng) : outcome (list (cell D) * rng) :=
  match count with
  | O => Ret ([], r)
  | S n =>
      let (num, r) := gen_range 4 r in
      let! x := unwrap (cell_try_from D num) in
      let! (l, r) := get_test_cells D n r in
      Ret (x :: l, r)
  end.

(* ---------- assertions ---------- *)
(* assert! and assert_eq! *)
Definition check (b : bool) : outcome unit := if b then Ret tt else Panic.
Definition expect {A} (r : outcome (result A)) : outcome A := let! x := r in unwrap x.
Definition expect_some {A} (r : outcome (option A)) : outcome A := let! x := r in unwrap_opt x.
(* assert!(res.is_err()) *)
Definition is_err {A} (r : outcome (result A)) : outcome unit :=
  let! x := r in match x with Ok _ => Panic | Err _ => Ret tt end.
(* assert_eq!(None, ...) *)
Definition is_none {A} (r : outcome (option A)) : outcome unit :=
  let! x := r in match x with Some _ => Panic | None => Ret tt end.
(* #[should_panic] *)
Definition should_panic {A} (r : outcome A) : outcome unit := match r with Panic => Ret tt | Ret _ => Panic | UB => UB end.
(* a for loop whose body asserts *)
Definition for_all {A} (l : list A) (f : A -> outcome unit) : outcome unit := foldM (fun _ x => f x) l tt.
(* derived PartialEq of the cells and of lists of cells *)
Definition cell_eqb (D : Dimension) (x y : cell D) : bool := match cell_cmp D x y with Eq => true | _ => false end.
Fixpoint cells_eq (D : Dimension) (a b : list (cell D)) : bool :=
  match a, b with
  | [], [] => true
  | x :: a', y :: b' => cell_eqb D x y && cells_eq D a' b'
  | _, _ => false
  end.
Definition zero_cells (D : Dimension) (n : N) : list (cell D) := repeat (cell_zero D) (N.to_nat n).
Definition first {A} (n : N) (l : list A) : list A := firstn (N.to_nat n) l.

(* ---------- the bodies shared by the test modules ---------- *)
Section AnyStorage.
  Context (c : cfg) (D : Dimension) (L : DynLayout) (k : kind).
  (* TryFrom<&[Cell]> and TryFrom<[Cell; N]> *)
  Definition try_from_cells : list (cell D) -> outcome (result (storage k)) :=
    match k return list (cell D) -> outcome (result (storage k)) with
    | KFixed t => fixed_try_from c D t
    | KStatic t => static_try_from c D t
    | KDynamic => dynamic_try_from c D L
    end.
  Definition draw (n : N) (r : rng) : outcome (list (cell D) * rng) := get_test_cells D (N.to_nat n) r.
  Definition index_of (cells : list (cell D)) : outcome (storage k) := expect (try_from_cells cells).

  (* for (level, expected) in cells.iter().enumerate() { assert_eq!(expected, idx.get_cell_at_level(level)) } *)
  Definition level_is (s : storage k) (level : N) (x : cell D) : outcome unit :=
    let! y := get_cell_at_level (ops c D k) s level in check (cell_eqb D x y).
  Definition levels_are (s : storage k) (l : list (cell D)) : outcome unit :=
    for_all (enumerate l) (fun p => level_is s (fst p) (snd p)).
  (* assert_eq!(n, idx.depth()) *)
  Definition depth_is (s : storage k) (n : N) : outcome unit := check (n =? st_depth (ops c D k) s).
  (* assert_eq!(l, idx.cells().collect::<Vec<_>>()) *)
  Definition collects (s : storage k) (l : list (cell D)) : outcome unit :=
    let! r := collect_cells c (ops c D k) s in check (cells_eq D l r).
  (* assert_eq!(Some(expected), result) *)
  Definition is_some (r : outcome (option (storage k))) (expected : storage k) : outcome unit :=
    let! r := r in match r with Some s => check (idx_eq k expected s) | None => Panic end.

  (* from_quadrants, from_even_number_of_quadrants, from_odd_number_of_quadrants:
     lines 952-961, 1120-1129, 1420-1440 / 1013-1022, 1179-1188, 1486-1506 *)
  Definition from_cells (n : N) (r : rng) : outcome unit :=
    let! (cells, _) := draw n r in
    let! idx := index_of cells in
    let! _ := depth_is idx (len cells) in
    levels_are idx cells.
  (* from_quadrants_array of variable depth indices: lines 1131-1145, 1442-1456 / 1190-1199, 1508-1517 *)
  Definition from_array (array : list (cell D)) : outcome unit :=
    let! idx := index_of array in
    let! _ := depth_is idx (len array) in
    collects idx array.
  (* from_too_many_quadrants_fails: lines 984-989, 1147-1152 / 1040-1045, 1201-1206 *)
  Definition from_too_many (max_levels : N) (r : rng) : outcome unit :=
    let! (cells, _) := draw (max_levels + 1) r in is_err (try_from_cells cells).
  (* the loops of set_cell: lines 1005-1022, 1165-1176, 1458-1470 / 1061-1078, 1228-1239, 1519-1531 *)
  Definition set_all (s : storage k) (cells : list (cell D)) : outcome (storage k) :=
    foldM (fun s p => set_cell_at_level (ops c D k) s (fst p) (snd p)) (enumerate cells) s.
  Definition set_cell (start : outcome (storage k)) (n : N) (r : rng) : outcome unit :=
    let! (cells, _) := draw n r in
    let! idx := start in
    let! idx := set_all idx cells in
    levels_are idx cells.
  (* set_cell_oob_panics: lines 1024-1029, 1178-1185, 1472-1479 / 1080-1085, 1241-1248, 1533-1540 *)
  Definition set_cell_oob (start : storage k) (level : N) : outcome unit :=
    let! one := unwrap (cell_try_from D 1) in should_panic (set_cell_at_level (ops c D k) start level one).
  (* cells_iter: lines 1031-1038, 1187-1194, 1481-1488 / 1087-1094, 1250-1257, 1542-1549 *)
  Definition cells_iter (n : N) (r : rng) : outcome unit :=
    let! (cells, _) := draw n r in let! idx := index_of cells in collects idx cells.

  (* slice::sort: a stable sort by Ord::cmp *)
  Fixpoint insert (x : storage k) (l : list (storage k)) : outcome (list (storage k)) :=
    match l with
    | [] => Ret [x]
    | y :: l' =>
        let! o := idx_cmp c D k x y in
        match o with
        | Gt => let! r := insert x l' in Ret (y :: r)
        | _ => Ret (x :: y :: l')
        end
    end.
  Fixpoint sort (l : list (storage k)) : outcome (list (storage k)) :=
    match l with
    | [] => Ret []
    | x :: l' => let! r := sort l' in insert x r
    end.
  (* for (cell_low, cell_high) in i.cells().zip(j.cells()) { if cell_low < cell_high { break } assert!(cell_low <= cell_high) } *)
  Fixpoint zip_in_order (a b : list (cell D)) : outcome unit :=
    match a, b with
    | x :: a', y :: b' =>
        match cell_cmp D x y with
        | Lt => Ret tt
        | o => let! _ := check (match o with Gt => false | _ => true end) in zip_in_order a' b'
        end
    | _, _ => Ret tt
    end.
  Definition all_in_order (indices : list (storage k)) (count : N) : outcome unit :=
    for_all (range 0 (count - 1)) (fun idx =>
      let! i := vec_get indices idx in
      let! j := vec_get indices (idx + 1) in
      let! a := collect_cells c (ops c D k) i in
      let! b := collect_cells c (ops c D k) j in
      zip_in_order a b).
  (* the indices of the tests ordering: `levels` gives the number of levels of the next index *)
  Fixpoint draw_indices (levels : rng -> N * rng) (count : nat) (r : rng) : outcome (list (storage k) * rng) :=
    match count with
    | O => Ret ([], r)
    | S n =>
        let (lv, r) := levels r in
        let! (cells, r) := draw lv r in
        let! idx := index_of cells in
        let! (l, r) := draw_indices levels n r in
        Ret (idx :: l, r)
    end.
  (* ordering: lines 1040-1071, 1288-1321, 1591-1622 / 1096-1127, 1351-1384, 1649-1680 *)
  Definition ordering (levels : rng -> N * rng) (count : N) (r : rng) : outcome unit :=
    let! (indices, _) := draw_indices levels (N.to_nat count) r in
    let! indices := sort indices in
    all_in_order indices count.
  (* a fixed number of levels; rng.gen_range(0..n) levels *)
  Definition always (n : N) (r : rng) : N * rng := (n, r).

  (* inverted: lines 1090-1101, 1386-1403, 1658-1675 / 1149-1160, 1452-1469, 1722-1739 *)
  Definition inverted_once (n : N) (r : rng) : outcome rng :=
    let! (cells, r) := draw n r in
    let! idx := index_of cells in
    let! expected := index_of (rev cells) in
    let! i := inverted c (ops c D k) idx in
    let! _ := check (idx_eq k i expected) in
    Ret r.
  (* 16 iterations with rng.gen_range(0..=max_levels) levels *)
  Fixpoint inverted_often (iterations : nat) (max_levels : N) (r : rng) : outcome unit :=
    match iterations with
    | O => Ret tt
    | S n => let (lv, r) := gen_range (max_levels + 1) r in let! r := inverted_once lv r in inverted_often n max_levels r
    end.

  (* ---------- variable depth ---------- *)
  Context (v : VarOps D (storage k)).
  (* child: lines 1196-1204, 1490-1498 / 1259-1267, 1551-1559 *)
  Definition child_of_root (start : storage k) : outcome unit :=
    let! three := unwrap (cell_try_from D 3) in
    let! i := expect_some (child v start three) in
    let! _ := depth_is i 1 in
    level_is i 0 three.
  (* child_at_four_levels: lines 1500-1513 / 1561-1571 *)
  Definition child_at (n : N) (r : rng) : outcome unit :=
    let! (cells, _) := draw n r in
    let! idx := index_of cells in
    let! three := unwrap (cell_try_from D 3) in
    let! i := expect_some (child v idx three) in
    let! _ := depth_is i (len cells + 1) in
    level_is i (len cells) three.
  (* child_oob_yields_none: lines 1206-1212 / 1269-1275 *)
  Definition child_oob (max_levels : N) (r : rng) : outcome unit :=
    let! (cells, _) := draw max_levels r in let! idx := index_of cells in is_none (child v idx (cell_zero D)).
  (* descendant_multi_levels: lines 1214-1223, 1515-1524 / 1277-1286, 1573-1582; the slices are in bounds *)
  Definition descendant_multi (n rest : N) (r : rng) : outcome unit :=
    let! (cells, _) := draw n r in
    let! base := vec_slice cells 0 (n - rest) in
    let! idx := index_of base in
    let! tail := vec_slice cells (n - rest) n in
    let! i := descendant v idx tail in
    let! expected := index_of cells in
    is_some (Ret i) expected.
  (* descendant_too_far_yields_none: lines 1225-1231 / 1288-1294 *)
  Definition descendant_too_far (max_levels : N) (r : rng) : outcome unit :=
    let! (cells, _) := draw max_levels r in let! idx := index_of cells in is_none (descendant v idx [cell_zero D]).
  (* parent, parent_4, parent_5: lines 1233-1242, 1526-1548 / 1296-1305, 1584-1606 *)
  Definition parent_of (n : N) (r : rng) : outcome unit :=
    let! (cells, _) := draw n r in
    let! above := vec_slice cells 0 (n - 1) in
    let! idx := index_of cells in
    let! expected := index_of above in
    is_some (parent v idx) expected.
  (* parent_of_root_yields_none: lines 1244-1248, 1550-1554 / 1307-1311, 1608-1612 *)
  Definition parent_of_root (root : storage k) : outcome unit := is_none (parent v root).
  (* ancestor_multi: lines 1250-1263, 1556-1569 / 1313-1326, 1614-1627 *)
  Definition ancestor_multi (n generations : N) (r : rng) : outcome unit :=
    let! (cells, _) := draw n r in
    let! above := vec_slice cells 0 (n - generations) in
    let! idx := index_of cells in
    let! expected := index_of above in
    is_some (ancestor v idx generations) expected.
  (* ancestor_to_root: lines 1265-1275, 1571-1581 / 1328-1338, 1629-1639 *)
  Definition ancestor_to_root (n : N) (root : storage k) (r : rng) : outcome unit :=
    let! (cells, _) := draw n r in let! idx := index_of cells in is_some (ancestor v idx n) root.
  (* ancestor_too_far_yields_none: lines 1277-1286, 1583-1589 / 1340-1349, 1641-1647 *)
  Definition ancestor_too_far (n : N) (r : rng) : outcome unit :=
    let! (cells, _) := draw n r in let! idx := index_of cells in is_none (ancestor v idx (n + 1)).
End AnyStorage.

(* A test module: its tests with their names. *)
Definition suite := list (string * outcome unit).
Local Open Scope string_scope.

(* ---------- test_fixed_depth!: lines 937-1104 / 997-1163, without the grid indices ---------- *)
Section Fixed.
  Context (c : cfg) (D : Dimension) (L : DynLayout) (t : uty) (max_levels : N) (array : list (cell D)) (r : rng).
  Let k := KFixed t.
  (* lines 943-950 / 1004-1011 *)
  Definition fixed_default_test : outcome unit :=
    let! _ := depth_is c D k fixed_default max_levels in levels_are c D k fixed_default (zero_cells D max_levels).
  (* lines 963-982 / 1024-1038 *)
  Definition fixed_from_array : outcome unit :=
    let! idx := index_of c D L k array in collects c D k idx (array ++ zero_cells D (max_levels - len array)).
  (* lines 991-1003 / 1047-1059 *)
  Definition fixed_from_fewer : outcome unit :=
    let! (cells, _) := draw D (max_levels - 2) r in
    let! idx := index_of c D L k cells in
    let! _ := depth_is c D k idx max_levels in
    let! _ := levels_are c D k idx cells in
    let! _ := level_is c D k idx (max_levels - 2) (cell_zero D) in
    level_is c D k idx (max_levels - 1) (cell_zero D).
  Definition fixed_tests : suite :=
    [("default", fixed_default_test);
     ("from_cells", from_cells c D L k max_levels r);
     ("from_array", fixed_from_array);
     ("from_too_many", from_too_many c D L k max_levels r);
     ("from_fewer", fixed_from_fewer);
     ("set_cell", set_cell c D k (Ret fixed_default) max_levels r);
     ("set_cell_oob_panics", set_cell_oob c D k fixed_default max_levels);
     ("cells_iter", cells_iter c D L k max_levels r);
     ("ordering", ordering c D L k (always max_levels) 16 r);
     ("inverted", let! _ := inverted_once c D L k max_levels r in Ret tt)].
End Fixed.

(* ---------- test_static!: lines 1106-1405 / 1165-1471, without the grid indices ---------- *)
Section Static.
  Context (c : cfg) (D : Dimension) (L : DynLayout) (t : uty) (max_levels : N) (array : list (cell D)).
  (* the numbers of levels in which 2D and 3D differ: descendant_multi_levels and ancestor_multi *)
  Context (rest generations : N) (r : rng).
  Let k := KStatic t.
  Let v := static_vops c D t.
  (* lines 1154-1163 / 1208-1217 *)
  Definition static_from_fewer : outcome unit :=
    let! (cells, _) := draw D (max_levels - 2) r in
    let! idx := index_of c D L k cells in
    let! _ := depth_is c D k idx (max_levels - 2) in
    levels_are c D k idx cells.
  Definition static_tests : suite :=
    [("default", depth_is c D k static_default 0);
     ("from_cells", from_cells c D L k max_levels r);
     ("from_array", from_array c D L k array);
     ("from_too_many", from_too_many c D L k max_levels r);
     ("from_fewer", static_from_fewer);
     (* zeroed(MAX_LEVELS as u8).unwrap(): lines 1165-1176 / 1228-1239 *)
     ("set_cell", set_cell c D k (unwrap_opt (static_zeroed c D t (cast 8 max_levels))) max_levels r);
     ("set_cell_oob_panics", set_cell_oob c D k static_default 0);
     ("cells_iter", cells_iter c D L k max_levels r);
     ("child", child_of_root c D k v static_default);
     ("child_oob_yields_none", child_oob c D L k v max_levels r);
     ("descendant_multi_levels", descendant_multi c D L k v max_levels rest r);
     ("descendant_too_far_yields_none", descendant_too_far c D L k v max_levels r);
     ("parent", parent_of c D L k v max_levels r);
     ("parent_of_root_yields_none", parent_of_root D k v static_default);
     ("ancestor_multi", ancestor_multi c D L k v max_levels generations r);
     ("ancestor_to_root", ancestor_to_root c D L k v max_levels static_default r);
     ("ancestor_too_far_yields_none", ancestor_too_far c D L k v max_levels r);
     ("ordering", ordering c D L k (gen_range max_levels) 128 r);
     ("inverted", inverted_often c D L k 16 max_levels r)].
End Static.
(* from_just_one_octant, morton_index_3d.rs lines 1219-1226 *)
Definition just_one_octant (c : cfg) (t : uty) : outcome unit :=
  let! idx := index_of c Dim3D layout3D (KStatic t) [O7] in
  let! _ := depth_is c Dim3D (KStatic t) idx 1 in
  level_is c Dim3D (KStatic t) idx 0 O7.

(* ---------- test_dynamic!: lines 1408-1678 / 1474-1742, without the grid indices ---------- *)
Section Dynamic.
  Context (c : cfg) (D : Dimension) (L : DynLayout) (zeroed : N -> outcome dynamic_storage) (array : list (cell D)) (r : rng).
  Let k := KDynamic.
  Let v := dynamic_vops c D L.
  Definition dynamic_tests : suite :=
    [("default", depth_is c D k dynamic_default 0);
     ("from_even_number", from_cells c D L k 8 r);
     ("from_odd_number", from_cells c D L k 9 r);
     ("from_array", from_array c D L k array);
     (* lines 1458-1470 / 1519-1531 *)
     ("set_cell", set_cell c D k (zeroed 8) 8 r);
     ("set_cell_oob_panics", set_cell_oob c D k dynamic_default 0);
     ("cells_iter", cells_iter c D L k 8 r);
     ("child", child_of_root c D k v dynamic_default);
     ("child_at_four_levels", child_at c D L k v 4 r);
     ("descendant_multi_levels", descendant_multi c D L k v 6 2 r);
     ("parent_4", parent_of c D L k v 4 r);
     ("parent_5", parent_of c D L k v 5 r);
     ("parent_of_root_yields_none", parent_of_root D k v dynamic_default);
     ("ancestor_multi", ancestor_multi c D L k v 8 3 r);
     ("ancestor_to_root", ancestor_to_root c D L k v 5 dynamic_default r);
     ("ancestor_too_far_yields_none", ancestor_too_far c D L k v 4 r);
     ("ordering", ordering c D L k (always 9) 16 r);
     ("inverted", inverted_often c D L k 16 32 r)].
End Dynamic.

(* ---------- test_conversions!: lines 1680-1849 / 1744-1913 ---------- *)
Section Conversions.
  Context (c : cfg) (D : Dimension) (L : DynLayout) (t : uty) (max_levels : N).
  (* the numbers of levels in which 2D and 3D differ: cells appended in convert_static_to_fixed_with_fewer_levels and cells
     missing in the conversions of dynamic indices with fewer levels *)
  Context (half fewer : N) (r : rng).
  Let fixed := KFixed t.
  Let static := KStatic t.
  Definition cells_of (k : kind) (s : storage k) : outcome (list (cell D)) := collect_cells c (ops c D k) s.
  (* lines 1689-1701 / 1753-1765 *)
  Definition fixed_to_static : outcome unit :=
    let! (cells, _) := draw D max_levels r in
    let! i := index_of c D L fixed cells in
    let j := static_from_fixed c D t i in
    let! _ := depth_is c D static j max_levels in
    let! expected := cells_of fixed i in collects c D static j expected.
  (* lines 1703-1715 / 1767-1779 *)
  Definition fixed_to_dynamic : outcome unit :=
    let! (cells, _) := draw D max_levels r in
    let! i := index_of c D L fixed cells in
    let j := dynamic_from_fixed c D t i in
    let! _ := depth_is c D KDynamic j max_levels in
    let! expected := cells_of fixed i in collects c D KDynamic j expected.
  (* lines 1717-1728 / 1781-1792 (n = max_levels), lines 1730-1746 / 1794-1810 (n = max_levels / 2) *)
  Definition static_to_fixed (n pad : N) : outcome unit :=
    let! (cells, _) := draw D n r in
    let! i := index_of c D L static cells in
    let j := fixed_from_static i in
    let! expected := cells_of static i in collects c D fixed j (expected ++ zero_cells D pad).
  (* lines 1748-1774 / 1812-1838 *)
  Definition static_to_dynamic (n : N) : outcome unit :=
    let! (cells, _) := draw D n r in
    let! i := index_of c D L static cells in
    let! j := dynamic_from_static c D L t i in
    let! _ := depth_is c D KDynamic j (st_depth (ops c D static) i) in
    let! expected := cells_of static i in collects c D KDynamic j expected.
  (* lines 1776-1811 / 1840-1875 *)
  Definition dynamic_to_fixed (n pad : N) : outcome unit :=
    let! (cells, _) := draw D n r in
    let! i := index_of c D L KDynamic cells in
    let! j := unwrap (fixed_from_dynamic c D t i) in
    let! expected := cells_of KDynamic i in collects c D fixed j (expected ++ zero_cells D pad).
  (* lines 1813-1846 / 1877-1910 *)
  Definition dynamic_to_static (n : N) : outcome unit :=
    let! (cells, _) := draw D n r in
    let! i := index_of c D L KDynamic cells in
    let! j := expect (static_from_dynamic c D t i) in
    let! _ := depth_is c D static j (st_depth (ops c D KDynamic) i) in
    let! expected := cells_of KDynamic i in collects c D static j expected.
  Definition conversion_tests : suite :=
    [("convert_fixed_to_static", fixed_to_static);
     ("convert_fixed_to_dynamic", fixed_to_dynamic);
     ("convert_static_to_fixed", static_to_fixed max_levels 0);
     ("convert_static_to_fixed_with_fewer_levels", static_to_fixed (max_levels / 2) half);
     ("convert_static_to_dynamic", static_to_dynamic max_levels);
     ("convert_static_to_dynamic_with_fewer_levels", static_to_dynamic (max_levels / 2));
     ("convert_dynamic_to_fixed", dynamic_to_fixed max_levels 0);
     ("convert_dynamic_to_fixed_with_fewer_levels", dynamic_to_fixed (max_levels - fewer) fewer);
     ("convert_dynamic_to_static", dynamic_to_static max_levels);
     ("convert_dynamic_to_static_with_fewer_levels", dynamic_to_static (max_levels - fewer))].
End Conversions.

(* ---------- the tests roundtrip_grid_index* ---------- *)
(* to_grid_index and from_grid_index for every ordering; from_grid_index x y is the constructor of the type *)
Definition roundtrip_2d (c : cfg) (k : kind) (n : N) (from_grid_index : N -> N -> quadrant_ordering -> outcome (storage k)) (r : rng)
    : outcome unit :=
  let! (cells, _) := draw Dim2D n r in
  let! idx := index_of c Dim2D layout2D k cells in
  for_all [XY; YX] (fun o =>
    let! (x, y) := to_grid_index_2d c (ops c Dim2D k) idx o in
    let! i := from_grid_index x y o in
    check (idx_eq k idx i)).
Definition roundtrip_3d (c : cfg) (k : kind) (n : N)
    (from_grid_index : N -> N -> N -> octant_ordering -> outcome (storage k)) (r : rng) : outcome unit :=
  let! (cells, _) := draw Dim3D n r in
  let! idx := index_of c Dim3D layout3D k cells in
  for_all [XYZ; XZY; YXZ; YZX; ZXY; ZYX] (fun o =>
    let! (x, y, z) := to_grid_index_3d c (ops c Dim3D k) idx o in
    let! i := from_grid_index x y z o in
    check (idx_eq k idx i)).
(* morton_index_2d.rs lines 1073-1088 *)
Definition fixed_grid_tests_2d (c : cfg) (t : uty) (max_levels : N) (r : rng) : suite :=
  [("roundtrip_grid_index", roundtrip_2d c (KFixed t) max_levels (fixed_from_grid_index_2d c t) r)].
(* morton_index_3d.rs lines 1129-1147 *)
Definition fixed_grid_tests_3d (c : cfg) (t : uty) (max_levels : N) (r : rng) : suite :=
  [("roundtrip_grid_index", roundtrip_3d c (KFixed t) max_levels (fixed_from_grid_index_3d c t) r)].
(* morton_index_2d.rs lines 1323-1384 *)
Definition static_grid_tests_2d (c : cfg) (t : uty) (max_levels : N) (r : rng) : suite :=
  let test n := roundtrip_2d c (KStatic t) n (fun x y o => expect (static_from_grid_index_2d c t x y n o)) r in
  [("roundtrip_grid_index", test max_levels);
   ("roundtrip_grid_index_with_odd_levels", test (max_levels - 3));
   ("roundtrip_grid_index_with_one_level", test 1)].
(* morton_index_3d.rs lines 1386-1450 *)
Definition static_grid_tests_3d (c : cfg) (t : uty) (max_levels : N) (r : rng) : suite :=
  let test n := roundtrip_3d c (KStatic t) n (fun x y z o => expect (static_from_grid_index_3d c t x y z n o)) r in
  [("roundtrip_grid_index", test max_levels);
   ("roundtrip_grid_index_with_odd_levels", test (max_levels - 1));
   ("roundtrip_grid_index_with_one_level", test 1)].
(* morton_index_2d.rs lines 1624-1656 *)
Definition dynamic_grid_tests_2d (c : cfg) (r : rng) : suite :=
  let test n := roundtrip_2d c KDynamic n (fun x y o => dynamic_from_grid_index_2d c x y n o) r in
  [("roundtrip_grid_index", test 32); ("roundtrip_grid_index_with_odd_levels", test 29)].
(* morton_index_3d.rs lines 1682-1720 *)
Definition dynamic_grid_tests_3d (c : cfg) (r : rng) : suite :=
  let test n := roundtrip_3d c KDynamic n (fun x y z o => dynamic_from_grid_index_3d c x y z n o) r in
  [("roundtrip_grid_index", test 32); ("roundtrip_grid_index_with_odd_levels", test 29)].

(* ---------- the instances: lines 1851-1873 / 1915-1937 ---------- *)
(* $max_levels of the invocations; usize is not tested *)
Definition tested_2d : list (uty * N) := [(U8, 4); (U16, 8); (U32, 16); (U64, 32); (U128, 64)]%N.
Definition tested_3d : list (uty * N) := [(U8, 2); (U16, 5); (U32, 10); (U64, 21); (U128, 42)]%N.
Definition array_2d : list quadrant := [Q3; Q2; Q0; Q1].
Definition array_3d : list octant := [O3; O2].

Definition fixed_tests_2d (c : cfg) (t : uty) (m : N) (r : rng) : suite := fixed_tests c Dim2D layout2D t m array_2d r.
Definition fixed_tests_3d (c : cfg) (t : uty) (m : N) (r : rng) : suite := fixed_tests c Dim3D layout3D t m array_3d r.
Definition static_tests_2d (c : cfg) (t : uty) (m : N) (r : rng) : suite := static_tests c Dim2D layout2D t m array_2d 2 3 r.
Definition static_tests_3d (c : cfg) (t : uty) (m : N) (r : rng) : suite :=
  ("from_just_one_octant", just_one_octant c t) :: static_tests c Dim3D layout3D t m array_3d 1 1 r.
Definition dynamic_tests_2d (c : cfg) (r : rng) : suite :=
  dynamic_tests c Dim2D layout2D (fun d => Ret (dynamic_zeroed_2d d)) array_2d r.
Definition dynamic_tests_3d (c : cfg) (r : rng) : suite := dynamic_tests c Dim3D layout3D (dynamic_zeroed_3d c) array_3d r.
Definition conversion_tests_2d (c : cfg) (t : uty) (m : N) (r : rng) : suite :=
  conversion_tests c Dim2D layout2D t m (m / 2) 3 r.
Definition conversion_tests_3d (c : cfg) (t : uty) (m : N) (r : rng) : suite :=
  conversion_tests c Dim3D layout3D t m ((m + 1) / 2) 1 r.

(* ---------- benches/morton_index_3d_bench.rs ---------- *)
(* get_dummy_grid_indices_64, lines 6-18; `1 << 21` is a usize.  On 16-bit targets rustc rejects it, the model reports Panic.
   Vector3::new evaluates its arguments from left to right. *)
Fixpoint dummy_grid_indices (max_idx : N) (count : nat) (r : rng) : list (N * N * N) * rng :=
  match count with
  | O => ([], r)
  | S n =>
      let (x, r) := gen_range max_idx r in
      let (y, r) := gen_range max_idx r in
      let (z, r) := gen_range max_idx r in
      let (l, r) := dummy_grid_indices max_idx n r in
      ((x, y, z) :: l, r)
  end.
Definition get_dummy_grid_indices_64 (c : cfg) (count : N) (r : rng) : outcome (list (N * N * N) * rng) :=
  if (21 <? usize_bits c)%N then
    let! max_idx := shl c (usize_bits c) 1 21 in Ret (dummy_grid_indices max_idx (N.to_nat count) r)
  else Panic.
(* bench, lines 20-37: the indices that one iteration gives to black_box; the measurement itself is not modelled *)
Definition bench (c : cfg) (r : rng) : outcome (list fixed_storage) :=
  let! (grid_indices, _) := get_dummy_grid_indices_64 c 1024 r in
  mapM (fun idx => let '(x, y, z) := idx in from_grid_index_fast c x y z XYZ) grid_indices.
