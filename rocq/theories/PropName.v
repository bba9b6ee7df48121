(* PropName.v - Names and displayable slices (C26, C27, C35) *)
From Verif Require Import Base ModelNumber ModelDim ModelStorage Model2D Model3D ModelHelper Spec History ExampleTools FactsName.

(* ---------- C26 ---------- *)
Theorem c26_cell_names_2d : forall c k (s : storage k) l,
  valid c Dim2D k s -> shows (ops c Dim2D k) s l ->
  to_string_2d c (ops c Dim2D k) s CellConcatenation = Ret (String.concat "" (map (fun q => decimal (quadrant_index q)) l))
  /\ to_string_2d c (ops c Dim2D k) s CellConcatenationWithRoot
     = Ret ("r" ++ String.concat "" (map (fun q => decimal (quadrant_index q)) l))%string.
Proof. exact c26_cell_names_2d_lemma. Qed.
Print Assumptions c26_cell_names_2d.
Example c26_cell_names_2d_example :
  valid debug64 Dim2D (KStatic U16) (MkStatic 0x6C00 3) /\ shows (static_ops debug64 Dim2D U16) (MkStatic 0x6C00 3) [Q1; Q2; Q3]
  /\ to_string_2d debug64 (static_ops debug64 Dim2D U16) (MkStatic 0x6C00 3) CellConcatenation = Ret "123"%string
  /\ to_string_2d debug64 (static_ops debug64 Dim2D U16) (MkStatic 0x6C00 3) CellConcatenationWithRoot = Ret "r123"%string.
Proof. concrete. Qed.

Theorem c26_cell_names_3d : forall c k (s : storage k) l,
  valid c Dim3D k s -> shows (ops c Dim3D k) s l ->
  to_string_3d c (ops c Dim3D k) s CellConcatenation = Ret (String.concat "" (map (fun q => decimal (octant_index q)) l))
  /\ to_string_3d c (ops c Dim3D k) s CellConcatenationWithRoot
     = Ret ("r" ++ String.concat "" (map (fun q => decimal (octant_index q)) l))%string.
Proof. exact c26_cell_names_3d_lemma. Qed.
Print Assumptions c26_cell_names_3d.
Example c26_cell_names_3d_example :
  valid debug64 Dim3D KDynamic (MkDynamic [128; 57] 3) /\ shows (dynamic_ops debug64 Dim3D) (MkDynamic [128; 57] 3) [O1; O6; O3]
  /\ to_string_3d debug64 (dynamic_ops debug64 Dim3D) (MkDynamic [128; 57] 3) CellConcatenation = Ret "163"%string
  /\ to_string_3d debug64 (dynamic_ops debug64 Dim3D) dynamic_default CellConcatenationWithRoot = Ret "r"%string.
Proof. concrete. Qed.

Theorem c26_cell_names_2d_injective : forall c k k' (s : storage k) (s' : storage k') l l' n,
  valid c Dim2D k s -> shows (ops c Dim2D k) s l -> valid c Dim2D k' s' -> shows (ops c Dim2D k') s' l' ->
  n <> GridIndex ->
  (to_string_2d c (ops c Dim2D k) s n = to_string_2d c (ops c Dim2D k') s' n <-> l = l').
Proof. exact c26_cell_names_2d_injective_lemma. Qed.
Print Assumptions c26_cell_names_2d_injective.
Example c26_cell_names_2d_injective_example :
  shows (static_ops debug64 Dim2D U16) (MkStatic 0x6C00 3) [Q1; Q2; Q3] /\ shows (dynamic_ops debug64 Dim2D) (MkDynamic [0x6F] 3) [Q1; Q2; Q3]
  /\ to_string_2d debug64 (static_ops debug64 Dim2D U16) (MkStatic 0x6C00 3) CellConcatenation = Ret "123"%string
  /\ to_string_2d debug64 (dynamic_ops debug64 Dim2D) (MkDynamic [0x6F] 3) CellConcatenation = Ret "123"%string.
Proof. concrete. Qed.

Theorem c26_cell_names_3d_injective : forall c k k' (s : storage k) (s' : storage k') l l' n,
  valid c Dim3D k s -> shows (ops c Dim3D k) s l -> valid c Dim3D k' s' -> shows (ops c Dim3D k') s' l' ->
  n <> GridIndex ->
  (to_string_3d c (ops c Dim3D k) s n = to_string_3d c (ops c Dim3D k') s' n <-> l = l').
Proof. exact c26_cell_names_3d_injective_lemma. Qed.
Print Assumptions c26_cell_names_3d_injective.
Example c26_cell_names_3d_injective_example :
  to_string_3d debug64 (static_ops debug64 Dim3D U16) (MkStatic 0x3980 3) CellConcatenationWithRoot = Ret "r163"%string
  /\ to_string_3d debug64 (static_ops debug64 Dim3D U16) (MkStatic 0x3980 2) CellConcatenationWithRoot = Ret "r16"%string.
Proof. concrete. Qed.

(* ---------- C27 ---------- *)
Theorem c27_grid_name_2d : forall c k (s : storage k) l,
  valid c Dim2D k s -> shows (ops c Dim2D k) s l -> len l <= usize_bits c ->
  to_string_2d c (ops c Dim2D k) s GridIndex
  = Ret (decimal (len l) ++ "-" ++ decimal (coord (quad_x XY) l) ++ "-" ++ decimal (coord (quad_y XY) l))%string.
Proof. exact c27_grid_name_2d_lemma. Qed.
Print Assumptions c27_grid_name_2d.
Example c27_grid_name_2d_example :
  3 <= usize_bits debug64 /\ shows (static_ops debug64 Dim2D U16) (MkStatic 0x6C00 3) [Q1; Q2; Q3]
  /\ to_string_2d debug64 (static_ops debug64 Dim2D U16) (MkStatic 0x6C00 3) GridIndex = Ret "3-5-3"%string
  /\ to_string_2d debug64 (fixed_ops debug64 Dim2D U64) (MkFixed 0x6C00) GridIndex = Ret "32-160-96"%string.
Proof. concrete. Qed.

Theorem c27_grid_name_3d : forall c k (s : storage k) l,
  valid c Dim3D k s -> shows (ops c Dim3D k) s l -> len l <= usize_bits c ->
  to_string_3d c (ops c Dim3D k) s GridIndex
  = Ret (decimal (len l) ++ "-" ++ decimal (coord (oct_x XYZ) l) ++ "-" ++ decimal (coord (oct_y XYZ) l)
         ++ "-" ++ decimal (coord (oct_z XYZ) l))%string.
Proof. exact c27_grid_name_3d_lemma. Qed.
Print Assumptions c27_grid_name_3d.
Example c27_grid_name_3d_example :
  to_string_3d debug64 (dynamic_ops debug64 Dim3D) (MkDynamic [128; 57] 3) GridIndex = Ret "3-5-3-2"%string.
Proof. concrete. Qed.

Theorem c27_grid_name_2d_injective : forall c k k' (s : storage k) (s' : storage k') l l',
  valid c Dim2D k s -> shows (ops c Dim2D k) s l -> len l <= usize_bits c ->
  valid c Dim2D k' s' -> shows (ops c Dim2D k') s' l' -> len l' <= usize_bits c ->
  (to_string_2d c (ops c Dim2D k) s GridIndex = to_string_2d c (ops c Dim2D k') s' GridIndex <-> l = l').
Proof. exact c27_grid_name_2d_injective_lemma. Qed.
Print Assumptions c27_grid_name_2d_injective.
Example c27_grid_name_2d_injective_example :
  to_string_2d debug64 (static_ops debug64 Dim2D U32) (MkStatic 0 11) GridIndex = Ret "11-0-0"%string
  /\ to_string_2d debug64 (static_ops debug64 Dim2D U32) (MkStatic 0 1) GridIndex = Ret "1-0-0"%string.
Proof. concrete. Qed.

Theorem c27_grid_name_3d_injective : forall c k k' (s : storage k) (s' : storage k') l l',
  valid c Dim3D k s -> shows (ops c Dim3D k) s l -> len l <= usize_bits c ->
  valid c Dim3D k' s' -> shows (ops c Dim3D k') s' l' -> len l' <= usize_bits c ->
  (to_string_3d c (ops c Dim3D k) s GridIndex = to_string_3d c (ops c Dim3D k') s' GridIndex <-> l = l').
Proof. exact c27_grid_name_3d_injective_lemma. Qed.
Print Assumptions c27_grid_name_3d_injective.
Example c27_grid_name_3d_injective_example :
  to_string_3d debug64 (static_ops debug64 Dim3D U16) (MkStatic 0x3980 3) GridIndex = Ret "3-5-3-2"%string
  /\ to_string_3d debug64 (static_ops debug64 Dim3D U16) (MkStatic 0x3980 2) GridIndex = Ret "2-2-1-1"%string.
Proof. concrete. Qed.

(* so the parts of a grid name determine the numbers *)
Theorem c27_decimal_injective : forall n m, decimal n = decimal m -> n = m.
Proof. exact c27_decimal_injective_lemma. Qed.
Print Assumptions c27_decimal_injective.
Example c27_decimal_example : decimal 0 = "0"%string /\ decimal 1048576 = "1048576"%string.
Proof. concrete. Qed.

(* ---------- C35 ---------- *)
(* for any to_string *)
Theorem c35_display : forall T c (to_string : T -> naming -> outcome string) l n names,
  Forall2 (fun x name => to_string x n = Ret name) l names ->
  display_fmt c to_string (make_displayable l n) = Ret ("[" ++ String.concat ", " names ++ "]")%string
  /\ debug_fmt c to_string (make_displayable l n) = Ret ("[" ++ String.concat ", " names ++ "]")%string.
Proof. exact c35_display_lemma. Qed.
Print Assumptions c35_display.
Example c35_display_example :
  display_fmt debug64 (to_string_2d debug64 (static_ops debug64 Dim2D U16))
    (make_displayable [MkStatic 0x6C00 3; MkStatic 0x8000 1; static_default] CellConcatenationWithRoot) = Ret "[r123, r2, r]"%string
  /\ display_fmt debug64 (to_string_2d debug64 (static_ops debug64 Dim2D U16)) (make_displayable [] CellConcatenation) = Ret "[]"%string.
Proof. concrete. Qed.

Theorem c35_display_cells_2d : forall c k (l : list (storage k)) paths,
  Forall2 (fun s p => valid c Dim2D k s /\ shows (ops c Dim2D k) s p) l paths ->
  display_fmt c (to_string_2d c (ops c Dim2D k)) (make_displayable l CellConcatenation)
  = Ret ("[" ++ String.concat ", " (map (fun p => String.concat "" (map (fun q => decimal (quadrant_index q)) p)) paths) ++ "]")%string.
Proof. exact c35_display_cells_2d_lemma. Qed.
Print Assumptions c35_display_cells_2d.
Example c35_display_cells_2d_example :
  display_fmt debug64 (to_string_2d debug64 (static_ops debug64 Dim2D U16))
    (make_displayable [MkStatic 0x6C00 3; MkStatic 0x8000 1] CellConcatenation) = Ret "[123, 2]"%string.
Proof. concrete. Qed.

Theorem c35_display_cells_3d : forall c k (l : list (storage k)) paths,
  Forall2 (fun s p => valid c Dim3D k s /\ shows (ops c Dim3D k) s p) l paths ->
  display_fmt c (to_string_3d c (ops c Dim3D k)) (make_displayable l CellConcatenation)
  = Ret ("[" ++ String.concat ", " (map (fun p => String.concat "" (map (fun q => decimal (octant_index q)) p)) paths) ++ "]")%string.
Proof. exact c35_display_cells_3d_lemma. Qed.
Print Assumptions c35_display_cells_3d.
Example c35_display_cells_3d_example :
  display_fmt debug64 (to_string_3d debug64 (dynamic_ops debug64 Dim3D))
    (make_displayable [MkDynamic [128; 57] 3; MkDynamic [56] 2] CellConcatenation) = Ret "[163, 16]"%string.
Proof. concrete. Qed.

Theorem c35_displayable_eq : forall k (a b : list (storage k)) na nb,
  displayable_eq (idx_eq k) (make_displayable a na) (make_displayable b nb) = true <-> a = b.
Proof. exact c35_displayable_eq_lemma. Qed.
Print Assumptions c35_displayable_eq.
Example c35_displayable_eq_example :
  displayable_eq (idx_eq (KStatic U16)) (make_displayable [MkStatic 0x6C00 3; MkStatic 0x8000 1] GridIndex)
    (make_displayable [MkStatic 0x6C00 3; MkStatic 0x8000 1] CellConcatenation) = true
  /\ displayable_eq (idx_eq (KStatic U16)) (make_displayable [MkStatic 0x6C00 3] GridIndex)
    (make_displayable [MkStatic 0x6C00 3; MkStatic 0x8000 1] GridIndex) = false.
Proof. concrete. Qed.

Theorem c35_displayable_cmp : forall T (cmp : T -> T -> comparison) a b na nb,
  exists r, displayable_cmp (fun x y => Ret (cmp x y)) (make_displayable a na) (make_displayable b nb) = Ret r
  /\ displayable_partial_cmp (fun x y => Ret (cmp x y)) (make_displayable a na) (make_displayable b nb) = Ret (Some r)
  /\ exists p q a' b', a = p ++ a' /\ b = q ++ b' /\ Forall2 (fun x y => cmp x y = Eq) p q
     /\ match a', b' with
        | [], [] => r = Eq
        | [], _ :: _ => r = Lt
        | _ :: _, [] => r = Gt
        | x :: _, y :: _ => cmp x y = r /\ r <> Eq
        end.
Proof. exact c35_displayable_cmp_lemma. Qed.
Print Assumptions c35_displayable_cmp.
Example c35_displayable_cmp_example :
  displayable_cmp (fun x y => Ret (N.compare x y)) (make_displayable [3; 7; 1] GridIndex) (make_displayable [3; 8] GridIndex) = Ret Lt
  /\ displayable_cmp (fun x y => Ret (N.compare x y)) (make_displayable [3; 7; 1] GridIndex) (make_displayable [3; 7] GridIndex) = Ret Gt.
Proof. concrete. Qed.

Theorem c35_displayable_cmp_of_made : forall c D L k (a b : list (storage k)) pa pb na nb,
  Forall2 (fun s p => made c D L k true s p) a pa -> Forall2 (fun s p => made c D L k true s p) b pb ->
  displayable_cmp (idx_cmp c D k) (make_displayable a na) (make_displayable b nb)
  = displayable_cmp (fun x y => Ret (path_cmp x y)) (make_displayable pa na) (make_displayable pb nb).
Proof. exact c35_displayable_cmp_of_made_lemma. Qed.
Print Assumptions c35_displayable_cmp_of_made.
Example c35_displayable_cmp_of_made_example :
  made debug64 Dim2D layout2D (KStatic U16) true (MkStatic 0x6C00 3) [Q1; Q2; Q3]
  /\ displayable_cmp (idx_cmp debug64 Dim2D (KStatic U16)) (make_displayable [MkStatic 0x6C00 3] GridIndex)
       (make_displayable [MkStatic 0x6C00 3; static_default] GridIndex) = Ret Lt.
Proof. split; [made_by (start_static_cells debug64 Dim2D layout2D U16 [Q1; Q2; Q3]) (@nil (call Dim2D))|]. concrete. Qed.
