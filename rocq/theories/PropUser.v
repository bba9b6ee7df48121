(* PropUser.v - C66 dimensions and C67 storages implemented outside the crate *)
From Coq Require Import Bool Eqdep_dec ZifyBool ZifyNat ZifyN.
From Verif Require Import Base ModelNumber ModelDim ModelStorage Model2D Model3D ModelStd Spec SpecUser ExampleTools FactsUser.

(* ---------- C66 ---------- *)
(* the laws are met by some dimension of every dimensionality, so the following statements are about all of them *)
Theorem c66_every_dimensionality : forall d, 1 <= d -> dimension_laws (DimN d) /\ dim (DimN d) = d.
Proof. exact c66_every_dimensionality_lemma. Qed.
Print Assumptions c66_every_dimensionality.
Example c66_every_dimensionality_example : dimension_laws (DimN 4) /\ dim (DimN 4) = 4 /\ dimension_laws Dim2D /\ dimension_laws Dim3D.
Proof.
  split; [apply c66_every_dimensionality_lemma; discriminate|]. split; [reflexivity|].
  split; (split; [discriminate|split; [intros []; reflexivity|intros []; reflexivity]]).
Qed.

(* what is written and read back, for every dimensionality *)
Theorem c66_integer_storages : forall c D t v i x, dimension_laws D -> v < 2 ^ BITS c t -> dim D * (i + 1) <= BITS c t ->
  exists v', fixed_set_cell c D t v i x = Ret v' /\ static_set_cell c D t v i x = Ret v' /\ v' < 2 ^ BITS c t
    /\ bits_replaced v (BITS c t - dim D * (i + 1)) (dim D) (cell_index D x mod 256) v'
    /\ fixed_get_cell c D t v' i = unwrap (cell_try_from D (cell_index D x mod 256))
    /\ static_get_cell c D t v' i = unwrap (cell_try_from D (cell_index D x mod 256))
    /\ forall j, j <> i -> dim D * (j + 1) <= BITS c t ->
         fixed_get_cell c D t v' j = fixed_get_cell c D t v j /\ static_get_cell c D t v' j = static_get_cell c D t v j.
Proof. exact c66_integer_storages_lemma. Qed.
Print Assumptions c66_integer_storages.
Example c66_integer_storages_example : exists x y, cell_at 4 13 = Some x /\ cell_at 4 5 = Some y
  /\ dimension_laws (DimN 4) /\ 0x1234 < 2 ^ BITS debug64 U16 /\ dim (DimN 4) * (1 + 1) <= BITS debug64 U16
  /\ fixed_set_cell debug64 (DimN 4) U16 0x1234 1 x = Ret 0x1D34 /\ fixed_get_cell debug64 (DimN 4) U16 0x1D34 1 = Ret x
  /\ static_set_cell debug64 (DimN 4) U16 0x1234 3 y = Ret 0x1235 /\ static_get_cell debug64 (DimN 4) U16 0x1235 3 = Ret y.
Proof.
  do 2 eexists. split; [reflexivity|]. split; [reflexivity|]. split; [apply c66_every_dimensionality_lemma; discriminate|]. repeat split; vm_compute; reflexivity || discriminate.
Qed.

(* up to dimensionality 8 the cell is read back *)
Theorem c66_up_to_eight : forall c D t v i x, dimension_laws D -> dim D <= 8 -> v < 2 ^ BITS c t -> dim D * (i + 1) <= BITS c t ->
  exists v', fixed_set_cell c D t v i x = Ret v' /\ static_set_cell c D t v i x = Ret v' /\ v' < 2 ^ BITS c t
    /\ fixed_get_cell c D t v' i = Ret x /\ static_get_cell c D t v' i = Ret x.
Proof. exact c66_up_to_eight_lemma. Qed.
Print Assumptions c66_up_to_eight.
Example c66_up_to_eight_example : exists x, cell_at 8 0xAB = Some x
  /\ dimension_laws (DimN 8) /\ dim (DimN 8) <= 8 /\ 0x1234 < 2 ^ BITS debug64 U16 /\ dim (DimN 8) * (1 + 1) <= BITS debug64 U16
  /\ fixed_set_cell debug64 (DimN 8) U16 0x1234 1 x = Ret 0x12AB /\ fixed_get_cell debug64 (DimN 8) U16 0x12AB 1 = Ret x.
Proof.
  eexists. split; [reflexivity|]. split; [apply c66_every_dimensionality_lemma; discriminate|]. repeat split; vm_compute; reflexivity || discriminate.
Qed.

(* beyond, some cell is read back as another one, at every level and for every previous content *)
Theorem c66_beyond_eight : forall c t d i, 8 < d -> d * (i + 1) <= BITS c t ->
  exists x y, x <> y /\ forall v, v < 2 ^ BITS c t ->
    exists v', fixed_set_cell c (DimN d) t v i x = Ret v' /\ static_set_cell c (DimN d) t v i x = Ret v'
      /\ fixed_get_cell c (DimN d) t v' i = Ret y /\ static_get_cell c (DimN d) t v' i = Ret y.
Proof. exact c66_beyond_eight_lemma. Qed.
Print Assumptions c66_beyond_eight.
Example c66_beyond_eight_example : exists x, cell_at 9 256 = Some x /\ 9 * (0 + 1) <= BITS debug64 U16
  /\ fixed_set_cell debug64 (DimN 9) U16 0x1234 0 x = Ret 0x34 /\ fixed_get_cell debug64 (DimN 9) U16 0x34 0 = Ret (cell_zero (DimN 9)).
Proof.
  eexists. split; [reflexivity|]. repeat split; try (vm_compute; reflexivity || discriminate).
  change (cell_zero (DimN 9)) with (exist (fun n => (n <? 2 ^ 9) = true) 0 (zero_below 9)).
  unfold fixed_get_cell. vm_compute. f_equal. f_equal. apply Eqdep_dec.UIP_dec. exact Bool.bool_dec.
Qed.

(* dynamic storages read the cell back for every dimensionality up to the bits of usize *)
Theorem c66_dynamic_storage : forall c D vec i x, dimension_laws D -> dim D <= usize_bits c -> target_endian c = LittleEndian ->
  Forall (fun b => b < 256) vec -> dim D * (i + 1) <= 8 * len vec -> 8 * len vec + 8 <= 2 ^ usize_bits c ->
  exists vec', dynamic_set_cell c D vec i x = Ret vec' /\ Forall (fun b => b < 256) vec' /\ len vec' = len vec
    /\ bits_replaced (bytes_value vec) (8 * len vec - dim D * (i + 1)) (dim D) (cell_index D x) (bytes_value vec')
    /\ dynamic_get_cell c D vec' i = Ret x
    /\ forall j, j <> i -> dim D * (j + 1) <= 8 * len vec -> dynamic_get_cell c D vec' j = dynamic_get_cell c D vec j.
Proof. exact c66_dynamic_storage_lemma. Qed.
Print Assumptions c66_dynamic_storage.
Example c66_dynamic_storage_example : exists x, cell_at 9 0x1AB = Some x
  /\ dimension_laws (DimN 9) /\ dim (DimN 9) <= usize_bits debug64 /\ target_endian debug64 = LittleEndian
  /\ Forall (fun b => b < 256) [1; 2; 3] /\ dim (DimN 9) * (1 + 1) <= 8 * len [1; 2; 3] /\ 8 * len [1; 2; 3] + 8 <= 2 ^ usize_bits debug64
  /\ dynamic_set_cell debug64 (DimN 9) [1; 2; 3] 1 x = Ret [0xC1; 0x6A; 3] /\ dynamic_get_cell debug64 (DimN 9) [0xC1; 0x6A; 3] 1 = Ret x.
Proof.
  eexists. split; [reflexivity|]. split; [apply c66_every_dimensionality_lemma; discriminate|]. repeat split; try (vm_compute; reflexivity || discriminate).
  repeat constructor.
Qed.

(* ---------- C67 ---------- *)
(* cells() enumerates the cells *)
Theorem c67_cells : forall D S c (o : StorageOps D S) s l, shows o s l -> len l < 2 ^ usize_bits c ->
  collect_cells c o s = Ret l
  /\ forall n, next_calls c o s cell_iter_start n = Ret (map Some (firstn n l) ++ repeat None (n - List.length l)).
Proof. exact c67_cells_lemma. Qed.
Print Assumptions c67_cells.
Example c67_cells_example : shows (list_ops Dim3D) [O5; O1; O7] [O5; O1; O7] /\ len [O5; O1; O7] < 2 ^ usize_bits debug64
  /\ collect_cells debug64 (list_ops Dim3D) [O5; O1; O7] = Ret [O5; O1; O7].
Proof. concrete. Qed.

(* names and grid indices of 2D indices *)
Theorem c67_two_dimensions : forall S c (op : StorageOps Dim2D S) s l, shows op s l ->
  to_string_2d c op s CellConcatenation = Ret (String.concat "" (map (fun q => decimal (quadrant_index q)) l))
  /\ to_string_2d c op s CellConcatenationWithRoot = Ret ("r" ++ String.concat "" (map (fun q => decimal (quadrant_index q)) l))%string
  /\ (len l <= usize_bits c ->
      (forall o, to_grid_index_2d c op s o = Ret (coord (quad_x o) l, coord (quad_y o) l))
      /\ to_string_2d c op s GridIndex
         = Ret (decimal (len l) ++ "-" ++ decimal (coord (quad_x XY) l) ++ "-" ++ decimal (coord (quad_y XY) l))%string).
Proof. exact c67_two_dimensions_lemma. Qed.
Print Assumptions c67_two_dimensions.
Example c67_two_dimensions_example : shows (list_ops Dim2D) [Q1; Q2; Q3] [Q1; Q2; Q3]
  /\ to_string_2d debug64 (list_ops Dim2D) [Q1; Q2; Q3] CellConcatenation = Ret "123"%string
  /\ to_string_2d debug64 (list_ops Dim2D) [Q1; Q2; Q3] GridIndex = Ret "3-5-3"%string.
Proof. concrete. Qed.

(* names and grid indices of 3D indices *)
Theorem c67_three_dimensions : forall S c (op : StorageOps Dim3D S) s l, shows op s l ->
  to_string_3d c op s CellConcatenation = Ret (String.concat "" (map (fun q => decimal (octant_index q)) l))
  /\ to_string_3d c op s CellConcatenationWithRoot = Ret ("r" ++ String.concat "" (map (fun q => decimal (octant_index q)) l))%string
  /\ (len l <= usize_bits c ->
      (forall o, to_grid_index_3d c op s o = Ret (coord (oct_x o) l, coord (oct_y o) l, coord (oct_z o) l))
      /\ to_string_3d c op s GridIndex
         = Ret (decimal (len l) ++ "-" ++ decimal (coord (oct_x XYZ) l) ++ "-" ++ decimal (coord (oct_y XYZ) l)
                ++ "-" ++ decimal (coord (oct_z XYZ) l))%string).
Proof. exact c67_three_dimensions_lemma. Qed.
Print Assumptions c67_three_dimensions.
Example c67_three_dimensions_example : shows (list_ops Dim3D) [O1; O6; O3] [O1; O6; O3]
  /\ to_string_3d debug64 (list_ops Dim3D) [O1; O6; O3] CellConcatenationWithRoot = Ret "r163"%string
  /\ to_string_3d debug64 (list_ops Dim3D) [O1; O6; O3] GridIndex = Ret "3-5-3-2"%string.
Proof. concrete. Qed.

(* the checked accessors *)
Theorem c67_accessors : forall D S (o : StorageOps D S) inv s l i x, writes_cells o inv -> inv s -> shows o s l ->
  if i <? len l
  then exists s', set_cell_at_level o s i x = Ret s' /\ inv s' /\ shows o s' (replaced l i x)
  else get_cell_at_level o s i = Panic /\ set_cell_at_level o s i x = Panic.
Proof. exact c67_accessors_lemma. Qed.
Print Assumptions c67_accessors.
Example c67_accessors_example : writes_cells (list_ops Dim2D) (fun _ => True) /\ shows (list_ops Dim2D) [Q1; Q2; Q3] [Q1; Q2; Q3]
  /\ set_cell_at_level (list_ops Dim2D) [Q1; Q2; Q3] 1 Q0 = Ret [Q1; Q0; Q3] /\ set_cell_at_level (list_ops Dim2D) [Q1; Q2; Q3] 3 Q0 = Panic.
Proof. split; [apply (c67_laws_are_satisfiable_lemma debug64 Dim2D 0)|]. concrete. Qed.

Theorem c67_inverted : forall D S c (o : StorageOps D S) inv s l, writes_cells o inv -> inv s -> shows o s l ->
  exists s', inverted c o s = Ret s' /\ inv s' /\ shows o s' (rev l).
Proof. exact c67_inverted_lemma. Qed.
Print Assumptions c67_inverted.
Example c67_inverted_example : writes_cells (list_ops Dim2D) (fun _ => True) /\ shows (list_ops Dim2D) [Q1; Q2; Q3] [Q1; Q2; Q3]
  /\ inverted debug64 (list_ops Dim2D) [Q1; Q2; Q3] = Ret [Q3; Q2; Q1].
Proof. split; [apply (c67_laws_are_satisfiable_lemma debug64 Dim2D 0)|]. concrete. Qed.

(* the provided methods of VariableDepthMortonIndex *)
Theorem c67_tree : forall D S c (v : VarOps D S) inv fits s l, walks c v inv fits -> inv s -> shows (vo_ops v) s l ->
  (forall n, if n <=? len l
             then exists s', with_depth c v s n = Ret (Some s') /\ inv s' /\ shows (vo_ops v) s' (firstn (N.to_nat n) l)
             else with_depth c v s n = Ret None)
  /\ match l with
     | [] => parent v s = Ret None
     | _ :: _ => exists s', parent v s = Ret (Some s') /\ inv s' /\ shows (vo_ops v) s' (removelast l)
     end
  /\ forall x, if fits (len l + 1)
               then exists s', child v s x = Ret (Some s') /\ inv s' /\ shows (vo_ops v) s' (l ++ [x])
               else child v s x = Ret None.
Proof. exact c67_tree_lemma. Qed.
Print Assumptions c67_tree.
Example c67_tree_example : walks debug64 (list_vops Dim2D 3) (fun _ => True) (fun n => n <=? 3) /\ shows (vo_ops (list_vops Dim2D 3)) [Q1; Q2; Q3] [Q1; Q2; Q3]
  /\ with_depth debug64 (list_vops Dim2D 3) [Q1; Q2; Q3] 1 = Ret (Some [Q1]) /\ parent (list_vops Dim2D 3) [Q1; Q2; Q3] = Ret (Some [Q1; Q2])
  /\ child (list_vops Dim2D 3) [Q1; Q2; Q3] Q0 = Ret None /\ child (list_vops Dim2D 3) [Q1; Q2] Q0 = Ret (Some [Q1; Q2; Q0]).
Proof. split; [apply (c67_laws_are_satisfiable_lemma debug64 Dim2D 3)|]. concrete. Qed.

(* the generic code calls the unsafe accessors only inside the depth, whatever the storage does *)
Theorem c67_unsafe_contract : forall D S c (o : StorageOps D S) s, st_depth o s < 2 ^ usize_bits c ->
  (forall i, get_cell_at_level (contract o) s i = get_cell_at_level o s i)
  /\ (forall i x, set_cell_at_level (contract o) s i x = set_cell_at_level o s i x)
  /\ (forall n, next_calls c (contract o) s cell_iter_start n = next_calls c o s cell_iter_start n)
  /\ collect_cells c (contract o) s = collect_cells c o s
  /\ ((forall s1 i x s2, st_set o s1 i x = Ret s2 -> st_depth o s2 = st_depth o s1) -> inverted c (contract o) s = inverted c o s).
Proof. exact c67_unsafe_contract_lemma. Qed.
Print Assumptions c67_unsafe_contract.
Example c67_unsafe_contract_example : st_depth (list_ops Dim2D) [Q1; Q2; Q3] < 2 ^ usize_bits debug64
  /\ st_get (contract (list_ops Dim2D)) [Q1; Q2; Q3] 3 = UB /\ inverted debug64 (contract (list_ops Dim2D)) [Q1; Q2; Q3] = Ret [Q3; Q2; Q1].
Proof. concrete. Qed.

Theorem c67_unsafe_contract_2d : forall S c (op : StorageOps Dim2D S) s,
  (forall o, to_grid_index_2d c (contract op) s o = to_grid_index_2d c op s o) /\ (forall n, to_string_2d c (contract op) s n = to_string_2d c op s n).
Proof. exact c67_unsafe_contract_2d_lemma. Qed.
Print Assumptions c67_unsafe_contract_2d.
Example c67_unsafe_contract_2d_example : to_grid_index_2d debug64 (contract (list_ops Dim2D)) [Q1; Q2; Q3] XY = Ret (5, 3).
Proof. concrete. Qed.

Theorem c67_unsafe_contract_3d : forall S c (op : StorageOps Dim3D S) s,
  (forall o, to_grid_index_3d c (contract op) s o = to_grid_index_3d c op s o) /\ (forall n, to_string_3d c (contract op) s n = to_string_3d c op s n).
Proof. exact c67_unsafe_contract_3d_lemma. Qed.
Print Assumptions c67_unsafe_contract_3d.
Example c67_unsafe_contract_3d_example : to_grid_index_3d debug64 (contract (list_ops Dim3D)) [O1; O6; O3] XYZ = Ret (5, 3, 2).
Proof. concrete. Qed.

(* ---------- C66 ---------- *)
(* and writing replaces one element of it, so C67 applies to the storages of the crate in user-defined dimensions *)
Theorem c66_storages_hold_lists : forall c D k, dimension_laws D -> target_endian c = LittleEndian \/ k <> KDynamic ->
  match k with KFixed _ | KStatic _ => dim D <= 8 | KDynamic => dim D <= usize_bits c end ->
  writes_cells (ops c D k) (valid c D k).
Proof. exact c66_storages_hold_lists_lemma. Qed.
Print Assumptions c66_storages_hold_lists.
Example c66_storages_hold_lists_example : dimension_laws (DimN 4) /\ dim (DimN 4) <= 8 /\ valid debug64 (DimN 4) (KStatic U16) (MkStatic 0x1234 3)
  /\ exists l, shows (ops debug64 (DimN 4) (KStatic U16)) (MkStatic 0x1234 3) l /\ map (cell_index (DimN 4)) l = [1; 2; 3].
Proof.
  split; [apply c66_every_dimensionality_lemma; discriminate|]. split; [discriminate|]. split; [split; vm_compute; reflexivity || discriminate|].
  set (m := mapM (get_cell_at_level (ops debug64 (DimN 4) (KStatic U16)) (MkStatic 0x1234 3)) (range 0 3)).
  assert (H : match m with Ret l => map (cell_index (DimN 4)) l = [1; 2; 3] | _ => False end) by (vm_compute; reflexivity).
  destruct m as [l| |] eqn:E; [|contradiction|contradiction]. exists l. split; [|exact H].
  assert (L : len l = 3) by (unfold len; rewrite <- (map_length (cell_index (DimN 4))), H; reflexivity).
  apply shows_intro; [symmetry; exact L|rewrite L; exact E].
Qed.

(* every value of the storages shows a list of cells *)
Theorem c66_every_value_holds_cells : forall c D k (s : storage k), 1 <= dim D -> (forall n, n < 2 ^ dim D -> exists x, cell_try_from D n = Ok x) ->
  match k with KFixed _ | KStatic _ => True | KDynamic => dim D <= usize_bits c end ->
  valid c D k s -> exists l, shows (ops c D k) s l.
Proof. exact c66_every_value_holds_cells_lemma. Qed.
Print Assumptions c66_every_value_holds_cells.
Example c66_every_value_holds_cells_example : 1 <= dim (DimN 4) /\ (forall n, n < 2 ^ dim (DimN 4) -> exists x, cell_try_from (DimN 4) n = Ok x)
  /\ valid debug64 (DimN 4) (KStatic U16) (MkStatic 0x1234 3).
Proof.
  split; [discriminate|]. split; [|split; vm_compute; reflexivity || discriminate]. intros n Hn. cbn [DimN cell_try_from dim] in *. unfold cell_at.
  destruct (Bool.bool_dec (n <? 2 ^ 4) true) as [E|E]; [eexists; reflexivity|]. exfalso. apply E. apply N.ltb_lt. exact Hn.
Qed.

(* ---------- C67 ---------- *)
(* for instance by vectors of cells *)
Theorem c67_laws_are_satisfiable : forall c D limit,
  (forall l, shows (list_ops D) l l) /\ writes_cells (list_ops D) (fun _ => True) /\ walks c (list_vops D limit) (fun _ => True) (fun n => n <=? limit).
Proof. exact c67_laws_are_satisfiable_lemma. Qed.
Print Assumptions c67_laws_are_satisfiable.
Example c67_laws_are_satisfiable_example : st_set (list_ops Dim2D) [Q1; Q2; Q3] 2 Q0 = Ret [Q1; Q2; Q0].
Proof. concrete. Qed.

(* ---------- C66 ---------- *)
Theorem c66_every_dimension_refuted : ~ (forall c D t v i x, dimension_laws D -> v < 2 ^ BITS c t -> dim D * (i + 1) <= BITS c t ->
  exists v', fixed_set_cell c D t v i x = Ret v' /\ fixed_get_cell c D t v' i = Ret x).
Proof. exact c66_every_dimension_refuted_lemma. Qed.
Print Assumptions c66_every_dimension_refuted.
