(* PropHistory.v - Histories of calls, build profiles and memory safety (C38, C39, C48) *)
From Verif Require Import Base ModelNumber ModelAlign ModelDim ModelStorage Model2D Model3D ModelHelper Spec History ExampleTools FactsHistory.

(* ---------- C38 ---------- *)
(* The answers and the final index of any history of calls are those of a plain list; NoClaim is explained in History.v. *)
Theorem c38_histories_behave_like_lists : forall c D L k e s l (h : list (call D)),
  starts c D L k e s l ->
  match run_spec c (View k e l) h with
  | Done (v, answers) => exists s', run_model c L (pack k s) h = Ret (pack (v_kind v) s', answers)
      /\ valid c D (v_kind v) s' /\ shows (ops c D (v_kind v)) s' (v_path v)
  | MustPanic => run_model c L (pack k s) h = Panic
  | NoClaim => True
  end.
Proof. exact c38_histories_behave_like_lists_lemma. Qed.
Print Assumptions c38_histories_behave_like_lists.
Example c38_histories_behave_like_lists_example :
  exists s, starts debug64 Dim3D layout3D (KStatic U16) true s [O1; O2; O3]
  /\ run_spec debug64 (View (D:=Dim3D) (KStatic U16) true [O1; O2; O3])
       [CChild (D:=Dim3D) O7; CToDynamic (D:=Dim3D); CSet (D:=Dim3D) 0 O5; CInverted (D:=Dim3D); CAncestor (D:=Dim3D) 1;
        CAncestor (D:=Dim3D) 9; CCells (D:=Dim3D)]
     = Done (View (D:=Dim3D) KDynamic true [O7; O3; O2],
             [ADone (D:=Dim3D); ADone (D:=Dim3D); ADone (D:=Dim3D); ADone (D:=Dim3D); ADone (D:=Dim3D); ARejected (D:=Dim3D);
              ACells (D:=Dim3D) [O7; O3; O2]])
  /\ run_spec debug64 (View (D:=Dim3D) (KStatic U16) true [O1; O2; O3]) [CParent (D:=Dim3D); CGet (D:=Dim3D) 2] = MustPanic.
Proof.
  eexists. split; [eapply (start_static_cells debug64 Dim3D layout3D U16 [O1; O2; O3]); concrete|]. concrete.
Qed.

Theorem c38_observations : forall c D L k e (s : storage k) l, made c D L k e s l ->
  valid c D k s
  /\ st_depth (ops c D k) s = len l
  /\ (forall i, get_cell_at_level (ops c D k) s i = match nth_error l (N.to_nat i) with Some x => Ret x | None => Panic end)
  /\ collect_cells c (ops c D k) s = Ret l.
Proof. exact c38_observations_lemma. Qed.
Print Assumptions c38_observations.
Example c38_observations_example :
  made debug64 Dim3D layout3D KDynamic true (MkDynamic [0xEC] 2) [O7; O3].
Proof.
  made_by (start_static_cells debug64 Dim3D layout3D U16 [O1; O2; O3])
    [CToDynamic (D:=Dim3D); CSet (D:=Dim3D) 0 O7; CChild (D:=Dim3D) O0; CSet (D:=Dim3D) 1 O3; CAncestor (D:=Dim3D) 2].
Qed.

Theorem c38_observations_2d : forall c k e (s : storage k) l, made c Dim2D layout2D k e s l ->
  to_string_2d c (ops c Dim2D k) s CellConcatenation = Ret (cell_name (D := Dim2D) l)
  /\ (len l <= usize_bits c ->
      (forall o, to_grid_index_2d c (ops c Dim2D k) s o = Ret (grid2 o l))
      /\ to_string_2d c (ops c Dim2D k) s GridIndex = Ret (grid_name2 l)).
Proof. exact c38_observations_2d_lemma. Qed.
Print Assumptions c38_observations_2d.
Example c38_observations_2d_example :
  made debug64 Dim2D layout2D (KStatic U32) true (MkStatic 0x6C000000 3) [Q1; Q2; Q3]
  /\ to_string_2d debug64 (static_ops debug64 Dim2D U32) (MkStatic 0x6C000000 3) GridIndex = Ret "3-5-3"%string.
Proof.
  split; [made_by (start_static_cells debug64 Dim2D layout2D U32 [Q3; Q2; Q1; Q0]) [CParent (D:=Dim2D); CInverted (D:=Dim2D)]|]. concrete.
Qed.

Theorem c38_observations_3d : forall c k e (s : storage k) l, made c Dim3D layout3D k e s l ->
  to_string_3d c (ops c Dim3D k) s CellConcatenation = Ret (cell_name (D := Dim3D) l)
  /\ (len l <= usize_bits c ->
      (forall o, to_grid_index_3d c (ops c Dim3D k) s o = Ret (grid3 o l))
      /\ to_string_3d c (ops c Dim3D k) s GridIndex = Ret (grid_name3 l)).
Proof. exact c38_observations_3d_lemma. Qed.
Print Assumptions c38_observations_3d.
Example c38_observations_3d_example :
  made debug64 Dim3D layout3D KDynamic true (MkDynamic [0x80; 0x39] 3) [O1; O6; O3]
  /\ to_string_3d debug64 (dynamic_ops debug64 Dim3D) (MkDynamic [0x80; 0x39] 3) GridIndex = Ret "3-5-3-2"%string.
Proof.
  split; [made_by (start_dynamic_default debug64 Dim3D layout3D) [CChild (D:=Dim3D) O1; CDescendant (D:=Dim3D) [O6; O3]]|]. concrete.
Qed.

Theorem c38_relations : forall c D L k (a b : storage k) la lb,
  made c D L k true a la -> made c D L k true b lb ->
  idx_cmp c D k a b = Ret (path_cmp la lb)
  /\ (idx_eq k a b = true <-> la = lb)
  /\ (la = lb -> a = b /\ idx_hash k a = idx_hash k b).
Proof. exact c38_relations_lemma. Qed.
Print Assumptions c38_relations.
Example c38_relations_example :
  made debug64 Dim2D layout2D KDynamic true (MkDynamic [0x6C] 3) [Q1; Q2; Q3]
  /\ made debug64 Dim2D layout2D KDynamic true (MkDynamic [0x60] 2) [Q1; Q2]
  /\ dynamic_cmp debug64 Dim2D (MkDynamic [0x6C] 3) (MkDynamic [0x60] 2) = Ret Gt.
Proof.
  split; [made_by (start_static_cells debug64 Dim2D layout2D U8 [Q1; Q2; Q3]) [CToDynamic (D:=Dim2D)]|].
  split; [made_by (start_dynamic_cells debug64 Dim2D layout2D [Q1; Q2; Q3]) [CParent (D:=Dim2D)]|]. concrete.
Qed.

(* The class of indices the theorems about `made` talk about contains every path that fits. *)
Theorem c38_every_path_can_be_made : forall c D L k (l : list (cell D)), is_dim D L ->
  match k with
  | KFixed t => len l = BITS c t / dim D
  | KStatic t => len l <= BITS c t / dim D
  | KDynamic => writable c KDynamic /\ dim D * len l + 24 <= 2 ^ usize_bits c
  end ->
  exists s, made c D L k true s l.
Proof. exact c38_every_path_can_be_made_lemma. Qed.
Print Assumptions c38_every_path_can_be_made.
Example c38_every_path_can_be_made_example :
  len [O1; O2; O3; O4; O5] = BITS debug64 U16 / dim Dim3D /\ fixed_try_from debug64 Dim3D U16 [O1; O2; O3; O4; O5] = Ret (Ok (MkFixed 0x29CA)).
Proof. concrete. Qed.

(* ---------- C39 ---------- *)
(* Within the claims of run_spec no undefined behaviour happens, panics are exactly the predicted ones and both build profiles agree. *)
Theorem c39_histories : forall c D L k e s l (h : list (call D)),
  starts c D L k e s l -> run_spec c (View k e l) h <> NoClaim ->
  run_model c L (pack k s) h <> UB /\ run_model (unchecked c) L (pack k s) h = run_model c L (pack k s) h
  /\ (run_model c L (pack k s) h = Panic <-> run_spec c (View k e l) h = MustPanic).
Proof. exact c39_histories_lemma. Qed.
Print Assumptions c39_histories.
Example c39_histories_example :
  exists s, starts debug32 Dim2D layout2D KDynamic true s [Q1; Q2; Q3]
  /\ run_spec debug32 (View (D:=Dim2D) KDynamic true [Q1; Q2; Q3]) [CChild (D:=Dim2D) Q1; CChild (D:=Dim2D) Q2; CSet (D:=Dim2D) 5 Q0] = MustPanic
  /\ run_model debug32 layout2D (pack KDynamic s) [CChild (D:=Dim2D) Q1; CChild (D:=Dim2D) Q2; CSet (D:=Dim2D) 5 Q0] = Panic
  /\ run_model (unchecked debug32) layout2D (pack KDynamic s) [CChild (D:=Dim2D) Q1; CChild (D:=Dim2D) Q2; CSet (D:=Dim2D) 5 Q0] = Panic.
Proof.
  eexists. split; [eapply (start_dynamic_cells debug32 Dim2D layout2D [Q1; Q2; Q3]); concrete|]. concrete.
Qed.

Theorem c39_observations : forall c D L k (a b : storage k) l, is_dim D L ->
  valid c D k a -> valid c D k b -> shows (ops c D k) a l ->
  (exists r, idx_cmp c D k a b = Ret r /\ idx_cmp (unchecked c) D k a b = Ret r)
  /\ collect_cells c (ops c D k) a = Ret l /\ collect_cells (unchecked c) (ops (unchecked c) D k) a = Ret l
  /\ shows (ops (unchecked c) D k) a l.
Proof. exact c39_observations_lemma. Qed.
Print Assumptions c39_observations.
Example c39_observations_example :
  let a := MkDynamic [0x80; 0x29] 3 in let b := MkDynamic [0x28] 2 in
  valid debug64 Dim3D KDynamic a /\ valid debug64 Dim3D KDynamic b /\ shows (dynamic_ops debug64 Dim3D) a [O1; O2; O3]
  /\ dynamic_cmp release64 Dim3D a b = Ret Gt.
Proof. concrete. Qed.

Theorem c39_names_2d : forall c k (s : storage k) l, valid c Dim2D k s -> shows (ops c Dim2D k) s l ->
  len l <= usize_bits c ->
  (forall o, exists r, to_grid_index_2d c (ops c Dim2D k) s o = Ret r
     /\ to_grid_index_2d (unchecked c) (ops (unchecked c) Dim2D k) s o = Ret r)
  /\ forall n, exists r, to_string_2d c (ops c Dim2D k) s n = Ret r
     /\ to_string_2d (unchecked c) (ops (unchecked c) Dim2D k) s n = Ret r.
Proof. exact c39_names_2d_lemma. Qed.
Print Assumptions c39_names_2d.
Example c39_names_2d_example :
  valid debug64 Dim2D (KStatic U16) (MkStatic 0x6C00 3) /\ shows (static_ops debug64 Dim2D U16) (MkStatic 0x6C00 3) [Q1; Q2; Q3]
  /\ to_string_2d release64 (static_ops release64 Dim2D U16) (MkStatic 0x6C00 3) GridIndex = Ret "3-5-3"%string.
Proof. concrete. Qed.

Theorem c39_names_3d : forall c k (s : storage k) l, valid c Dim3D k s -> shows (ops c Dim3D k) s l ->
  len l <= usize_bits c ->
  (forall o, exists r, to_grid_index_3d c (ops c Dim3D k) s o = Ret r
     /\ to_grid_index_3d (unchecked c) (ops (unchecked c) Dim3D k) s o = Ret r)
  /\ forall n, exists r, to_string_3d c (ops c Dim3D k) s n = Ret r
     /\ to_string_3d (unchecked c) (ops (unchecked c) Dim3D k) s n = Ret r.
Proof. exact c39_names_3d_lemma. Qed.
Print Assumptions c39_names_3d.
Example c39_names_3d_example :
  valid debug64 Dim3D KDynamic (MkDynamic [0x80; 0x39] 3) /\ shows (dynamic_ops debug64 Dim3D) (MkDynamic [0x80; 0x39] 3) [O1; O6; O3]
  /\ to_grid_index_3d release64 (dynamic_ops release64 Dim3D) (MkDynamic [0x80; 0x39] 3) XYZ = Ret (5, 3, 2).
Proof. concrete. Qed.

Theorem c39_try_from : forall c D L cells, is_dim D L ->
  (forall t, exists r, fixed_try_from c D t cells = Ret r /\ fixed_try_from (unchecked c) D t cells = Ret r)
  /\ (forall t, exists r, static_try_from c D t cells = Ret r /\ static_try_from (unchecked c) D t cells = Ret r)
  /\ (dim D * len cells + 8 <= 2 ^ usize_bits c ->
      exists r, dynamic_try_from c D L cells = Ret r /\ dynamic_try_from (unchecked c) D L cells = Ret r).
Proof. exact c39_try_from_lemma. Qed.
Print Assumptions c39_try_from.
Example c39_try_from_example :
  static_try_from debug64 Dim3D U8 [O1; O2] = Ret (Ok (MkStatic 0x28 2))
  /\ static_try_from release64 Dim3D U8 [O1; O2] = Ret (Ok (MkStatic 0x28 2))
  /\ static_try_from release64 Dim3D U8 [O1; O2; O3] = Ret (Err (DepthLimitedExceeded 2)).
Proof. concrete. Qed.

(* The converse fails: without overflow checks calls return that panic with them (C08, C09). *)
Theorem c39_from_grid_index : forall c,
  (forall t x y o r, fixed_from_grid_index_2d c t x y o = Ret r -> fixed_from_grid_index_2d (unchecked c) t x y o = Ret r)
  /\ (forall t x y d o r, static_from_grid_index_2d c t x y d o = Ret r -> static_from_grid_index_2d (unchecked c) t x y d o = Ret r)
  /\ (forall x y d o r, dynamic_from_grid_index_2d c x y d o = Ret r -> dynamic_from_grid_index_2d (unchecked c) x y d o = Ret r)
  /\ (forall t x y z o r, fixed_from_grid_index_3d c t x y z o = Ret r -> fixed_from_grid_index_3d (unchecked c) t x y z o = Ret r)
  /\ (forall x y z o r, from_grid_index_fast c x y z o = Ret r -> from_grid_index_fast (unchecked c) x y z o = Ret r)
  /\ (forall t x y z d o r, static_from_grid_index_3d c t x y z d o = Ret r -> static_from_grid_index_3d (unchecked c) t x y z d o = Ret r)
  /\ (forall x y z d o r, dynamic_from_grid_index_3d c x y z d o = Ret r -> dynamic_from_grid_index_3d (unchecked c) x y z d o = Ret r).
Proof. exact c39_from_grid_index_lemma. Qed.
Print Assumptions c39_from_grid_index.
Example c39_from_grid_index_example :
  static_from_grid_index_2d debug64 U64 5 3 3 XY = Ret (Ok (MkStatic 0x6C00000000000000 3))
  /\ static_from_grid_index_2d release64 U64 5 3 3 XY = Ret (Ok (MkStatic 0x6C00000000000000 3))
  /\ static_from_grid_index_2d debug64 U128 5 3 0 XY = Panic
  /\ static_from_grid_index_2d release64 U128 5 3 0 XY = Ret (Ok (MkStatic 0 0)).
Proof. concrete. Qed.

Theorem c39_any_history : forall c D L (i : index) (h : list (call D)) r, is_dim D L ->
  run_model c L i h = Ret r -> run_model (unchecked c) L i h = Ret r.
Proof. exact c39_any_history_lemma. Qed.
Print Assumptions c39_any_history.
Example c39_any_history_example :
  run_model debug64 layout2D (pack (KStatic U8) (MkStatic 0x6C 3)) [CSet (D:=Dim2D) 1 Q0; CGet (D:=Dim2D) 2]
  = Ret (pack (KStatic U8) (MkStatic 0x4C 3), [ADone (D:=Dim2D); ACell (D:=Dim2D) Q3]).
Proof. concrete. Qed.

(* ---------- C48 ---------- *)
(* s and s' are arbitrary: depth and bytes need not fit together. *)
Theorem c48_index_methods : forall c D L k (s s' : storage k), is_dim D L ->
  (forall i, get_cell_at_level (ops c D k) s i <> UB)
  /\ (forall i x, set_cell_at_level (ops c D k) s i x <> UB)
  /\ inverted c (ops c D k) s <> UB
  /\ (forall i, cell_iter_next c (ops c D k) s i <> UB)
  /\ idx_cmp c D k s s' <> UB
  /\ forall v, var_ops c D L k = Some v ->
       (forall g, ancestor v s g <> UB) /\ parent v s <> UB /\ (forall n, with_depth c v s n <> UB)
       /\ (forall cells, descendant v s cells <> UB) /\ (forall x, child v s x <> UB).
Proof. exact c48_index_methods_lemma. Qed.
Print Assumptions c48_index_methods.
Example c48_index_methods_example :
  set_cell_at_level (dynamic_ops debug64 Dim3D) (MkDynamic [1; 2] 9) 8 O7 = Panic
  /\ set_cell_at_level (dynamic_ops debug64 Dim3D) (MkDynamic [1; 2] 9) 4 O7 = Ret (MkDynamic [15; 2] 9).
Proof. concrete. Qed.

Theorem c48_constructors : forall c D L cells, is_dim D L ->
  (forall t, fixed_try_from c D t cells <> UB) /\ (forall t, static_try_from c D t cells <> UB)
  /\ dynamic_try_from c D L cells <> UB.
Proof. exact c48_constructors_lemma. Qed.
Print Assumptions c48_constructors.
Example c48_constructors_example :
  dynamic_try_from debug64 Dim3D layout3D [O1; O2; O3] = Ret (Ok (MkDynamic [0x80; 0x29] 3)).
Proof. concrete. Qed.

Theorem c48_conversions : forall c D L t, is_dim D L ->
  (forall s, sx_depth s < 2 ^ 8 -> dynamic_from_static c D L t s <> UB) /\ (forall s, static_from_dynamic c D t s <> UB).
Proof. exact c48_conversions_lemma. Qed.
Print Assumptions c48_conversions.
Example c48_conversions_example :
  255 < 2 ^ 8 /\ dynamic_from_static debug64 Dim3D layout3D U8 (MkStatic 0x28 255) = Panic
  /\ dynamic_from_static debug64 Dim3D layout3D U8 (MkStatic 0x28 2) = Ret (MkDynamic [0x28] 2).
Proof. concrete. Qed.

Theorem c48_grid_and_names : forall c k (s : storage k),
  (forall o, to_grid_index_2d c (ops c Dim2D k) s o <> UB) /\ (forall o, to_grid_index_3d c (ops c Dim3D k) s o <> UB)
  /\ (forall n, to_string_2d c (ops c Dim2D k) s n <> UB) /\ (forall n, to_string_3d c (ops c Dim3D k) s n <> UB).
Proof. exact c48_grid_and_names_lemma. Qed.
Print Assumptions c48_grid_and_names.
Example c48_grid_and_names_example :
  to_string_2d debug64 (static_ops debug64 Dim2D U8) (MkStatic 0 200) CellConcatenation = Panic
  /\ to_string_2d debug64 (static_ops debug64 Dim2D U8) (MkStatic 0x6C 4) CellConcatenation = Ret "1230"%string.
Proof. concrete. Qed.

Theorem c48_from_grid_index : forall c,
  (forall t x y o, fixed_from_grid_index_2d c t x y o <> UB) /\ (forall t x y d o, static_from_grid_index_2d c t x y d o <> UB)
  /\ (forall x y d o, dynamic_from_grid_index_2d c x y d o <> UB) /\ (forall t x y z o, fixed_from_grid_index_3d c t x y z o <> UB)
  /\ (forall x y z o, from_grid_index_fast c x y z o <> UB) /\ (forall t x y z d o, static_from_grid_index_3d c t x y z d o <> UB)
  /\ (forall x y z d o, dynamic_from_grid_index_3d c x y z d o <> UB) /\ (forall d, dynamic_zeroed_3d c d <> UB).
Proof. exact c48_from_grid_index_lemma. Qed.
Print Assumptions c48_from_grid_index.
Example c48_from_grid_index_example :
  dynamic_from_grid_index_3d debug64 5 3 2 3 XYZ = Ret (MkDynamic [0x80; 0x39] 3) /\ dynamic_from_grid_index_2d debug64 5 3 100 XY = Panic.
Proof. concrete. Qed.

Theorem c48_vec_set_bits : forall c vec s e new_value,
  e < 2 ^ usize_bits c -> new_value <> [] -> e - s <= 8 * len new_value -> vec_set_bits c vec s e new_value <> UB.
Proof. exact c48_vec_set_bits_lemma. Qed.
Print Assumptions c48_vec_set_bits.
Example c48_vec_set_bits_example :
  13 < 2 ^ usize_bits debug64 /\ [0xFF; 1] <> @nil N /\ 13 - 4 <= 8 * len [0xFF; 1]
  /\ vec_set_bits debug64 [0; 0; 0] 4 13 [0xFF; 1] = Ret [0xF0; 0x1F; 0].
Proof. concrete. Qed.

Theorem c48_vec_set_bits_from_usize : forall c vec s e x,
  e < 2 ^ usize_bits c -> e - s <= usize_bits c -> vec_set_bits_from_usize c vec s e x <> UB.
Proof. exact c48_vec_set_bits_from_usize_lemma. Qed.
Print Assumptions c48_vec_set_bits_from_usize.
Example c48_vec_set_bits_from_usize_example :
  13 < 2 ^ usize_bits debug64 /\ 13 - 4 <= usize_bits debug64 /\ vec_set_bits_from_usize debug64 [0; 0; 0] 4 13 0x1FF = Ret [0xF0; 0x1F; 0].
Proof. concrete. Qed.

(* When set_bits reads past the end of the new value, and when it panics. *)
Theorem c48_vec_set_bits_short_value : forall c vec s e value,
  Forall (fun b => b < 256) value -> Forall (fun b => b < 256) vec ->
  s <= e -> e <= 8 * len vec -> 8 * len vec + 8 <= 2 ^ usize_bits c ->
  (vec_set_bits c vec s e value = UB
     <-> s / 8 < (e + 7) / 8 /\ len value <= last_source_byte s e /\ (value <> [] \/ overflow_checks c = false))
  /\ (vec_set_bits c vec s e value = Panic <-> s / 8 < (e + 7) / 8 /\ value = [] /\ overflow_checks c = true).
Proof. exact c48_vec_set_bits_short_value_lemma. Qed.
Print Assumptions c48_vec_set_bits_short_value.
Example c48_vec_set_bits_short_value_example :
  vec_set_bits debug64 [0; 0; 0; 0] 0 24 [255] = UB /\ vec_set_bits release64 [0; 0; 0; 0] 4 21 [255] = UB
  /\ last_source_byte 4 21 = 1 /\ vec_set_bits release64 [0; 0; 0; 0] 0 8 [] = UB /\ vec_set_bits debug64 [0; 0; 0; 0] 0 8 [] = Panic.
Proof. concrete. Qed.
