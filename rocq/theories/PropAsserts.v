(* PropAsserts.v - what the assertions of the repository's tests demand (C76) *)
From Verif Require Import Base ModelNumber ModelDim Model2D Model3D ModelStorage Spec History ModelSuite ExampleTools FactsAsserts.

(* ---------- C76 ---------- *)
(* the assertions about one index pass for its depth, its cells and the levels it does not have, and for nothing else *)
Theorem c76_assertions : forall c D L k e (s : storage k) l, made c D L k e s l ->
  (forall n, depth_is c D k s n = Ret tt <-> len l = n)
  /\ (forall i x, level_is c D k s i x = Ret tt <-> nth_error l (N.to_nat i) = Some x)
  /\ (forall l', levels_are c D k s l' = Ret tt <-> is_prefix l' l)
  /\ (forall l', collects c D k s l' = Ret tt <-> l = l')
  /\ (forall n, set_cell_oob c D k s n = Ret tt <-> len l <= n).
Proof. exact c76_assertions_lemma. Qed.
Print Assumptions c76_assertions.
Example c76_assertions_example :
  made debug64 Dim2D layout2D (KStatic U16) true (MkStatic 0xB000 2) [Q2; Q3]
  /\ level_is debug64 Dim2D (KStatic U16) (MkStatic 0xB000 2) 1 Q3 = Ret tt /\ level_is debug64 Dim2D (KStatic U16) (MkStatic 0xB000 2) 1 Q2 = Panic
  /\ set_cell_oob debug64 Dim2D (KStatic U16) (MkStatic 0xB000 2) 2 = Ret tt /\ set_cell_oob debug64 Dim2D (KStatic U16) (MkStatic 0xB000 2) 1 = Panic.
Proof. split; [made_by (start_static_cells debug64 Dim2D layout2D U16 [Q2; Q3]) (@nil (call Dim2D))|]. concrete. Qed.

(* those about the root pass for the root only *)
Theorem c76_root_assertions : forall c D L k v (s : storage k) l, made c D L k true s l -> var_ops c D L k = Some v ->
  (parent_of_root D k v s = Ret tt <-> l = [])
  /\ (forall n r,
     match k with KFixed t | KStatic t => n <= BITS c t / dim D | KDynamic => writable c KDynamic /\ dim D * n + 24 <= 2 ^ usize_bits c end ->
     ancestor_to_root c D L k v n s r = Ret tt <-> l = []).
Proof. exact c76_root_assertions_lemma. Qed.
Print Assumptions c76_root_assertions.
Example c76_root_assertions_example :
  made debug64 Dim2D layout2D (KStatic U16) true (MkStatic 0xB000 2) [Q2; Q3]
  /\ parent_of_root Dim2D (KStatic U16) (static_vops debug64 Dim2D U16) (MkStatic 0xB000 2) = Panic
  /\ parent_of_root Dim2D (KStatic U16) (static_vops debug64 Dim2D U16) static_default = Ret tt.
Proof. split; [made_by (start_static_cells debug64 Dim2D layout2D U16 [Q2; Q3]) (@nil (call Dim2D))|]. concrete. Qed.

(* those about the maximum number of levels pass for that number only *)
Theorem c76_limit_assertions : forall c D L t m r, is_dim D L ->
  (from_too_many c D L (KFixed t) m r = Ret tt <-> BITS c t / dim D <= m)
  /\ (from_too_many c D L (KStatic t) m r = Ret tt <-> BITS c t / dim D <= m)
  /\ (child_oob c D L (KStatic t) (static_vops c D t) m r = Ret tt <-> m = BITS c t / dim D)
  /\ (descendant_too_far c D L (KStatic t) (static_vops c D t) m r = Ret tt <-> m = BITS c t / dim D).
Proof. exact c76_limit_assertions_lemma. Qed.
Print Assumptions c76_limit_assertions.
Example c76_limit_assertions_example :
  is_dim Dim2D layout2D /\ BITS debug64 U16 / dim Dim2D = 8
  /\ from_too_many debug64 Dim2D layout2D (KFixed U16) 8 (Rng (fun n => n) 0) = Ret tt
  /\ from_too_many debug64 Dim2D layout2D (KFixed U16) 7 (Rng (fun n => n) 0) = Panic.
Proof. concrete. Qed.

(* the check of two neighbours in a sorted list overlooks that a node must come before its descendants *)
Theorem c76_order_assertion : forall c D L k e e' (a b : storage k) la lb, made c D L k e a la -> made c D L k e' b lb ->
  (all_in_order c D k [a; b] 2 = Ret tt <-> path_cmp la lb <> Gt \/ is_prefix lb la).
Proof. exact c76_order_assertion_lemma. Qed.
Print Assumptions c76_order_assertion.
Example c76_order_assertion_example :
  made debug64 Dim2D layout2D (KStatic U16) true (MkStatic 0xB000 2) [Q2; Q3] /\ made debug64 Dim2D layout2D (KStatic U16) true (MkStatic 0x8000 1) [Q2]
  /\ all_in_order debug64 Dim2D (KStatic U16) [MkStatic 0xB000 2; MkStatic 0x8000 1] 2 = Ret tt
  /\ idx_cmp debug64 Dim2D (KStatic U16) (MkStatic 0xB000 2) (MkStatic 0x8000 1) = Ret Gt.
Proof.
  split; [made_by (start_static_cells debug64 Dim2D layout2D U16 [Q2; Q3]) (@nil (call Dim2D))|].
  split; [made_by (start_static_cells debug64 Dim2D layout2D U16 [Q2]) (@nil (call Dim2D))|]. concrete.
Qed.

(* those comparing with the result of a navigation pass for the same node only, and not for None *)
Theorem c76_some_assertion : forall c D L k (a b : storage k) la lb, made c D L k true a la -> made c D L k true b lb ->
  (is_some k (Ret (Some b)) a = Ret tt <-> la = lb) /\ is_some k (Ret None) a = Panic /\ is_some k Panic a = Panic.
Proof. exact c76_some_assertion_lemma. Qed.
Print Assumptions c76_some_assertion.
Example c76_some_assertion_example :
  made debug64 Dim2D layout2D (KStatic U16) true (MkStatic 0xB000 2) [Q2; Q3] /\ made debug64 Dim2D layout2D (KStatic U16) true (MkStatic 0x8000 1) [Q2]
  /\ is_some (KStatic U16) (Ret (Some (MkStatic 0xB000 2))) (MkStatic 0xB000 2) = Ret tt
  /\ is_some (KStatic U16) (Ret (Some (MkStatic 0x8000 1))) (MkStatic 0xB000 2) = Panic.
Proof.
  split; [made_by (start_static_cells debug64 Dim2D layout2D U16 [Q2; Q3]) (@nil (call Dim2D))|].
  split; [made_by (start_static_cells debug64 Dim2D layout2D U16 [Q2]) (@nil (call Dim2D))|]. concrete.
Qed.

(* the round trip tests pass exactly if the constructor under test gives back the index from its coordinates for every ordering *)
Theorem c76_grid_assertion_2d : forall c k n (from : N -> N -> quadrant_ordering -> outcome (storage k)) r,
  match k with KFixed t => n = BITS c t / 2 | KStatic t => n <= BITS c t / 2 | KDynamic => writable c KDynamic /\ 2 * n + 24 <= 2 ^ usize_bits c end ->
  n <= usize_bits c ->
  exists (s : storage k) l, made c Dim2D layout2D k true s l /\ len l = n
    /\ (roundtrip_2d c k n from r = Ret tt <-> forall o, from (coord (quad_x o) l) (coord (quad_y o) l) o = Ret s).
Proof. exact c76_grid_assertion_2d_lemma. Qed.
Print Assumptions c76_grid_assertion_2d.
Example c76_grid_assertion_2d_example :
  roundtrip_2d debug64 (KStatic U16) 3 (fun x y o => let! r := static_from_grid_index_2d debug64 U16 x y 3 o in unwrap r) (Rng (fun n => n + 1) 0) = Ret tt
  /\ roundtrip_2d debug64 (KStatic U16) 3 (fun x y o => let! r := static_from_grid_index_2d debug64 U16 x y 3 XY in unwrap r) (Rng (fun n => n + 1) 0) = Panic.
Proof. concrete. Qed.

(* the same in 3D *)
Theorem c76_grid_assertion_3d : forall c k n (from : N -> N -> N -> octant_ordering -> outcome (storage k)) r,
  match k with KFixed t => n = BITS c t / 3 | KStatic t => n <= BITS c t / 3 | KDynamic => writable c KDynamic /\ 3 * n + 24 <= 2 ^ usize_bits c end ->
  n <= usize_bits c ->
  exists (s : storage k) l, made c Dim3D layout3D k true s l /\ len l = n
    /\ (roundtrip_3d c k n from r = Ret tt <-> forall o, from (coord (oct_x o) l) (coord (oct_y o) l) (coord (oct_z o) l) o = Ret s).
Proof. exact c76_grid_assertion_3d_lemma. Qed.
Print Assumptions c76_grid_assertion_3d.
Example c76_grid_assertion_3d_example :
  roundtrip_3d debug64 KDynamic 2 (fun x y z o => dynamic_from_grid_index_3d debug64 x y z 2 o) (Rng (fun n => n + 1) 0) = Ret tt
  /\ roundtrip_3d debug64 KDynamic 2 (fun x y z o => dynamic_from_grid_index_3d debug64 x y z 2 XYZ) (Rng (fun n => n + 1) 0) = Panic.
Proof. concrete. Qed.
