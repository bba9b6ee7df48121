(* PropOrder.v - Ordering, equality and hashing (C18-C22, C44) *)
From Verif Require Import Base ModelNumber ModelDim ModelStorage Model2D Model3D Spec History ExampleTools FactsOrder.

(* ---------- C18 ---------- *)
(* all valid values (bits behind the path included), except fixed-depth 3D ones *)
Theorem c18_cmp_is_preorder : forall c D L k (a b : storage k) la lb,
  is_dim D L -> (forall t, k = KFixed t -> dim D = 2) ->
  valid c D k a -> valid c D k b -> shows (ops c D k) a la -> shows (ops c D k) b lb ->
  idx_cmp c D k a b = Ret (path_cmp la lb).
Proof. exact c18_cmp_is_preorder_lemma. Qed.
Print Assumptions c18_cmp_is_preorder.
Example c18_cmp_is_preorder_example :
  let a := MkStatic 0xB7 2 in let b := MkStatic 0xB7 3 in
  valid debug64 Dim2D (KStatic U8) a /\ valid debug64 Dim2D (KStatic U8) b
  /\ shows (static_ops debug64 Dim2D U8) a [Q2; Q3] /\ shows (static_ops debug64 Dim2D U8) b [Q2; Q3; Q1]
  /\ static_cmp debug64 Dim2D U8 a b = Ret Lt.
Proof. concrete. Qed.

(* all valid values of all kinds when the paths differ *)
Theorem c18_cmp_of_different_paths : forall c D L k (a b : storage k) la lb,
  is_dim D L -> valid c D k a -> valid c D k b -> shows (ops c D k) a la -> shows (ops c D k) b lb ->
  la <> lb -> idx_cmp c D k a b = Ret (path_cmp la lb).
Proof. exact c18_cmp_of_different_paths_lemma. Qed.
Print Assumptions c18_cmp_of_different_paths.
Example c18_cmp_of_different_paths_example :
  valid debug64 Dim3D (KFixed U8) (MkFixed 0xB1) /\ valid debug64 Dim3D (KFixed U8) (MkFixed 0xAF)
  /\ shows (fixed_ops debug64 Dim3D U8) (MkFixed 0xB1) [O5; O4] /\ shows (fixed_ops debug64 Dim3D U8) (MkFixed 0xAF) [O5; O3]
  /\ fixed_cmp (MkFixed 0xB1) (MkFixed 0xAF) = Gt.
Proof. concrete. Qed.

Theorem c18_cmp_of_made_indices : forall c D L k (a b : storage k) la lb,
  made c D L k true a la -> made c D L k true b lb -> idx_cmp c D k a b = Ret (path_cmp la lb).
Proof. exact c18_cmp_of_made_indices_lemma. Qed.
Print Assumptions c18_cmp_of_made_indices.
Example c18_cmp_of_made_indices_example :
  made debug64 Dim3D layout3D KDynamic true (MkDynamic [0x80; 0x29] 3) [O1; O2; O3]
  /\ made debug64 Dim3D layout3D KDynamic true (MkDynamic [0x20] 1) [O1]
  /\ dynamic_cmp debug64 Dim3D (MkDynamic [0x80; 0x29] 3) (MkDynamic [0x20] 1) = Ret Gt.
Proof.
  split; [made_by (start_dynamic_cells debug64 Dim3D layout3D [O1; O2; O3]) (@nil (call Dim3D))|].
  split; [made_by (start_dynamic_cells debug64 Dim3D layout3D [O1; O2; O3]) [CParent (D:=Dim3D); CAncestor (D:=Dim3D) 1]|]. concrete.
Qed.

(* ---------- C19 ---------- *)
Theorem c19_cmp_total : forall c D L k (a b : storage k),
  is_dim D L -> valid c D k a -> valid c D k b ->
  exists r, idx_cmp c D k a b = Ret r /\ idx_cmp c D k b a = Ret (CompOpp r).
Proof. exact c19_cmp_total_lemma. Qed.
Print Assumptions c19_cmp_total.
Example c19_cmp_total_example :
  let a := MkDynamic [0x80; 0x29] 3 in let b := MkDynamic [0x28] 2 in
  valid debug64 Dim3D KDynamic a /\ valid debug64 Dim3D KDynamic b
  /\ dynamic_cmp debug64 Dim3D a b = Ret Gt /\ dynamic_cmp debug64 Dim3D b a = Ret Lt.
Proof. concrete. Qed.

Theorem c19_cmp_transitive : forall c D L k (a b d : storage k) r,
  is_dim D L -> valid c D k a -> valid c D k b -> valid c D k d ->
  idx_cmp c D k a b = Ret r -> idx_cmp c D k b d = Ret r -> idx_cmp c D k a d = Ret r.
Proof. exact c19_cmp_transitive_lemma. Qed.
Print Assumptions c19_cmp_transitive.
Example c19_cmp_transitive_example :
  let a := MkStatic 0x80 1 in let b := MkStatic 0x90 2 in let d := MkStatic 0xC0 1 in
  valid debug64 Dim2D (KStatic U8) a /\ valid debug64 Dim2D (KStatic U8) b /\ valid debug64 Dim2D (KStatic U8) d
  /\ static_cmp debug64 Dim2D U8 a b = Ret Lt /\ static_cmp debug64 Dim2D U8 b d = Ret Lt.
Proof. concrete. Qed.

Theorem c19_equal_iff_eq : forall c D L k (a b : storage k) la lb,
  made c D L k true a la -> made c D L k true b lb ->
  (idx_cmp c D k a b = Ret Eq <-> idx_eq k a b = true).
Proof. exact c19_equal_iff_eq_lemma. Qed.
Print Assumptions c19_equal_iff_eq.
Example c19_equal_iff_eq_example :
  made debug64 Dim2D layout2D (KStatic U16) true (MkStatic 0xB000 2) [Q2; Q3]
  /\ made debug64 Dim2D layout2D (KStatic U16) true (MkStatic 0xB000 3) [Q2; Q3; Q0].
Proof.
  split; [made_by (start_static_default debug64 Dim2D layout2D U16) [CChild (D:=Dim2D) Q2; CChild (D:=Dim2D) Q3]|].
  made_by (start_static_cells debug64 Dim2D layout2D U16 [Q0; Q3; Q2]) [CInverted (D:=Dim2D)].
Qed.

Theorem c19_eq_implies_equal : forall c D L k (a b : storage k),
  is_dim D L -> valid c D k a -> idx_eq k a b = true -> idx_cmp c D k a b = Ret Eq.
Proof. exact c19_eq_implies_equal_lemma. Qed.
Print Assumptions c19_eq_implies_equal.
Example c19_eq_implies_equal_example :
  valid debug64 Dim2D KDynamic (MkDynamic [0x80; 0x1B] 5) /\ idx_eq KDynamic (MkDynamic [0x80; 0x1B] 5) (MkDynamic [0x80; 0x1B] 5) = true.
Proof. concrete. Qed.

(* ---------- C20 ---------- *)
(* every index sorted between two nodes below p is itself below p *)
Theorem c20_subtree_is_contiguous : forall c D L k (a x b : storage k) la lx lb p,
  is_dim D L -> valid c D k a -> valid c D k x -> valid c D k b ->
  shows (ops c D k) a la -> shows (ops c D k) x lx -> shows (ops c D k) b lb ->
  idx_cmp c D k a x <> Ret Gt -> idx_cmp c D k x b <> Ret Gt ->
  is_prefix p la -> is_prefix p lb -> is_prefix p lx.
Proof. exact c20_subtree_is_contiguous_lemma. Qed.
Print Assumptions c20_subtree_is_contiguous.
Example c20_subtree_is_contiguous_example :
  let a := MkStatic 0x80 1 in let x := MkStatic 0x90 2 in let b := MkStatic 0xB0 2 in
  valid debug64 Dim2D (KStatic U8) a /\ valid debug64 Dim2D (KStatic U8) x /\ valid debug64 Dim2D (KStatic U8) b
  /\ shows (static_ops debug64 Dim2D U8) a [Q2] /\ shows (static_ops debug64 Dim2D U8) x [Q2; Q1] /\ shows (static_ops debug64 Dim2D U8) b [Q2; Q3]
  /\ static_cmp debug64 Dim2D U8 a x <> Ret Gt /\ static_cmp debug64 Dim2D U8 x b <> Ret Gt
  /\ is_prefix [Q2] [Q2] /\ is_prefix [Q2] [Q2; Q3].
Proof. do 8 (split; [concrete|]). split; eexists; reflexivity. Qed.

(* ---------- C21 ---------- *)
Theorem c21_eq_is_equality_of_paths : forall c D L k (a b : storage k) la lb,
  made c D L k true a la -> made c D L k true b lb -> (idx_eq k a b = true <-> la = lb).
Proof. exact c21_eq_is_equality_of_paths_lemma. Qed.
Print Assumptions c21_eq_is_equality_of_paths.
Example c21_eq_is_equality_of_paths_example :
  made debug64 Dim3D layout3D (KFixed U8) true (MkFixed 0x28) [O1; O2]
  /\ made debug64 Dim3D layout3D (KFixed U8) true (MkFixed 0x2C) [O1; O3].
Proof.
  split; [made_by (start_fixed_cells debug64 Dim3D layout3D U8 [O1; O2]) (@nil (call Dim3D))|].
  made_by (start_dynamic_cells debug64 Dim3D layout3D [O3; O1]) [CInverted (D:=Dim3D); CToFixed (D:=Dim3D) U8].
Qed.

Theorem c21_equal_values_have_equal_paths : forall c D L k (a b : storage k) la lb,
  is_dim D L -> idx_eq k a b = true -> shows (ops c D k) a la -> shows (ops c D k) b lb -> la = lb.
Proof. exact c21_equal_values_have_equal_paths_lemma. Qed.
Print Assumptions c21_equal_values_have_equal_paths.
Example c21_equal_values_have_equal_paths_example :
  idx_eq (KStatic U8) (MkStatic 0xB7 2) (MkStatic 0xB7 2) = true /\ shows (static_ops debug64 Dim2D U8) (MkStatic 0xB7 2) [Q2; Q3].
Proof. concrete. Qed.

(* ---------- C22 ---------- *)
(* The full statement, equality for every depth, is false (next theorem); this one says exactly when it holds *)
Theorem c22_zeroed_2d_equals_zero_path_partial : forall c d s, 2 * d + 24 <= 2 ^ usize_bits c ->
  dynamic_try_from c Dim2D layout2D (repeat (cell_zero Dim2D) (N.to_nat d)) = Ret (Ok s) ->
  (idx_eq KDynamic (dynamic_zeroed_2d d) s = true <-> d mod 4 <> 0).
Proof. exact c22_zeroed_2d_equals_zero_path_partial_lemma. Qed.
Print Assumptions c22_zeroed_2d_equals_zero_path_partial.
Example c22_zeroed_2d_equals_zero_path_example :
  dynamic_try_from debug64 Dim2D layout2D [Q0; Q0; Q0; Q0; Q0] = Ret (Ok (MkDynamic [0; 0] 5))
  /\ idx_eq KDynamic (dynamic_zeroed_2d 5) (MkDynamic [0; 0] 5) = true
  /\ dynamic_try_from debug64 Dim2D layout2D [Q0; Q0; Q0; Q0] = Ret (Ok (MkDynamic [0] 4))
  /\ idx_eq KDynamic (dynamic_zeroed_2d 4) (MkDynamic [0] 4) = false.
Proof. concrete. Qed.

(* DynamicMortonIndex2D::zeroed(0) != default() *)
Theorem c22_zeroed_2d_equals_zero_path_refuted :
  ~ (forall c d s, 2 * d + 24 <= 2 ^ usize_bits c ->
     dynamic_try_from c Dim2D layout2D (repeat (cell_zero Dim2D) (N.to_nat d)) = Ret (Ok s) ->
     idx_eq KDynamic (dynamic_zeroed_2d d) s = true).
Proof. exact c22_zeroed_2d_equals_zero_path_refuted_lemma. Qed.
Print Assumptions c22_zeroed_2d_equals_zero_path_refuted.

Theorem c22_zeroed_3d_equals_zero_path : forall c d s z, 3 * d + 24 <= 2 ^ usize_bits c ->
  dynamic_zeroed_3d c d = Ret z ->
  dynamic_try_from c Dim3D layout3D (repeat (cell_zero Dim3D) (N.to_nat d)) = Ret (Ok s) ->
  idx_eq KDynamic z s = true.
Proof. exact c22_zeroed_3d_equals_zero_path_lemma. Qed.
Print Assumptions c22_zeroed_3d_equals_zero_path.
Example c22_zeroed_3d_equals_zero_path_example :
  dynamic_zeroed_3d debug64 3 = Ret (MkDynamic [0; 0] 3)
  /\ dynamic_try_from debug64 Dim3D layout3D [O0; O0; O0] = Ret (Ok (MkDynamic [0; 0] 3)).
Proof. concrete. Qed.

(* ---------- C44 ---------- *)
(* == holds exactly for values that feed the same data to the hasher *)
Theorem c44_hash_consistent_with_eq : forall k (a b : storage k), idx_eq k a b = true <-> idx_hash k a = idx_hash k b.
Proof. exact c44_hash_consistent_with_eq_lemma. Qed.
Print Assumptions c44_hash_consistent_with_eq.
Example c44_hash_consistent_with_eq_example : idx_hash KDynamic (MkDynamic [1; 2] 5) <> idx_hash KDynamic (MkDynamic [1; 2; 0] 5).
Proof. concrete. Qed.

Theorem c44_same_path_same_hash : forall c D L k (a b : storage k) l,
  made c D L k true a l -> made c D L k true b l -> idx_hash k a = idx_hash k b.
Proof. exact c44_same_path_same_hash_lemma. Qed.
Print Assumptions c44_same_path_same_hash.
Example c44_same_path_same_hash_example :
  made debug64 Dim3D layout3D KDynamic true (MkDynamic [0x20] 1) [O1].
Proof. made_by (start_dynamic_cells debug64 Dim3D layout3D [O1; O2; O3]) [CParent (D:=Dim3D); CAncestor (D:=Dim3D) 1]. Qed.
