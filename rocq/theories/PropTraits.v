(* PropTraits.v - Depth limits, comparison operators and sorting (C49, C50, C52) *)
From Coq Require Import Permutation.
From Verif Require Import Base ModelNumber ModelDim ModelStorage ModelTraits Model2D Model3D Spec SpecTraits History ExampleTools FactsTraits.

(* ---------- C49 ---------- *)
Theorem c49_fixed_max_depth : forall c D L t, is_dim D L ->
  exists m, idx_max_depth c D (KFixed t) = Some m
    /\ (forall s, st_depth (fixed_ops c D t) s = m)
    /\ (forall cells, (exists s, fixed_try_from c D t cells = Ret (Ok s)) <-> len cells <= m).
Proof. exact c49_fixed_max_depth_lemma. Qed.
Print Assumptions c49_fixed_max_depth.
Example c49_fixed_max_depth_example :
  idx_max_depth debug64 Dim3D (KFixed U8) = Some 2
  /\ fixed_try_from debug64 Dim3D U8 [O7; O5] = Ret (Ok (MkFixed 0xF4))
  /\ fixed_try_from debug64 Dim3D U8 [O7; O5; O0] = Ret (Err (DepthLimitedExceeded 2)).
Proof. concrete. Qed.

Theorem c49_static_max_depth : forall c D L t, is_dim D L ->
  exists m, idx_max_depth c D (KStatic t) = Some m
    /\ (forall s, valid c D (KStatic t) s -> st_depth (static_ops c D t) s <= m)
    /\ (forall n, n <= m -> exists s, valid c D (KStatic t) s /\ st_depth (static_ops c D t) s = n)
    /\ (forall cells, (exists s, static_try_from c D t cells = Ret (Ok s)) <-> len cells <= m)
    /\ (forall s cells, valid c D (KStatic t) s -> len cells < 2 ^ (usize_bits c - 1) ->
          ((exists s', descendant (static_vops c D t) s cells = Ret (Some s')) <-> st_depth (static_ops c D t) s + len cells <= m)).
Proof. exact c49_static_max_depth_lemma. Qed.
Print Assumptions c49_static_max_depth.
Example c49_static_max_depth_example :
  idx_max_depth debug64 Dim2D (KStatic U8) = Some 4
  /\ valid debug64 Dim2D (KStatic U8) (MkStatic 0xB7 3)
  /\ descendant (static_vops debug64 Dim2D U8) (MkStatic 0xB4 3) [Q3] = Ret (Some (MkStatic 0xB7 4))
  /\ descendant (static_vops debug64 Dim2D U8) (MkStatic 0xB4 3) [Q3; Q0] = Ret None.
Proof. concrete. Qed.

Theorem c49_dynamic_max_depth : forall c D L, is_dim D L ->
  idx_max_depth c D KDynamic = None
  /\ forall cells, dim D * len cells + 8 <= 2 ^ usize_bits c ->
       exists s, dynamic_try_from c D L cells = Ret (Ok s) /\ valid c D KDynamic s /\ st_depth (dynamic_ops c D) s = len cells.
Proof. exact c49_dynamic_max_depth_lemma. Qed.
Print Assumptions c49_dynamic_max_depth.
Example c49_dynamic_max_depth_example :
  idx_max_depth big64 Dim2D KDynamic = None
  /\ dynamic_try_from big64 Dim2D layout2D [Q1; Q2; Q3; Q0; Q2] = Ret (Ok (MkDynamic [0; 0] 5)).
Proof. concrete. Qed.

(* ---------- C50 ---------- *)
Theorem c50_partial_cmp_is_cmp : forall c D L k (a b : storage k), is_dim D L -> valid c D k a -> valid c D k b ->
  exists r, idx_cmp c D k a b = Ret r /\ idx_partial_cmp c D k a b = Ret (Some r).
Proof. exact c50_partial_cmp_is_cmp_lemma. Qed.
Print Assumptions c50_partial_cmp_is_cmp.
Example c50_partial_cmp_is_cmp_example :
  let a := MkFixed 0xB1 in let b := MkFixed 0xB0 in
  valid debug64 Dim3D (KFixed U8) a /\ valid debug64 Dim3D (KFixed U8) b
  /\ idx_partial_cmp debug64 Dim3D (KFixed U8) a b = Ret (Some Gt).
Proof. concrete. Qed.

Theorem c50_operators : forall c D L k (a b : storage k) la lb,
  made c D L k true a la -> made c D L k true b lb ->
  (exists r, index_lt c D k a b = Ret r /\ (r = true <-> earlier la lb))
  /\ (exists r, index_gt c D k a b = Ret r /\ (r = true <-> earlier lb la))
  /\ (exists r, index_le c D k a b = Ret r /\ (r = true <-> earlier la lb \/ la = lb))
  /\ (exists r, index_ge c D k a b = Ret r /\ (r = true <-> earlier lb la \/ la = lb)).
Proof. exact c50_operators_lemma. Qed.
Print Assumptions c50_operators.
Example c50_operators_example :
  made debug64 Dim3D layout3D KDynamic true (MkDynamic [0x80; 0x29] 3) [O1; O2; O3]
  /\ made debug64 Dim3D layout3D KDynamic true (MkDynamic [0x20] 1) [O1]
  /\ index_lt debug64 Dim3D KDynamic (MkDynamic [0x80; 0x29] 3) (MkDynamic [0x20] 1) = Ret false
  /\ index_ge debug64 Dim3D KDynamic (MkDynamic [0x80; 0x29] 3) (MkDynamic [0x20] 1) = Ret true
  /\ earlier (D := Dim3D) [O1] [O1; O2; O3] /\ earlier (D := Dim3D) [O1; O2; O3] [O1; O4].
Proof.
  split; [made_by (start_dynamic_cells debug64 Dim3D layout3D [O1; O2; O3]) (@nil (call Dim3D))|].
  split; [made_by (start_dynamic_cells debug64 Dim3D layout3D [O1; O2; O3]) [CParent (D:=Dim3D); CAncestor (D:=Dim3D) 1]|].
  split; [concrete|]. split; [concrete|]. split.
  - left. exists O2, [O3]. reflexivity.
  - right. exists [O1], O2, O4, [O3], []. repeat split.
Qed.

(* also for indices with bits behind their path, except fixed-depth 3D ones *)
Theorem c50_operators_of_valid_indices : forall c D L k (a b : storage k) la lb,
  is_dim D L -> (forall t, k = KFixed t -> dim D = 2) ->
  valid c D k a -> valid c D k b -> shows (ops c D k) a la -> shows (ops c D k) b lb ->
  (exists r, index_lt c D k a b = Ret r /\ (r = true <-> earlier la lb))
  /\ (exists r, index_gt c D k a b = Ret r /\ (r = true <-> earlier lb la))
  /\ (exists r, index_le c D k a b = Ret r /\ (r = true <-> earlier la lb \/ la = lb))
  /\ (exists r, index_ge c D k a b = Ret r /\ (r = true <-> earlier lb la \/ la = lb)).
Proof. exact c50_operators_of_valid_indices_lemma. Qed.
Print Assumptions c50_operators_of_valid_indices.
Example c50_operators_of_valid_indices_example :
  let a := MkStatic 0xB7 2 in let b := MkStatic 0xB7 3 in
  valid debug64 Dim2D (KStatic U8) a /\ valid debug64 Dim2D (KStatic U8) b
  /\ shows (static_ops debug64 Dim2D U8) a [Q2; Q3] /\ shows (static_ops debug64 Dim2D U8) b [Q2; Q3; Q1]
  /\ index_lt debug64 Dim2D (KStatic U8) a b = Ret true /\ index_le debug64 Dim2D (KStatic U8) b a = Ret false.
Proof. concrete. Qed.

Theorem c50_max_min : forall c D L k (a b : storage k) la lb,
  made c D L k true a la -> made c D L k true b lb ->
  exists hi lo lhi llo, ord_max (idx_cmp c D k) a b = Ret hi /\ ord_min (idx_cmp c D k) a b = Ret lo
    /\ shows (ops c D k) hi lhi /\ shows (ops c D k) lo llo
    /\ (earlier llo lhi \/ llo = lhi)
    /\ ((lhi = la /\ llo = lb) \/ (lhi = lb /\ llo = la)).
Proof. exact c50_max_min_lemma. Qed.
Print Assumptions c50_max_min.
Example c50_max_min_example :
  made debug64 Dim2D layout2D (KStatic U8) true (MkStatic 0xB4 3) [Q2; Q3; Q1]
  /\ made debug64 Dim2D layout2D (KStatic U8) true (MkStatic 0xB0 2) [Q2; Q3]
  /\ ord_max (idx_cmp debug64 Dim2D (KStatic U8)) (MkStatic 0xB4 3) (MkStatic 0xB0 2) = Ret (MkStatic 0xB4 3)
  /\ ord_min (idx_cmp debug64 Dim2D (KStatic U8)) (MkStatic 0xB4 3) (MkStatic 0xB0 2) = Ret (MkStatic 0xB0 2).
Proof.
  split; [made_by (start_static_cells debug64 Dim2D layout2D U8 [Q2; Q3; Q1]) (@nil (call Dim2D))|].
  split; [made_by (start_static_cells debug64 Dim2D layout2D U8 [Q2; Q3; Q1]) [CParent (D:=Dim2D)]|]. concrete.
Qed.

Theorem c50_clamp : forall c D L k (s lo hi : storage k) l llo lhi,
  made c D L k true s l -> made c D L k true lo llo -> made c D L k true hi lhi ->
  (earlier lhi llo -> ord_clamp (idx_cmp c D k) s lo hi = Panic)
  /\ (~ earlier lhi llo ->
      (earlier l llo -> ord_clamp (idx_cmp c D k) s lo hi = Ret lo)
      /\ (earlier lhi l -> ord_clamp (idx_cmp c D k) s lo hi = Ret hi)
      /\ (~ earlier l llo -> ~ earlier lhi l -> ord_clamp (idx_cmp c D k) s lo hi = Ret s)).
Proof. exact c50_clamp_lemma. Qed.
Print Assumptions c50_clamp.
Example c50_clamp_example :
  made debug64 Dim2D layout2D (KStatic U8) true (MkStatic 0xB4 3) [Q2; Q3; Q1]
  /\ made debug64 Dim2D layout2D (KStatic U8) true (MkStatic 0xB0 2) [Q2; Q3]
  /\ made debug64 Dim2D layout2D (KStatic U8) true (MkStatic 0x80 1) [Q2]
  /\ ord_clamp (idx_cmp debug64 Dim2D (KStatic U8)) (MkStatic 0x80 1) (MkStatic 0xB0 2) (MkStatic 0xB4 3) = Ret (MkStatic 0xB0 2)
  /\ ord_clamp (idx_cmp debug64 Dim2D (KStatic U8)) (MkStatic 0x80 1) (MkStatic 0xB4 3) (MkStatic 0xB0 2) = Panic.
Proof.
  split; [made_by (start_static_cells debug64 Dim2D layout2D U8 [Q2; Q3; Q1]) (@nil (call Dim2D))|].
  split; [made_by (start_static_cells debug64 Dim2D layout2D U8 [Q2; Q3; Q1]) [CParent (D:=Dim2D)]|].
  split; [made_by (start_static_cells debug64 Dim2D layout2D U8 [Q2; Q3; Q1]) [CAncestor (D:=Dim2D) 2]|]. concrete.
Qed.

(* ---------- C52 ---------- *)
Theorem c52_sorted_is_traversal : forall c D L k xs ls, is_dim D L -> Forall2 (made c D L k true) xs ls ->
  (sorted c D k xs
   <-> forall i j a b, (i < j)%nat -> nth_error ls i = Some a -> nth_error ls j = Some b -> earlier a b \/ a = b).
Proof. exact c52_sorted_is_traversal_lemma. Qed.
Print Assumptions c52_sorted_is_traversal.
Example c52_sorted_is_traversal_example :
  Forall2 (made debug64 Dim2D layout2D (KStatic U8) true) [MkStatic 0x80 1; MkStatic 0xB0 2; MkStatic 0xB4 3] [[Q2]; [Q2; Q3]; [Q2; Q3; Q1]]
  /\ sorted debug64 Dim2D (KStatic U8) [MkStatic 0x80 1; MkStatic 0xB0 2; MkStatic 0xB4 3]
  /\ ~ sorted debug64 Dim2D (KStatic U8) [MkStatic 0xB0 2; MkStatic 0x80 1; MkStatic 0xB4 3].
Proof.
  split.
  { constructor; [made_by (start_static_cells debug64 Dim2D layout2D U8 [Q2; Q3; Q1]) [CAncestor (D:=Dim2D) 2]|].
    constructor; [made_by (start_static_cells debug64 Dim2D layout2D U8 [Q2; Q3; Q1]) [CParent (D:=Dim2D)]|].
    constructor; [made_by (start_static_cells debug64 Dim2D layout2D U8 [Q2; Q3; Q1]) (@nil (call Dim2D))|constructor]. }
  split; [vm_compute; auto|]. intros [H _]. vm_compute in H. discriminate H.
Qed.

(* every list can be sorted and the result does not depend on the algorithm *)
Theorem c52_sorting_is_unique : forall c D L k xs ls, is_dim D L -> Forall2 (made c D L k true) xs ls ->
  exists ys, Permutation xs ys /\ sorted c D k ys
    /\ forall zs, Permutation xs zs -> sorted c D k zs -> zs = ys.
Proof. exact c52_sorting_is_unique_lemma. Qed.
Print Assumptions c52_sorting_is_unique.
Example c52_sorting_is_unique_example :
  Forall2 (made debug64 Dim2D layout2D (KStatic U8) true) [MkStatic 0xB4 3; MkStatic 0x80 1; MkStatic 0xB4 3; MkStatic 0xB0 2]
    [[Q2; Q3; Q1]; [Q2]; [Q2; Q3; Q1]; [Q2; Q3]]
  /\ sorted debug64 Dim2D (KStatic U8) [MkStatic 0x80 1; MkStatic 0xB0 2; MkStatic 0xB4 3; MkStatic 0xB4 3].
Proof.
  split; [|vm_compute; auto].
  constructor; [made_by (start_static_cells debug64 Dim2D layout2D U8 [Q2; Q3; Q1]) (@nil (call Dim2D))|].
  constructor; [made_by (start_static_cells debug64 Dim2D layout2D U8 [Q2; Q3; Q1]) [CAncestor (D:=Dim2D) 2]|].
  constructor; [made_by (start_static_cells debug64 Dim2D layout2D U8 [Q2; Q3; Q1]) (@nil (call Dim2D))|].
  constructor; [made_by (start_static_cells debug64 Dim2D layout2D U8 [Q2; Q3; Q1]) [CParent (D:=Dim2D)]|constructor].
Qed.

(* a sorted list holds every subtree as one block, which starts with the root of the subtree if that is present *)
Theorem c52_subtrees_are_blocks : forall c D L k xs ls p, is_dim D L -> Forall2 (made c D L k true) xs ls -> sorted c D k xs ->
  exists before block after, ls = before ++ block ++ after
    /\ Forall (is_prefix p) block /\ Forall (fun l => ~ is_prefix p l) (before ++ after)
    /\ (In p ls -> exists rest, block = p :: rest).
Proof. exact c52_subtrees_are_blocks_lemma. Qed.
Print Assumptions c52_subtrees_are_blocks.
Example c52_subtrees_are_blocks_example :
  Forall2 (made debug64 Dim2D layout2D (KStatic U8) true) [MkStatic 0x40 1; MkStatic 0x80 1; MkStatic 0xB4 3] [[Q1]; [Q2]; [Q2; Q3; Q1]]
  /\ sorted debug64 Dim2D (KStatic U8) [MkStatic 0x40 1; MkStatic 0x80 1; MkStatic 0xB4 3]
  /\ [[Q1]; [Q2]; [Q2; Q3; Q1]] = [[Q1]] ++ [[Q2]; [Q2; Q3; Q1]] ++ []
  /\ Forall (is_prefix [Q2]) [[Q2]; [Q2; Q3; Q1]].
Proof.
  split.
  { constructor; [made_by (start_static_cells debug64 Dim2D layout2D U8 [Q1]) (@nil (call Dim2D))|].
    constructor; [made_by (start_static_cells debug64 Dim2D layout2D U8 [Q2; Q3; Q1]) [CAncestor (D:=Dim2D) 2]|].
    constructor; [made_by (start_static_cells debug64 Dim2D layout2D U8 [Q2; Q3; Q1]) (@nil (call Dim2D))|constructor]. }
  split; [vm_compute; auto|]. split; [reflexivity|]. constructor; [exists []; reflexivity|]. constructor; [exists [Q3; Q1]; reflexivity|constructor].
Qed.

(* ---------- C53 ---------- *)
(* the associated constant MAX_LEVELS bounds the depth only of fixed-size storages: for dynamic storage it is 0 *)
Theorem c53_max_levels_partial : forall c D L k (s : storage k), is_dim D L -> valid c D k s ->
  (st_depth (ops c D k) s <= idx_MAX_LEVELS c D k <-> (k = KDynamic -> st_depth (ops c D k) s = 0)).
Proof. exact c53_max_levels_partial_lemma. Qed.
Print Assumptions c53_max_levels_partial.
Example c53_max_levels_partial_example :
  valid debug64 Dim3D (KStatic U16) (MkStatic 0x1234 5) /\ idx_MAX_LEVELS debug64 Dim3D (KStatic U16) = 5
  /\ valid debug64 Dim3D KDynamic (MkDynamic [0x20] 1) /\ idx_MAX_LEVELS debug64 Dim3D KDynamic = 0.
Proof. concrete. Qed.

Theorem c53_max_levels_refuted :
  ~ (forall c D L k (s : storage k), is_dim D L -> valid c D k s -> st_depth (ops c D k) s <= idx_MAX_LEVELS c D k).
Proof. exact c53_max_levels_refuted_lemma. Qed.
Print Assumptions c53_max_levels_refuted.
