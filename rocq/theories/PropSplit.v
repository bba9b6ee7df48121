(* PropSplit.v - splitting and merging nodes (C80) *)
From Verif Require Import Base ModelNumber ModelDim ModelStorage Spec SpecSplit History ExampleTools FactsSplit.

(* ---------- C80 ---------- *)
(* sorted nodes that do not overlap stay so when one is replaced by its children in order, and when all children of a node are replaced by it *)
Theorem c80_split_and_merge : forall c D L k v (xs ys children : list (storage k)) s lxs l lys qs,
  Forall2 (made c D L k true) (xs ++ s :: ys) (lxs ++ l :: lys) -> List.length xs = List.length lxs ->
  writable c k -> var_ops c D L k = Some v -> (k = KDynamic -> dim D * (len l + 1) + 24 <= 2 ^ usize_bits c) ->
  all_cells D qs -> Forall2 (fun q s' => child v s q = Ret (Some s')) qs children ->
  (leaves c D k v (xs ++ s :: ys) <-> leaves c D k v (xs ++ children ++ ys)).
Proof. exact c80_split_and_merge_lemma. Qed.
Print Assumptions c80_split_and_merge.
Example c80_split_and_merge_example :
  let k := KStatic U8 in let v := static_vops debug64 Dim2D U8 in
  Forall2 (made debug64 Dim2D layout2D k true) ([MkStatic 0x50 2] ++ MkStatic 0x80 1 :: [MkStatic 0xC0 1]) ([[Q1; Q1]] ++ [Q2] :: [[Q3]])
  /\ writable debug64 k /\ var_ops debug64 Dim2D layout2D k = Some v /\ all_cells Dim2D [Q0; Q1; Q2; Q3]
  /\ Forall2 (fun q s' => child v (MkStatic 0x80 1) q = Ret (Some s')) [Q0; Q1; Q2; Q3] [MkStatic 0x80 2; MkStatic 0x90 2; MkStatic 0xA0 2; MkStatic 0xB0 2]
  /\ leaves debug64 Dim2D k v ([MkStatic 0x50 2] ++ MkStatic 0x80 1 :: [MkStatic 0xC0 1]).
Proof.
  cbv zeta. split.
  { repeat constructor.
    - made_by (start_static_cells debug64 Dim2D layout2D U8 [Q1; Q1]) (@nil (call Dim2D)).
    - made_by (start_static_cells debug64 Dim2D layout2D U8 [Q2]) (@nil (call Dim2D)).
    - made_by (start_static_cells debug64 Dim2D layout2D U8 [Q3]) (@nil (call Dim2D)). }
  split; [exact I|]. split; [reflexivity|]. split.
  { split; [intros []; cbn; tauto|]. repeat constructor. }
  split; [repeat constructor; vm_compute; reflexivity|].
  repeat constructor; try (vm_compute; reflexivity); intros s E; vm_compute in E; try discriminate; injection E as <-; reflexivity.
Qed.

(* a node below another lies below exactly one of its children, the one that with_depth finds *)
Theorem c80_exactly_one_child : forall c D L k v (s m : storage k) l q r,
  made c D L k true s l -> made c D L k true m (l ++ q :: r) -> writable c k -> var_ops c D L k = Some v ->
  (k = KDynamic -> dim D * (len l + 1) + 24 <= 2 ^ usize_bits c) ->
  exists s', child v s q = Ret (Some s') /\ with_depth c v m (st_depth (ops c D k) s + 1) = Ret (Some s')
  /\ forall q' s'', child v s q' = Ret (Some s'') ->
     (q' = q <-> exists t, with_depth c v m (st_depth (ops c D k) s'') = Ret (Some t) /\ idx_eq k t s'' = true).
Proof. exact c80_exactly_one_child_lemma. Qed.
Print Assumptions c80_exactly_one_child.
Example c80_exactly_one_child_example :
  let k := KStatic U8 in let v := static_vops debug64 Dim2D U8 in
  made debug64 Dim2D layout2D k true (MkStatic 0x80 1) [Q2] /\ made debug64 Dim2D layout2D k true (MkStatic 0xB4 3) ([Q2] ++ Q3 :: [Q1])
  /\ child v (MkStatic 0x80 1) Q3 = Ret (Some (MkStatic 0xB0 2)) /\ with_depth debug64 v (MkStatic 0xB4 3) 2 = Ret (Some (MkStatic 0xB0 2)).
Proof.
  cbv zeta. split; [made_by (start_static_cells debug64 Dim2D layout2D U8 [Q2]) (@nil (call Dim2D))|].
  split; [made_by (start_static_cells debug64 Dim2D layout2D U8 [Q2; Q3; Q1]) (@nil (call Dim2D))|]. concrete.
Qed.

(* at most one of them contains a given node *)
Theorem c80_at_most_one_leaf : forall c D L k v (xs : list (storage k)) lxs m lm i j a b,
  Forall2 (made c D L k true) xs lxs -> made c D L k true m lm -> var_ops c D L k = Some v -> leaves c D k v xs ->
  nth_error xs i = Some a -> nth_error xs j = Some b ->
  (exists s, with_depth c v m (st_depth (ops c D k) a) = Ret (Some s) /\ idx_eq k s a = true) ->
  (exists s, with_depth c v m (st_depth (ops c D k) b) = Ret (Some s) /\ idx_eq k s b = true) -> i = j.
Proof. exact c80_at_most_one_leaf_lemma. Qed.
Print Assumptions c80_at_most_one_leaf.
Example c80_at_most_one_leaf_example :
  let v := dynamic_vops debug64 Dim3D layout3D in
  Forall2 (made debug64 Dim3D layout3D KDynamic true) [MkDynamic [0x20] 1; MkDynamic [0xA0] 1] [[O1]; [O5]]
  /\ made debug64 Dim3D layout3D KDynamic true (MkDynamic [0xA4] 2) [O5; O1]
  /\ var_ops debug64 Dim3D layout3D KDynamic = Some v /\ leaves debug64 Dim3D KDynamic v [MkDynamic [0x20] 1; MkDynamic [0xA0] 1]
  /\ with_depth debug64 v (MkDynamic [0xA4] 2) 1 = Ret (Some (MkDynamic [0xA0] 1)).
Proof.
  cbv zeta. split.
  { repeat constructor.
    - made_by (start_dynamic_cells debug64 Dim3D layout3D [O1]) (@nil (call Dim3D)).
    - made_by (start_dynamic_cells debug64 Dim3D layout3D [O5]) (@nil (call Dim3D)). }
  split; [made_by (start_dynamic_cells debug64 Dim3D layout3D [O5; O1]) (@nil (call Dim3D))|]. split; [reflexivity|]. split; [|concrete].
  repeat constructor; try (vm_compute; reflexivity). intros s E. vm_compute in E. injection E as <-. reflexivity.
Qed.

(* they cover the whole space exactly if the numbers of nodes below them add up *)
Theorem c80_covers_everything : forall c D L k v (xs : list (storage k)) lxs n,
  Forall2 (made c D L k true) xs lxs -> is_dim D L -> var_ops c D L k = Some v -> leaves c D k v xs ->
  (forall x, In x xs -> st_depth (ops c D k) x <= n) ->
  nodes_below c D k n xs <= 2 ^ (dim D * n)
  /\ (nodes_below c D k n xs = 2 ^ (dim D * n) <-> forall l, len l = n -> exists lx, In lx lxs /\ is_prefix lx l).
Proof. exact c80_covers_everything_lemma. Qed.
Print Assumptions c80_covers_everything.
Example c80_covers_everything_example :
  let k := KStatic U8 in let v := static_vops debug64 Dim2D U8 in let xs := [MkStatic 0 1; MkStatic 0x40 1; MkStatic 0x80 1; MkStatic 0xC0 1] in
  Forall2 (made debug64 Dim2D layout2D k true) xs [[Q0]; [Q1]; [Q2]; [Q3]] /\ is_dim Dim2D layout2D
  /\ var_ops debug64 Dim2D layout2D k = Some v /\ leaves debug64 Dim2D k v xs
  /\ (forall x, In x xs -> st_depth (ops debug64 Dim2D k) x <= 2) /\ nodes_below debug64 Dim2D k 2 xs = 16.
Proof.
  cbv zeta. split.
  { repeat constructor.
    - made_by (start_static_cells debug64 Dim2D layout2D U8 [Q0]) (@nil (call Dim2D)).
    - made_by (start_static_cells debug64 Dim2D layout2D U8 [Q1]) (@nil (call Dim2D)).
    - made_by (start_static_cells debug64 Dim2D layout2D U8 [Q2]) (@nil (call Dim2D)).
    - made_by (start_static_cells debug64 Dim2D layout2D U8 [Q3]) (@nil (call Dim2D)). }
  split; [constructor|]. split; [reflexivity|]. split.
  { repeat constructor; try (vm_compute; reflexivity); intros s E; vm_compute in E; injection E as <-; reflexivity. }
  split; [|vm_compute; reflexivity]. intros x H. cbn [In] in H. repeat destruct H as [<-|H]; try (vm_compute; discriminate). destruct H.
Qed.
