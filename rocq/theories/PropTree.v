(* PropTree.v - Ancestors and descendants (C14-C17) *)
From Verif Require Import Base ModelNumber ModelDim ModelStorage Model2D Model3D Spec History ExampleTools FactsTree.

(* ---------- C14 ---------- *)
(* ancestor(g) drops the last g cells and is None exactly when there are less than g *)
Theorem c14_ancestor_truncates : forall c D L k v (s : storage k) l g,
  is_dim D L -> var_ops c D L k = Some v -> valid c D k s -> shows (ops c D k) s l ->
  if g <=? len l
  then exists s', ancestor v s g = Ret (Some s') /\ valid c D k s' /\ shows (ops c D k) s' (firstn (N.to_nat (len l - g)) l)
  else ancestor v s g = Ret None.
Proof. exact c14_ancestor_truncates_lemma. Qed.
Print Assumptions c14_ancestor_truncates.
Example c14_ancestor_truncates_example :
  let s := MkDynamic [0x40; 0xD8] 5 in let v := dynamic_vops debug64 Dim2D layout2D in
  var_ops debug64 Dim2D layout2D KDynamic = Some v /\ valid debug64 Dim2D KDynamic s
  /\ shows (dynamic_ops debug64 Dim2D) s [Q3; Q1; Q2; Q0; Q1]
  /\ ancestor v s 2 = Ret (Some (MkDynamic [0xD8] 3)) /\ ancestor v s 6 = Ret None.
Proof. concrete. Qed.

(* parent() drops the last cell and is None exactly at the root *)
Theorem c14_parent : forall c D L k v (s : storage k) l,
  is_dim D L -> var_ops c D L k = Some v -> valid c D k s -> shows (ops c D k) s l ->
  match rev l with
  | [] => parent v s = Ret None
  | _ :: l' => exists s', parent v s = Ret (Some s') /\ valid c D k s' /\ shows (ops c D k) s' (rev l')
  end.
Proof. exact c14_parent_lemma. Qed.
Print Assumptions c14_parent.
Example c14_parent_example :
  let v := static_vops debug64 Dim3D U16 in
  valid debug64 Dim3D (KStatic U16) (MkStatic 0xB6F0 4) /\ shows (static_ops debug64 Dim3D U16) (MkStatic 0xB6F0 4) [O5; O5; O5; O7]
  /\ parent v (MkStatic 0xB6F0 4) = Ret (Some (MkStatic 0xB680 3)) /\ parent v static_default = Ret None.
Proof. concrete. Qed.

(* ---------- C15 ---------- *)
(* the length condition holds for every Rust slice *)
Theorem c15_static_descendant : forall c D L t (s : storage (KStatic t)) l cells,
  is_dim D L -> valid c D (KStatic t) s -> shows (static_ops c D t) s l -> len cells < 2 ^ (usize_bits c - 1) ->
  if len l + len cells <=? BITS c t / dim D
  then exists s', descendant (static_vops c D t) s cells = Ret (Some s') /\ valid c D (KStatic t) s'
         /\ shows (static_ops c D t) s' (l ++ cells)
  else descendant (static_vops c D t) s cells = Ret None.
Proof. exact c15_static_descendant_lemma. Qed.
Print Assumptions c15_static_descendant.
Example c15_static_descendant_example :
  let v := static_vops debug64 Dim2D U8 in
  valid debug64 Dim2D (KStatic U8) (MkStatic 0xB0 2) /\ shows (static_ops debug64 Dim2D U8) (MkStatic 0xB0 2) [Q2; Q3]
  /\ descendant v (MkStatic 0xB0 2) [Q1; Q3] = Ret (Some (MkStatic 0xB7 4)) /\ descendant v (MkStatic 0xB0 2) [Q1; Q3; Q0] = Ret None.
Proof. concrete. Qed.

Theorem c15_dynamic_descendant : forall c D L (s : storage KDynamic) l cells,
  is_dim D L -> writable c KDynamic -> valid c D KDynamic s -> shows (dynamic_ops c D) s l ->
  8 * len (dy_bits s) + dim D * len cells + 16 <= 2 ^ usize_bits c ->
  exists s', descendant (dynamic_vops c D L) s cells = Ret (Some s') /\ valid c D KDynamic s'
    /\ shows (dynamic_ops c D) s' (l ++ cells).
Proof. exact c15_dynamic_descendant_lemma. Qed.
Print Assumptions c15_dynamic_descendant.
Example c15_dynamic_descendant_example :
  let s := MkDynamic [0x80; 0x29] 3 in
  valid debug64 Dim3D KDynamic s /\ shows (dynamic_ops debug64 Dim3D) s [O1; O2; O3]
  /\ 8 * len (dy_bits s) + dim Dim3D * len [O4; O5; O6] + 16 <= 2 ^ usize_bits debug64
  /\ descendant (dynamic_vops debug64 Dim3D layout3D) s [O4; O5; O6] = Ret (Some (MkDynamic [0x80; 0xCB; 0x29] 6)).
Proof. concrete. Qed.

Theorem c15_static_child : forall c D L t (s : storage (KStatic t)) l x,
  is_dim D L -> valid c D (KStatic t) s -> shows (static_ops c D t) s l ->
  if len l <? BITS c t / dim D
  then exists s', child (static_vops c D t) s x = Ret (Some s') /\ valid c D (KStatic t) s'
         /\ shows (static_ops c D t) s' (l ++ [x])
  else child (static_vops c D t) s x = Ret None.
Proof. exact c15_static_child_lemma. Qed.
Print Assumptions c15_static_child.
Example c15_static_child_example :
  let v := static_vops debug64 Dim3D U8 in
  valid debug64 Dim3D (KStatic U8) (MkStatic 0xA0 1) /\ shows (static_ops debug64 Dim3D U8) (MkStatic 0xA0 1) [O5]
  /\ child v (MkStatic 0xA0 1) O7 = Ret (Some (MkStatic 0xBC 2)) /\ child v (MkStatic 0xBC 2) O7 = Ret None.
Proof. concrete. Qed.

Theorem c15_dynamic_child : forall c D L (s : storage KDynamic) l x,
  is_dim D L -> writable c KDynamic -> valid c D KDynamic s -> shows (dynamic_ops c D) s l ->
  8 * len (dy_bits s) + dim D + 16 <= 2 ^ usize_bits c ->
  exists s', child (dynamic_vops c D L) s x = Ret (Some s') /\ valid c D KDynamic s'
    /\ shows (dynamic_ops c D) s' (l ++ [x]).
Proof. exact c15_dynamic_child_lemma. Qed.
Print Assumptions c15_dynamic_child.
Example c15_dynamic_child_example :
  let s := MkDynamic [0x1B] 4 in
  valid debug64 Dim2D KDynamic s /\ shows (dynamic_ops debug64 Dim2D) s [Q0; Q1; Q2; Q3]
  /\ child (dynamic_vops debug64 Dim2D layout2D) s Q2 = Ret (Some (MkDynamic [0x80; 0x1B] 5)).
Proof. concrete. Qed.

(* ---------- C16 ---------- *)
Theorem c16_ancestor_undoes_static_descendant : forall c D L t (s s' : storage (KStatic t)) l cells,
  made c D L (KStatic t) true s l ->
  descendant (static_vops c D t) s cells = Ret (Some s') -> len cells < 2 ^ (usize_bits c - 1) ->
  exists s'', ancestor (static_vops c D t) s' (len cells) = Ret (Some s'') /\ idx_eq (KStatic t) s'' s = true.
Proof. exact c16_ancestor_undoes_static_descendant_lemma. Qed.
Print Assumptions c16_ancestor_undoes_static_descendant.
Example c16_ancestor_undoes_static_descendant_example :
  made debug64 Dim2D layout2D (KStatic U16) true (MkStatic 0xB000 2) [Q2; Q3]
  /\ descendant (static_vops debug64 Dim2D U16) (MkStatic 0xB000 2) [Q1; Q1; Q2] = Ret (Some (MkStatic 0xB580 5))
  /\ ancestor (static_vops debug64 Dim2D U16) (MkStatic 0xB580 5) 3 = Ret (Some (MkStatic 0xB000 2)).
Proof. split; [made_by (start_static_default debug64 Dim2D layout2D U16) [CChild (D:=Dim2D) Q2; CChild (D:=Dim2D) Q3]|]. concrete. Qed.

Theorem c16_ancestor_undoes_dynamic_descendant : forall c D L (s : storage KDynamic) l cells,
  made c D L KDynamic true s l ->
  dim D * (len l + len cells) + 24 <= 2 ^ usize_bits c ->
  exists s' s'', descendant (dynamic_vops c D L) s cells = Ret (Some s')
    /\ ancestor (dynamic_vops c D L) s' (len cells) = Ret (Some s'') /\ idx_eq KDynamic s'' s = true.
Proof. exact c16_ancestor_undoes_dynamic_descendant_lemma. Qed.
Print Assumptions c16_ancestor_undoes_dynamic_descendant.
Example c16_ancestor_undoes_dynamic_descendant_example :
  made debug64 Dim3D layout3D KDynamic true (MkDynamic [0x80; 0x29] 3) [O1; O2; O3]
  /\ dim Dim3D * (len [O1; O2; O3] + len [O4; O5; O6]) + 24 <= 2 ^ usize_bits debug64
  /\ ancestor (dynamic_vops debug64 Dim3D layout3D) (MkDynamic [0x80; 0xCB; 0x29] 6) 3 = Ret (Some (MkDynamic [0x80; 0x29] 3)).
Proof. split; [made_by (start_dynamic_default debug64 Dim3D layout3D) [CChild (D:=Dim3D) O1; CDescendant (D:=Dim3D) [O2; O4]; CSet (D:=Dim3D) 2 O3]|]. concrete. Qed.

Theorem c16_ancestor_in_steps : forall c D L k v (s a : storage k) l g h,
  made c D L k true s l -> var_ops c D L k = Some v -> g + h <= len l ->
  ancestor v s g = Ret (Some a) -> ancestor v a h = ancestor v s (g + h).
Proof. exact c16_ancestor_in_steps_lemma. Qed.
Print Assumptions c16_ancestor_in_steps.
Example c16_ancestor_in_steps_example :
  let v := dynamic_vops debug64 Dim3D layout3D in
  made debug64 Dim3D layout3D KDynamic true (MkDynamic [0x80; 0x29] 3) [O1; O2; O3]
  /\ ancestor v (MkDynamic [0x80; 0x29] 3) 1 = Ret (Some (MkDynamic [0x28] 2))
  /\ ancestor v (MkDynamic [0x28] 2) 1 = Ret (Some (MkDynamic [0x20] 1)).
Proof. split; [made_by (start_dynamic_cells debug64 Dim3D layout3D [O1; O2; O3]) (@nil (call Dim3D))|]. concrete. Qed.

(* ---------- C17 ---------- *)
Theorem c17_with_depth_truncates : forall c D L k v (s : storage k) l n,
  is_dim D L -> var_ops c D L k = Some v -> valid c D k s -> shows (ops c D k) s l ->
  if n <=? len l
  then exists s', with_depth c v s n = Ret (Some s') /\ valid c D k s' /\ shows (ops c D k) s' (firstn (N.to_nat n) l)
  else with_depth c v s n = Ret None.
Proof. exact c17_with_depth_truncates_lemma. Qed.
Print Assumptions c17_with_depth_truncates.
Example c17_with_depth_truncates_example :
  let v := static_vops debug64 Dim2D U8 in
  valid debug64 Dim2D (KStatic U8) (MkStatic 0xB7 4) /\ shows (static_ops debug64 Dim2D U8) (MkStatic 0xB7 4) [Q2; Q3; Q1; Q3]
  /\ with_depth debug64 v (MkStatic 0xB7 4) 1 = Ret (Some (MkStatic 0x80 1)) /\ with_depth debug64 v (MkStatic 0xB7 4) 5 = Ret None.
Proof. concrete. Qed.

(* with its own depth the index is returned unchanged, whatever its bits *)
Theorem c17_with_depth_same : forall c D L k v (s : storage k),
  var_ops c D L k = Some v -> with_depth c v s (st_depth (ops c D k) s) = Ret (Some s).
Proof. exact c17_with_depth_same_lemma. Qed.
Print Assumptions c17_with_depth_same.
Example c17_with_depth_same_example :
  with_depth debug64 (static_vops debug64 Dim2D U8) (MkStatic 0xB7 2) 2 = Ret (Some (MkStatic 0xB7 2)).
Proof. concrete. Qed.
