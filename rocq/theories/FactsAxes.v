(* FactsAxes.v - proofs of the theorems stated in PropAxes.v *)
From Verif Require Import Base ModelNumber ModelDim ModelStorage ModelTraits Model2D Model3D Spec SpecTraits BitProofs.

Lemma foldM_ext {A S} (f g : S -> A -> outcome S) l s : (forall s x, f s x = g s x) -> foldM f l s = foldM g l s.
Proof. intro H. revert s. induction l as [|x l IH]; intro s; cbn; [reflexivity|]. rewrite H. destruct (g s x); cbn; auto. Qed.
Lemma mapM_ext {A B} (f g : A -> outcome B) l : (forall x, f x = g x) -> mapM f l = mapM g l.
Proof. intro H. induction l as [|x l IH]; cbn; [reflexivity|]. rewrite H, IH. reflexivity. Qed.

(* whether get_bits panics does not depend on the number *)
Lemma get_bits_shape c t s e : (forall v, num_get_bits c t v s e = Panic) \/ exists f, forall v, num_get_bits c t v s e = Ret (f v).
Proof.
  unfold num_get_bits. destruct (sub c (usize_bits c) (BITS c t) (range_len s e)) as [r| |] eqn:E.
  - right. eexists. intro v. cbn [bind]. reflexivity.
  - left. reflexivity.
  - unfold sub in E. destruct (_ <=? _); [discriminate|]. destruct (overflow_checks c); discriminate.
Qed.
Lemma shl_shape c w s : (forall v, shl c w v s = Panic) \/ exists f, forall v, shl c w v s = Ret (f v).
Proof. unfold shl. destruct (s <? w); [right; eexists; reflexivity|]. destruct (overflow_checks c); [left; reflexivity|right; eexists; reflexivity]. Qed.
Lemma shr_shape c w s : (forall v, shr c w v s = Panic) \/ exists f, forall v, shr c w v s = Ret (f v).
Proof. unfold shr. destruct (s <? w); [right; eexists; reflexivity|]. destruct (overflow_checks c); [left; reflexivity|right; eexists; reflexivity]. Qed.

Lemma axes2_XY p : axes2 XY p = p.
Proof. destruct p as [x y]. unfold axes2. cbn [doc_quadrants fst snd]. f_equal; lia. Qed.
Lemma axes2_YX x y : axes2 YX (x, y) = (y, x).
Proof. unfold axes2. cbn [doc_quadrants fst snd]. f_equal; lia. Qed.
Lemma axes3_eq o x y z : axes3 o (x, y, z) =
  match o with XYZ => (x, y, z) | XZY => (x, z, y) | YXZ => (y, x, z) | YZX => (y, z, x) | ZXY => (z, x, y) | ZYX => (z, y, x) end.
Proof. unfold axes3. destruct o; cbn [doc_octants fst snd]; f_equal; [f_equal| |f_equal| |f_equal| |f_equal| |f_equal| |f_equal|]; lia. Qed.

(* ---------- two dimensions ---------- *)
Lemma c51_fixed_2d_lemma : forall c t x y o,
  fixed_from_grid_index_2d c t x y o = let '(a, b) := axes2 o (x, y) in fixed_from_grid_index_2d c t a b XY.
Proof.
  intros c t x y [|]; [rewrite axes2_XY; reflexivity|]. rewrite axes2_YX. unfold fixed_from_grid_index_2d.
  destruct (usize_bits c <? MAX_LEVELS c Dim2D t); [reflexivity|].
  destruct (get_bits_shape c USize 0 (MAX_LEVELS c Dim2D t)) as [H|[f H]]; rewrite !H; reflexivity.
Qed.
Lemma c51_static_2d_lemma : forall c t x y d o,
  static_from_grid_index_2d c t x y d o = let '(a, b) := axes2 o (x, y) in static_from_grid_index_2d c t a b d XY.
Proof.
  intros c t x y d [|]; [rewrite axes2_XY; reflexivity|]. rewrite axes2_YX. unfold static_from_grid_index_2d.
  destruct (BITS c t / 2 <? d); [reflexivity|]. destruct (sub c (usize_bits c) (MAX_LEVELS c Dim2D t) d) as [r| |]; [|reflexivity|reflexivity].
  cbn [bind]. destruct (get_bits_shape c USize 0 d) as [H|[f H]]; rewrite !H; [reflexivity|]. cbn [bind].
  destruct (shl_shape c (usize_bits c) r) as [G|[g G]]; rewrite !G; [reflexivity|]. reflexivity.
Qed.
Lemma c51_dynamic_2d_lemma : forall c x y d o,
  dynamic_from_grid_index_2d c x y d o = let '(a, b) := axes2 o (x, y) in dynamic_from_grid_index_2d c a b d XY.
Proof.
  intros c x y d [|]; [rewrite axes2_XY; reflexivity|]. rewrite axes2_YX. unfold dynamic_from_grid_index_2d.
  destruct (usize_bits c / 2 <? d); [reflexivity|].
  destruct (get_bits_shape c USize 0 d) as [H|[f H]]; rewrite !H; reflexivity.
Qed.
Lemma c51_to_grid_2d_lemma : forall S c (op : StorageOps Dim2D S) s o,
  (let! p := to_grid_index_2d c op s o in Ret (axes2 o p)) = to_grid_index_2d c op s XY.
Proof.
  intros S c op s o. unfold to_grid_index_2d. generalize (range 0 (st_depth op s)) as l. intro l.
  assert (E : (0, 0) = axes2 o (0, 0)) by (destruct o; reflexivity). rewrite E at 2. clear E. generalize (0, 0) as p.
  induction l as [|i l IH]; intro p; cbn [foldM bind]; [reflexivity|].
  destruct p as [x y]. destruct (st_get op s i) as [q| |] eqn:G; cbn [bind].
  - destruct (quadrant_to_index o q) as [qx qy] eqn:Eq. rewrite (surjective_pairing (axes2 o (x, y))), (surjective_pairing (quadrant_to_index XY q)).
    cbn [bind]. destruct (sub c (usize_bits c) (st_depth op s) i) as [a| |]; cbn [bind]; [|reflexivity|reflexivity].
    destruct (sub c (usize_bits c) a 1) as [sh| |]; cbn [bind]; [|reflexivity|reflexivity].
    destruct (shl_shape c (usize_bits c) sh) as [K|[k K]]; rewrite !K; cbn [bind]; [reflexivity|]. rewrite IH. do 2 f_equal.
    destruct o; [rewrite !axes2_XY; cbn [fst snd]; rewrite Eq; reflexivity|].
    rewrite !axes2_YX. cbn [fst snd]. destruct q; cbn in Eq |- *; injection Eq as <- <-; reflexivity.
  - destruct (axes2 o (x, y)). reflexivity.
  - destruct (axes2 o (x, y)). reflexivity.
Qed.

(* ---------- three dimensions ---------- *)
Lemma lor_perm a b d : N.lor (N.lor a b) d = N.lor (N.lor a d) b /\ N.lor (N.lor a b) d = N.lor (N.lor b a) d
  /\ N.lor (N.lor a b) d = N.lor (N.lor b d) a /\ N.lor (N.lor a b) d = N.lor (N.lor d a) b /\ N.lor (N.lor a b) d = N.lor (N.lor d b) a.
Proof.
  repeat split.
  - rewrite <- !N.lor_assoc. f_equal. apply N.lor_comm.
  - f_equal. apply N.lor_comm.
  - rewrite <- N.lor_assoc. apply N.lor_comm.
  - rewrite N.lor_comm, N.lor_assoc. reflexivity.
  - rewrite N.lor_comm, (N.lor_comm a b), N.lor_assoc. reflexivity.
Qed.
(* the three shifted terms are combined in any order *)
Ltac perm := first [reflexivity | apply (proj1 (lor_perm _ _ _)) | apply (proj1 (proj2 (lor_perm _ _ _)))
  | apply (proj1 (proj2 (proj2 (lor_perm _ _ _)))) | apply (proj1 (proj2 (proj2 (proj2 (lor_perm _ _ _)))))
  | apply (proj2 (proj2 (proj2 (proj2 (lor_perm _ _ _)))))].
Lemma chunk_u64_axes c x y z o : grid_chunk_3d_u64 c x y z (get_bit_shifts_for_xyz o)
  = let '(a, b, d) := axes3 o (x, y, z) in grid_chunk_3d_u64 c a b d (get_bit_shifts_for_xyz XYZ).
Proof.
  rewrite axes3_eq. destruct o; cbn [get_bit_shifts_for_xyz]; unfold grid_chunk_3d_u64, shl; cbn [N.ltb N.compare Pos.compare Pos.compare_cont bind]; f_equal; perm.
Qed.
Lemma chunk_u32_axes c x y z o : grid_chunk_3d_u32 c x y z (get_bit_shifts_for_xyz o)
  = let '(a, b, d) := axes3 o (x, y, z) in grid_chunk_3d_u32 c a b d (get_bit_shifts_for_xyz XYZ).
Proof.
  rewrite axes3_eq. destruct o; cbn [get_bit_shifts_for_xyz]; unfold grid_chunk_3d_u32, shl; cbn [N.ltb N.compare Pos.compare Pos.compare_cont bind]; f_equal; perm.
Qed.
Lemma axes3_map (f : N -> N) o x y z : axes3 o (f x, f y, f z) = let '(a, b, d) := axes3 o (x, y, z) in (f a, f b, f d).
Proof. rewrite !axes3_eq. destruct o; reflexivity. Qed.

Lemma c51_fixed_3d_lemma : forall c t x y z o,
  fixed_from_grid_index_3d c t x y z o = let '(a, b, d) := axes3 o (x, y, z) in fixed_from_grid_index_3d c t a b d XYZ.
Proof.
  intros c t x y z o. unfold fixed_from_grid_index_3d.
  destruct (usize_bits c <? MAX_LEVELS c Dim3D t); [destruct (axes3 o (x, y, z)) as [[? ?] ?]; reflexivity|].
  destruct (MAX_LEVELS_BITMASK c t) as [m| |]; cbn [bind]; [|destruct (axes3 o (x, y, z)) as [[? ?] ?]; reflexivity|destruct (axes3 o (x, y, z)) as [[? ?] ?]; reflexivity].
  pose proof (axes3_map (fun v => N.land v m) o x y z) as M. cbn beta in M.
  destruct (axes3 o (x, y, z)) as [[a b] d] eqn:A.
  destruct (add c (usize_bits c) (MAX_LEVELS c Dim3D t) 20) as [d20| |]; cbn [bind]; [|reflexivity|reflexivity].
  erewrite foldM_ext; [reflexivity|]. intros bits i. cbn beta.
  destruct (mul c (usize_bits c) i 21) as [s| |]; cbn [bind]; [|reflexivity|reflexivity].
  destruct (add c (usize_bits c) s 21) as [e| |]; cbn [bind]; [|reflexivity|reflexivity].
  destruct (get_bits_shape c USize s e) as [H|[f H]]; rewrite !H; cbn [bind]; [reflexivity|].
  rewrite chunk_u64_axes. rewrite (axes3_map (fun v => cast 32 (f v)) o), M. cbn [fst snd]. reflexivity.
Qed.
Lemma c51_fast_3d_lemma : forall c x y z o,
  from_grid_index_fast c x y z o = let '(a, b, d) := axes3 o (x, y, z) in from_grid_index_fast c a b d XYZ.
Proof.
  intros c x y z o. unfold from_grid_index_fast.
  destruct (axes3 o (x, y, z)) as [[a b] d] eqn:A.
  destruct (usize_bits c <? MAX_LEVELS c Dim3D U64); [reflexivity|].
  destruct (MAX_LEVELS_BITMASK c U64) as [m| |]; cbn [bind]; [|reflexivity|reflexivity].
  rewrite chunk_u64_axes. rewrite (axes3_map (fun v => cast 32 (N.land v m)) o), A. reflexivity.
Qed.
Lemma c51_static_3d_lemma : forall c t x y z n o,
  static_from_grid_index_3d c t x y z n o = let '(a, b, d) := axes3 o (x, y, z) in static_from_grid_index_3d c t a b d n XYZ.
Proof.
  intros c t x y z n o. unfold static_from_grid_index_3d.
  destruct (MAX_LEVELS c Dim3D t <? n); [destruct (axes3 o (x, y, z)) as [[? ?] ?]; reflexivity|].
  destruct (sub c (usize_bits c) (MAX_LEVELS c Dim3D t) n) as [r| |]; cbn [bind]; [|destruct (axes3 o (x, y, z)) as [[? ?] ?]; reflexivity|destruct (axes3 o (x, y, z)) as [[? ?] ?]; reflexivity].
  destruct (get_bits_shape c USize 0 n) as [H|[f H]].
  { destruct (axes3 o (x, y, z)) as [[a b] d]. rewrite !H. reflexivity. }
  destruct (shl_shape c (usize_bits c) r) as [G|[g G]].
  { destruct (axes3 o (x, y, z)) as [[a b] d]. rewrite !H. cbn [bind]. rewrite !G. reflexivity. }
  pose proof (axes3_map (fun v => g (f v)) o x y z) as M. cbn beta in M.
  destruct (axes3 o (x, y, z)) as [[a b] d] eqn:A. rewrite !H. cbn [bind]. rewrite !G. cbn [bind].
  destruct (add c (usize_bits c) n 7) as [d7| |]; cbn [bind]; [|reflexivity|reflexivity].
  destruct (add c (usize_bits c) (MAX_LEVELS c Dim3D t) 7) as [m7| |]; cbn [bind]; [|reflexivity|reflexivity].
  destruct (sub c (usize_bits c) (m7 / 8) (d7 / 8)) as [st| |]; cbn [bind]; [|reflexivity|reflexivity].
  erewrite foldM_ext; [reflexivity|]. intros bits i. cbn beta.
  destruct (mul c (usize_bits c) i 8) as [s| |]; cbn [bind]; [|reflexivity|reflexivity].
  destruct (add c (usize_bits c) s 8) as [e| |]; cbn [bind]; [|reflexivity|reflexivity].
  destruct (get_bits_shape c USize s e) as [H'|[f' H']]; rewrite !H'; cbn [bind]; [reflexivity|].
  rewrite chunk_u32_axes. rewrite (axes3_map (fun v => cast 8 (f' v)) o), M. reflexivity.
Qed.
Lemma c51_dynamic_3d_lemma : forall c x y z n o,
  dynamic_from_grid_index_3d c x y z n o = let '(a, b, d) := axes3 o (x, y, z) in dynamic_from_grid_index_3d c a b d n XYZ.
Proof.
  intros c x y z n o. unfold dynamic_from_grid_index_3d.
  destruct (usize_bits c / 2 <? n); [destruct (axes3 o (x, y, z)) as [[? ?] ?]; reflexivity|].
  destruct (get_bits_shape c USize 0 n) as [H|[f H]].
  { destruct (axes3 o (x, y, z)) as [[a b] d]. rewrite !H. reflexivity. }
  rewrite axes3_eq.
  assert (W : 2 <? usize_bits c = true) by (unfold usize_bits; destruct (pointer c); reflexivity).
  assert (W1 : 1 <? usize_bits c = true) by (unfold usize_bits; destruct (pointer c); reflexivity).
  assert (W0 : 0 <? usize_bits c = true) by (unfold usize_bits; destruct (pointer c); reflexivity).
  assert (Sh : forall v s, s <? usize_bits c = true -> shl c (usize_bits c) v s = Ret (cast (usize_bits c) (N.shiftl v s)))
    by (intros v s Hs; unfold shl; rewrite Hs; reflexivity).
  destruct o; cbn [get_bit_shifts_for_xyz]; rewrite !H; cbn [bind]; (destruct (dynamic_zeroed_3d c n) as [r| |]; cbn [bind]; [|reflexivity|reflexivity]);
    apply foldM_ext; intros q i;
    (destruct (sub c (usize_bits c) n i) as [e| |]; cbn [bind]; [|reflexivity|reflexivity]);
    (destruct (sub c (usize_bits c) e 1) as [k| |]; cbn [bind]; [|reflexivity|reflexivity]);
    (destruct (shr_shape c (usize_bits c) k) as [K|[g K]]; rewrite !K; cbn [bind]; [reflexivity|]);
    rewrite !(Sh _ 0 W0), !(Sh _ 1 W1), !(Sh _ 2 W); cbn [bind]; do 3 f_equal; perm.
Qed.
Lemma c51_to_grid_3d_lemma : forall S c (op : StorageOps Dim3D S) s o,
  (let! p := to_grid_index_3d c op s o in Ret (axes3 o p)) = to_grid_index_3d c op s XYZ.
Proof.
  intros S c op s o. unfold to_grid_index_3d. generalize (range 0 (st_depth op s)) as l. intro l.
  assert (E : (0, 0, 0) = axes3 o (0, 0, 0)) by (destruct o; reflexivity). rewrite E at 2. clear E. generalize (0, 0, 0) as p.
  induction l as [|i l IH]; intro p; cbn [foldM bind]; [reflexivity|].
  destruct p as [[x y] z]. destruct (st_get op s i) as [q| |] eqn:G; cbn [bind];
    [|destruct (axes3 o (x, y, z)) as [[? ?] ?]; reflexivity|destruct (axes3 o (x, y, z)) as [[? ?] ?]; reflexivity].
  destruct (octant_to_index o q) as [[qx qy] qz] eqn:Eq. destruct (octant_to_index XYZ q) as [[px py] pz] eqn:Ep.
  destruct (axes3 o (x, y, z)) as [[x' y'] z'] eqn:Ex.
  destruct (sub c (usize_bits c) (st_depth op s) i) as [a| |]; cbn [bind]; [|reflexivity|reflexivity].
  destruct (sub c (usize_bits c) a 1) as [sh| |]; cbn [bind]; [|reflexivity|reflexivity].
  destruct (shl_shape c (usize_bits c) sh) as [K|[k K]]; rewrite !K; cbn [bind]; [reflexivity|]. rewrite IH. f_equal.
  rewrite axes3_eq in *. unfold octant_to_index in Eq, Ep. injection Ep as <- <- <-.
  destruct o; cbn [bind] in *; injection Eq as <- <- <-; injection Ex as <- <- <-; reflexivity.
Qed.
