(* FactsNear.v - lemmas behind PropNear.v: neighbours (C78) *)
From Verif Require Import Base ModelNumber ModelDim ModelStorage Model2D Model3D Spec SpecNear History
  BitProofs NumberProofs VecProofs CellProofs StorageProofs OrderProofs GridProofs HistoryProofs FactsGrid ExampleTools.

Section Next.
  Context {A B : Type} (off : A -> N) (oth : A -> B).
  Lemma next_len l l' : next_along off oth l l' -> len l' = len l.
  Proof. induction 1 as [l x x'|l l' x x' H IH]; rewrite !len_app; [reflexivity|]. rewrite IH. reflexivity. Qed.
  Lemma next_coord l l' : next_along off oth l l' -> coord off l' = coord off l + 1.
  Proof. induction 1 as [l x x' E E'|l l' x x' H IH E E']; rewrite !coord_snoc, E, E'; [lia|]. rewrite IH. lia. Qed.
  Lemma next_others l l' (f : B -> N) : next_along off oth l l' -> coord (fun x => f (oth x)) l' = coord (fun x => f (oth x)) l.
  Proof. induction 1 as [l x x' E E' O|l l' x x' H IH E E' O]; rewrite !coord_snoc, O; [reflexivity|]. rewrite IH. reflexivity. Qed.

  Hypothesis off_lt : forall x, off x < 2.
  Hypothesis other_half : forall x, exists x', off x' = 1 - off x /\ oth x' = oth x.
  Lemma next_exists l : coord off l + 1 < 2 ^ len l -> exists l', next_along off oth l l'.
  Proof.
    induction l as [|x l IH] using rev_ind; [cbn; lia|]. rewrite coord_snoc, len_app. change (len [x]) with 1.
    rewrite (N.add_1_r (len l)), N.pow_succ_r'. intros H. destruct (other_half x) as (x' & E & O). pose proof (off_lt x) as L.
    destruct (N.eq_dec (off x) 0) as [Z|Z].
    - exists (l ++ [x']). apply next_sibling; [exact Z|rewrite E, Z; reflexivity|exact O].
    - destruct IH as (l' & N'); [lia|]. exists (l' ++ [x']). apply next_of_parent; [exact N'|lia|lia|exact O].
  Qed.
End Next.

(* ---------- the axes ---------- *)
Lemma half2 o q : (exists q', quad_x o q' = 1 - quad_x o q /\ quad_y o q' = quad_y o q)
  /\ (exists q', quad_y o q' = 1 - quad_y o q /\ quad_x o q' = quad_x o q).
Proof.
  split; destruct o, q; first [exists Q0; split; reflexivity|exists Q1; split; reflexivity|exists Q2; split; reflexivity|exists Q3; split; reflexivity].
Qed.
Lemma half3 o q : (exists q', oct_x o q' = 1 - oct_x o q /\ (oct_y o q', oct_z o q') = (oct_y o q, oct_z o q))
  /\ (exists q', oct_y o q' = 1 - oct_y o q /\ (oct_x o q', oct_z o q') = (oct_x o q, oct_z o q))
  /\ (exists q', oct_z o q' = 1 - oct_z o q /\ (oct_x o q', oct_y o q') = (oct_x o q, oct_y o q)).
Proof.
  repeat split; destruct o, q; first [exists O0; split; reflexivity|exists O1; split; reflexivity|exists O2; split; reflexivity
    |exists O3; split; reflexivity|exists O4; split; reflexivity|exists O5; split; reflexivity|exists O6; split; reflexivity|exists O7; split; reflexivity].
Qed.

(* two paths of the same length *)
Lemma next_x2 o (l l' : list quadrant) : len l = len l' ->
  (next_along (quad_x o) (quad_y o) l l' <-> coord (quad_x o) l' = coord (quad_x o) l + 1 /\ coord (quad_y o) l' = coord (quad_y o) l).
Proof.
  intros HL. split.
  - intros H. split; [exact (next_coord _ _ _ _ H)|exact (next_others _ _ _ _ (fun v => v) H)].
  - intros [X Y]. assert (G : coord (quad_x o) l' < 2 ^ len l') by (apply coord_lt; intro q; apply quad_lt). rewrite X, <- HL in G.
    destruct (next_exists (quad_x o) (quad_y o)) with (l := l) as (m & M); [intro q; apply quad_lt|intro q; apply half2|exact G|].
    assert (E : m = l'); [|rewrite <- E; exact M]. apply (c11_grid_index_2d_injective_lemma o).
    + rewrite (next_len _ _ _ _ M). exact HL.
    + unfold grid2. rewrite (next_coord _ _ _ _ M), X. pose proof (next_others _ _ _ _ (fun v => v) M) as O. cbn beta in O.
      f_equal. rewrite Y. exact O.
Qed.
Lemma next_y2 o (l l' : list quadrant) : len l = len l' ->
  (next_along (quad_y o) (quad_x o) l l' <-> coord (quad_y o) l' = coord (quad_y o) l + 1 /\ coord (quad_x o) l' = coord (quad_x o) l).
Proof.
  intros HL. split.
  - intros H. split; [exact (next_coord _ _ _ _ H)|exact (next_others _ _ _ _ (fun v => v) H)].
  - intros [X Y]. assert (G : coord (quad_y o) l' < 2 ^ len l') by (apply coord_lt; intro q; apply quad_lt). rewrite X, <- HL in G.
    destruct (next_exists (quad_y o) (quad_x o)) with (l := l) as (m & M); [intro q; apply quad_lt|intro q; apply half2|exact G|].
    assert (E : m = l'); [|rewrite <- E; exact M]. apply (c11_grid_index_2d_injective_lemma o).
    + rewrite (next_len _ _ _ _ M). exact HL.
    + unfold grid2. rewrite (next_coord _ _ _ _ M), X. pose proof (next_others _ _ _ _ (fun v => v) M) as O. cbn beta in O.
      f_equal. rewrite Y. exact O.
Qed.
Lemma next_x3 o (l l' : list octant) : len l = len l' ->
  (next_along (oct_x o) (fun q => (oct_y o q, oct_z o q)) l l'
   <-> coord (oct_x o) l' = coord (oct_x o) l + 1 /\ coord (oct_y o) l' = coord (oct_y o) l /\ coord (oct_z o) l' = coord (oct_z o) l).
Proof.
  intros HL. split.
  - intros H. split; [exact (next_coord _ _ _ _ H)|]. split; [exact (next_others _ _ _ _ fst H)|exact (next_others _ _ _ _ snd H)].
  - intros (X & Y & Z). assert (G : coord (oct_x o) l' < 2 ^ len l') by (apply coord_lt; intro q; apply oct_lt). rewrite X, <- HL in G.
    destruct (next_exists (oct_x o) (fun q => (oct_y o q, oct_z o q))) with (l := l) as (m & M); [intro q; apply oct_lt|intro q; apply half3|exact G|].
    assert (E : m = l'); [|rewrite <- E; exact M]. apply (c11_grid_index_3d_injective_lemma o).
    + rewrite (next_len _ _ _ _ M). exact HL.
    + pose proof (next_coord _ _ _ _ M) as C1. pose proof (next_others _ _ _ _ fst M) as O1'. pose proof (next_others _ _ _ _ snd M) as O2'.
      cbn [fst snd] in O1', O2'. change (coord (oct_y o) m = coord (oct_y o) l) in O1'. change (coord (oct_z o) m = coord (oct_z o) l) in O2'.
      unfold grid3. congruence.
Qed.
Lemma next_y3 o (l l' : list octant) : len l = len l' ->
  (next_along (oct_y o) (fun q => (oct_x o q, oct_z o q)) l l'
   <-> coord (oct_y o) l' = coord (oct_y o) l + 1 /\ coord (oct_x o) l' = coord (oct_x o) l /\ coord (oct_z o) l' = coord (oct_z o) l).
Proof.
  intros HL. split.
  - intros H. split; [exact (next_coord _ _ _ _ H)|]. split; [exact (next_others _ _ _ _ fst H)|exact (next_others _ _ _ _ snd H)].
  - intros (X & Y & Z). assert (G : coord (oct_y o) l' < 2 ^ len l') by (apply coord_lt; intro q; apply oct_lt). rewrite X, <- HL in G.
    destruct (next_exists (oct_y o) (fun q => (oct_x o q, oct_z o q))) with (l := l) as (m & M); [intro q; apply oct_lt|intro q; apply half3|exact G|].
    assert (E : m = l'); [|rewrite <- E; exact M]. apply (c11_grid_index_3d_injective_lemma o).
    + rewrite (next_len _ _ _ _ M). exact HL.
    + pose proof (next_coord _ _ _ _ M) as C1. pose proof (next_others _ _ _ _ fst M) as O1'. pose proof (next_others _ _ _ _ snd M) as O2'.
      cbn [fst snd] in O1', O2'. change (coord (oct_x o) m = coord (oct_x o) l) in O1'. change (coord (oct_z o) m = coord (oct_z o) l) in O2'.
      unfold grid3. congruence.
Qed.
Lemma next_z3 o (l l' : list octant) : len l = len l' ->
  (next_along (oct_z o) (fun q => (oct_x o q, oct_y o q)) l l'
   <-> coord (oct_z o) l' = coord (oct_z o) l + 1 /\ coord (oct_x o) l' = coord (oct_x o) l /\ coord (oct_y o) l' = coord (oct_y o) l).
Proof.
  intros HL. split.
  - intros H. split; [exact (next_coord _ _ _ _ H)|]. split; [exact (next_others _ _ _ _ fst H)|exact (next_others _ _ _ _ snd H)].
  - intros (X & Y & Z). assert (G : coord (oct_z o) l' < 2 ^ len l') by (apply coord_lt; intro q; apply oct_lt). rewrite X, <- HL in G.
    destruct (next_exists (oct_z o) (fun q => (oct_x o q, oct_y o q))) with (l := l) as (m & M); [intro q; apply oct_lt|intro q; apply half3|exact G|].
    assert (E : m = l'); [|rewrite <- E; exact M]. apply (c11_grid_index_3d_injective_lemma o).
    + rewrite (next_len _ _ _ _ M). exact HL.
    + pose proof (next_coord _ _ _ _ M) as C1. pose proof (next_others _ _ _ _ fst M) as O1'. pose proof (next_others _ _ _ _ snd M) as O2'.
      cbn [fst snd] in O1', O2'. change (coord (oct_x o) m = coord (oct_x o) l) in O1'. change (coord (oct_y o) m = coord (oct_y o) l) in O2'.
      unfold grid3. congruence.
Qed.

(* ---------- C78 ---------- *)
Lemma paths_neighbours2 o l l' : len l = len l' ->
  neighbours2 o l l' (coord (quad_x o) l) (coord (quad_y o) l) (coord (quad_x o) l') (coord (quad_y o) l').
Proof.
  intros H. unfold neighbours2. rewrite !next_x2, !next_y2 by (exact H || (symmetry; exact H)).
  intuition congruence.
Qed.
Lemma paths_neighbours3 o l l' : len l = len l' ->
  neighbours3 o l l' (coord (oct_x o) l) (coord (oct_y o) l) (coord (oct_z o) l) (coord (oct_x o) l') (coord (oct_y o) l') (coord (oct_z o) l').
Proof.
  intros H. unfold neighbours3. cbv zeta. rewrite !next_x3, !next_y3, !next_z3 by (exact H || (symmetry; exact H)).
  intuition congruence.
Qed.
Lemma c78_neighbours_2d_lemma : forall c k k' (s : storage k) (s' : storage k') l l' o x y x' y',
  valid c Dim2D k s -> shows (ops c Dim2D k) s l -> valid c Dim2D k' s' -> shows (ops c Dim2D k') s' l' ->
  len l = len l' -> len l <= usize_bits c ->
  to_grid_index_2d c (ops c Dim2D k) s o = Ret (x, y) -> to_grid_index_2d c (ops c Dim2D k') s' o = Ret (x', y') ->
  neighbours2 o l l' x y x' y'.
Proof.
  intros c k k' s s' l l' o x y x' y' V S V' S' HL HU G G'.
  rewrite (proj1 (c11_to_grid_index_2d_lemma c k s l o V S HU)) in G. injection G as <- <-.
  change (len l = len l') in HL. rewrite HL in HU.
  rewrite (proj1 (c11_to_grid_index_2d_lemma c k' s' l' o V' S' HU)) in G'. injection G' as <- <-.
  apply paths_neighbours2. exact HL.
Qed.
Lemma c78_neighbours_3d_lemma : forall c k k' (s : storage k) (s' : storage k') l l' o x y z x' y' z',
  valid c Dim3D k s -> shows (ops c Dim3D k) s l -> valid c Dim3D k' s' -> shows (ops c Dim3D k') s' l' ->
  len l = len l' -> len l <= usize_bits c ->
  to_grid_index_3d c (ops c Dim3D k) s o = Ret (x, y, z) -> to_grid_index_3d c (ops c Dim3D k') s' o = Ret (x', y', z') ->
  neighbours3 o l l' x y z x' y' z'.
Proof.
  intros c k k' s s' l l' o x y z x' y' z' V S V' S' HL HU G G'.
  rewrite (proj1 (c11_to_grid_index_3d_lemma c k s l o V S HU)) in G. injection G as <- <- <-.
  change (len l = len l') in HL. rewrite HL in HU.
  rewrite (proj1 (c11_to_grid_index_3d_lemma c k' s' l' o V' S' HU)) in G'. injection G' as <- <- <-.
  apply paths_neighbours3. exact HL.
Qed.
(* a node has a next one exactly if it is not at the border *)
Lemma next_bound {A B} (off : A -> N) (oth : A -> B) l : (forall x, off x < 2) -> (forall x, exists x', off x' = 1 - off x /\ oth x' = oth x) ->
  ((exists l', next_along off oth l l') <-> coord off l + 1 < 2 ^ len l).
Proof.
  intros L H. split; [|apply next_exists; assumption].
  intros (l' & N'). rewrite <- (next_coord _ _ _ _ N'), <- (next_len _ _ _ _ N'). apply coord_lt. exact L.
Qed.
Lemma c78_border_2d_lemma : forall c k (s : storage k) l o x y,
  valid c Dim2D k s -> shows (ops c Dim2D k) s l -> len l <= usize_bits c -> to_grid_index_2d c (ops c Dim2D k) s o = Ret (x, y) ->
  ((exists l', next_along (quad_x o) (quad_y o) l l') <-> x + 1 < 2 ^ len l)
  /\ ((exists l', next_along (quad_y o) (quad_x o) l l') <-> y + 1 < 2 ^ len l).
Proof.
  intros c k s l o x y V S HU G. rewrite (proj1 (c11_to_grid_index_2d_lemma c k s l o V S HU)) in G. injection G as <- <-.
  split; apply (next_bound (A := quadrant)); intro q; (apply quad_lt || apply half2).
Qed.
Lemma c78_border_3d_lemma : forall c k (s : storage k) l o x y z,
  valid c Dim3D k s -> shows (ops c Dim3D k) s l -> len l <= usize_bits c -> to_grid_index_3d c (ops c Dim3D k) s o = Ret (x, y, z) ->
  ((exists l', next_along (oct_x o) (fun q => (oct_y o q, oct_z o q)) l l') <-> x + 1 < 2 ^ len l)
  /\ ((exists l', next_along (oct_y o) (fun q => (oct_x o q, oct_z o q)) l l') <-> y + 1 < 2 ^ len l)
  /\ ((exists l', next_along (oct_z o) (fun q => (oct_x o q, oct_y o q)) l l') <-> z + 1 < 2 ^ len l).
Proof.
  intros c k s l o x y z V S HU G. rewrite (proj1 (c11_to_grid_index_3d_lemma c k s l o V S HU)) in G. injection G as <- <- <-.
  split; [|split]; apply (next_bound (A := octant)); intro q; (apply oct_lt || apply half3).
Qed.
(* a neighbour is found by its coordinates *)
Lemma found2 c k k' (s : storage k) (s' : storage k') l o x y x' y' :
  valid c Dim2D k s -> shows (ops c Dim2D k) s l -> len l <= usize_bits c -> to_grid_index_2d c (ops c Dim2D k) s o = Ret (x, y) ->
  valid c Dim2D k' s' -> st_depth (ops c Dim2D k') s' = len l -> x' < 2 ^ len l -> y' < 2 ^ len l ->
  to_grid_index_2d c (ops c Dim2D k') s' o = Ret (x' mod 2 ^ len l, y' mod 2 ^ len l) ->
  exists l', shows (ops c Dim2D k') s' l' /\ neighbours2 o l l' x y x' y'.
Proof.
  intros V S HU G V' D X Y G'. rewrite !N.mod_small in G' by assumption.
  destruct (valid_repr c Dim2D k' s' dim2_ok V') as (l' & R'). pose proof (repr_shows _ _ _ _ _ dim2_ok R') as S'.
  exists l'. split; [exact S'|]. refine (c78_neighbours_2d_lemma c k k' s s' l l' o x y x' y' V S V' S' _ HU G G').
  rewrite <- D. exact (proj1 S').
Qed.
Lemma found3 c k k' (s : storage k) (s' : storage k') l o x y z x' y' z' :
  valid c Dim3D k s -> shows (ops c Dim3D k) s l -> len l <= usize_bits c -> to_grid_index_3d c (ops c Dim3D k) s o = Ret (x, y, z) ->
  valid c Dim3D k' s' -> st_depth (ops c Dim3D k') s' = len l -> x' < 2 ^ len l -> y' < 2 ^ len l -> z' < 2 ^ len l ->
  to_grid_index_3d c (ops c Dim3D k') s' o = Ret (x' mod 2 ^ len l, y' mod 2 ^ len l, z' mod 2 ^ len l) ->
  exists l', shows (ops c Dim3D k') s' l' /\ neighbours3 o l l' x y z x' y' z'.
Proof.
  intros V S HU G V' D X Y Z G'. rewrite !N.mod_small in G' by assumption.
  destruct (valid_repr c Dim3D k' s' dim3_ok V') as (l' & R'). pose proof (repr_shows _ _ _ _ _ dim3_ok R') as S'.
  exists l'. split; [exact S'|]. refine (c78_neighbours_3d_lemma c k k' s s' l l' o x y z x' y' z' V S V' S' _ HU G G').
  rewrite <- D. exact (proj1 S').
Qed.
Lemma small_word c d x : d <= usize_bits c -> x < 2 ^ d -> x < 2 ^ usize_bits c.
Proof. intros H X. eapply N.lt_le_trans; [exact X|apply N.pow_le_mono_r; [discriminate|exact H]]. Qed.
Lemma c78_find_fixed_2d_lemma : forall c t (s : storage (KFixed t)) l o x y x' y',
  valid c Dim2D (KFixed t) s -> shows (fixed_ops c Dim2D t) s l -> BITS c t / 2 <= usize_bits c ->
  to_grid_index_2d c (fixed_ops c Dim2D t) s o = Ret (x, y) -> x' < 2 ^ len l -> y' < 2 ^ len l ->
  exists s' l', fixed_from_grid_index_2d c t x' y' o = Ret s' /\ shows (fixed_ops c Dim2D t) s' l' /\ neighbours2 o l l' x y x' y'.
Proof.
  intros c t s l o x y x' y' V S HU G X Y. assert (D : len l = BITS c t / 2) by (symmetry; exact (proj1 S)).
  destruct (c06_fixed_2d_round_trip_lemma c t x' y' o HU) as (s' & E & V' & G');
    [eapply small_word; [exact HU|rewrite <- D; exact X]|eapply small_word; [exact HU|rewrite <- D; exact Y]|].
  rewrite <- D in G', HU. destruct (found2 c (KFixed t) (KFixed t) s s' l o x y x' y' V S HU G V' (eq_sym D) X Y G') as (l' & S' & Nb).
  exists s', l'. auto.
Qed.
Lemma c78_find_static_2d_lemma : forall c t (s : storage (KStatic t)) l o x y x' y',
  valid c Dim2D (KStatic t) s -> shows (static_ops c Dim2D t) s l -> BITS c t / 2 <= usize_bits c ->
  to_grid_index_2d c (static_ops c Dim2D t) s o = Ret (x, y) -> l <> [] -> x' < 2 ^ len l -> y' < 2 ^ len l ->
  exists s' l', static_from_grid_index_2d c t x' y' (sx_depth s) o = Ret (Ok s') /\ shows (static_ops c Dim2D t) s' l'
    /\ neighbours2 o l l' x y x' y'.
Proof.
  intros c t s l o x y x' y' V S HU G NE X Y. assert (D : sx_depth s = len l) by exact (proj1 S). rewrite D.
  assert (M : len l <= BITS c t / 2) by (exact (static_room c Dim2D t s l dim2_ok (valid_shows _ _ _ _ _ dim2_ok V S))).
  assert (HL : len l <= usize_bits c) by lia.
  destruct (c08_static_2d_round_trip_partial_lemma c t x' y' (len l) o HU) as (s' & E & V' & D' & G');
    [eapply small_word; eassumption|eapply small_word; eassumption|exact M|left; destruct l; [contradiction|rewrite len_cons; lia]|].
  destruct (found2 c (KStatic t) (KStatic t) s s' l o x y x' y' V S HL G V' D' X Y G') as (l' & S' & Nb).
  exists s', l'. auto.
Qed.
Lemma c78_find_dynamic_2d_lemma : forall c (s : storage KDynamic) l o x y x' y',
  valid c Dim2D KDynamic s -> shows (dynamic_ops c Dim2D) s l -> len l <= usize_bits c / 2 ->
  to_grid_index_2d c (dynamic_ops c Dim2D) s o = Ret (x, y) -> x' < 2 ^ len l -> y' < 2 ^ len l ->
  exists s' l', dynamic_from_grid_index_2d c x' y' (dy_depth s) o = Ret s' /\ shows (dynamic_ops c Dim2D) s' l'
    /\ neighbours2 o l l' x y x' y'.
Proof.
  intros c s l o x y x' y' V S HU G X Y. assert (D : dy_depth s = len l) by exact (proj1 S). rewrite D.
  assert (HL : len l <= usize_bits c) by (pose proof (N.div_le_upper_bound (usize_bits c) 2 (usize_bits c)); lia).
  destruct (c10_dynamic_2d_round_trip_lemma c x' y' (len l) o HU) as (s' & E & V' & D' & G'); [eapply small_word; eassumption|eapply small_word; eassumption|].
  destruct (found2 c KDynamic KDynamic s s' l o x y x' y' V S HL G V' D' X Y G') as (l' & S' & Nb).
  exists s', l'. auto.
Qed.
Lemma c78_find_fixed_3d_lemma : forall c t (s : storage (KFixed t)) l o x y z x' y' z',
  valid c Dim3D (KFixed t) s -> shows (fixed_ops c Dim3D t) s l -> 32 <= usize_bits c -> BITS c t / 3 <= usize_bits c ->
  to_grid_index_3d c (fixed_ops c Dim3D t) s o = Ret (x, y, z) -> x' < 2 ^ len l -> y' < 2 ^ len l -> z' < 2 ^ len l ->
  exists s' l', fixed_from_grid_index_3d c t x' y' z' o = Ret s' /\ shows (fixed_ops c Dim3D t) s' l' /\ neighbours3 o l l' x y z x' y' z'.
Proof.
  intros c t s l o x y z x' y' z' V S H32 HU G X Y Z. assert (D : len l = BITS c t / 3) by (symmetry; exact (proj1 S)).
  destruct (c07_fixed_3d_round_trip_partial_lemma c t x' y' z' o H32 HU) as (s' & E & V' & G').
  rewrite <- D in G', HU. destruct (found3 c (KFixed t) (KFixed t) s s' l o x y z x' y' z' V S HU G V' (eq_sym D) X Y Z G') as (l' & S' & Nb).
  exists s', l'. auto.
Qed.
Lemma c78_find_dynamic_3d_lemma : forall c (s : storage KDynamic) l o x y z x' y' z', writable c KDynamic ->
  valid c Dim3D KDynamic s -> shows (dynamic_ops c Dim3D) s l -> len l <= usize_bits c / 2 ->
  to_grid_index_3d c (dynamic_ops c Dim3D) s o = Ret (x, y, z) -> x' < 2 ^ len l -> y' < 2 ^ len l -> z' < 2 ^ len l ->
  exists s' l', dynamic_from_grid_index_3d c x' y' z' (dy_depth s) o = Ret s' /\ shows (dynamic_ops c Dim3D) s' l'
    /\ neighbours3 o l l' x y z x' y' z'.
Proof.
  intros c s l o x y z x' y' z' W V S HU G X Y Z. assert (D : dy_depth s = len l) by exact (proj1 S). rewrite D.
  assert (HL : len l <= usize_bits c) by (pose proof (N.div_le_upper_bound (usize_bits c) 2 (usize_bits c)); lia).
  destruct (c10_dynamic_3d_round_trip_lemma c x' y' z' (len l) o W HU) as (s' & E & V' & D' & G'); try (eapply small_word; eassumption).
  destruct (found3 c KDynamic KDynamic s s' l o x y z x' y' z' V S HL G V' D' X Y Z G') as (l' & S' & Nb).
  exists s', l'. auto.
Qed.
(* and comes later in the order *)
Lemma c78_next_is_greater_2d_lemma : forall c L k (a b : storage k) la lb o,
  made c Dim2D L k true a la -> made c Dim2D L k true b lb -> len la <= usize_bits c ->
  next_along (quad_x o) (quad_y o) la lb \/ next_along (quad_y o) (quad_x o) la lb -> idx_cmp c Dim2D k a b = Ret Lt.
Proof.
  intros c L k a b la lb o Ma Mb HU H. destruct (made_canon _ _ _ _ _ _ Ma) as [_ Ca]. destruct (made_canon _ _ _ _ _ _ Mb) as [_ Cb].
  apply canon_repr in Ca, Cb. assert (HL : len la = len lb) by (destruct H as [H|H]; symmetry; apply (next_len _ _ _ _ H)).
  assert (Ga := to_grid_index_2d_ok c k a o la Ca HU). assert (HU' := HU). rewrite HL in HU'.
  assert (Gb := to_grid_index_2d_ok c k b o lb Cb HU').
  assert (P : (coord (quad_x o) la <= coord (quad_x o) lb /\ coord (quad_y o) la <= coord (quad_y o) lb)
    /\ ~ (coord (quad_x o) la = coord (quad_x o) lb /\ coord (quad_y o) la = coord (quad_y o) lb)).
  { destruct H as [H|H]; [apply (next_x2 o la lb HL) in H|apply (next_y2 o la lb HL) in H]; destruct H as [E1 E2]; lia. }
  destruct P as [[P1 P2] P3]. assert (Da := raw_depth _ _ _ _ _ _ _ _ Ca). assert (Db := raw_depth _ _ _ _ _ _ _ _ Cb).
  rewrite <- Da, <- Db in HL. rewrite <- Da in HU.
  destruct (c40_z_order_2d_lemma c L k a b la lb o _ _ _ _ Ma Mb HL HU Ga Gb P1 P2) as (r & E & NG & NE).
  rewrite E. destruct r; [exfalso; apply P3, NE; reflexivity|reflexivity|contradiction].
Qed.
Lemma c78_next_is_greater_3d_lemma : forall c L k (a b : storage k) la lb o,
  made c Dim3D L k true a la -> made c Dim3D L k true b lb -> len la <= usize_bits c ->
  next_along (oct_x o) (fun q => (oct_y o q, oct_z o q)) la lb \/ next_along (oct_y o) (fun q => (oct_x o q, oct_z o q)) la lb
  \/ next_along (oct_z o) (fun q => (oct_x o q, oct_y o q)) la lb -> idx_cmp c Dim3D k a b = Ret Lt.
Proof.
  intros c L k a b la lb o Ma Mb HU H. destruct (made_canon _ _ _ _ _ _ Ma) as [_ Ca]. destruct (made_canon _ _ _ _ _ _ Mb) as [_ Cb].
  apply canon_repr in Ca, Cb. assert (HL : len la = len lb) by (destruct H as [H|[H|H]]; symmetry; apply (next_len _ _ _ _ H)).
  assert (Ga := to_grid_index_3d_ok c k a o la Ca HU). assert (HU' := HU). rewrite HL in HU'.
  assert (Gb := to_grid_index_3d_ok c k b o lb Cb HU').
  assert (P : (coord (oct_x o) la <= coord (oct_x o) lb /\ coord (oct_y o) la <= coord (oct_y o) lb /\ coord (oct_z o) la <= coord (oct_z o) lb)
    /\ ~ (coord (oct_x o) la = coord (oct_x o) lb /\ coord (oct_y o) la = coord (oct_y o) lb /\ coord (oct_z o) la = coord (oct_z o) lb)).
  { destruct H as [H|[H|H]]; [apply (next_x3 o la lb HL) in H|apply (next_y3 o la lb HL) in H|apply (next_z3 o la lb HL) in H]; destruct H as (E1 & E2 & E3); lia. }
  destruct P as [(P1 & P2 & P4) P3]. assert (Da := raw_depth _ _ _ _ _ _ _ _ Ca). assert (Db := raw_depth _ _ _ _ _ _ _ _ Cb).
  rewrite <- Da, <- Db in HL. rewrite <- Da in HU.
  destruct (c40_z_order_3d_lemma c L k a b la lb o _ _ _ _ _ _ Ma Mb HL HU Ga Gb P1 P2 P4) as (r & E & NG & NE).
  rewrite E. destruct r; [exfalso; apply P3, NE; reflexivity|reflexivity|contradiction].
Qed.
(* static 3D indices: from_grid_index loses bits (C09), so the node found may be the one started from *)
Lemma c78_find_static_3d_refuted_lemma :
  ~ (forall c t (s : storage (KStatic t)) l o x y z x' y' z',
     valid c Dim3D (KStatic t) s -> shows (static_ops c Dim3D t) s l -> 32 <= usize_bits c -> BITS c t / 3 <= usize_bits c ->
     to_grid_index_3d c (static_ops c Dim3D t) s o = Ret (x, y, z) -> l <> [] -> x' < 2 ^ len l -> y' < 2 ^ len l -> z' < 2 ^ len l ->
     exists s' l', static_from_grid_index_3d c t x' y' z' (sx_depth s) o = Ret (Ok s') /\ shows (static_ops c Dim3D t) s' l'
       /\ neighbours3 o l l' x y z x' y' z').
Proof.
  intros H. specialize (H debug64 U64 (MkStatic 0 8) [O0; O0; O0; O0; O0; O0; O0; O0] XYZ 0 0 0 1 0 0).
  assert (S : shows (static_ops debug64 Dim3D U64) (MkStatic 0 8) [O0; O0; O0; O0; O0; O0; O0; O0]) by concrete.
  assert (Es : static_from_grid_index_3d debug64 U64 1 0 0 8 XYZ = Ret (Ok (MkStatic 0 8))) by (vm_compute; reflexivity).
  destruct H as (s' & l' & E & S' & Nb).
  - vm_compute. split; [reflexivity|discriminate].
  - exact S.
  - vm_compute; discriminate.
  - vm_compute; discriminate.
  - vm_compute; reflexivity.
  - discriminate.
  - vm_compute; reflexivity.
  - vm_compute; reflexivity.
  - vm_compute; reflexivity.
  - assert (E2 : Ret (Ok (MkStatic 0 8)) = Ret (Ok s')) by (rewrite <- Es; exact E). injection E2 as <-.
    rewrite (shows_unique _ _ _ _ S' S) in Nb.
    destruct Nb as [[_ Nb] _]. specialize (Nb (conj eq_refl (conj eq_refl eq_refl))). apply next_coord in Nb. vm_compute in Nb. discriminate Nb.
Qed.
