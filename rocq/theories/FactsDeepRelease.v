(* FactsDeepRelease.v - lemmas behind PropDeepRelease.v: static 3D indices whose raw depth exceeds the maximum, without overflow checks (C65) *)
From Coq Require Import ZifyBool ZifyNat ZifyN.
From Verif Require Import Base ModelNumber ModelDim ModelStorage Model2D Model3D ModelBits Spec SpecDeep BitProofs NumberProofs VecProofs CellProofs StorageProofs
  ConvProofs GridProofs NameProofs FactsGrid FactsUser FactsDeep.

Lemma level_fits c t i : i < BITS c t / 3 -> (i + 1) * 3 <= BITS c t.
Proof. intro H. pose proof (N.div_mod' (BITS c t) 3). clear - H H0. lia. Qed.
Lemma set_total c t b d i x : overflow_checks c = false -> b < 2 ^ BITS c t -> i < 255 ->
  exists b', st_set (static_ops c Dim3D t) (MkStatic b d) i x = Ret (MkStatic b' d) /\ b' < 2 ^ BITS c t
    /\ (x = cell_zero Dim3D -> forall j, j < BITS c t -> N.testbit b' j = negb (clears (BITS c t) i j) && N.testbit b j)
    /\ (i < BITS c t / 3 -> b' = put b (field Dim3D (BITS c t) i) 3 (cell_index Dim3D x)).
Proof.
  intros HO Hb Hi. pose proof (N.div_mod' (BITS c t) 3) as DM.
  destruct (N.lt_ge_cases i (BITS c t / 3)) as [L|L].
  - cbn [static_ops st_set sx_bits sx_depth]. change (static_set_cell c Dim3D t) with (fixed_set_cell c Dim3D t).
    rewrite fixed_set_num; [|exact dim3_ok|exact Hb|change (dim Dim3D) with 3; clear - DM L; lia]. rewrite bind_ret. unfold field. change (dim Dim3D) with 3.
    eexists. split; [reflexivity|]. split; [|split; [|reflexivity]].
    + apply put_lt; [exact Hb|]. clear - DM L. lia.
    + intros -> j Hj. rewrite testbit_put. unfold clears. rewrite (proj2 (N.ltb_lt i _) L).
      replace (BITS c t - (i + 1) * 3 + 3) with (BITS c t - 3 * i) by (clear - DM L; lia). replace (BITS c t - (i + 1) * 3) with (BITS c t - 3 * (i + 1)) by (clear; lia).
      destruct ((BITS c t - 3 * (i + 1) <=? j) && (j <? BITS c t - 3 * i)); cbn [negb andb]; [|reflexivity].
      change (cell_index Dim3D (cell_zero Dim3D)) with 0. apply testbit_0.
  - destruct (c65_set_cell_release_lemma c t b (i + 1) i x HO Hb L ltac:(lia) ltac:(change (2 ^ 8) with 256 in *; lia)) as (b' & E & Hb' & F). cbv zeta in F.
    unfold set_cell_at_level in E. cbn [static_ops st_depth st_set static_from_raw_index sx_depth sx_bits] in E. rewrite (proj2 (N.leb_gt (i + 1) i) ltac:(lia)) in E.
    exists b'. split; [|split; [exact Hb'|split; [|lia]]].
    + cbn [static_ops st_set sx_bits sx_depth]. destruct (static_set_cell c Dim3D t b i x) as [v| |]; cbn [bind] in *; try discriminate.
      unfold static_from_raw_index in E. injection E as ->. reflexivity.
    + intros -> j Hj. rewrite F by exact Hj. unfold clears. rewrite (proj2 (N.ltb_ge i _) L). cbv zeta.
      change (cell_index Dim3D (cell_zero Dim3D)) with 0. rewrite !testbit_0.
      set (p := (BITS c t - 3 * (i + 1) mod BITS c t) mod BITS c t). set (n := if 3 * (i + 1) <=? BITS c t + 3 then 0 else 3).
      destruct (N.ltb_spec j p), (N.leb_spec p j), (N.ltb_spec j (p + n)); cbn [negb andb]; try reflexivity; try lia; try apply orb_false_r.
Qed.
(* reading a level that fits after writing one that fits *)
Lemma get_after_put c t b d i x j : b < 2 ^ BITS c t -> i < BITS c t / 3 -> j < BITS c t / 3 ->
  st_get (static_ops c Dim3D t) (MkStatic (put b (field Dim3D (BITS c t) i) 3 (cell_index Dim3D x)) d) j
  = if j =? i then Ret x else st_get (static_ops c Dim3D t) (MkStatic b d) j.
Proof.
  intros Hb Hi Hj. pose proof (level_fits c t i Hi) as Fi. pose proof (level_fits c t j Hj) as Fj.
  assert (Hp : put b (field Dim3D (BITS c t) i) 3 (cell_index Dim3D x) < 2 ^ BITS c t).
  { apply put_lt; [exact Hb|]. unfold field. change (dim Dim3D) with 3. clear - Fi. lia. }
  cbn [static_ops st_get sx_bits]. change (static_get_cell c Dim3D t) with (fixed_get_cell c Dim3D t).
  rewrite !fixed_get_num by (exact dim3_ok || assumption). change (dim Dim3D) with 3.
  destruct (N.eqb_spec j i) as [->|Hne].
  - rewrite bits_of_put_same. rewrite N.mod_small by exact (idx_lt Dim3D dim3_ok x). rewrite (proj2 (try_ok Dim3D dim3_ok _ _) eq_refl). reflexivity.
  - rewrite bits_of_put_other; [reflexivity|]. unfold field. change (dim Dim3D) with 3. clear - Fi Fj Hne. lia.
Qed.
Lemma cells_to_dynamic c D L (l : list (cell D)) : is_dim D L -> len l < 256 ->
  exists s', descendant (dynamic_vops c D L) dynamic_default l = Ret (Some s') /\ valid c D KDynamic s' /\ shows (dynamic_ops c D) s' (map (stored c D KDynamic) l).
Proof.
  intros HL H256. pose proof (is_dim_ok D L HL) as HD. pose proof (usize_big c) as U.
  pose proof (canon_dynamic_default c D L HL) as Hd0.
  destruct (dynamic_descendant_w c D L dynamic_default [] l HL) as (s' & E' & R' & _).
  - cbn [dynamic_default dy_bits]. change (len (@nil N)) with 0. change (len (@nil (cell D))) with 0.
    destruct (nbytes_fit D (0 + len l)). pose proof (dim_le D HD). assert (dim D * len l <= 3 * len l) by (apply N.mul_le_mono_r; exact H1).
    change (nbytes D 0) with ((dim D * 0 + 7) / 8). rewrite N.mul_0_r. change ((0 + 7) / 8) with 0. cbn [N.add] in *. lia.
  - eapply canon_repr; exact Hd0.
  - exists s'. cbn [app] in R'. split; [exact E'|]. split; [eapply repr_valid; eassumption|apply (repr_shows c D KDynamic); assumption].
Qed.
Lemma grid_3d_release {S} c (op : StorageOps Dim3D S) s o l : overflow_checks c = false -> shows op s l ->
  exists x y z, to_grid_index_3d c op s o = Ret (x, y, z)
    /\ folded (usize_bits c) (coord (oct_x o) l) x /\ folded (usize_bits c) (coord (oct_y o) l) y /\ folded (usize_bits c) (coord (oct_z o) l) z.
Proof.
  intros HO S0. unfold to_grid_index_3d. rewrite (proj1 S0).
  match goal with |- context [foldM ?f _ _] => destruct (foldM_range_inv (fun i xyz =>
     folded (usize_bits c) (coord (oct_x o) (firstn (N.to_nat i) l) * 2 ^ (len l - i)) (fst (fst xyz))
     /\ folded (usize_bits c) (coord (oct_y o) (firstn (N.to_nat i) l) * 2 ^ (len l - i)) (snd (fst xyz))
     /\ folded (usize_bits c) (coord (oct_z o) (firstn (N.to_nat i) l) * 2 ^ (len l - i)) (snd xyz))
     f 0 (len l) (0, 0, 0)) as (r & E & Hr) end.
  - lia.
  - cbn [fst snd N.to_nat firstn coord]. unfold coord. cbn [fold_left]. rewrite N.mul_0_l. split; [|split]; apply folded_0.
  - intros i [[x y] z] Hi (Fx & Fy & Fz). cbn [fst snd] in *. destruct (nth_error_N_lt l i) as [q Hq]; [lia|].
    rewrite (shows_get _ _ _ _ _ S0 Hq), bind_ret. rewrite octant_to_index_spec.
    rewrite sub_ok by lia. rewrite bind_ret. rewrite sub_ok by lia. rewrite bind_ret.
    rewrite !shl_release by exact HO. rewrite !bind_ret. eexists. split; [reflexivity|]. cbn [fst snd].
    rewrite (firstn_nth_snoc l i q Hq), !coord_snoc. replace (len l - (i + 1)) with (len l - i - 1) by lia.
    replace (len l - i) with (len l - i - 1 + 1) in Fx, Fy, Fz by lia.
    destruct (oct_lt o q) as (Lx & Ly & Lz). split; [|split]; (eapply folded_step; [reflexivity|eassumption|assumption]).
  - destruct r as [[x y] z]. exists x, y, z. split; [exact E|]. rewrite N.sub_diag, to_nat_len, firstn_all in Hr.
    change (2 ^ 0) with 1 in Hr. rewrite !N.mul_1_r in Hr. exact Hr.
Qed.

(* ---------- C65 ---------- *)
Lemma c65_reading_release_lemma : forall c t b d l, overflow_checks c = false -> BITS c t / 3 < d -> d < 2 ^ 8 ->
  let s := static_from_raw_index b d in
  shows (static_ops c Dim3D t) s l ->
  collect_cells c (static_ops c Dim3D t) s = Ret l
  /\ (forall o, exists x y z, to_grid_index_3d c (static_ops c Dim3D t) s o = Ret (x, y, z)
        /\ folded (usize_bits c) (coord (oct_x o) l) x /\ folded (usize_bits c) (coord (oct_y o) l) y /\ folded (usize_bits c) (coord (oct_z o) l) z)
  /\ to_string_3d c (static_ops c Dim3D t) s CellConcatenation = Ret (String.concat "" (map (fun q => decimal (octant_index q)) l))
  /\ (exists text, to_string_3d c (static_ops c Dim3D t) s GridIndex = Ret text)
  /\ exists s', dynamic_from_static c Dim3D layout3D t s = Ret s' /\ valid c Dim3D KDynamic s'
       /\ shows (dynamic_ops c Dim3D) s' (map (stored c Dim3D KDynamic) l).
Proof.
  intros c t b d l HO Hd Hl s S. pose proof (usize_big c) as U. assert (Ln : len l = d) by (symmetry; exact (proj1 S)).
  change (2 ^ 8) with 256 in Hl.
  destruct (c67_cells_lemma Dim3D _ c _ s l S) as [E _]; [lia|]. destruct (c67_three_dimensions_lemma _ c _ s l S) as (N1 & _ & _).
  split; [exact E|]. split; [intro o; exact (grid_3d_release c _ s o l HO S)|]. split; [exact N1|]. split.
  - cbn [to_string_3d]. destruct (grid_3d_release c _ s octant_ordering_default l HO S) as (x & y & z & -> & _). rewrite bind_ret. eexists. reflexivity.
  - unfold dynamic_from_static. rewrite E, bind_ret. destruct (cells_to_dynamic c Dim3D layout3D l is_dim3 ltac:(lia)) as (s' & -> & V & S').
    exists s'. split; [reflexivity|]. auto.
Qed.
Lemma c65_inverted_release_lemma : forall c t b d l, overflow_checks c = false -> b < 2 ^ BITS c t -> BITS c t / 3 < d -> d < 2 ^ 8 ->
  shows (static_ops c Dim3D t) (static_from_raw_index b d) l ->
  exists b', inverted c (static_ops c Dim3D t) (static_from_raw_index b d) = Ret (static_from_raw_index b' d) /\ b' < 2 ^ BITS c t
    /\ forall i, i < BITS c t / 3 -> get_cell_at_level (static_ops c Dim3D t) (static_from_raw_index b' d) i
                 = get_cell_at_level (static_ops c Dim3D t) (static_from_raw_index b d) (d - 1 - i).
Proof.
  intros c t b d l HO Hb Hd Hl S. change (2 ^ 8) with 256 in Hl. assert (Ln : len l = d) by (symmetry; exact (proj1 S)).
  pose proof (usize_big c) as U. unfold inverted. change (st_depth (static_ops c Dim3D t) (static_from_raw_index b d)) with d.
  match goal with |- context [foldM ?f _ _] => destruct (foldM_range_inv (fun k s' => exists b', s' = MkStatic b' d /\ b' < 2 ^ BITS c t
     /\ forall i x, d - k <= i -> i < BITS c t / 3 -> nth_error l (N.to_nat (d - 1 - i)) = Some x -> st_get (static_ops c Dim3D t) (MkStatic b' d) i = Ret x)
     f 0 d (static_from_raw_index b d)) as (s' & E & (b' & -> & Hb' & F)) end.
  - lia.
  - exists b. split; [reflexivity|]. split; [exact Hb|]. intros i x H1 H2. lia.
  - intros k s1 Hk (b1 & -> & Hb1 & F). rewrite sub_ok by lia. rewrite bind_ret. rewrite sub_ok by lia. rewrite bind_ret.
    destruct (nth_error_N_lt l k) as [x Hx]; [lia|]. rewrite (shows_get _ _ _ _ _ S Hx), bind_ret.
    destruct (set_total c t b1 d (d - k - 1) x HO Hb1) as (b2 & E2 & Hb2 & _ & P); [lia|].
    exists (MkStatic b2 d). split; [exact E2|]. exists b2. split; [reflexivity|]. split; [exact Hb2|].
    intros i y H1 H2 Hy. rewrite P by lia. rewrite get_after_put by (exact Hb1 || lia).
    destruct (N.eqb_spec i (d - k - 1)) as [Hi|Hi].
    + replace (d - 1 - i) with k in Hy by (clear - Hi Hk; lia). rewrite Hx in Hy. injection Hy as ->. reflexivity.
    + apply F; [clear - H1 Hi Hk; lia|exact H2|exact Hy].
  - exists b'. split; [exact E|]. split; [exact Hb'|]. intros i Hi. unfold get_cell_at_level. cbn [static_ops st_depth static_from_raw_index sx_depth].
    destruct (N.leb_spec d i); [lia|]. destruct (N.leb_spec d (d - 1 - i)); [lia|].
    destruct (nth_error_N_lt l (d - 1 - i)) as [x Hx]; [lia|]. rewrite (shows_get _ _ _ _ _ S Hx). apply F; [lia|exact Hi|exact Hx].
Qed.
Lemma c65_tree_release_lemma : forall c t b d, overflow_checks c = false -> b < 2 ^ BITS c t -> BITS c t / 3 < d -> d < 2 ^ 8 ->
  let s := static_from_raw_index b d in
  (forall g, if d <? g then ancestor (static_vops c Dim3D t) s g = Ret None
     else exists b', ancestor (static_vops c Dim3D t) s g = Ret (Some (static_from_raw_index b' (d - g))) /\ b' < 2 ^ BITS c t
            /\ forall j, j < BITS c t -> N.testbit b' j = negb (existsb (fun i => clears (BITS c t) i j) (range (d - g) d)) && N.testbit b j)
  /\ parent (static_vops c Dim3D t) s = ancestor (static_vops c Dim3D t) s 1
  /\ (forall n, with_depth c (static_vops c Dim3D t) s n = if d <? n then Ret None else if n =? d then Ret (Some s) else ancestor (static_vops c Dim3D t) s (d - n))
  /\ (forall cells, d + len cells < 2 ^ usize_bits c -> descendant (static_vops c Dim3D t) s cells = Ret None)
  /\ (forall x, child (static_vops c Dim3D t) s x = Ret None)
  /\ fixed_from_static s = fixed_from_raw_index b.
Proof.
  intros c t b d HO Hb Hd Hl s. pose proof (small_off c d Hl) as [_ Ho].
  assert (Dn : forall cells, d + len cells < 2 ^ usize_bits c -> descendant (static_vops c Dim3D t) s cells = Ret None).
  { intros cells H. unfold descendant. cbn [static_vops vo_descendant]. unfold static_descendant. change (sx_depth s) with d. rewrite add_ok by exact H. rewrite bind_ret.
    change (MAX_LEVELS c Dim3D t) with (BITS c t / 3). destruct (N.ltb_spec (BITS c t / 3) (d + len cells)); [reflexivity|lia]. }
  split; [|split; [reflexivity|split; [|split; [exact Dn|split; [|reflexivity]]]]].
  - intro g. unfold ancestor. cbn [static_vops vo_ancestor]. unfold static_ancestor. change (sx_depth s) with d.
    destruct (N.ltb_spec d g) as [H|H]; [reflexivity|]. rewrite cast_small by lia. rewrite sub_ok by exact H. rewrite bind_ret.
    destruct (foldM_range_inv (fun k s1 => exists b1, s1 = MkStatic b1 d /\ b1 < 2 ^ BITS c t
        /\ forall j, j < BITS c t -> N.testbit b1 j = negb (existsb (fun i => clears (BITS c t) i j) (range (d - g) k)) && N.testbit b j)
      (fun r level => st_set (static_ops c Dim3D t) r level (cell_zero Dim3D)) (d - g) d s) as (s1 & E & (b1 & -> & Hb1 & F)).
    + lia.
    + exists b. split; [reflexivity|]. split; [exact Hb|]. intros j Hj. rewrite range_nil by lia. reflexivity.
    + intros k s1 Hk (b1 & -> & Hb1 & F). destruct (set_total c t b1 d k (cell_zero Dim3D) HO Hb1) as (b2 & E2 & Hb2 & P & _); [change (2 ^ 8) with 256 in Hl; lia|].
      exists (MkStatic b2 d). split; [exact E2|]. exists b2. split; [reflexivity|]. split; [exact Hb2|].
      intros j Hj. rewrite P by (reflexivity || exact Hj). rewrite F by exact Hj. rewrite range_snoc by lia. rewrite existsb_app. cbn [existsb].
      rewrite orb_false_r, negb_orb. rewrite andb_assoc. f_equal. apply andb_comm.
    + change (st_set (static_ops c Dim3D t)) with (st_set (static_ops c Dim3D t)) in E. rewrite E, bind_ret. cbn [sx_bits]. exists b1. split; [reflexivity|]. auto.
  - intro n. unfold with_depth. change (st_depth (vo_ops (static_vops c Dim3D t)) s) with d. destruct (N.ltb_spec d n) as [H|H]; [reflexivity|].
    rewrite sub_ok by exact H. rewrite bind_ret. destruct (N.eqb_spec n d) as [->|Hne].
    + rewrite N.sub_diag. reflexivity.
    + destruct (N.eqb_spec (d - n) 0); [lia|reflexivity].
  - intro x. apply Dn. change (len [x]) with 1. exact Ho.
Qed.
