(* FactsGrid.v - proofs of the theorems stated in PropGrid.v *)
From Verif Require Import Base ModelNumber ModelDim ModelStorage Model2D Model3D Spec History BitProofs NumberProofs VecProofs CellProofs StorageProofs OrderProofs ConvProofs GridProofs Grid2DProofs Grid3DProofs HistoryProofs FactsCells FactsOrder FactsTree ExampleTools.

Lemma to_grid_2d_of c k s l o d x y : repr c Dim2D k s l -> path_to2 o d x y l -> d <= usize_bits c ->
  valid c Dim2D k s /\ st_depth (ops c Dim2D k) s = d
  /\ to_grid_index_2d c (ops c Dim2D k) s o = Ret (x mod 2 ^ d, y mod 2 ^ d).
Proof.
  intros R [Hl Hg] Hd. split; [eapply repr_valid; [apply dim2_ok|exact R]|]. split; [rewrite (raw_depth _ _ _ _ _ _ _ _ R); exact Hl|].
  rewrite (to_grid_index_2d_ok c k s o l R); [rewrite Hg; reflexivity|]. change (cell Dim2D) with quadrant. lia.
Qed.
Lemma to_grid_3d_of c k s l o d x y z : repr c Dim3D k s l -> path_to3 o d x y z l -> d <= usize_bits c ->
  valid c Dim3D k s /\ st_depth (ops c Dim3D k) s = d
  /\ to_grid_index_3d c (ops c Dim3D k) s o = Ret (x mod 2 ^ d, y mod 2 ^ d, z mod 2 ^ d).
Proof.
  intros R [Hl Hg] Hd. split; [eapply repr_valid; [apply dim3_ok|exact R]|]. split; [rewrite (raw_depth _ _ _ _ _ _ _ _ R); exact Hl|].
  rewrite (to_grid_index_3d_ok c k s o l R); [rewrite Hg; reflexivity|]. change (cell Dim3D) with octant. lia.
Qed.

(* ---------- C06 ---------- *)
Lemma c06_fixed_2d_round_trip_lemma : forall c t x y o,
  BITS c t / 2 <= usize_bits c -> x < 2 ^ usize_bits c -> y < 2 ^ usize_bits c ->
  exists s, fixed_from_grid_index_2d c t x y o = Ret s /\ valid c Dim2D (KFixed t) s
    /\ to_grid_index_2d c (fixed_ops c Dim2D t) s o = Ret (x mod 2 ^ (BITS c t / 2), y mod 2 ^ (BITS c t / 2)).
Proof.
  intros c t x y o HM Hx Hy. destruct (fixed_from_grid_2d_ok c t x y o HM Hx Hy) as (s & l & E & C & P).
  destruct (to_grid_2d_of c (KFixed t) s l o _ x y (canon_repr _ _ _ _ _ C) P HM) as (V & _ & G). exists s. auto.
Qed.
Lemma c06_fixed_2d_panics_iff_lemma : forall c t x y o, x < 2 ^ usize_bits c -> y < 2 ^ usize_bits c ->
  (fixed_from_grid_index_2d c t x y o = Panic <-> usize_bits c < BITS c t / 2).
Proof.
  intros c t x y o Hx Hy. destruct (N.le_gt_cases (BITS c t / 2) (usize_bits c)) as [H|H].
  - destruct (fixed_from_grid_2d_ok c t x y o H Hx Hy) as (s & l & E & _). rewrite E. split; [discriminate|lia].
  - split; [auto|]. intros _. apply fixed_from_grid_2d_panic. exact H.
Qed.

(* ---------- C07 ---------- *)
Lemma c07_fixed_3d_round_trip_partial_lemma : forall c t x y z o,
  32 <= usize_bits c -> BITS c t / 3 <= usize_bits c ->
  exists s, fixed_from_grid_index_3d c t x y z o = Ret s /\ valid c Dim3D (KFixed t) s
    /\ to_grid_index_3d c (fixed_ops c Dim3D t) s o
       = Ret (x mod 2 ^ (BITS c t / 3), y mod 2 ^ (BITS c t / 3), z mod 2 ^ (BITS c t / 3)).
Proof.
  intros c t x y z o HW HM. destruct (max_levels_3d c t) as (_ & _ & _ & _ & Hne). unfold MAX_LEVELS in Hne. cbn [dim Dim3D] in Hne.
  destruct (fixed_from_grid_3d_ok c t x y z o HW) as (s & l & E & C & P); [unfold MAX_LEVELS; cbn [dim Dim3D]; lia|].
  destruct (to_grid_3d_of c (KFixed t) s l o _ x y z (canon_repr _ _ _ _ _ C) P HM) as (V & _ & G). exists s. auto.
Qed.
Lemma c07_fixed_3d_panics_lemma : forall c t x y z o,
  usize_bits c < BITS c t / 3 -> fixed_from_grid_index_3d c t x y z o = Panic.
Proof. intros c t x y z o H. apply fixed_from_grid_3d_panic. exact H. Qed.
Lemma c07_fixed_3d_round_trip_refuted_lemma :
  ~ (forall c t x y z o, BITS c t / 3 <= usize_bits c ->
     x < 2 ^ usize_bits c -> y < 2 ^ usize_bits c -> z < 2 ^ usize_bits c ->
     exists s, fixed_from_grid_index_3d c t x y z o = Ret s
       /\ to_grid_index_3d c (fixed_ops c Dim3D t) s o
          = Ret (x mod 2 ^ (BITS c t / 3), y mod 2 ^ (BITS c t / 3), z mod 2 ^ (BITS c t / 3))).
Proof.
  intro H. destruct (H (Cfg true PW16 LittleEndian) U8 1 0 0 XYZ ltac:(vm_compute; discriminate) eq_refl eq_refl eq_refl) as (s & E & _).
  vm_compute in E. discriminate.
Qed.
(* without overflow checks the 16-bit build returns a wrong index instead *)
Lemma c07_fixed_3d_release16_refuted_lemma :
  exists s, fixed_from_grid_index_3d (Cfg false PW16 LittleEndian) U8 1 2 3 XYZ = Ret s
    /\ to_grid_index_3d (Cfg false PW16 LittleEndian) (fixed_ops (Cfg false PW16 LittleEndian) Dim3D U8) s XYZ <> Ret (1, 2, 3).
Proof. eexists. split; [vm_compute; reflexivity|]. vm_compute. discriminate. Qed.

(* ---------- C08 ---------- *)
Lemma static_from_grid_2d_wide c t x y d o : usize_bits c < MAX_LEVELS c Dim2D t -> d <= MAX_LEVELS c Dim2D t ->
  overflow_checks c = true -> x < 2 ^ usize_bits c -> static_from_grid_index_2d c t x y d o = Panic.
Proof.
  intros H Hd HO Hx. unfold static_from_grid_index_2d. cbv zeta. change (BITS c t / 2) with (MAX_LEVELS c Dim2D t).
  destruct (N.ltb_spec (MAX_LEVELS c Dim2D t) d); [lia|]. rewrite sub_ok by lia. rewrite bind_ret.
  assert (H2 : 2 * usize_bits c <= MAX_LEVELS c Dim2D t).
  { revert H. unfold MAX_LEVELS, BITS. cbn [dim Dim2D]. unfold usize_bits. destruct t, (pointer c); cbn; lia. }
  destruct (N.le_gt_cases d (usize_bits c)) as [L|L].
  - rewrite (num_get_bits_ok c USize x) by (cbn [BITS]; lia || exact Hx). rewrite bind_ret.
    unfold shl. rewrite HO. destruct (N.ltb_spec (MAX_LEVELS c Dim2D t - d) (usize_bits c)); [lia|reflexivity].
  - unfold num_get_bits. cbv zeta. cbn [BITS]. rewrite range_len_ok by lia. unfold sub. rewrite HO.
    destruct (N.leb_spec (d - 0) (usize_bits c)); [lia|reflexivity].
Qed.
Lemma c08_static_2d_error_iff_lemma : forall c t x y d o,
  BITS c t / 2 < d <-> static_from_grid_index_2d c t x y d o = Ret (Err (DepthLimitedExceeded (BITS c t / 2))).
Proof.
  intros c t x y d o. split; [apply static_from_grid_2d_err|]. intros E.
  destruct (N.le_gt_cases d (BITS c t / 2)) as [L|L]; [|exact L]. exfalso. revert E.
  unfold static_from_grid_index_2d. cbv zeta. destruct (N.ltb_spec (BITS c t / 2) d); [lia|].
  assert (K : forall A B (m : outcome A) (f : A -> outcome (result B)) e, (forall a, f a <> Ret (Err e)) -> bind m f <> Ret (Err e)).
  { intros A B m f e Hf Q. apply bind_inv in Q. destruct Q as (a & _ & Q). exact (Hf a Q). }
  do 5 (apply K; intro). match goal with |- context [lower_higher ?a ?b ?d] => destruct (lower_higher a b d) end.
  do 4 (apply K; intro). discriminate.
Qed.
Lemma c08_static_2d_round_trip_partial_lemma : forall c t x y d o,
  BITS c t / 2 <= usize_bits c -> x < 2 ^ usize_bits c -> y < 2 ^ usize_bits c -> d <= BITS c t / 2 ->
  (d <> 0 \/ BITS c t / 2 < usize_bits c \/ overflow_checks c = false) ->
  exists s, static_from_grid_index_2d c t x y d o = Ret (Ok s) /\ valid c Dim2D (KStatic t) s
    /\ st_depth (static_ops c Dim2D t) s = d
    /\ to_grid_index_2d c (static_ops c Dim2D t) s o = Ret (x mod 2 ^ d, y mod 2 ^ d).
Proof.
  intros c t x y d o HM Hx Hy Hd Hz. destruct (static_from_grid_2d_ok c t x y d o HM Hx Hy Hd Hz) as (s & l & E & C & P).
  destruct (to_grid_2d_of c (KStatic t) s l o d x y (canon_repr _ _ _ _ _ C) P) as (V & D & G); [lia|]. exists s. auto.
Qed.
Lemma c08_static_2d_panics_lemma : forall c t x y d o,
  overflow_checks c = true -> x < 2 ^ usize_bits c -> d <= BITS c t / 2 ->
  usize_bits c < BITS c t / 2 \/ (usize_bits c = BITS c t / 2 /\ d = 0) ->
  static_from_grid_index_2d c t x y d o = Panic.
Proof.
  intros c t x y d o HO Hx Hd [H|[H ->]].
  - apply static_from_grid_2d_wide; assumption.
  - apply static_from_grid_2d_panic; try assumption. unfold MAX_LEVELS. cbn [dim Dim2D]. lia.
Qed.
Lemma c08_static_2d_round_trip_refuted_lemma :
  ~ (forall c t x y d o, x < 2 ^ usize_bits c -> y < 2 ^ usize_bits c -> d <= BITS c t / 2 ->
     exists s, static_from_grid_index_2d c t x y d o = Ret (Ok s)
       /\ to_grid_index_2d c (static_ops c Dim2D t) s o = Ret (x mod 2 ^ d, y mod 2 ^ d)).
Proof.
  intro H. destruct (H (Cfg true PW64 LittleEndian) U128 0 0 0 XY eq_refl eq_refl ltac:(vm_compute; discriminate)) as (s & E & _).
  vm_compute in E. discriminate.
Qed.
(* on a 32-bit target without overflow checks a 128-bit index gets a wrong grid cell *)
Lemma c08_static_2d_release32_refuted_lemma :
  exists s, static_from_grid_index_2d (Cfg false PW32 LittleEndian) U128 5 6 32 XY = Ret (Ok s)
    /\ to_grid_index_2d (Cfg false PW32 LittleEndian) (static_ops (Cfg false PW32 LittleEndian) Dim2D U128) s XY <> Ret (5, 6).
Proof. eexists. split; [vm_compute; reflexivity|]. vm_compute. discriminate. Qed.

(* ---------- C09 ---------- *)
Lemma clear_low_mod n x d : clear_low n x mod 2 ^ d = clear_low n (x mod 2 ^ d).
Proof.
  apply N.bits_inj. intro i. rewrite testbit_mod, !testbit_clear_low, testbit_mod.
  destruct (n <=? i), (i <? d); reflexivity.
Qed.
Lemma c09_static_3d_error_lemma : forall c t x y z d o, BITS c t / 3 < d ->
  static_from_grid_index_3d c t x y z d o = Ret (Err (DepthLimitedExceeded (BITS c t / 3))).
Proof. intros c t x y z d o H. apply static_from_grid_3d_err. exact H. Qed.
Lemma c09_static_3d_loses_low_bits_lemma : forall c t x y z d o,
  BITS c t / 3 <= usize_bits c -> x < 2 ^ usize_bits c -> y < 2 ^ usize_bits c -> z < 2 ^ usize_bits c -> d <= BITS c t / 3 ->
  let M := BITS c t / 3 in
  let lost := 8 * ((M + 7) / 8 - (d + 7) / 8) - (M - d) in
  exists s, static_from_grid_index_3d c t x y z d o = Ret (Ok s) /\ valid c Dim3D (KStatic t) s
    /\ st_depth (static_ops c Dim3D t) s = d
    /\ to_grid_index_3d c (static_ops c Dim3D t) s o
       = Ret (x mod 2 ^ d / 2 ^ lost * 2 ^ lost, y mod 2 ^ d / 2 ^ lost * 2 ^ lost, z mod 2 ^ d / 2 ^ lost * 2 ^ lost).
Proof.
  intros c t x y z d o HM Hx Hy Hz Hd M lost. destruct (max_levels_3d c t) as (_ & _ & _ & _ & Hne). unfold MAX_LEVELS in Hne. cbn [dim Dim3D] in Hne.
  destruct (static_from_grid_3d_gen c t x y z d o) as (s & l & E & C & P); try assumption; [unfold MAX_LEVELS; cbn [dim Dim3D]; lia|].
  destruct (to_grid_3d_of c (KStatic t) s l o d _ _ _ (canon_repr _ _ _ _ _ C) P) as (V & D & G); [lia|].
  exists s. split; [exact E|]. split; [exact V|]. split; [exact D|]. rewrite !clear_low_mod in G. exact G.
Qed.
Lemma c09_static_3d_round_trip_partial_lemma : forall c t d,
  BITS c t / 3 <= usize_bits c -> d <= BITS c t / 3 ->
  let M := BITS c t / 3 in
  (d = 0 \/ 8 * ((M + 7) / 8 - (d + 7) / 8) <= M - d) <->
  (forall x y z o, x < 2 ^ usize_bits c -> y < 2 ^ usize_bits c -> z < 2 ^ usize_bits c ->
   exists s, static_from_grid_index_3d c t x y z d o = Ret (Ok s)
     /\ to_grid_index_3d c (static_ops c Dim3D t) s o = Ret (x mod 2 ^ d, y mod 2 ^ d, z mod 2 ^ d)).
Proof.
  intros c t d HM Hd M. split.
  - intros H x y z o Hx Hy Hz. destruct (c09_static_3d_loses_low_bits_lemma c t x y z d o HM Hx Hy Hz Hd) as (s & E & _ & _ & G).
    exists s. split; [exact E|]. rewrite G. destruct H as [->|H].
    + rewrite !N.mod_1_r. cbn [N.pow]. rewrite !N.div_0_l by apply pow2_ne0. reflexivity.
    + fold M. replace (8 * ((M + 7) / 8 - (d + 7) / 8) - (M - d)) with 0 by (clear - H; lia).
      cbn [N.pow]. rewrite !N.div_1_r, !N.mul_1_r. reflexivity.
  - intro H. pose proof (lt_pow2 (usize_bits c)) as HP. pose proof (usize_ge16 c) as HG.
    destruct (H 1 0 0 XYZ) as (s & E & G); try lia.
    destruct (c09_static_3d_loses_low_bits_lemma c t 1 0 0 d XYZ HM ltac:(lia) ltac:(lia) ltac:(lia) Hd) as (s' & E' & _ & _ & G').
    rewrite E in E'. injection E' as <-. rewrite G in G'. apply (f_equal (fun r => match r with Ret (a, _, _) => a | _ => 0 end)) in G'. cbv beta iota in G'.
    destruct (N.eq_dec d 0) as [->|Hd0]; [left; reflexivity|right]. fold M in G'.
    remember (8 * ((M + 7) / 8 - (d + 7) / 8) - (M - d)) as lost eqn:EL.
    assert (H1 : 1 mod 2 ^ d = 1) by (apply N.mod_small; pose proof (pow2_lt_mono 0 d ltac:(lia)); cbn in *; lia).
    rewrite H1 in G'. destruct (N.eq_dec lost 0) as [Z|Z]; [clear - EL Z; lia|].
    rewrite N.div_small in G' by (pose proof (pow2_lt_mono 0 lost ltac:(lia)); cbn in *; lia). discriminate.
Qed.
Lemma c09_static_3d_round_trip_refuted_lemma :
  ~ (forall c t x y z d o, x < 2 ^ usize_bits c -> y < 2 ^ usize_bits c -> z < 2 ^ usize_bits c -> d <= BITS c t / 3 ->
     exists s, static_from_grid_index_3d c t x y z d o = Ret (Ok s)
       /\ to_grid_index_3d c (static_ops c Dim3D t) s o = Ret (x mod 2 ^ d, y mod 2 ^ d, z mod 2 ^ d)).
Proof.
  intro H. destruct (H (Cfg true PW64 LittleEndian) U64 1 0 0 6 XYZ eq_refl eq_refl eq_refl ltac:(vm_compute; discriminate)) as (s & E & G).
  vm_compute in E. injection E as <-. vm_compute in G. discriminate.
Qed.
(* on 32-bit targets StaticMortonIndex3D128 loses the highest levels as well, without a panic *)
Lemma c09_static_3d_debug32_refuted_lemma :
  exists s, static_from_grid_index_3d (Cfg true PW32 LittleEndian) U128 (2 ^ 31) 0 0 32 XYZ = Ret (Ok s)
    /\ to_grid_index_3d (Cfg true PW32 LittleEndian) (static_ops (Cfg true PW32 LittleEndian) Dim3D U128) s XYZ <> Ret (2 ^ 31, 0, 0).
Proof. eexists. split; [vm_compute; reflexivity|]. vm_compute. discriminate. Qed.

(* ---------- C10 ---------- *)
Lemma c10_dynamic_2d_round_trip_lemma : forall c x y d o,
  d <= usize_bits c / 2 -> x < 2 ^ usize_bits c -> y < 2 ^ usize_bits c ->
  exists s, dynamic_from_grid_index_2d c x y d o = Ret s /\ valid c Dim2D KDynamic s
    /\ st_depth (dynamic_ops c Dim2D) s = d
    /\ to_grid_index_2d c (dynamic_ops c Dim2D) s o = Ret (x mod 2 ^ d, y mod 2 ^ d).
Proof.
  intros c x y d o Hd Hx Hy. destruct (dynamic_from_grid_2d_ok c x y d o Hd Hx Hy) as (s & l & E & C & P).
  destruct (to_grid_2d_of c KDynamic s l o d x y (canon_repr _ _ _ _ _ C) P) as (V & D & G); [clear - Hd; lia|]. exists s. auto.
Qed.
Lemma c10_dynamic_2d_panics_iff_lemma : forall c x y d o, x < 2 ^ usize_bits c -> y < 2 ^ usize_bits c ->
  (dynamic_from_grid_index_2d c x y d o = Panic <-> usize_bits c / 2 < d).
Proof.
  intros c x y d o Hx Hy. split; [|apply dynamic_from_grid_2d_panic]. intro E.
  destruct (N.le_gt_cases d (usize_bits c / 2)) as [L|L]; [|exact L].
  destruct (dynamic_from_grid_2d_ok c x y d o L Hx Hy) as (s & l & E' & _). congruence.
Qed.
Lemma c10_dynamic_3d_round_trip_lemma : forall c x y z d o, writable c KDynamic ->
  d <= usize_bits c / 2 -> x < 2 ^ usize_bits c -> y < 2 ^ usize_bits c -> z < 2 ^ usize_bits c ->
  exists s, dynamic_from_grid_index_3d c x y z d o = Ret s /\ valid c Dim3D KDynamic s
    /\ st_depth (dynamic_ops c Dim3D) s = d
    /\ to_grid_index_3d c (dynamic_ops c Dim3D) s o = Ret (x mod 2 ^ d, y mod 2 ^ d, z mod 2 ^ d).
Proof.
  intros c x y z d o HE Hd Hx Hy Hz. destruct (dynamic_from_grid_3d_ok c x y z d o Hd HE Hx Hy Hz) as (s & l & E & C & P).
  destruct (to_grid_3d_of c KDynamic s l o d x y z (canon_repr _ _ _ _ _ C) P) as (V & D & G); [clear - Hd; lia|]. exists s. auto.
Qed.
Lemma c10_dynamic_3d_panics_iff_lemma : forall c x y z d o, writable c KDynamic ->
  x < 2 ^ usize_bits c -> y < 2 ^ usize_bits c -> z < 2 ^ usize_bits c ->
  (dynamic_from_grid_index_3d c x y z d o = Panic <-> usize_bits c / 2 < d).
Proof.
  intros c x y z d o HE Hx Hy Hz. split; [|apply dynamic_from_grid_3d_panic]. intro E.
  destruct (N.le_gt_cases d (usize_bits c / 2)) as [L|L]; [|exact L].
  destruct (dynamic_from_grid_3d_ok c x y z d o L HE Hx Hy Hz) as (s & l & E' & _). congruence.
Qed.

(* ---------- C11 ---------- *)
Lemma c11_to_grid_index_2d_lemma : forall c k (s : storage k) l o,
  valid c Dim2D k s -> shows (ops c Dim2D k) s l -> len l <= usize_bits c ->
  to_grid_index_2d c (ops c Dim2D k) s o = Ret (coord (quad_x o) l, coord (quad_y o) l)
  /\ coord (quad_x o) l < 2 ^ len l /\ coord (quad_y o) l < 2 ^ len l.
Proof.
  intros c k s l o V S H. pose proof (valid_shows c Dim2D k s l dim2_ok V S) as R.
  split; [apply to_grid_index_2d_ok; assumption|]. split; apply coord_lt; intro q; apply quad_lt.
Qed.
Lemma c11_to_grid_index_3d_lemma : forall c k (s : storage k) l o,
  valid c Dim3D k s -> shows (ops c Dim3D k) s l -> len l <= usize_bits c ->
  to_grid_index_3d c (ops c Dim3D k) s o = Ret (coord (oct_x o) l, coord (oct_y o) l, coord (oct_z o) l)
  /\ coord (oct_x o) l < 2 ^ len l /\ coord (oct_y o) l < 2 ^ len l /\ coord (oct_z o) l < 2 ^ len l.
Proof.
  intros c k s l o V S H. pose proof (valid_shows c Dim3D k s l dim3_ok V S) as R.
  split; [apply to_grid_index_3d_ok; assumption|]. split; [|split]; apply coord_lt; intro q; apply oct_lt.
Qed.
(* different paths of the same depth have different grid indices *)
Lemma c11_grid_index_2d_injective_lemma : forall o (l l' : list quadrant), len l = len l' -> grid2 o l = grid2 o l' -> l = l'.
Proof.
  intros o l l' Hl Hg. pose proof (path_to2_own o l) as P. pose proof (path_to2_own o l') as P'. rewrite <- Hl, <- Hg in P'.
  eapply path_to2_unique; eassumption.
Qed.
Lemma c11_grid_index_3d_injective_lemma : forall o (l l' : list octant), len l = len l' -> grid3 o l = grid3 o l' -> l = l'.
Proof.
  intros o l l' Hl Hg. pose proof (path_to3_own o l) as P. pose proof (path_to3_own o l') as P'. rewrite <- Hl, <- Hg in P'.
  eapply path_to3_unique; eassumption.
Qed.

(* ---------- C12 ---------- *)
Lemma grid2_bound o l d c : len l = d -> d <= usize_bits c ->
  fst (grid2 o l) < 2 ^ usize_bits c /\ snd (grid2 o l) < 2 ^ usize_bits c.
Proof.
  intros Hl Hd. pose proof (pow2_le_mono _ _ Hd). unfold grid2. cbn [fst snd].
  pose proof (coord_lt (quad_x o) l (fun q => proj1 (quad_lt o q))). pose proof (coord_lt (quad_y o) l (fun q => proj2 (quad_lt o q))).
  rewrite Hl in *. lia.
Qed.
Lemma grid3_bound o l d c : len l = d -> d <= usize_bits c ->
  fst (fst (grid3 o l)) < 2 ^ usize_bits c /\ snd (fst (grid3 o l)) < 2 ^ usize_bits c /\ snd (grid3 o l) < 2 ^ usize_bits c.
Proof.
  intros Hl Hd. pose proof (pow2_le_mono _ _ Hd). unfold grid3. cbn [fst snd].
  pose proof (coord_lt (oct_x o) l (fun q => proj1 (oct_lt o q))). pose proof (coord_lt (oct_y o) l (fun q => proj1 (proj2 (oct_lt o q)))).
  pose proof (coord_lt (oct_z o) l (fun q => proj2 (proj2 (oct_lt o q)))).
  rewrite Hl in *. lia.
Qed.
Lemma canon_len_fixed c D t s l : canon c D (KFixed t) s l -> len l = BITS c t / dim D.
Proof. intros C. pose proof (raw_depth _ _ _ _ _ _ _ _ C) as H. cbn in H. symmetry. exact H. Qed.

Lemma c12_fixed_2d_lemma : forall c L t (s : storage (KFixed t)) l o,
  made c Dim2D L (KFixed t) true s l -> BITS c t / 2 <= usize_bits c ->
  exists x y s', to_grid_index_2d c (fixed_ops c Dim2D t) s o = Ret (x, y)
    /\ fixed_from_grid_index_2d c t x y o = Ret s' /\ idx_eq (KFixed t) s' s = true.
Proof.
  intros c L t s l o HM Hm. destruct (made_canon _ _ _ _ _ _ HM) as [_ C]. pose proof (canon_len_fixed _ _ _ _ _ C) as Hl.
  change (cell Dim2D) with quadrant in *. cbn [dim Dim2D] in Hl.
  destruct (grid2_bound o l (BITS c t / 2) c Hl Hm) as [Bx By].
  destruct (fixed_from_grid_2d_ok c t _ _ o Hm Bx By) as (s' & l' & E & C' & P).
  exists (fst (grid2 o l)), (snd (grid2 o l)), s'. split; [|split; [exact E|]].
  - apply (to_grid_index_2d_ok c (KFixed t) s o l (canon_repr _ _ _ _ _ C)). change (cell Dim2D) with quadrant. lia.
  - apply idx_eq_iff. pose proof (path_to2_own o l) as P'. rewrite Hl in P'.
    rewrite (path_to2_unique o _ _ _ l' l P P') in C'. eapply (canon_unique c Dim2D (KFixed t)); [apply dim2_ok|exact C'|exact C].
Qed.
Lemma c12_fixed_3d_lemma : forall c L t (s : storage (KFixed t)) l o,
  made c Dim3D L (KFixed t) true s l -> 32 <= usize_bits c -> BITS c t / 3 <= usize_bits c ->
  exists x y z s', to_grid_index_3d c (fixed_ops c Dim3D t) s o = Ret (x, y, z)
    /\ fixed_from_grid_index_3d c t x y z o = Ret s' /\ idx_eq (KFixed t) s' s = true.
Proof.
  intros c L t s l o HM HW Hm. destruct (made_canon _ _ _ _ _ _ HM) as [_ C]. pose proof (canon_len_fixed _ _ _ _ _ C) as Hl.
  destruct (max_levels_3d c t) as (_ & _ & _ & _ & Hne). unfold MAX_LEVELS in Hne.
  change (cell Dim3D) with octant in *. cbn [dim Dim3D] in Hl, Hne.
  destruct (fixed_from_grid_3d_ok c t (fst (fst (grid3 o l))) (snd (fst (grid3 o l))) (snd (grid3 o l)) o HW) as (s' & l' & E & C' & P);
    [unfold MAX_LEVELS; cbn [dim Dim3D]; lia|].
  exists (fst (fst (grid3 o l))), (snd (fst (grid3 o l))), (snd (grid3 o l)), s'. split; [|split; [exact E|]].
  - apply (to_grid_index_3d_ok c (KFixed t) s o l (canon_repr _ _ _ _ _ C)). change (cell Dim3D) with octant. lia.
  - apply idx_eq_iff. pose proof (path_to3_own o l) as P'. rewrite Hl in P'.
    rewrite (path_to3_unique o _ _ _ _ l' l P P') in C'. eapply (canon_unique c Dim3D (KFixed t)); [apply dim3_ok|exact C'|exact C].
Qed.
Lemma c12_static_2d_lemma : forall c L t (s : storage (KStatic t)) l o,
  made c Dim2D L (KStatic t) true s l -> BITS c t / 2 <= usize_bits c ->
  (sx_depth s <> 0 \/ BITS c t / 2 < usize_bits c \/ overflow_checks c = false) ->
  exists x y s', to_grid_index_2d c (static_ops c Dim2D t) s o = Ret (x, y)
    /\ static_from_grid_index_2d c t x y (sx_depth s) o = Ret (Ok s') /\ idx_eq (KStatic t) s' s = true.
Proof.
  intros c L t s l o HM Hm Hz. destruct (made_canon _ _ _ _ _ _ HM) as [_ C].
  pose proof (raw_depth _ _ _ _ _ _ _ _ C) as Hl. cbn [st_depth ops static_ops] in Hl.
  pose proof (static_room c Dim2D t s l dim2_ok (canon_repr _ _ _ _ _ C)) as Hr.
  change (cell Dim2D) with quadrant in *. unfold MAX_LEVELS in Hr. cbn [dim Dim2D] in Hr.
  destruct (grid2_bound o l (len l) c eq_refl ltac:(lia)) as [Bx By].
  destruct (static_from_grid_2d_ok c t _ _ (sx_depth s) o Hm Bx By) as (s' & l' & E & C' & P);
    [unfold MAX_LEVELS; cbn [dim Dim2D]; lia|exact Hz|].
  exists (fst (grid2 o l)), (snd (grid2 o l)), s'. split; [|split; [exact E|]].
  - apply (to_grid_index_2d_ok c (KStatic t) s o l (canon_repr _ _ _ _ _ C)). change (cell Dim2D) with quadrant. lia.
  - apply idx_eq_iff. pose proof (path_to2_own o l) as P'. rewrite <- Hl in P'.
    rewrite (path_to2_unique o _ _ _ l' l P P') in C'. eapply (canon_unique c Dim2D (KStatic t)); [apply dim2_ok|exact C'|exact C].
Qed.
Lemma clear_low_id n x : clear_low n x = x <-> x mod 2 ^ n = 0.
Proof. unfold clear_low. pose proof (N.div_mod' x (2 ^ n)). rewrite (N.mul_comm (x / 2 ^ n)). lia. Qed.
(* static 3D: equal exactly if from_grid_index loses no bits that are set (C09) *)
Lemma c12_static_3d_lemma : forall c L t (s : storage (KStatic t)) l o,
  made c Dim3D L (KStatic t) true s l -> BITS c t / 3 <= usize_bits c ->
  let M := BITS c t / 3 in let lost := 8 * ((M + 7) / 8 - (sx_depth s + 7) / 8) - (M - sx_depth s) in
  exists x y z s', to_grid_index_3d c (static_ops c Dim3D t) s o = Ret (x, y, z)
    /\ static_from_grid_index_3d c t x y z (sx_depth s) o = Ret (Ok s')
    /\ (idx_eq (KStatic t) s' s = true <-> x mod 2 ^ lost = 0 /\ y mod 2 ^ lost = 0 /\ z mod 2 ^ lost = 0).
Proof.
  intros c L t s l o HM Hm M lost. destruct (made_canon _ _ _ _ _ _ HM) as [_ C].
  pose proof (raw_depth _ _ _ _ _ _ _ _ C) as Hl. cbn [st_depth ops static_ops] in Hl.
  pose proof (static_room c Dim3D t s l dim3_ok (canon_repr _ _ _ _ _ C)) as Hr.
  destruct (max_levels_3d c t) as (_ & _ & _ & _ & Hne). unfold MAX_LEVELS in Hne.
  change (cell Dim3D) with octant in *. unfold MAX_LEVELS in Hr. cbn [dim Dim3D] in Hr, Hne.
  destruct (grid3_bound o l (len l) c eq_refl ltac:(lia)) as (Bx & By & Bz).
  destruct (static_from_grid_3d_gen c t _ _ _ (sx_depth s) o ltac:(unfold MAX_LEVELS; cbn [dim Dim3D]; lia) Bx By Bz) as (s' & l' & E & C' & P);
    [unfold MAX_LEVELS; cbn [dim Dim3D]; lia|].
  change (dropped (MAX_LEVELS c Dim3D t) (sx_depth s)) with lost in P.
  pose proof (path_to3_own o l) as P'. rewrite <- Hl in P'.
  set (x := fst (fst (grid3 o l))) in *. set (y := snd (fst (grid3 o l))) in *. set (z := snd (grid3 o l)) in *.
  exists x, y, z, s'. split; [|split; [exact E|]].
  - apply (to_grid_index_3d_ok c (KStatic t) s o l (canon_repr _ _ _ _ _ C)). change (cell Dim3D) with octant. lia.
  - rewrite idx_eq_iff. split.
    + intros ->. assert (EL : l' = l).
      { eapply (raw_unique c Dim3D (KStatic t)); [apply dim3_ok|exact C'|exact C|]. exact (eq_trans (proj1 P) (eq_sym (proj1 P'))). }
      subst l'. destruct P as [_ G]. destruct P' as [_ G']. rewrite G' in G. injection G as Gx Gy Gz. rewrite !clear_low_mod in *.
      rewrite <- !clear_low_id.
      assert (S : forall u, u < 2 ^ sx_depth s -> u mod 2 ^ sx_depth s = u) by (intros; apply N.mod_small; assumption).
      assert (Q : x < 2 ^ sx_depth s /\ y < 2 ^ sx_depth s /\ z < 2 ^ sx_depth s).
      { rewrite Hl. unfold x, y, z. cbn [grid3 fst snd]. repeat split; apply coord_lt; intro q; apply oct_lt. }
      destruct Q as (Qx & Qy & Qz). rewrite (S x Qx) in Gx. rewrite (S y Qy) in Gy. rewrite (S z Qz) in Gz. auto.
    + rewrite <- !clear_low_id. intros (Kx & Ky & Kz). rewrite Kx, Ky, Kz in P.
      rewrite (path_to3_unique o _ _ _ _ l' l P P') in C'. eapply (canon_unique c Dim3D (KStatic t)); [apply dim3_ok|exact C'|exact C].
Qed.
Lemma c12_dynamic_2d_lemma : forall c L (s : storage KDynamic) l o,
  made c Dim2D L KDynamic true s l -> dy_depth s <= usize_bits c / 2 ->
  exists x y s', to_grid_index_2d c (dynamic_ops c Dim2D) s o = Ret (x, y)
    /\ dynamic_from_grid_index_2d c x y (dy_depth s) o = Ret s' /\ idx_eq KDynamic s' s = true.
Proof.
  intros c L s l o HM Hm. destruct (made_canon _ _ _ _ _ _ HM) as [_ C].
  pose proof (raw_depth _ _ _ _ _ _ _ _ C) as Hl. cbn [st_depth ops dynamic_ops] in Hl.
  change (cell Dim2D) with quadrant in *. assert (HW : len l <= usize_bits c) by (clear - Hm Hl; lia).
  destruct (grid2_bound o l (len l) c eq_refl HW) as [Bx By].
  destruct (dynamic_from_grid_2d_ok c _ _ (dy_depth s) o Hm Bx By) as (s' & l' & E & C' & P).
  exists (fst (grid2 o l)), (snd (grid2 o l)), s'. split; [|split; [exact E|]].
  - apply (to_grid_index_2d_ok c KDynamic s o l (canon_repr _ _ _ _ _ C)). exact HW.
  - apply idx_eq_iff. pose proof (path_to2_own o l) as P'. rewrite <- Hl in P'.
    rewrite (path_to2_unique o _ _ _ l' l P P') in C'. eapply (canon_unique c Dim2D KDynamic); [apply dim2_ok|exact C'|exact C].
Qed.
Lemma c12_dynamic_3d_lemma : forall c L (s : storage KDynamic) l o,
  made c Dim3D L KDynamic true s l -> writable c KDynamic -> dy_depth s <= usize_bits c / 2 ->
  exists x y z s', to_grid_index_3d c (dynamic_ops c Dim3D) s o = Ret (x, y, z)
    /\ dynamic_from_grid_index_3d c x y z (dy_depth s) o = Ret s' /\ idx_eq KDynamic s' s = true.
Proof.
  intros c L s l o HM HE Hm. destruct (made_canon _ _ _ _ _ _ HM) as [_ C].
  pose proof (raw_depth _ _ _ _ _ _ _ _ C) as Hl. cbn [st_depth ops dynamic_ops] in Hl.
  change (cell Dim3D) with octant in *. assert (HW : len l <= usize_bits c) by (clear - Hm Hl; lia).
  destruct (grid3_bound o l (len l) c eq_refl HW) as (Bx & By & Bz).
  destruct (dynamic_from_grid_3d_ok c _ _ _ (dy_depth s) o Hm HE Bx By Bz) as (s' & l' & E & C' & P).
  exists (fst (fst (grid3 o l))), (snd (fst (grid3 o l))), (snd (grid3 o l)), s'. split; [|split; [exact E|]].
  - apply (to_grid_index_3d_ok c KDynamic s o l (canon_repr _ _ _ _ _ C)). exact HW.
  - apply idx_eq_iff. pose proof (path_to3_own o l) as P'. rewrite <- Hl in P'.
    rewrite (path_to3_unique o _ _ _ _ l' l P P') in C'. eapply (canon_unique c Dim3D KDynamic); [apply dim3_ok|exact C'|exact C].
Qed.

(* ---------- C13 ---------- *)
Lemma c13_fast_equals_from_grid_index_lemma : forall c x y z o,
  from_grid_index_fast c x y z o = fixed_from_grid_index_3d c U64 x y z o.
Proof. exact from_grid_index_fast_eq. Qed.

(* ---------- C40 ---------- *)
Lemma coord_cons_le {A} (off : A -> N) x y l l' : (forall x, off x < 2) -> len l = len l' ->
  coord off (x :: l) <= coord off (y :: l') -> off x <= off y /\ (off x = off y -> coord off l <= coord off l').
Proof.
  intros Hoff Hl H. rewrite !coord_cons in H. rewrite Hl in H. pose proof (coord_lt off l Hoff) as B. pose proof (coord_lt off l' Hoff) as B'.
  rewrite Hl in B. set (P := 2 ^ len l') in *. clearbody P. split.
  - destruct (N.le_gt_cases (off x) (off y)) as [L|L]; [exact L|]. exfalso. assert (off x * P >= (off y + 1) * P) by nia. nia.
  - intros E. rewrite E in H. lia.
Qed.
Lemma monotone2 o (l l' : list quadrant) : len l = len l' ->
  coord (quad_x o) l <= coord (quad_x o) l' -> coord (quad_y o) l <= coord (quad_y o) l' -> path_cmp (D:=Dim2D) l l' <> Gt.
Proof.
  revert l'. induction l as [|q l IH]; intros l' Hl Hx Hy; destruct l' as [|q' l']; cbn [path_cmp]; try discriminate;
    try (rewrite ?len_cons, ?len_nil in Hl; lia).
  rewrite !len_cons in Hl. assert (Hl' : len l = len l') by lia.
  apply coord_cons_le in Hx; [|intro; apply quad_lt|exact Hl']. apply coord_cons_le in Hy; [|intro; apply quad_lt|exact Hl'].
  destruct Hx as [Hx Hx'], Hy as [Hy Hy'].
  assert (K : quadrant_index q < quadrant_index q' \/ q = q').
  { revert Hx Hy. clear. destruct o, q, q'; vm_compute; intuition (try congruence). }
  cbn [cell_index Dim2D]. destruct K as [K| ->].
  - rewrite (proj2 (N.compare_lt_iff _ _) K). discriminate.
  - rewrite N.compare_refl. apply IH; auto.
Qed.
Lemma monotone3 o (l l' : list octant) : len l = len l' ->
  coord (oct_x o) l <= coord (oct_x o) l' -> coord (oct_y o) l <= coord (oct_y o) l' -> coord (oct_z o) l <= coord (oct_z o) l' ->
  path_cmp (D:=Dim3D) l l' <> Gt.
Proof.
  revert l'. induction l as [|q l IH]; intros l' Hl Hx Hy Hz; destruct l' as [|q' l']; cbn [path_cmp]; try discriminate;
    try (rewrite ?len_cons, ?len_nil in Hl; lia).
  rewrite !len_cons in Hl. assert (Hl' : len l = len l') by lia.
  apply coord_cons_le in Hx; [|intro; apply oct_lt|exact Hl']. apply coord_cons_le in Hy; [|intro; apply oct_lt|exact Hl'].
  apply coord_cons_le in Hz; [|intro; apply oct_lt|exact Hl'].
  destruct Hx as [Hx Hx'], Hy as [Hy Hy'], Hz as [Hz Hz'].
  assert (K : octant_index q < octant_index q' \/ q = q').
  { revert Hx Hy Hz. clear. destruct o, q, q'; vm_compute; intuition (try congruence). }
  cbn [cell_index Dim3D]. destruct K as [K| ->].
  - rewrite (proj2 (N.compare_lt_iff _ _) K). discriminate.
  - rewrite N.compare_refl. apply IH; auto.
Qed.
Lemma c40_z_order_2d_lemma : forall c L k (a b : storage k) la lb o x y x' y',
  made c Dim2D L k true a la -> made c Dim2D L k true b lb ->
  st_depth (ops c Dim2D k) a = st_depth (ops c Dim2D k) b -> st_depth (ops c Dim2D k) a <= usize_bits c ->
  to_grid_index_2d c (ops c Dim2D k) a o = Ret (x, y) -> to_grid_index_2d c (ops c Dim2D k) b o = Ret (x', y') ->
  x <= x' -> y <= y' ->
  exists r, idx_cmp c Dim2D k a b = Ret r /\ r <> Gt /\ (r = Eq <-> x = x' /\ y = y').
Proof.
  intros c L k a b la lb o x y x' y' Ma Mb Hd HW Ga Gb Hx Hy.
  destruct (made_canon _ _ _ _ _ _ Ma) as [_ Ca]. destruct (made_canon _ _ _ _ _ _ Mb) as [_ Cb].
  rewrite (raw_depth _ _ _ _ _ _ _ _ Ca) in HW, Hd. rewrite (raw_depth _ _ _ _ _ _ _ _ Cb) in Hd.
  rewrite (to_grid_index_2d_ok c k a o la (canon_repr _ _ _ _ _ Ca) HW) in Ga.
  rewrite (to_grid_index_2d_ok c k b o lb (canon_repr _ _ _ _ _ Cb)) in Gb by (rewrite <- Hd; exact HW).
  injection Ga as <- <-. injection Gb as <- <-. rewrite (idx_cmp_canon c Dim2D k a b la lb dim2_ok Ca Cb).
  exists (path_cmp la lb). split; [reflexivity|]. split; [exact (monotone2 o la lb Hd Hx Hy)|].
  rewrite (path_cmp_eq dim2_ok). split; [intros ->; auto|intros [E1 E2]; apply (c11_grid_index_2d_injective_lemma o); [exact Hd|unfold grid2; congruence]].
Qed.
Lemma c40_z_order_3d_lemma : forall c L k (a b : storage k) la lb o x y z x' y' z',
  made c Dim3D L k true a la -> made c Dim3D L k true b lb ->
  st_depth (ops c Dim3D k) a = st_depth (ops c Dim3D k) b -> st_depth (ops c Dim3D k) a <= usize_bits c ->
  to_grid_index_3d c (ops c Dim3D k) a o = Ret (x, y, z) -> to_grid_index_3d c (ops c Dim3D k) b o = Ret (x', y', z') ->
  x <= x' -> y <= y' -> z <= z' ->
  exists r, idx_cmp c Dim3D k a b = Ret r /\ r <> Gt /\ (r = Eq <-> x = x' /\ y = y' /\ z = z').
Proof.
  intros c L k a b la lb o x y z x' y' z' Ma Mb Hd HW Ga Gb Hx Hy Hz.
  destruct (made_canon _ _ _ _ _ _ Ma) as [_ Ca]. destruct (made_canon _ _ _ _ _ _ Mb) as [_ Cb].
  rewrite (raw_depth _ _ _ _ _ _ _ _ Ca) in HW, Hd. rewrite (raw_depth _ _ _ _ _ _ _ _ Cb) in Hd.
  rewrite (to_grid_index_3d_ok c k a o la (canon_repr _ _ _ _ _ Ca) HW) in Ga.
  rewrite (to_grid_index_3d_ok c k b o lb (canon_repr _ _ _ _ _ Cb)) in Gb by (rewrite <- Hd; exact HW).
  injection Ga as <- <- <-. injection Gb as <- <- <-. rewrite (idx_cmp_canon c Dim3D k a b la lb dim3_ok Ca Cb).
  exists (path_cmp la lb). split; [reflexivity|]. split; [exact (monotone3 o la lb Hd Hx Hy Hz)|].
  rewrite (path_cmp_eq dim3_ok). split; [intros ->; auto|intros (E1 & E2 & E3); apply (c11_grid_index_3d_injective_lemma o); [exact Hd|unfold grid3; congruence]].
Qed.
(* the same for the values from_grid_index returns *)
Lemma c40_from_grid_2d_monotone_lemma : forall c t x y x' y' o, BITS c t / 2 <= usize_bits c ->
  x <= x' -> y <= y' -> x' < 2 ^ (BITS c t / 2) -> y' < 2 ^ (BITS c t / 2) ->
  exists a b, fixed_from_grid_index_2d c t x y o = Ret a /\ fixed_from_grid_index_2d c t x' y' o = Ret b
    /\ fixed_cmp a b <> Gt /\ (fixed_cmp a b = Eq <-> x = x' /\ y = y').
Proof.
  intros c t x y x' y' o HM Hx Hy Bx By. pose proof (pow2_le_mono _ _ HM) as HP.
  assert (Bx0 : x < 2 ^ (BITS c t / 2)) by lia. assert (By0 : y < 2 ^ (BITS c t / 2)) by lia.
  destruct (fixed_from_grid_2d_ok c t x y o HM) as (a & la & Ea & Ca & Pa); [lia|lia|].
  destruct (fixed_from_grid_2d_ok c t x' y' o HM) as (b & lb & Eb & Cb & Pb); [lia|lia|].
  exists a, b. split; [exact Ea|]. split; [exact Eb|].
  pose proof (idx_cmp_canon c Dim2D (KFixed t) a b la lb dim2_ok Ca Cb) as E. cbn [idx_cmp] in E. injection E as E. rewrite E.
  destruct Pa as [La Ga], Pb as [Lb Gb]. unfold grid2 in Ga, Gb. injection Ga as Gx Gy. injection Gb as Gx' Gy'.
  unfold MAX_LEVELS in *. cbn [dim Dim2D] in *. rewrite N.mod_small in Gx, Gy, Gx', Gy' by assumption.
  split.
  - change (cell Dim2D) with quadrant in *. apply (monotone2 o); [congruence| |]; rewrite ?Gx, ?Gx', ?Gy, ?Gy'; assumption.
  - rewrite (path_cmp_eq dim2_ok). split; [intros ->; split; congruence|].
    intros [E1 E2]. apply (c11_grid_index_2d_injective_lemma o); [exact (eq_trans La (eq_sym Lb))|unfold grid2; congruence].
Qed.
Lemma c40_from_grid_3d_monotone_lemma : forall c t x y z x' y' z' o, 32 <= usize_bits c -> BITS c t / 3 <= usize_bits c ->
  x <= x' -> y <= y' -> z <= z' -> x' < 2 ^ (BITS c t / 3) -> y' < 2 ^ (BITS c t / 3) -> z' < 2 ^ (BITS c t / 3) ->
  exists a b, fixed_from_grid_index_3d c t x y z o = Ret a /\ fixed_from_grid_index_3d c t x' y' z' o = Ret b
    /\ fixed_cmp a b <> Gt /\ (fixed_cmp a b = Eq <-> x = x' /\ y = y' /\ z = z').
Proof.
  intros c t x y z x' y' z' o HW HM Hx Hy Hz Bx By Bz.
  destruct (max_levels_3d c t) as (_ & _ & _ & _ & Hne). unfold MAX_LEVELS in Hne. cbn [dim Dim3D] in Hne.
  assert (HM' : MAX_LEVELS c Dim3D t < usize_bits c) by (unfold MAX_LEVELS; cbn [dim Dim3D]; lia).
  destruct (fixed_from_grid_3d_ok c t x y z o HW HM') as (a & la & Ea & Ca & Pa).
  destruct (fixed_from_grid_3d_ok c t x' y' z' o HW HM') as (b & lb & Eb & Cb & Pb).
  assert (Bx0 : x < 2 ^ (BITS c t / 3)) by (clear - Hx Bx; lia). assert (By0 : y < 2 ^ (BITS c t / 3)) by (clear - Hy By; lia).
  assert (Bz0 : z < 2 ^ (BITS c t / 3)) by (clear - Hz Bz; lia).
  exists a, b. split; [exact Ea|]. split; [exact Eb|].
  pose proof (idx_cmp_canon c Dim3D (KFixed t) a b la lb dim3_ok Ca Cb) as E. cbn [idx_cmp] in E. injection E as E. rewrite E.
  destruct Pa as [La Ga], Pb as [Lb Gb]. unfold grid3 in Ga, Gb. injection Ga as Gx Gy Gz. injection Gb as Gx' Gy' Gz'.
  unfold MAX_LEVELS in *. cbn [dim Dim3D] in *. rewrite N.mod_small in Gx, Gy, Gz, Gx', Gy', Gz' by assumption.
  split.
  - change (cell Dim3D) with octant in *. apply (monotone3 o); [congruence| | |]; rewrite ?Gx, ?Gx', ?Gy, ?Gy', ?Gz, ?Gz'; assumption.
  - rewrite (path_cmp_eq dim3_ok). split; [intros ->; repeat split; congruence|].
    intros (E1 & E2 & E3). apply (c11_grid_index_3d_injective_lemma o); [exact (eq_trans La (eq_sym Lb))|unfold grid3; congruence].
Qed.

(* ---------- C41 ---------- *)
Lemma coord_firstn {A} (off : A -> N) l g : (forall x, off x < 2) -> g <= len l ->
  coord off (firstn (N.to_nat (len l - g)) l) = coord off l / 2 ^ g.
Proof.
  intros Hoff Hg. assert (E1 : coord off l = coord off (firstn (N.to_nat (len l - g)) l ++ skipn (N.to_nat (len l - g)) l))
    by (rewrite firstn_skipn; reflexivity). rewrite E1, coord_app.
  assert (E : len (skipn (N.to_nat (len l - g)) l) = g) by (rewrite len_skipn; lia). rewrite E.
  rewrite N.div_add_l by apply pow2_ne0. rewrite N.div_small; [lia|]. pose proof (coord_lt off (skipn (N.to_nat (len l - g)) l) Hoff) as B. rewrite E in B. exact B.
Qed.
Lemma c41_ancestor_2d_lemma : forall c L k v (s s' : storage k) o g x y,
  is_dim Dim2D L -> var_ops c Dim2D L k = Some v -> valid c Dim2D k s -> st_depth (ops c Dim2D k) s <= usize_bits c ->
  to_grid_index_2d c (ops c Dim2D k) s o = Ret (x, y) -> ancestor v s g = Ret (Some s') ->
  to_grid_index_2d c (ops c Dim2D k) s' o = Ret (x / 2 ^ g, y / 2 ^ g).
Proof.
  intros c L k v s s' o g x y HL HV V HW G E. destruct (valid_repr _ _ _ _ dim2_ok V) as (l & R).
  rewrite (raw_depth _ _ _ _ _ _ _ _ R) in HW. rewrite (to_grid_index_2d_ok c k s o l R HW) in G. injection G as <- <-.
  destruct (N.le_gt_cases g (len l)) as [H|H]; [|rewrite (ancestor_none c Dim2D L k v s l g HV R H) in E; discriminate].
  destruct (ancestor_repr c Dim2D L k v s l g HL HV R H) as (s1 & E1 & R1). rewrite E in E1. injection E1 as <-.
  rewrite (to_grid_index_2d_ok c k s' o _ R1) by (rewrite len_firstn by lia; lia). unfold grid2.
  rewrite !(coord_firstn _ l g) by (try (intro; apply quad_lt); exact H). reflexivity.
Qed.
Lemma c41_ancestor_3d_lemma : forall c L k v (s s' : storage k) o g x y z,
  is_dim Dim3D L -> var_ops c Dim3D L k = Some v -> valid c Dim3D k s -> st_depth (ops c Dim3D k) s <= usize_bits c ->
  to_grid_index_3d c (ops c Dim3D k) s o = Ret (x, y, z) -> ancestor v s g = Ret (Some s') ->
  to_grid_index_3d c (ops c Dim3D k) s' o = Ret (x / 2 ^ g, y / 2 ^ g, z / 2 ^ g).
Proof.
  intros c L k v s s' o g x y z HL HV V HW G E. destruct (valid_repr _ _ _ _ dim3_ok V) as (l & R).
  rewrite (raw_depth _ _ _ _ _ _ _ _ R) in HW. rewrite (to_grid_index_3d_ok c k s o l R HW) in G. injection G as <- <- <-.
  destruct (N.le_gt_cases g (len l)) as [H|H]; [|rewrite (ancestor_none c Dim3D L k v s l g HV R H) in E; discriminate].
  destruct (ancestor_repr c Dim3D L k v s l g HL HV R H) as (s1 & E1 & R1). rewrite E in E1. injection E1 as <-.
  rewrite (to_grid_index_3d_ok c k s' o _ R1) by (rewrite len_firstn by lia; lia). unfold grid3.
  rewrite !(coord_firstn _ l g) by (try (intro; apply oct_lt); exact H). reflexivity.
Qed.
Lemma c41_static_child_2d_lemma : forall c L t (s s' : storage (KStatic t)) o q x y,
  is_dim Dim2D L -> valid c Dim2D (KStatic t) s -> sx_depth s < usize_bits c ->
  to_grid_index_2d c (static_ops c Dim2D t) s o = Ret (x, y) -> child (static_vops c Dim2D t) s q = Ret (Some s') ->
  to_grid_index_2d c (static_ops c Dim2D t) s' o = Ret (2 * x + quad_x o q, 2 * y + quad_y o q).
Proof.
  intros c L t s s' o q x y HL V HW G E. destruct (valid_repr _ _ _ _ dim2_ok V) as (l & R).
  pose proof (raw_depth _ _ _ _ _ _ _ _ R) as Hl. cbn [st_depth ops static_ops] in Hl.
  pose proof (repr_shows _ _ _ _ _ dim2_ok R) as S. change (cell Dim2D) with quadrant in *.
  assert (G0 : Ret (x, y) = Ret (grid2 o l))
    by (rewrite <- G; apply (to_grid_index_2d_ok c (KStatic t) s o l R); change (cell Dim2D) with quadrant; lia). injection G0 as -> ->.
  pose proof (c15_static_child_lemma c Dim2D L t s l q HL V S) as X. change (cell Dim2D) with quadrant in X.
  destruct (len l <? BITS c t / dim Dim2D);
    [|pose proof (eq_trans (eq_sym E) X) as Z; discriminate Z].
  destruct X as (s1 & E1 & V1 & S1). rewrite E in E1. injection E1 as <-.
  etransitivity; [apply (to_grid_index_2d_ok c (KStatic t) s' o _ (valid_shows c Dim2D (KStatic t) _ _ dim2_ok V1 S1))|].
  - rewrite len_app. change (cell Dim2D) with quadrant. change (len [q]) with 1. lia.
  - unfold grid2. change (cell Dim2D) with quadrant. rewrite !coord_snoc. reflexivity.
Qed.
Lemma c41_dynamic_child_2d_lemma : forall c L (s : storage KDynamic) o q x y,
  is_dim Dim2D L -> writable c KDynamic -> valid c Dim2D KDynamic s -> dy_depth s < usize_bits c ->
  8 * len (dy_bits s) + 18 <= 2 ^ usize_bits c ->
  to_grid_index_2d c (dynamic_ops c Dim2D) s o = Ret (x, y) ->
  exists s', child (dynamic_vops c Dim2D L) s q = Ret (Some s')
    /\ to_grid_index_2d c (dynamic_ops c Dim2D) s' o = Ret (2 * x + quad_x o q, 2 * y + quad_y o q).
Proof.
  intros c L s o q x y HL Hw V HW Hk G. destruct (valid_repr _ _ _ _ dim2_ok V) as (l & R).
  pose proof (raw_depth _ _ _ _ _ _ _ _ R) as Hl. cbn [st_depth ops dynamic_ops] in Hl.
  pose proof (repr_shows _ _ _ _ _ dim2_ok R) as S. change (cell Dim2D) with quadrant in *.
  assert (G0 : Ret (x, y) = Ret (grid2 o l))
    by (rewrite <- G; apply (to_grid_index_2d_ok c KDynamic s o l R); change (cell Dim2D) with quadrant; lia). injection G0 as -> ->.
  destruct (c15_dynamic_child_lemma c Dim2D L s l q HL Hw V S) as (s' & E & V1 & S1); [cbn [dim Dim2D]; lia|].
  exists s'. split; [exact E|].
  etransitivity; [apply (to_grid_index_2d_ok c KDynamic s' o _ (valid_shows c Dim2D KDynamic _ _ dim2_ok V1 S1))|].
  - rewrite len_app. change (cell Dim2D) with quadrant. change (len [q]) with 1. lia.
  - unfold grid2. change (cell Dim2D) with quadrant. rewrite !coord_snoc. reflexivity.
Qed.
Lemma c41_static_child_3d_lemma : forall c L t (s s' : storage (KStatic t)) o q x y z,
  is_dim Dim3D L -> valid c Dim3D (KStatic t) s -> sx_depth s < usize_bits c ->
  to_grid_index_3d c (static_ops c Dim3D t) s o = Ret (x, y, z) -> child (static_vops c Dim3D t) s q = Ret (Some s') ->
  to_grid_index_3d c (static_ops c Dim3D t) s' o = Ret (2 * x + oct_x o q, 2 * y + oct_y o q, 2 * z + oct_z o q).
Proof.
  intros c L t s s' o q x y z HL V HW G E. destruct (valid_repr _ _ _ _ dim3_ok V) as (l & R).
  pose proof (raw_depth _ _ _ _ _ _ _ _ R) as Hl. cbn [st_depth ops static_ops] in Hl.
  pose proof (repr_shows _ _ _ _ _ dim3_ok R) as S. change (cell Dim3D) with octant in *.
  assert (G0 : Ret (x, y, z) = Ret (grid3 o l))
    by (rewrite <- G; apply (to_grid_index_3d_ok c (KStatic t) s o l R); change (cell Dim3D) with octant; lia). injection G0 as -> -> ->.
  pose proof (c15_static_child_lemma c Dim3D L t s l q HL V S) as X. change (cell Dim3D) with octant in X.
  destruct (len l <? BITS c t / dim Dim3D);
    [|pose proof (eq_trans (eq_sym E) X) as Z; discriminate Z].
  destruct X as (s1 & E1 & V1 & S1). rewrite E in E1. injection E1 as <-.
  etransitivity; [apply (to_grid_index_3d_ok c (KStatic t) s' o _ (valid_shows c Dim3D (KStatic t) _ _ dim3_ok V1 S1))|].
  - rewrite len_app. change (cell Dim3D) with octant. change (len [q]) with 1. lia.
  - unfold grid3. change (cell Dim3D) with octant. rewrite !coord_snoc. reflexivity.
Qed.
Lemma c41_dynamic_child_3d_lemma : forall c L (s : storage KDynamic) o q x y z,
  is_dim Dim3D L -> writable c KDynamic -> valid c Dim3D KDynamic s -> dy_depth s < usize_bits c ->
  8 * len (dy_bits s) + 19 <= 2 ^ usize_bits c ->
  to_grid_index_3d c (dynamic_ops c Dim3D) s o = Ret (x, y, z) ->
  exists s', child (dynamic_vops c Dim3D L) s q = Ret (Some s')
    /\ to_grid_index_3d c (dynamic_ops c Dim3D) s' o = Ret (2 * x + oct_x o q, 2 * y + oct_y o q, 2 * z + oct_z o q).
Proof.
  intros c L s o q x y z HL Hw V HW Hk G. destruct (valid_repr _ _ _ _ dim3_ok V) as (l & R).
  pose proof (raw_depth _ _ _ _ _ _ _ _ R) as Hl. cbn [st_depth ops dynamic_ops] in Hl.
  pose proof (repr_shows _ _ _ _ _ dim3_ok R) as S. change (cell Dim3D) with octant in *.
  assert (G0 : Ret (x, y, z) = Ret (grid3 o l))
    by (rewrite <- G; apply (to_grid_index_3d_ok c KDynamic s o l R); change (cell Dim3D) with octant; lia). injection G0 as -> -> ->.
  destruct (c15_dynamic_child_lemma c Dim3D L s l q HL Hw V S) as (s' & E & V1 & S1); [cbn [dim Dim3D]; lia|].
  exists s'. split; [exact E|].
  etransitivity; [apply (to_grid_index_3d_ok c KDynamic s' o _ (valid_shows c Dim3D KDynamic _ _ dim3_ok V1 S1))|].
  - rewrite len_app. change (cell Dim3D) with octant. change (len [q]) with 1. lia.
  - unfold grid3. change (cell Dim3D) with octant. rewrite !coord_snoc. reflexivity.
Qed.

(* ---------- C42 ---------- *)
Lemma c42_deep_to_grid_index_2d_panics_lemma : forall c k (s : storage k) o,
  overflow_checks c = true -> valid c Dim2D k s -> usize_bits c < st_depth (ops c Dim2D k) s ->
  to_grid_index_2d c (ops c Dim2D k) s o = Panic.
Proof.
  intros c k s o HO V H. destruct (valid_repr _ _ _ _ dim2_ok V) as (l & R). rewrite (raw_depth _ _ _ _ _ _ _ _ R) in H.
  apply (to_grid_index_2d_deep c k s o l R H HO).
Qed.
Lemma c42_deep_to_grid_index_3d_panics_lemma : forall c k (s : storage k) o,
  overflow_checks c = true -> valid c Dim3D k s -> usize_bits c < st_depth (ops c Dim3D k) s ->
  to_grid_index_3d c (ops c Dim3D k) s o = Panic.
Proof.
  intros c k s o HO V H. destruct (valid_repr _ _ _ _ dim3_ok V) as (l & R). rewrite (raw_depth _ _ _ _ _ _ _ _ R) in H.
  apply (to_grid_index_3d_deep c k s o l R H HO).
Qed.
Lemma folded_step c W x A q sh : W = usize_bits c -> folded W (A * 2 ^ (sh + 1)) x -> q < 2 ->
  folded W ((2 * A + q) * 2 ^ sh) (N.lor x (cast W (N.shiftl q (sh mod W)))).
Proof.
  intros EW F Hq j. assert (W0 : W <> 0) by (pose proof (usize_ge16 c); lia).
  assert (T : forall n, N.testbit ((2 * A + q) * 2 ^ sh) n = N.testbit (A * 2 ^ (sh + 1)) n || ((n =? sh) && (q =? 1))).
  { intro n. rewrite !testbit_mul_pow2. destruct (N.leb_spec sh n) as [H|H].
    - destruct (N.eqb_spec n sh) as [->|Ne].
      + rewrite N.sub_diag. destruct (N.leb_spec (sh + 1) sh) as [H'|_]; [lia|]. cbn [andb orb].
        rewrite N.bit0_odd, (N.add_comm (2 * A) q), N.odd_add_mul_2. assert (K : q = 0 \/ q = 1) by lia. destruct K as [-> | ->]; reflexivity.
      + destruct (N.leb_spec (sh + 1) n) as [_|H']; [|lia]. cbn [andb]. rewrite orb_false_r.
        replace (n - sh) with (N.succ (n - (sh + 1))) by lia. rewrite <- N.div2_bits.
        rewrite ?N.div2_div. replace ((2 * A + q) / 2) with A by (clear - Hq; lia). reflexivity.
    - destruct (N.leb_spec (sh + 1) n); [lia|]. destruct (N.eqb_spec n sh); [lia|]. reflexivity. }
  assert (Q : forall n, N.testbit (cast W (N.shiftl q (sh mod W))) n = (n <? W) && ((n =? sh mod W) && (q =? 1))).
  { intro n. unfold cast. rewrite testbit_mod. f_equal. assert (K : q = 0 \/ q = 1) by lia. destruct K as [-> | ->].
    - rewrite N.shiftl_0_l, testbit_0. destruct (n =? sh mod W); reflexivity.
    - rewrite N.shiftl_1_l, N.pow2_bits_eqb, N.eqb_sym, andb_true_r. reflexivity. }
  rewrite N.lor_spec, orb_true_iff, Q, (F j). pose proof (N.mod_lt sh W W0) as HL. pose proof (N.div_mod sh W W0) as DM. split.
  - intros [[Hj (m & Hm)]|H].
    + split; [exact Hj|]. exists m. rewrite T, Hm. reflexivity.
    + apply andb_true_iff in H. destruct H as [H1 H2]. apply N.ltb_lt in H1. split; [exact H1|]. exists (sh / W). rewrite T.
      apply andb_true_iff in H2. destruct H2 as [H2 ->]. apply N.eqb_eq in H2. rewrite andb_true_r.
      apply orb_true_iff. right. apply N.eqb_eq. rewrite DM at 2. rewrite H2. ring.
  - intros [Hj (m & Hm)]. rewrite T in Hm. apply orb_true_iff in Hm. destruct Hm as [Hm|Hm].
    + left. split; [exact Hj|]. exists m. exact Hm.
    + right. apply andb_true_iff in Hm. destruct Hm as [Hm ->]. apply N.eqb_eq in Hm. rewrite andb_true_r.
      apply andb_true_iff. split; [apply N.ltb_lt; exact Hj|]. apply N.eqb_eq. rewrite <- Hm.
      rewrite N.mod_add by exact W0. rewrite N.mod_small by exact Hj. reflexivity.
Qed.
Lemma folded_0 w : folded w 0 0.
Proof. intro j. rewrite testbit_0. split; [discriminate|]. intros [_ (m & H)]. rewrite testbit_0 in H. discriminate. Qed.
Lemma shl_release c w a s : overflow_checks c = false -> shl c w a s = Ret (cast w (N.shiftl a (s mod w))).
Proof.
  intros H. unfold shl. rewrite H. destruct (N.ltb_spec s w); [|reflexivity]. rewrite N.mod_small by assumption. reflexivity.
Qed.
Lemma c42_release_2d_folds_lemma : forall c k (s : storage k) l o,
  overflow_checks c = false -> valid c Dim2D k s -> shows (ops c Dim2D k) s l ->
  exists x y, to_grid_index_2d c (ops c Dim2D k) s o = Ret (x, y)
    /\ folded (usize_bits c) (coord (quad_x o) l) x /\ folded (usize_bits c) (coord (quad_y o) l) y.
Proof.
  intros c k s l o HO V S. pose proof (valid_shows c Dim2D k s l dim2_ok V S) as R.
  unfold to_grid_index_2d. rewrite (raw_depth _ _ _ _ _ _ _ _ R).
  match goal with |- context [foldM ?f _ _] => destruct (foldM_range_inv (fun i xy =>
     folded (usize_bits c) (coord (quad_x o) (firstn (N.to_nat i) l) * 2 ^ (len l - i)) (fst xy)
     /\ folded (usize_bits c) (coord (quad_y o) (firstn (N.to_nat i) l) * 2 ^ (len l - i)) (snd xy))
     f 0 (len l) (0, 0)) as (r & E & Hr) end.
  - lia.
  - cbn [fst snd N.to_nat firstn coord]. unfold coord. cbn [fold_left]. rewrite N.mul_0_l. split; apply folded_0.
  - intros i [x y] Hi [Fx Fy]. cbn [fst snd] in *. destruct (nth_error_N_lt l i) as [q Hq]; [lia|].
    rewrite (raw_get _ _ _ _ _ _ _ _ _ _ dim2_ok R Hq), bind_ret. rewrite quadrant_to_index_spec.
    rewrite sub_ok by lia. rewrite bind_ret. rewrite sub_ok by lia. rewrite bind_ret.
    rewrite !shl_release by exact HO. rewrite !bind_ret. eexists. split; [reflexivity|]. cbn [fst snd].
    rewrite (firstn_nth_snoc l i q Hq), !coord_snoc. replace (len l - (i + 1)) with (len l - i - 1) by lia.
    replace (len l - i) with (len l - i - 1 + 1) in Fx, Fy by lia.
    split; (eapply folded_step; [reflexivity|eassumption|apply quad_lt]).
  - destruct r as [x y]. exists x, y. split; [exact E|]. rewrite N.sub_diag, to_nat_len, firstn_all in Hr.
    change (2 ^ 0) with 1 in Hr. rewrite !N.mul_1_r in Hr. exact Hr.
Qed.
Lemma c42_release_3d_folds_lemma : forall c k (s : storage k) l o,
  overflow_checks c = false -> valid c Dim3D k s -> shows (ops c Dim3D k) s l ->
  exists x y z, to_grid_index_3d c (ops c Dim3D k) s o = Ret (x, y, z)
    /\ folded (usize_bits c) (coord (oct_x o) l) x /\ folded (usize_bits c) (coord (oct_y o) l) y
    /\ folded (usize_bits c) (coord (oct_z o) l) z.
Proof.
  intros c k s l o HO V S. pose proof (valid_shows c Dim3D k s l dim3_ok V S) as R.
  unfold to_grid_index_3d. rewrite (raw_depth _ _ _ _ _ _ _ _ R).
  match goal with |- context [foldM ?f _ _] => destruct (foldM_range_inv (fun i xyz =>
     folded (usize_bits c) (coord (oct_x o) (firstn (N.to_nat i) l) * 2 ^ (len l - i)) (fst (fst xyz))
     /\ folded (usize_bits c) (coord (oct_y o) (firstn (N.to_nat i) l) * 2 ^ (len l - i)) (snd (fst xyz))
     /\ folded (usize_bits c) (coord (oct_z o) (firstn (N.to_nat i) l) * 2 ^ (len l - i)) (snd xyz))
     f 0 (len l) (0, 0, 0)) as (r & E & Hr) end.
  - lia.
  - cbn [fst snd N.to_nat firstn coord]. unfold coord. cbn [fold_left]. rewrite N.mul_0_l. split; [|split]; apply folded_0.
  - intros i [[x y] z] Hi (Fx & Fy & Fz). cbn [fst snd] in *. destruct (nth_error_N_lt l i) as [q Hq]; [lia|].
    rewrite (raw_get _ _ _ _ _ _ _ _ _ _ dim3_ok R Hq), bind_ret. rewrite octant_to_index_spec.
    rewrite sub_ok by lia. rewrite bind_ret. rewrite sub_ok by lia. rewrite bind_ret.
    rewrite !shl_release by exact HO. rewrite !bind_ret. eexists. split; [reflexivity|]. cbn [fst snd].
    rewrite (firstn_nth_snoc l i q Hq), !coord_snoc. replace (len l - (i + 1)) with (len l - i - 1) by lia.
    replace (len l - i) with (len l - i - 1 + 1) in Fx, Fy, Fz by lia.
    destruct (oct_lt o q) as (Lx & Ly & Lz). split; [|split]; (eapply folded_step; [reflexivity|eassumption|assumption]).
  - destruct r as [[x y] z]. exists x, y, z. split; [exact E|]. rewrite N.sub_diag, to_nat_len, firstn_all in Hr.
    change (2 ^ 0) with 1 in Hr. rewrite !N.mul_1_r in Hr. exact Hr.
Qed.
(* a build with overflow checks panics on every index of depth 65; one without returns 1 instead of 2^64 *)
Lemma c42_deep_to_grid_index_refuted_lemma :
  ~ (forall c s (l : list quadrant) o, made c Dim2D layout2D KDynamic true s l ->
     exists x y, to_grid_index_2d c (dynamic_ops c Dim2D) s o = Ret (x, y)
       /\ x = coord (quad_x o) l mod 2 ^ usize_bits c /\ y = coord (quad_y o) l mod 2 ^ usize_bits c).
Proof.
  intro H. destruct (H release64 (MkDynamic (zeros 16 ++ [0x40]) 65) (Q1 :: repeat Q0 64) XY) as (x & y & E & Hx & Hy).
  { made_by (start_dynamic_cells release64 Dim2D layout2D (Q1 :: repeat Q0 64)) (@nil (call Dim2D)). }
  vm_compute in E. injection E as <- <-. vm_compute in Hx. vm_compute in Hy. congruence.
Qed.
