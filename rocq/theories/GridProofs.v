(* GridProofs.v - grid coordinates of cell paths, and the bit spreading helpers *)
From Verif Require Import Base ModelNumber ModelDim ModelStorage Model2D Model3D Spec BitProofs NumberProofs VecProofs CellProofs StorageProofs.

(* ---------- coordinates of a path ---------- *)
Lemma coord_snoc {A} (off : A -> N) l x : coord off (l ++ [x]) = 2 * coord off l + off x.
Proof. unfold coord. rewrite fold_left_app. reflexivity. Qed.
Lemma coord_lt {A} (off : A -> N) l : (forall x, off x < 2) -> coord off l < 2 ^ len l.
Proof.
  intros H. induction l as [|x l IH] using rev_ind; [cbn; lia|].
  rewrite coord_snoc, len_app. change (len [x]) with 1. rewrite pow2_S. specialize (H x). lia.
Qed.
Lemma coord_cons {A} (off : A -> N) l x : coord off (x :: l) = off x * 2 ^ len l + coord off l.
Proof.
  induction l as [|y l IH] using rev_ind; [unfold coord; cbn [fold_left]; change (2 ^ len (@nil A)) with 1; lia|].
  change (x :: l ++ [y]) with ((x :: l) ++ [y]). rewrite !coord_snoc, IH, len_app. change (len [y]) with 1.
  rewrite pow2_S. lia.
Qed.
Lemma coord_app {A} (off : A -> N) a b : coord off (a ++ b) = coord off a * 2 ^ len b + coord off b.
Proof.
  induction b as [|y b IH] using rev_ind.
  - rewrite app_nil_r. change (coord off []) with 0. change (2 ^ len (@nil A)) with 1. lia.
  - rewrite app_assoc, !coord_snoc, IH, len_app. change (len [y]) with 1. rewrite pow2_S. lia.
Qed.
Lemma coord_ext {A} (f g : A -> N) l : (forall x, f x = g x) -> coord f l = coord g l.
Proof. intros H. induction l as [|x l IH] using rev_ind; [reflexivity|]. rewrite !coord_snoc, IH, H. reflexivity. Qed.

Lemma odd_double a b : N.testbit (2 * a + N.b2n b) 0 = b.
Proof. rewrite N.testbit_0_r. reflexivity. Qed.
Lemma testbit_double a b i : N.testbit (2 * a + N.b2n b) i = if i =? 0 then b else N.testbit a (i - 1).
Proof.
  destruct (N.eqb_spec i 0) as [->|Hi]; [apply N.testbit_0_r|].
  replace i with (N.succ (i - 1)) at 1 by lia. apply N.testbit_succ_r.
Qed.

(* the p-th bit of the cell indices, as a coordinate *)
Definition bit_off (D : Dimension) (p : N) (x : cell D) : N := N.b2n (N.testbit (cell_index D x) p).
Lemma bit_off_lt D p x : bit_off D p x < 2.
Proof. unfold bit_off. destruct (N.testbit _ _); cbn; lia. Qed.

Section Coord.
  Context {D : Dimension} (HD : dim_ok D).
  Lemma coord_enc p l i : p < dim D ->
    N.testbit (coord (bit_off D p) l) i = (i <? len l) && N.testbit (enc l) (dim D * i + p).
  Proof.
    intros Hp. revert i. induction l as [|x l IH] using rev_ind; intro i.
    - change (coord (bit_off D p) []) with 0. rewrite testbit_0. symmetry. apply andb_false_iff. left. apply N.ltb_ge. cbn. lia.
    - rewrite coord_snoc, enc_snoc, len_app. change (len [x]) with 1. unfold bit_off at 2. rewrite testbit_double.
      assert (E : N.testbit (2 ^ dim D * enc l + cell_index D x) (dim D * i + p)
                  = if i =? 0 then N.testbit (cell_index D x) p else N.testbit (enc l) (dim D * (i - 1) + p)).
      { pose proof (idx_lt D HD x) as Hx. destruct (N.eqb_spec i 0) as [->|Hi].
        - rewrite N.mul_0_r, N.add_0_l.
          rewrite <- (N.mod_pow2_bits_low _ (dim D)) by exact Hp. rewrite (N.mul_comm (2 ^ dim D)), N.add_comm, N.mod_add by apply pow2_ne0.
          rewrite N.mod_small by exact Hx. reflexivity.
        - replace (dim D * i + p) with (dim D * (i - 1) + p + dim D) by nia.
          rewrite <- testbit_div_pow2. f_equal. rewrite (N.mul_comm (2 ^ dim D)), N.div_add_l by apply pow2_ne0.
          rewrite N.div_small by exact Hx. lia. }
      rewrite E, IH. clear E. destruct (N.eqb_spec i 0) as [->|Hi].
      + destruct (N.ltb_spec 0 (len l + 1)); [reflexivity|lia].
      + destruct (N.ltb_spec (i - 1) (len l)), (N.ltb_spec i (len l + 1)); reflexivity || lia.
  Qed.
  Lemma coord_holds w v l p i : holds w v l -> p < dim D ->
    N.testbit (coord (bit_off D p) l) i = (i <? len l) && N.testbit v (w - dim D * len l + dim D * i + p).
  Proof.
    intros (_ & Hl & He) Hp. rewrite coord_enc by exact Hp. rewrite <- He, testbit_div_pow2. do 2 f_equal. lia.
  Qed.
  (* the coordinates determine the path *)
  Lemma coords_inj l l' : len l = len l' -> (forall p, p < dim D -> coord (bit_off D p) l = coord (bit_off D p) l') -> l = l'.
  Proof.
    intros Hl H. revert l' Hl H. induction l as [|x l IH] using rev_ind; intros l' Hl H.
    - symmetry; apply len_0_nil. symmetry; exact Hl.
    - destruct l' as [|y l' _] using rev_ind; [rewrite len_app in Hl; cbn in Hl; lia|].
      rewrite !len_app in Hl. change (len [x]) with 1 in Hl. change (len [y]) with 1 in Hl.
      assert (S : forall p, p < dim D -> coord (bit_off D p) l = coord (bit_off D p) l' /\ bit_off D p x = bit_off D p y).
      { intros p Hp. specialize (H p Hp). rewrite !coord_snoc in H. pose proof (bit_off_lt D p x). pose proof (bit_off_lt D p y). lia. }
      f_equal; [apply IH; [lia|]; intros p Hp; apply (S p Hp)|]. f_equal. apply (idx_inj D _ _ HD).
      apply N.bits_inj; intro p. destruct (N.lt_ge_cases p (dim D)) as [Hp|Hp].
      + destruct (S p Hp) as [_ E]. unfold bit_off in E. destruct (N.testbit _ _), (N.testbit _ _); cbn in E; congruence.
      + rewrite !(testbit_high _ (dim D)); try reflexivity; try exact Hp; apply (idx_lt D HD).
  Qed.
End Coord.

(* offsets of the documentation as bits of the cell index *)
Definition qx_bit (o : quadrant_ordering) : N := match o with XY => 0 | YX => 1 end.
Definition qy_bit (o : quadrant_ordering) : N := match o with XY => 1 | YX => 0 end.
Lemma quad_x_bit o q : quad_x o q = bit_off Dim2D (qx_bit o) q.
Proof. destruct o, q; reflexivity. Qed.
Lemma quad_y_bit o q : quad_y o q = bit_off Dim2D (qy_bit o) q.
Proof. destruct o, q; reflexivity. Qed.
Definition ox_bit o := fst (fst (get_bit_shifts_for_xyz o)).
Definition oy_bit o := snd (fst (get_bit_shifts_for_xyz o)).
Definition oz_bit o := snd (get_bit_shifts_for_xyz o).
Lemma oct_x_bit o q : oct_x o q = bit_off Dim3D (ox_bit o) q.
Proof. destruct o, q; reflexivity. Qed.
Lemma oct_y_bit o q : oct_y o q = bit_off Dim3D (oy_bit o) q.
Proof. destruct o, q; reflexivity. Qed.
Lemma oct_z_bit o q : oct_z o q = bit_off Dim3D (oz_bit o) q.
Proof. destruct o, q; reflexivity. Qed.

Lemma quad_lt o q : quad_x o q < 2 /\ quad_y o q < 2.
Proof. rewrite quad_x_bit, quad_y_bit. split; apply bit_off_lt. Qed.
Lemma oct_lt o q : oct_x o q < 2 /\ oct_y o q < 2 /\ oct_z o q < 2.
Proof. rewrite oct_x_bit, oct_y_bit, oct_z_bit. repeat split; apply bit_off_lt. Qed.

Lemma grid2_bits o l : grid2 o l = (coord (bit_off Dim2D (qx_bit o)) l, coord (bit_off Dim2D (qy_bit o)) l).
Proof. unfold grid2. f_equal; apply coord_ext; intro q; [apply quad_x_bit|apply quad_y_bit]. Qed.
Lemma grid3_bits o l : grid3 o l
  = (coord (bit_off Dim3D (ox_bit o)) l, coord (bit_off Dim3D (oy_bit o)) l, coord (bit_off Dim3D (oz_bit o)) l).
Proof. unfold grid3. repeat f_equal; apply coord_ext; intro q; [apply oct_x_bit|apply oct_y_bit|apply oct_z_bit]. Qed.

Lemma path_to2_unique o d x y l l' : path_to2 o d x y l -> path_to2 o d x y l' -> l = l'.
Proof.
  intros [L1 G1] [L2 G2]. rewrite grid2_bits in G1, G2. rewrite <- G1 in G2. injection G2 as Gx Gy.
  apply (coords_inj dim2_ok); [exact (eq_trans L1 (eq_sym L2))|]. intros p Hp. cbn in Hp.
  assert (p = 0 \/ p = 1) as [-> | ->] by lia; destruct o; cbn [qx_bit qy_bit] in *; symmetry; assumption.
Qed.
Lemma path_to3_unique o d x y z l l' : path_to3 o d x y z l -> path_to3 o d x y z l' -> l = l'.
Proof.
  intros [L1 G1] [L2 G2]. rewrite grid3_bits in G1, G2. rewrite <- G1 in G2. injection G2 as Gx Gy Gz.
  apply (coords_inj dim3_ok); [exact (eq_trans L1 (eq_sym L2))|]. intros p Hp. cbn in Hp.
  assert (p = 0 \/ p = 1 \/ p = 2) as [-> | [-> | ->]] by lia;
    destruct o; unfold ox_bit, oy_bit, oz_bit in *; cbn [fst snd get_bit_shifts_for_xyz] in *; symmetry; assumption.
Qed.
Lemma path_to2_own o l : path_to2 o (len l) (fst (grid2 o l)) (snd (grid2 o l)) l.
Proof.
  split; [reflexivity|]. cbn [grid2 fst snd].
  rewrite !N.mod_small; [reflexivity| |]; apply coord_lt; intro q; apply quad_lt.
Qed.
Lemma path_to3_own o l : path_to3 o (len l) (fst (fst (grid3 o l))) (snd (fst (grid3 o l))) (snd (grid3 o l)) l.
Proof.
  split; [reflexivity|]. cbn [grid3 fst snd].
  rewrite !N.mod_small; [reflexivity| | |]; apply coord_lt; intro q; apply oct_lt.
Qed.
(* every grid cell has a path *)
Lemma path_to2_exists o d x y : exists l, path_to2 o d x y l.
Proof.
  exists (map (fun k => match o, N.testbit x (d - 1 - k), N.testbit y (d - 1 - k) with
     | _, false, false => Q0 | _, true, true => Q3
     | XY, true, false => Q1 | XY, false, true => Q2 | YX, true, false => Q2 | YX, false, true => Q1 end) (range 0 d)).
  split; [unfold len; rewrite map_length; fold (len (range 0 d)); rewrite len_range; lia|].
  assert (G : forall n, n <= d -> forall f : N -> quadrant,
     (forall k, quad_x o (f k) = N.b2n (N.testbit x (d - 1 - k))) -> (forall k, quad_y o (f k) = N.b2n (N.testbit y (d - 1 - k))) ->
     grid2 o (map f (range 0 n)) = (x mod 2 ^ d / 2 ^ (d - n), y mod 2 ^ d / 2 ^ (d - n))).
  { intros n Hn f Fx Fy. induction n as [|n IH] using N.peano_ind.
    - cbn. rewrite N.sub_0_r, !N.div_small by (apply N.mod_lt, pow2_ne0). reflexivity.
    - rewrite <- N.add_1_r in *. rewrite range_snoc, map_app by lia. cbn [map].
      specialize (IH ltac:(lia)). unfold grid2 in *. injection IH as IHx IHy. rewrite !coord_snoc, IHx, IHy, Fx, Fy.
      assert (S : forall v, 2 * (v mod 2 ^ d / 2 ^ (d - n)) + N.b2n (N.testbit v (d - 1 - n)) = v mod 2 ^ d / 2 ^ (d - (n + 1))).
      { clear - Hn. intro v. apply N.bits_inj; intro i. rewrite testbit_double, !testbit_div_pow2, !testbit_mod.
        destruct (N.eqb_spec i 0) as [->|Hi].
        - replace (0 + (d - (n + 1))) with (d - 1 - n) by lia. destruct (N.ltb_spec (d - 1 - n) d); [reflexivity|lia].
        - replace (i - 1 + (d - n)) with (i + (d - (n + 1))) by lia. reflexivity. }
      rewrite !S. reflexivity. }
  rewrite (G d); [rewrite N.sub_diag, !N.div_1_r; reflexivity|lia| |]; intro k;
    destruct o, (N.testbit x _), (N.testbit y _); reflexivity.
Qed.

(* the bits of a number, found in a storage word, make a path to a grid cell *)
Lemma holds_path2 o w v (l : list quadrant) x y : holds (D:=Dim2D) w v l ->
  (forall i, i < len l -> N.testbit v (w - 2 * len l + 2 * i + qx_bit o) = N.testbit x i) ->
  (forall i, i < len l -> N.testbit v (w - 2 * len l + 2 * i + qy_bit o) = N.testbit y i) ->
  path_to2 o (len l) x y l.
Proof.
  intros H Hx Hy. split; [reflexivity|]. rewrite grid2_bits. f_equal; apply N.bits_inj; intro i; rewrite testbit_mod;
    (rewrite (coord_holds dim2_ok w v) by (exact H || (destruct o; cbn; lia)));
    change (cell Dim2D) with quadrant; change (dim Dim2D) with 2;
    (destruct (N.ltb_spec i (len l)); [cbn [andb]|reflexivity]).
  - apply Hx; assumption.
  - apply Hy; assumption.
Qed.
Lemma holds_path3 o w v (l : list octant) x y z : holds (D:=Dim3D) w v l ->
  (forall i, i < len l -> N.testbit v (w - 3 * len l + 3 * i + ox_bit o) = N.testbit x i) ->
  (forall i, i < len l -> N.testbit v (w - 3 * len l + 3 * i + oy_bit o) = N.testbit y i) ->
  (forall i, i < len l -> N.testbit v (w - 3 * len l + 3 * i + oz_bit o) = N.testbit z i) ->
  path_to3 o (len l) x y z l.
Proof.
  intros H Hx Hy Hz. split; [reflexivity|]. rewrite grid3_bits. repeat f_equal; apply N.bits_inj; intro i; rewrite testbit_mod;
    (rewrite (coord_holds dim3_ok w v) by (exact H || (destruct o; cbn; lia)));
    change (cell Dim3D) with octant; change (dim Dim3D) with 3;
    (destruct (N.ltb_spec i (len l)); [cbn [andb]|reflexivity]).
  - apply Hx; assumption.
  - apply Hy; assumption.
  - apply Hz; assumption.
Qed.

(* ---------- to_grid_index ---------- *)
Lemma lor_double a q : q < 2 -> N.lor (2 * a) q = 2 * a + q.
Proof. intros H. assert (q = 0 \/ q = 1) as [-> | ->] by lia; destruct a; reflexivity. Qed.
Lemma lor_next c a q m n : q < 2 -> m < usize_bits c -> n = m + 1 ->
  N.lor (a * 2 ^ n) (cast (usize_bits c) (N.shiftl q m)) = (2 * a + q) * 2 ^ m.
Proof.
  intros Hq Hm ->. rewrite cast_small.
  - rewrite <- lor_double by exact Hq. rewrite pow2_S. replace (a * (2 * 2 ^ m)) with (2 * a * 2 ^ m) by lia.
    rewrite <- !N.shiftl_mul_pow2, N.shiftl_lor. reflexivity.
  - rewrite N.shiftl_mul_pow2. replace (usize_bits c) with (usize_bits c - m + m) by lia. rewrite N.pow_add_r.
    apply N.mul_lt_mono_pos_r; [apply pow2_pos|].
    assert (2 ^ 1 <= 2 ^ (usize_bits c - m)) by (apply pow2_le_mono; lia). change (2 ^ 1) with 2 in *. lia.
Qed.
Lemma quadrant_to_index_spec o q : quadrant_to_index o q = (quad_x o q, quad_y o q).
Proof. destruct o, q; reflexivity. Qed.
Lemma octant_to_index_spec o q : octant_to_index o q = (oct_x o q, oct_y o q, oct_z o q).
Proof. destruct o, q; reflexivity. Qed.

Lemma firstn_nth_snoc {A} (l : list A) i x : nth_error l (N.to_nat i) = Some x ->
  firstn (N.to_nat (i + 1)) l = firstn (N.to_nat i) l ++ [x].
Proof.
  intros H. apply nth_error_split in H. destruct H as (p & z & -> & Hp).
  replace (N.to_nat (i + 1)) with (List.length (p ++ [x])) by (rewrite app_length; cbn [List.length]; lia).
  rewrite <- Hp.
  assert (F : forall a b : list A, firstn (List.length a) (a ++ b) = a)
    by (intros a b; rewrite firstn_app, firstn_all, Nat.sub_diag; cbn [firstn]; apply app_nil_r).
  rewrite (F p). change (x :: z) with ([x] ++ z). rewrite app_assoc. apply F.
Qed.

Lemma to_grid_index_2d_ok c k s o l : repr c Dim2D k s l -> len l <= usize_bits c ->
  to_grid_index_2d c (ops c Dim2D k) s o = Ret (grid2 o l).
Proof.
  intros H HW. unfold to_grid_index_2d. rewrite (raw_depth _ _ _ _ _ _ _ _ H).
  match goal with |- foldM ?f _ _ = _ => destruct (foldM_range_inv (fun i xy => xy =
     (coord (quad_x o) (firstn (N.to_nat i) l) * 2 ^ (len l - i), coord (quad_y o) (firstn (N.to_nat i) l) * 2 ^ (len l - i)))
     f 0 (len l) (0, 0)) as (r & E & Hr) end.
  - lia.
  - cbn. rewrite !N.mul_0_l. reflexivity.
  - intros i [x y] Hi [= -> ->]. destruct (nth_error_N_lt l i) as [q Hq]; [lia|].
    rewrite (raw_get _ _ _ _ _ _ _ _ _ _ dim2_ok H Hq), bind_ret. rewrite quadrant_to_index_spec.
    rewrite sub_ok by lia. rewrite bind_ret. rewrite sub_ok by lia. rewrite bind_ret.
    rewrite !shl_ok by lia. rewrite !bind_ret. eexists. split; [reflexivity|].
    rewrite (firstn_nth_snoc l i q Hq), !coord_snoc. replace (len l - (i + 1)) with (len l - i - 1) by lia.
    destruct (quad_lt o q). f_equal; apply lor_next; (assumption || (change (cell Dim2D) with quadrant in *; lia)).
  - rewrite E, Hr. rewrite N.sub_diag, to_nat_len, firstn_all. cbn. rewrite !N.mul_1_r. reflexivity.
Qed.
Lemma to_grid_index_3d_ok c k s o l : repr c Dim3D k s l -> len l <= usize_bits c ->
  to_grid_index_3d c (ops c Dim3D k) s o = Ret (grid3 o l).
Proof.
  intros H HW. unfold to_grid_index_3d. rewrite (raw_depth _ _ _ _ _ _ _ _ H).
  match goal with |- foldM ?f _ _ = _ => destruct (foldM_range_inv (fun i xyz => xyz =
     (coord (oct_x o) (firstn (N.to_nat i) l) * 2 ^ (len l - i), coord (oct_y o) (firstn (N.to_nat i) l) * 2 ^ (len l - i),
      coord (oct_z o) (firstn (N.to_nat i) l) * 2 ^ (len l - i)))
     f 0 (len l) (0, 0, 0)) as (r & E & Hr) end.
  - lia.
  - cbn. rewrite !N.mul_0_l. reflexivity.
  - intros i [[x y] z] Hi [= -> -> ->]. destruct (nth_error_N_lt l i) as [q Hq]; [lia|].
    rewrite (raw_get _ _ _ _ _ _ _ _ _ _ dim3_ok H Hq), bind_ret. rewrite octant_to_index_spec.
    rewrite sub_ok by lia. rewrite bind_ret. rewrite sub_ok by lia. rewrite bind_ret.
    rewrite !shl_ok by lia. rewrite !bind_ret. eexists. split; [reflexivity|].
    rewrite (firstn_nth_snoc l i q Hq), !coord_snoc. replace (len l - (i + 1)) with (len l - i - 1) by lia.
    destruct (oct_lt o q) as (? & ? & ?). f_equal; [f_equal|]; apply lor_next; (assumption || (change (cell Dim3D) with octant in *; lia)).
  - rewrite E, Hr. rewrite N.sub_diag, to_nat_len, firstn_all. cbn. rewrite !N.mul_1_r. reflexivity.
Qed.
(* too deep for a usize: the very first shift overflows *)
Lemma to_grid_index_2d_deep c k s o l : repr c Dim2D k s l -> usize_bits c < len l -> overflow_checks c = true ->
  to_grid_index_2d c (ops c Dim2D k) s o = Panic.
Proof.
  intros H HW HO. unfold to_grid_index_2d. rewrite (raw_depth _ _ _ _ _ _ _ _ H).
  rewrite range_cons by lia. cbn [foldM].
  destruct (nth_error_N_lt l 0) as [q Hq]; [lia|].
  rewrite (raw_get _ _ _ _ _ _ _ _ _ _ dim2_ok H Hq), bind_ret. rewrite quadrant_to_index_spec.
  rewrite sub_ok by lia. rewrite bind_ret. rewrite sub_ok by lia. rewrite bind_ret.
  unfold shl. rewrite HO. destruct (N.ltb_spec (len l - 0 - 1) (usize_bits c)); [lia|reflexivity].
Qed.
Lemma to_grid_index_3d_deep c k s o l : repr c Dim3D k s l -> usize_bits c < len l -> overflow_checks c = true ->
  to_grid_index_3d c (ops c Dim3D k) s o = Panic.
Proof.
  intros H HW HO. unfold to_grid_index_3d. rewrite (raw_depth _ _ _ _ _ _ _ _ H).
  rewrite range_cons by lia. cbn [foldM].
  destruct (nth_error_N_lt l 0) as [q Hq]; [lia|].
  rewrite (raw_get _ _ _ _ _ _ _ _ _ _ dim3_ok H Hq), bind_ret. rewrite octant_to_index_spec.
  rewrite sub_ok by lia. rewrite bind_ret. rewrite sub_ok by lia. rewrite bind_ret.
  unfold shl. rewrite HO. destruct (N.ltb_spec (len l - 0 - 1) (usize_bits c)); [lia|reflexivity].
Qed.

(* ---------- bit spreading ---------- *)
(* functions that distribute over bitwise or are determined by their values on powers of two *)
Definition linear (n : N) (f : N -> N) : Prop :=
  f 0 = 0 /\ forall a b, a < 2 ^ n -> b < 2 ^ n -> f (N.lor a b) = N.lor (f a) (f b).
Lemma linear_testbit n f v j : linear n f -> v < 2 ^ n ->
  N.testbit (f v) j = existsb (fun i => N.testbit v i && N.testbit (f (2 ^ i)) j) (range 0 n).
Proof.
  intros [F0 FL].
  assert (G : forall m, m <= n -> forall v, v < 2 ^ m ->
     N.testbit (f v) j = existsb (fun i => N.testbit v i && N.testbit (f (2 ^ i)) j) (range 0 m)).
  { induction m as [|m IH] using N.peano_ind; intros Hm u Hu.
    - change (2 ^ 0) with 1 in Hu. assert (u = 0) as -> by lia. rewrite F0. apply testbit_0.
    - rewrite <- N.add_1_r in *. rewrite range_snoc, existsb_app by lia. cbn [existsb]. rewrite orb_false_r.
      assert (Eu : u = N.lor (u mod 2 ^ m) (if N.testbit u m then 2 ^ m else 0)).
      { apply N.bits_inj; intro i. rewrite N.lor_spec, testbit_mod.
        destruct (N.ltb_spec i m) as [Hi|Hi]; cbn [andb].
        - destruct (N.testbit u m); rewrite ?testbit_0, ?orb_false_r; [|reflexivity].
          rewrite N.pow2_bits_false by lia. rewrite orb_false_r. reflexivity.
        - destruct (N.eq_dec i m) as [->|Ne].
          + destruct (N.testbit u m) eqn:Eb; [rewrite N.pow2_bits_true; reflexivity|rewrite testbit_0; reflexivity].
          + rewrite (testbit_high u (m + 1)) by (assumption || lia).
            destruct (N.testbit u m); [rewrite N.pow2_bits_false by lia; reflexivity|rewrite testbit_0; reflexivity]. }
      assert (Lm : u mod 2 ^ m < 2 ^ m) by (apply N.mod_lt, pow2_ne0).
      assert (Lmn : 2 ^ m < 2 ^ n) by (apply pow2_lt_mono; lia).
      rewrite Eu at 1. rewrite FL; [|lia|destruct (N.testbit u m); [lia|apply pow2_pos]].
      rewrite N.lor_spec, IH by (exact Lm || lia). f_equal.
      + apply eq_true_iff_eq. rewrite !existsb_exists. split; intros (i & Hi & Ht); exists i; split; auto;
          apply in_range in Hi; rewrite testbit_mod in *; destruct (N.ltb_spec i m); try lia; exact Ht.
      + destruct (N.testbit u m); [reflexivity|]. rewrite F0. apply testbit_0. }
  apply G; lia.
Qed.
(* f moves bit i (for i < m) to bit k*i and drops the others *)
Lemma linear_spread n f v k m i p : linear n f -> v < 2 ^ n -> 0 < k -> p < k -> m <= n ->
  (forall i, i < n -> f (2 ^ i) = if i <? m then 2 ^ (k * i) else 0) ->
  N.testbit (f v) (k * i + p) = (p =? 0) && (i <? m) && N.testbit v i.
Proof.
  intros L Hv Hk Hp Hm HF. rewrite (linear_testbit n) by assumption. apply eq_true_iff_eq. rewrite existsb_exists. split.
  - intros (a & Ha & Ht). apply in_range in Ha. apply andb_true_iff in Ht. destruct Ht as [T1 T2].
    rewrite HF in T2 by lia. destruct (N.ltb_spec a m) as [Ham|Ham]; [|rewrite testbit_0 in T2; discriminate].
    destruct (N.eq_dec (k * a) (k * i + p)) as [E|E]; [|rewrite N.pow2_bits_false in T2 by exact E; discriminate].
    assert (p = 0 /\ a = i) as [-> ->].
    { destruct (N.lt_trichotomy a i) as [Q|[Q|Q]]; [|subst; lia|].
      - assert (k * (a + 1) <= k * i) by (apply N.mul_le_mono_l; lia). lia.
      - assert (k * (i + 1) <= k * a) by (apply N.mul_le_mono_l; lia). lia. }
    apply N.ltb_lt in Ham. rewrite Ham, T1. reflexivity.
  - intros Ht. apply andb_true_iff in Ht. destruct Ht as [T1 T2]. apply andb_true_iff in T1. destruct T1 as [T0 T1].
    apply N.eqb_eq in T0. apply N.ltb_lt in T1. subst p. exists i. split; [apply in_range; lia|].
    rewrite T2, HF by lia. destruct (N.ltb_spec i m); [|lia]. rewrite N.add_0_r, N.pow2_bits_true. reflexivity.
Qed.

Lemma shl_const_lor w a b s : shl_const w (N.lor a b) s = N.lor (shl_const w a s) (shl_const w b s).
Proof. unfold shl_const. apply N.bits_inj; intro i. tb. destruct (i <? w), (s <=? i); reflexivity. Qed.
Lemma cast_lor w a b : cast w (N.lor a b) = N.lor (cast w a) (cast w b).
Proof. apply N.bits_inj; intro i. tb. destruct (i <? w); reflexivity. Qed.
Lemma lor_swap a b d e : N.lor (N.lor a b) (N.lor d e) = N.lor (N.lor a d) (N.lor b e).
Proof. apply N.bits_inj; intro i. rewrite !N.lor_spec. destruct (N.testbit a i), (N.testbit b i), (N.testbit d i), (N.testbit e i); reflexivity. Qed.
Lemma land_lor_dist a b m : N.land (N.lor a b) m = N.lor (N.land a m) (N.land b m).
Proof. apply N.land_lor_distr_l. Qed.
Ltac lin := split; [reflexivity|]; intros a b _ _;
  repeat (rewrite cast_lor || rewrite shl_const_lor || rewrite land_lor_dist || rewrite (lor_swap _ _ (shl_const _ _ _) _)).

Lemma stage_lor w s m a b : N.land (N.lor (N.lor a b) (shl_const w (N.lor a b) s)) m
  = N.lor (N.land (N.lor a (shl_const w a s)) m) (N.land (N.lor b (shl_const w b s)) m).
Proof. rewrite shl_const_lor, lor_swap, land_lor_dist. reflexivity. Qed.

Lemma lin_before_u8 : linear 8 add_zero_before_every_bit_u8.
Proof. split; [reflexivity|]. intros a b _ _. unfold add_zero_before_every_bit_u8. cbv zeta. rewrite !stage_lor. reflexivity. Qed.
Lemma lin_before_u16 : linear 16 add_zero_before_every_bit_u16.
Proof. split; [reflexivity|]. intros a b _ _. unfold add_zero_before_every_bit_u16. cbv zeta. rewrite !stage_lor. reflexivity. Qed.
Lemma lin_two_u8 : linear 8 add_two_zeroes_before_every_bit_u8.
Proof.
  split; [reflexivity|]. intros a b _ _. unfold add_two_zeroes_before_every_bit_u8. cbv zeta. rewrite cast_lor, !stage_lor. reflexivity.
Qed.
Lemma lin_two_u32 : linear 32 add_two_zeroes_before_every_bit_u32.
Proof.
  split; [reflexivity|]. intros a b _ _. unfold add_two_zeroes_before_every_bit_u32. cbv zeta.
  rewrite cast_lor, (land_lor_dist (cast 64 a) (cast 64 b)), !stage_lor. reflexivity.
Qed.

Lemma forall_below n (P : N -> bool) : forallb P (range 0 n) = true -> forall i, i < n -> P i = true.
Proof. intros H i Hi. rewrite forallb_forall in H. apply H. apply in_range. lia. Qed.

Lemma linear_weaken n m f : m <= n -> linear n f -> linear m f.
Proof.
  intros Hm [A B]. split; [exact A|]. intros a b Ha Hb. assert (2 ^ m <= 2 ^ n) by (apply pow2_le_mono; exact Hm). apply B; lia.
Qed.

Lemma spread_before_u8 v i p : v < 16 -> p < 2 ->
  N.testbit (add_zero_before_every_bit_u8 v) (2 * i + p) = (p =? 0) && N.testbit v i.
Proof.
  intros Hv Hp. rewrite (linear_spread 4 _ v 2 4); try lia.
  - destruct (N.ltb_spec i 4); [rewrite andb_true_r; reflexivity|]. rewrite andb_false_r.
    rewrite (testbit_high v 4) by (exact Hv || lia). rewrite !andb_false_r. reflexivity.
  - apply (linear_weaken 8); [lia|apply lin_before_u8].
  - intros a Ha. apply N.eqb_eq. revert a Ha. apply forall_below. vm_compute. reflexivity.
Qed.
Lemma spread_behind_u8 v i p : v < 16 -> p < 2 ->
  N.testbit (add_zero_behind_every_bit_u8 v) (2 * i + p) = (p =? 1) && N.testbit v i.
Proof.
  intros Hv Hp. unfold add_zero_behind_every_bit_u8, shl_const. tb.
  destruct (N.leb_spec 1 (2 * i + p)) as [H1|H1].
  - assert (p = 0 \/ p = 1) as [-> | ->] by lia.
    + replace (2 * i + 0 - 1) with (2 * (i - 1) + 1) by lia. rewrite spread_before_u8 by lia. cbn. rewrite andb_false_r. reflexivity.
    + replace (2 * i + 1 - 1) with (2 * i + 0) by lia. rewrite spread_before_u8 by lia. cbn [N.eqb andb].
      destruct (N.ltb_spec (2 * i + 1) 8); [reflexivity|]. rewrite (testbit_high v 4) by (exact Hv || lia). reflexivity.
  - assert (p = 0) as -> by lia. cbn. rewrite andb_false_r. reflexivity.
Qed.
Lemma spread_before_u16 v i p : v < 256 -> p < 2 ->
  N.testbit (add_zero_before_every_bit_u16 v) (2 * i + p) = (p =? 0) && N.testbit v i.
Proof.
  intros Hv Hp. rewrite (linear_spread 8 _ v 2 8); try lia.
  - destruct (N.ltb_spec i 8); [rewrite andb_true_r; reflexivity|]. rewrite andb_false_r.
    rewrite (testbit_high v 8) by (exact Hv || lia). rewrite !andb_false_r. reflexivity.
  - apply (linear_weaken 16); [lia|apply lin_before_u16].
  - intros a Ha. apply N.eqb_eq. revert a Ha. apply forall_below. vm_compute. reflexivity.
Qed.
Lemma spread_two_u8 v i p : v < 256 -> p < 3 ->
  N.testbit (add_two_zeroes_before_every_bit_u8 v) (3 * i + p) = (p =? 0) && N.testbit v i.
Proof.
  intros Hv Hp. rewrite (linear_spread 8 _ v 3 8); try lia.
  - destruct (N.ltb_spec i 8); [rewrite andb_true_r; reflexivity|]. rewrite andb_false_r.
    rewrite (testbit_high v 8) by (exact Hv || lia). rewrite !andb_false_r. reflexivity.
  - apply lin_two_u8.
  - intros a Ha. apply N.eqb_eq. revert a Ha. apply forall_below. vm_compute. reflexivity.
Qed.
Lemma spread_two_u32 v i p : v < 2 ^ 32 -> p < 3 ->
  N.testbit (add_two_zeroes_before_every_bit_u32 v) (3 * i + p) = (p =? 0) && (i <? 21) && N.testbit v i.
Proof.
  intros Hv Hp. rewrite (linear_spread 32 _ v 3 21); try lia.
  - reflexivity.
  - apply lin_two_u32.
  - intros a Ha. apply N.eqb_eq. revert a Ha. apply forall_below. vm_compute. reflexivity.
Qed.
