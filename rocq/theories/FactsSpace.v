(* FactsSpace.v - lemmas behind PropSpace.v: Morton codes (C59), nesting of regions (C60), subtrees as ranges (C61) *)
From Coq Require Import ZifyBool ZifyNat ZifyN.
From Verif Require Import Base ModelNumber ModelDim ModelStorage Model2D Model3D Spec SpecSpace History BitProofs NumberProofs CellProofs StorageProofs OrderProofs
  GridProofs Grid2DProofs Grid3DProofs HistoryProofs FactsTree FactsOrder FactsGrid FactsHistory.

(* ---------- codes ---------- *)
Lemma double_mod a b : b < 2 -> (2 * a + b) mod 2 = b.
Proof. intro H. replace (2 * a + b) with (b + a * 2) by lia. rewrite N.mod_add by discriminate. apply N.mod_small. exact H. Qed.
Lemma double_div a b : b < 2 -> (2 * a + b) / 2 = a.
Proof. intro H. replace (2 * a + b) with (a * 2 + b) by lia. rewrite N.div_add_l by discriminate. rewrite (N.div_small b) by exact H. lia. Qed.
Lemma enc_code2 (l : list quadrant) :
  enc (D:=Dim2D) l = code2 (List.length l) (coord (bit_off Dim2D 0) l) (coord (bit_off Dim2D 1) l).
Proof.
  induction l as [|x l IH] using rev_ind; [reflexivity|].
  rewrite (enc_snoc (D:=Dim2D)), !coord_snoc, app_length, Nat.add_1_r. cbn [code2].
  rewrite !double_mod, !double_div, <- IH by apply bit_off_lt.
  change (2 ^ dim Dim2D) with 4. destruct x; vm_compute (cell_index _ _); vm_compute (bit_off _ _ _); lia.
Qed.
Lemma enc_code3 (l : list octant) :
  enc (D:=Dim3D) l = code3 (List.length l) (coord (bit_off Dim3D 0) l) (coord (bit_off Dim3D 1) l) (coord (bit_off Dim3D 2) l).
Proof.
  induction l as [|x l IH] using rev_ind; [reflexivity|].
  rewrite (enc_snoc (D:=Dim3D)), !coord_snoc, app_length, Nat.add_1_r. cbn [code3].
  rewrite !double_mod, !double_div, <- IH by apply bit_off_lt.
  change (2 ^ dim Dim3D) with 8. destruct x; vm_compute (cell_index _ _); vm_compute (bit_off _ _ _); lia.
Qed.
Lemma enc_morton2 o (l : list quadrant) x y : grid2 o l = (x, y) -> enc (D:=Dim2D) l = morton2 o (len l) x y.
Proof.
  rewrite grid2_bits. intros [= <- <-]. rewrite enc_code2. unfold morton2, len. rewrite Nat2N.id. destruct o; reflexivity.
Qed.
Lemma enc_morton3 o (l : list octant) x y z : grid3 o l = (x, y, z) -> enc (D:=Dim3D) l = morton3 o (len l) x y z.
Proof.
  rewrite grid3_bits. intros [= <- <- <-]. rewrite enc_code3. unfold morton3, len. cbn zeta. rewrite Nat2N.id. destruct o; reflexivity.
Qed.
Lemma code2_mod d : forall a b, code2 d (a mod 2 ^ N.of_nat d) (b mod 2 ^ N.of_nat d) = code2 d a b.
Proof.
  induction d as [|d IH]; intros a b; [reflexivity|]. cbn [code2].
  assert (K : forall a, a mod 2 ^ N.of_nat (Datatypes.S d) mod 2 = a mod 2 /\ a mod 2 ^ N.of_nat (Datatypes.S d) / 2 = a / 2 mod 2 ^ N.of_nat d).
  { intro u. rewrite Nat2N.inj_succ, N.pow_succ_r'. split.
    - rewrite N.mod_mul_r by (try discriminate; apply N.pow_nonzero; discriminate).
      rewrite (N.mul_comm 2), N.mod_add by discriminate. apply N.mod_mod. discriminate.
    - rewrite N.mod_mul_r by (try discriminate; apply N.pow_nonzero; discriminate).
      rewrite (N.mul_comm 2 (u / 2 mod _)), N.div_add by discriminate. rewrite N.div_small; [apply N.add_0_l|]. apply N.mod_lt. discriminate. }
  rewrite (proj1 (K a)), (proj1 (K b)), (proj2 (K a)), (proj2 (K b)), IH. reflexivity.
Qed.
Lemma code3_mod d : forall a b e, code3 d (a mod 2 ^ N.of_nat d) (b mod 2 ^ N.of_nat d) (e mod 2 ^ N.of_nat d) = code3 d a b e.
Proof.
  induction d as [|d IH]; intros a b e; [reflexivity|]. cbn [code3].
  assert (K : forall a, a mod 2 ^ N.of_nat (Datatypes.S d) mod 2 = a mod 2 /\ a mod 2 ^ N.of_nat (Datatypes.S d) / 2 = a / 2 mod 2 ^ N.of_nat d).
  { intro u. rewrite Nat2N.inj_succ, N.pow_succ_r'. split.
    - rewrite N.mod_mul_r by (try discriminate; apply N.pow_nonzero; discriminate).
      rewrite (N.mul_comm 2), N.mod_add by discriminate. apply N.mod_mod. discriminate.
    - rewrite N.mod_mul_r by (try discriminate; apply N.pow_nonzero; discriminate).
      rewrite (N.mul_comm 2 (u / 2 mod _)), N.div_add by discriminate. rewrite N.div_small; [apply N.add_0_l|]. apply N.mod_lt. discriminate. }
  rewrite (proj1 (K a)), (proj1 (K b)), (proj1 (K e)), (proj2 (K a)), (proj2 (K b)), (proj2 (K e)), IH. reflexivity.
Qed.
Lemma enc_path2 o d x y l : path_to2 o d x y l -> enc (D:=Dim2D) l = morton2 o d x y.
Proof.
  intros (Hl & G). rewrite (enc_morton2 o l _ _ G), Hl. unfold morton2.
  pose proof (code2_mod (N.to_nat d)) as K. rewrite N2Nat.id in K. destruct o; apply K.
Qed.
Lemma enc_path3 o d x y z l : path_to3 o d x y z l -> enc (D:=Dim3D) l = morton3 o d x y z.
Proof.
  intros (Hl & G). rewrite (enc_morton3 o l _ _ _ G), Hl. unfold morton3. cbn zeta.
  pose proof (code3_mod (N.to_nat d)) as K. rewrite N2Nat.id in K. destruct o; apply K.
Qed.
Lemma compare_scale a b m : 0 < m -> N.compare (a * m) (b * m) = N.compare a b.
Proof. intro H. destruct (N.compare_spec a b); [apply N.compare_eq_iff|apply N.compare_lt_iff|apply N.compare_gt_iff]; nia. Qed.
Lemma len_app_cut {A} (b : list A) n : n <= len b -> exists b1 b2, b = b1 ++ b2 /\ len b1 = n /\ len b2 = len b - n.
Proof.
  intro H. exists (firstn (N.to_nat n) b), (skipn (N.to_nat n) b). split; [symmetry; apply firstn_skipn|].
  unfold len in *. rewrite firstn_length, skipn_length. lia.
Qed.
Lemma len_nil_iff {A} (l : list A) : len l = 0 <-> l = [].
Proof. destruct l; unfold len; cbn; split; intro H; try reflexivity; try discriminate H; lia. Qed.
Lemma path_cmp_codes_le D (a b : list (cell D)) : dim_ok D -> len a <= len b ->
  path_cmp a b = compare_codes (dim D) (len a) (enc a) (len b) (enc b).
Proof.
  intros HD H. destruct (len_app_cut b (len a) H) as (b1 & b2 & -> & L1 & L2).
  rewrite len_app in *. unfold compare_codes.
  replace (len a - (len b1 + len b2)) with 0 by lia. rewrite N.mul_0_r, N.pow_0_r, N.mul_1_r.
  replace (len b1 + len b2 - len a) with (len b2) by lia.
  rewrite enc_app. pose proof (enc_lt HD b2) as E. rewrite <- (N.add_0_r (enc a * _)).
  rewrite compare_digits by lia. rewrite (compare_enc HD a b1) by (symmetry; exact L1).
  destruct b2 as [|x b2].
  - rewrite app_nil_r. change (enc (D:=D) []) with 0. cbn [N.compare]. change (len []) with 0.
    rewrite L1, N.add_0_r, N.compare_refl. destruct (path_cmp a b1); reflexivity.
  - rewrite path_cmp_longer by (try (symmetry; exact L1); discriminate).
    destruct (path_cmp a b1); try reflexivity.
    assert (Q : N.compare (len a) (len b1 + len (x :: b2)) = Lt) by (apply N.compare_lt_iff; unfold len at 3; cbn [List.length]; lia).
    rewrite Q. destruct (N.compare 0 (enc (x :: b2))) eqn:C; try reflexivity. apply N.compare_gt_iff in C. lia.
Qed.
Lemma compare_codes_antisym n da a db b : compare_codes n db b da a = CompOpp (compare_codes n da a db b).
Proof.
  unfold compare_codes. rewrite (N.compare_antisym (a * _) (b * _)).
  destruct (N.compare (a * _) (b * _)); cbn [CompOpp]; try reflexivity. apply N.compare_antisym.
Qed.
Lemma path_cmp_codes D (a b : list (cell D)) : dim_ok D ->
  path_cmp a b = compare_codes (dim D) (len a) (enc a) (len b) (enc b).
Proof.
  intro HD. destruct (N.le_gt_cases (len a) (len b)) as [H|H]; [apply path_cmp_codes_le; assumption|].
  rewrite path_cmp_antisym, (path_cmp_codes_le D b a HD) by lia. symmetry. apply compare_codes_antisym.
Qed.

(* ---------- C59 ---------- *)
Lemma c59_order_2d_lemma : forall c L k e e' (a b : storage k) la lb o x y x' y',
  made c Dim2D L k e a la -> made c Dim2D L k e' b lb -> len la <= usize_bits c -> len lb <= usize_bits c ->
  to_grid_index_2d c (ops c Dim2D k) a o = Ret (x, y) -> to_grid_index_2d c (ops c Dim2D k) b o = Ret (x', y') ->
  idx_cmp c Dim2D k a b = Ret (compare_codes 2 (len la) (morton2 o (len la) x y) (len lb) (morton2 o (len lb) x' y')).
Proof.
  intros c L k e e' a b la lb o x y x' y' Ma Mb Wa Wb Ga Gb.
  destruct (made_repr _ _ _ _ _ _ _ Ma) as [HD Ra]. destruct (made_repr _ _ _ _ _ _ _ Mb) as [_ Rb].
  rewrite (to_grid_index_2d_ok c k a o la Ra Wa) in Ga. rewrite (to_grid_index_2d_ok c k b o lb Rb Wb) in Gb.
  assert (Ga' : grid2 o la = (x, y)) by congruence. assert (Gb' : grid2 o lb = (x', y')) by congruence.
  destruct (made_rep _ _ _ _ _ _ _ Ma) as [HL _].
  rewrite (c18_cmp_is_preorder_lemma c Dim2D L k a b la lb HL (fun t _ => eq_refl) (repr_valid _ _ _ _ _ HD Ra) (repr_valid _ _ _ _ _ HD Rb)
    (repr_shows _ _ _ _ _ HD Ra) (repr_shows _ _ _ _ _ HD Rb)).
  rewrite (path_cmp_codes Dim2D la lb HD). change (dim Dim2D) with 2.
  rewrite (enc_morton2 o la x y Ga'), (enc_morton2 o lb x' y' Gb'). reflexivity.
Qed.
(* raw bits matter only for the order of fixed-depth indices that have unused bits, see C43 *)
Lemma made_cmp c D L k e e' (a b : storage k) la lb :
  (forall t, k = KFixed t -> dim D = 2 \/ e = true /\ e' = true) -> made c D L k e a la -> made c D L k e' b lb ->
  idx_cmp c D k a b = Ret (path_cmp la lb).
Proof.
  intros H Ma Mb. destruct (made_rep _ _ _ _ _ _ _ Ma) as [HL _].
  destruct (made_facts _ _ _ _ _ _ _ Ma) as [Va Sa]. destruct (made_facts _ _ _ _ _ _ _ Mb) as [Vb Sb].
  assert (Q : (e = true /\ e' = true) \/ (forall t, k = KFixed t -> dim D = 2)).
  { destruct k as [t|t|]; [|right; discriminate|right; discriminate].
    destruct (H t eq_refl) as [Q|Q]; [right; intros; exact Q|left; exact Q]. }
  destruct Q as [[-> ->]|Q]; [eapply c18_cmp_of_made_indices_lemma; eassumption|].
  eapply c18_cmp_is_preorder_lemma; eassumption.
Qed.
Lemma c59_order_3d_lemma : forall c L k e e' (a b : storage k) la lb o x y z x' y' z',
  (forall t, k = KFixed t -> e = true /\ e' = true) ->
  made c Dim3D L k e a la -> made c Dim3D L k e' b lb -> len la <= usize_bits c -> len lb <= usize_bits c ->
  to_grid_index_3d c (ops c Dim3D k) a o = Ret (x, y, z) -> to_grid_index_3d c (ops c Dim3D k) b o = Ret (x', y', z') ->
  idx_cmp c Dim3D k a b = Ret (compare_codes 3 (len la) (morton3 o (len la) x y z) (len lb) (morton3 o (len lb) x' y' z')).
Proof.
  intros c L k e e' a b la lb o x y z x' y' z' Hk Ma Mb Wa Wb Ga Gb.
  destruct (made_repr _ _ _ _ _ _ _ Ma) as [HD Ra]. destruct (made_repr _ _ _ _ _ _ _ Mb) as [_ Rb].
  rewrite (to_grid_index_3d_ok c k a o la Ra Wa) in Ga. rewrite (to_grid_index_3d_ok c k b o lb Rb Wb) in Gb.
  assert (Ga' : grid3 o la = (x, y, z)) by congruence. assert (Gb' : grid3 o lb = (x', y', z')) by congruence.
  rewrite (made_cmp c Dim3D L k e e' a b la lb (fun t E => or_intror (Hk t E)) Ma Mb).
  rewrite (path_cmp_codes Dim3D la lb HD). change (dim Dim3D) with 3.
  rewrite (enc_morton3 o la x y z Ga'), (enc_morton3 o lb x' y' z' Gb'). reflexivity.
Qed.
(* the number in the storage is the code, moved to the top *)
Lemma canon_num c D k (s : storage k) l n v : dim_ok D -> canon c D k s l -> len l = n -> enc l = v ->
  num k s = v * 2 ^ (width c k s - dim D * n).
Proof.
  intros HD C <- <-. rewrite (raw_width _ _ _ _ _ _ _ _ C).
  rewrite (holds_value _ _ _ (raw_holds _ _ _ _ _ _ _ _ C)) at 1. rewrite (raw_rest _ _ _ _ _ _ _ _ C). lia.
Qed.
Lemma c59_fixed_raw_lemma : forall c t x y z o, 32 <= usize_bits c -> BITS c t / 3 < usize_bits c ->
  fixed_from_grid_index_3d c t x y z o = Ret (fixed_from_raw_index (morton3 o (BITS c t / 3) x y z * 2 ^ (BITS c t mod 3))).
Proof.
  intros c t x y z o HW HM. destruct (fixed_from_grid_3d_ok c t x y z o HW HM) as (s & l & E & C & P).
  rewrite E. f_equal. destruct s as [b]. unfold fixed_from_raw_index. f_equal.
  pose proof (canon_num c Dim3D (KFixed t) _ l _ _ dim3_ok C (proj1 P) (enc_path3 _ _ _ _ _ _ P)) as K.
  cbn [num fx_bits width] in K. rewrite K. unfold MAX_LEVELS. cbn [dim Dim3D]. f_equal. f_equal.
  pose proof (N.div_mod (BITS c t) 3 ltac:(discriminate)) as X. lia.
Qed.
Lemma c59_fast_raw_lemma : forall c x y z o, 32 <= usize_bits c ->
  from_grid_index_fast c x y z o = Ret (fixed_from_raw_index (morton3 o 21 x y z * 2)).
Proof.
  intros c x y z o HW. destruct (from_grid_index_fast_ok c x y z o HW) as (s & l & E & C & P).
  rewrite E. f_equal. destruct s as [b]. unfold fixed_from_raw_index. f_equal.
  pose proof (canon_num c Dim3D (KFixed U64) _ l _ _ dim3_ok C (proj1 P) (enc_path3 _ _ _ _ _ _ P)) as K.
  cbn [num fx_bits width] in K. rewrite K. reflexivity.
Qed.
Lemma c59_static_raw_lemma : forall c t x y z d o,
  BITS c t / 3 <= usize_bits c -> x < 2 ^ usize_bits c -> y < 2 ^ usize_bits c -> z < 2 ^ usize_bits c -> d <= BITS c t / 3 ->
  let M := BITS c t / 3 in
  let lost := 8 * ((M + 7) / 8 - (d + 7) / 8) - (M - d) in
  static_from_grid_index_3d c t x y z d o
  = Ret (Ok (static_from_raw_index
      (morton3 o d (x / 2 ^ lost * 2 ^ lost) (y / 2 ^ lost * 2 ^ lost) (z / 2 ^ lost * 2 ^ lost) * 2 ^ (BITS c t - 3 * d)) d)).
Proof.
  intros c t x y z d o HM Hx Hy Hz Hd M lost. destruct (max_levels_3d c t) as (_ & _ & _ & _ & Hne). unfold MAX_LEVELS in Hne. cbn [dim Dim3D] in Hne.
  destruct (static_from_grid_3d_gen c t x y z d o) as (s & l & E & C & P); try assumption; [unfold MAX_LEVELS; cbn [dim Dim3D]; lia|].
  rewrite E. pose proof (canon_num c Dim3D (KStatic t) s l _ _ dim3_ok C (proj1 P) (enc_path3 _ _ _ _ _ _ P)) as K.
  pose proof (eq_trans (raw_depth _ _ _ _ _ _ _ _ C) (proj1 P)) as Q. destruct s as [b n]. cbn in Q. subst n.
  cbn [num sx_bits width] in K. unfold static_from_raw_index. rewrite K. reflexivity.
Qed.

(* ---------- C60 ---------- *)
Lemma quad_x_lt o q : quad_x o q < 2. Proof. destruct o, q; vm_compute; reflexivity. Qed.
Lemma quad_y_lt o q : quad_y o q < 2. Proof. destruct o, q; vm_compute; reflexivity. Qed.
Lemma oct_x_lt o q : oct_x o q < 2. Proof. destruct o, q; vm_compute; reflexivity. Qed.
Lemma oct_y_lt o q : oct_y o q < 2. Proof. destruct o, q; vm_compute; reflexivity. Qed.
Lemma oct_z_lt o q : oct_z o q < 2. Proof. destruct o, q; vm_compute; reflexivity. Qed.
Lemma coord_covers {A} (off : A -> N) a r : (forall x, off x < 2) -> covers (len a) (coord off a) (len (a ++ r)) (coord off (a ++ r)).
Proof.
  intro H. unfold covers. rewrite len_app, coord_app. replace (len a + len r - len a) with (len r) by lia.
  pose proof (coord_lt off r H). rewrite N.div_add_l, N.div_small by (try apply pow2_ne0; assumption). lia.
Qed.
Lemma path_eq2 o (a b : list quadrant) : len a = len b -> grid2 o a = grid2 o b -> a = b.
Proof.
  intros L G. pose proof (path_to2_own o a) as Pa. pose proof (path_to2_own o b) as Pb. rewrite L, G in Pa.
  exact (path_to2_unique _ _ _ _ _ _ Pa Pb).
Qed.
Lemma path_eq3 o (a b : list octant) : len a = len b -> grid3 o a = grid3 o b -> a = b.
Proof.
  intros L G. pose proof (path_to3_own o a) as Pa. pose proof (path_to3_own o b) as Pb. rewrite L, G in Pa.
  exact (path_to3_unique _ _ _ _ _ _ _ Pa Pb).
Qed.
Lemma prefix_grid2 o (a b : list quadrant) x y x' y' : grid2 o a = (x, y) -> grid2 o b = (x', y') ->
  (is_prefix a b <-> len a <= len b /\ covers (len a) x (len b) x' /\ covers (len a) y (len b) y').
Proof.
  intros Ga Gb. unfold grid2 in *. injection Ga as <- <-. injection Gb as <- <-. split.
  - intros (r & ->). split; [rewrite len_app; lia|]. split; apply coord_covers; intro; [apply quad_x_lt|apply quad_y_lt].
  - intros (H & X & Y). destruct (len_app_cut b (len a) H) as (b1 & b2 & -> & L1 & L2). exists b2. f_equal.
    rewrite <- L1 in X, Y. unfold covers in X, Y. symmetry. apply (path_eq2 o); [symmetry; exact L1|]. unfold grid2.
    f_equal; rewrite <- ?X, <- ?Y; apply coord_covers; intro; [apply quad_x_lt|apply quad_y_lt].
Qed.
Lemma prefix_grid3 o (a b : list octant) x y z x' y' z' : grid3 o a = (x, y, z) -> grid3 o b = (x', y', z') ->
  (is_prefix a b <-> len a <= len b /\ covers (len a) x (len b) x' /\ covers (len a) y (len b) y' /\ covers (len a) z (len b) z').
Proof.
  intros Ga Gb. unfold grid3 in *. injection Ga as <- <- <-. injection Gb as <- <- <-. split.
  - intros (r & ->). split; [rewrite len_app; lia|].
    split; [|split]; apply coord_covers; intro; [apply oct_x_lt|apply oct_y_lt|apply oct_z_lt].
  - intros (H & X & Y & Z). destruct (len_app_cut b (len a) H) as (b1 & b2 & -> & L1 & L2). exists b2. f_equal.
    rewrite <- L1 in X, Y, Z. unfold covers in X, Y, Z. symmetry. apply (path_eq3 o); [symmetry; exact L1|]. unfold grid3.
    f_equal; [f_equal|]; rewrite <- ?X, <- ?Y, <- ?Z; apply coord_covers; intro; [apply oct_x_lt|apply oct_y_lt|apply oct_z_lt].
Qed.
Lemma covers_up d x e x' n X : d <= e -> e <= n -> covers d x n X -> covers e x' n X -> covers d x e x'.
Proof.
  unfold covers. intros H1 H2 <- <-. rewrite N.div_div, <- N.pow_add_r by apply pow2_ne0. f_equal. f_equal. lia.
Qed.
Lemma covers_down d x e x' n X : d <= e -> e <= n -> covers d x e x' -> covers e x' n X -> covers d x n X.
Proof.
  unfold covers. intros H1 H2 <- <-. rewrite N.div_div, <- N.pow_add_r by apply pow2_ne0. f_equal. f_equal. lia.
Qed.
Lemma covers_own d x n : d <= n -> covers d x n (x * 2 ^ (n - d)).
Proof. intros _. apply N.div_mul, pow2_ne0. Qed.

Lemma c60_with_depth_finds_ancestors_lemma : forall c D L k v (a b : storage k) la lb,
  made c D L k true a la -> made c D L k true b lb -> var_ops c D L k = Some v ->
  ((exists s, with_depth c v b (st_depth (ops c D k) a) = Ret (Some s) /\ idx_eq k s a = true) <-> is_prefix la lb).
Proof.
  intros c D L k v a b la lb Ma Mb HV. destruct (made_rep _ _ _ _ _ _ _ Ma) as [HL Ca]. destruct (made_rep _ _ _ _ _ _ _ Mb) as [_ Cb].
  cbn [rep] in Ca, Cb. pose proof (is_dim_ok _ _ HL) as HD. destruct (made_facts _ _ _ _ _ _ _ Mb) as [Vb Sb].
  rewrite (raw_depth _ _ _ _ _ _ _ _ Ca).
  pose proof (c17_with_depth_truncates_lemma c D L k v b lb (len la) HL HV Vb Sb) as W. split.
  - intros (s & E & Q). apply idx_eq_iff in Q. subst s. destruct (N.leb_spec (len la) (len lb)) as [H|H]; [|congruence].
    destruct W as (s' & E' & V' & S'). rewrite E in E'. injection E' as <-.
    exists (skipn (N.to_nat (len la)) lb). rewrite <- (firstn_skipn (N.to_nat (len la)) lb) at 1. f_equal.
    destruct (made_facts _ _ _ _ _ _ _ Ma) as [_ Sa]. exact (shows_unique _ _ _ _ S' Sa).
  - intros (r & ->). rewrite len_app in W. destruct (N.leb_spec (len la) (len la + len r)); [|lia]. clear W.
    destruct (rep_with_depth c D L k v true b (la ++ r) (len la) HL HV Cb) as (s & E & C); [rewrite len_app; lia|].
    exists s. split; [exact E|]. replace (firstn (N.to_nat (len la)) (la ++ r)) with la in C
      by (unfold len; rewrite Nat2N.id, firstn_app, Nat.sub_diag, firstn_all, app_nil_r; reflexivity).
    apply (idx_eq_canon c D k s a la la HD C Ca). reflexivity.
Qed.
Lemma c60_nesting_2d_lemma : forall c L k e e' (a b : storage k) la lb o x y x' y',
  made c Dim2D L k e a la -> made c Dim2D L k e' b lb -> len la <= usize_bits c -> len lb <= usize_bits c ->
  to_grid_index_2d c (ops c Dim2D k) a o = Ret (x, y) -> to_grid_index_2d c (ops c Dim2D k) b o = Ret (x', y') ->
  (is_prefix la lb <-> len la <= len lb /\ covers (len la) x (len lb) x' /\ covers (len la) y (len lb) y').
Proof.
  intros c L k e e' a b la lb o x y x' y' Ma Mb Wa Wb Ga Gb.
  destruct (made_repr _ _ _ _ _ _ _ Ma) as [HD Ra]. destruct (made_repr _ _ _ _ _ _ _ Mb) as [_ Rb].
  rewrite (to_grid_index_2d_ok c k a o la Ra Wa) in Ga. rewrite (to_grid_index_2d_ok c k b o lb Rb Wb) in Gb.
  apply (prefix_grid2 o); congruence.
Qed.
Lemma c60_nesting_3d_lemma : forall c L k e e' (a b : storage k) la lb o x y z x' y' z',
  made c Dim3D L k e a la -> made c Dim3D L k e' b lb -> len la <= usize_bits c -> len lb <= usize_bits c ->
  to_grid_index_3d c (ops c Dim3D k) a o = Ret (x, y, z) -> to_grid_index_3d c (ops c Dim3D k) b o = Ret (x', y', z') ->
  (is_prefix la lb <-> len la <= len lb /\ covers (len la) x (len lb) x' /\ covers (len la) y (len lb) y' /\ covers (len la) z (len lb) z').
Proof.
  intros c L k e e' a b la lb o x y z x' y' z' Ma Mb Wa Wb Ga Gb.
  destruct (made_repr _ _ _ _ _ _ _ Ma) as [HD Ra]. destruct (made_repr _ _ _ _ _ _ _ Mb) as [_ Rb].
  rewrite (to_grid_index_3d_ok c k a o la Ra Wa) in Ga. rewrite (to_grid_index_3d_ok c k b o lb Rb Wb) in Gb.
  apply (prefix_grid3 o); congruence.
Qed.
(* two nodes meet only if one contains the other *)
Lemma c60_overlap_2d_lemma : forall c L k e e' (a b : storage k) la lb o x y x' y' n,
  made c Dim2D L k e a la -> made c Dim2D L k e' b lb -> len la <= usize_bits c -> len lb <= usize_bits c ->
  to_grid_index_2d c (ops c Dim2D k) a o = Ret (x, y) -> to_grid_index_2d c (ops c Dim2D k) b o = Ret (x', y') ->
  len la <= n -> len lb <= n ->
  ((exists X Y, covers (len la) x n X /\ covers (len la) y n Y /\ covers (len lb) x' n X /\ covers (len lb) y' n Y)
   <-> is_prefix la lb \/ is_prefix lb la).
Proof.
  intros c L k e e' a b la lb o x y x' y' n Ma Mb Wa Wb Ga Gb Na Nb.
  rewrite (c60_nesting_2d_lemma c L k e e' a b la lb o x y x' y' Ma Mb Wa Wb Ga Gb).
  rewrite (c60_nesting_2d_lemma c L k e' e b a lb la o x' y' x y Mb Ma Wb Wa Gb Ga). split.
  - intros (X & Y & A1 & A2 & B1 & B2). destruct (N.le_ge_cases (len la) (len lb)) as [H|H]; [left|right]; (split; [exact H|]).
    + split; eapply covers_up; eassumption.
    + split; eapply covers_up; eassumption.
  - intros [(H & A & B)|(H & A & B)].
    + exists (x' * 2 ^ (n - len lb)), (y' * 2 ^ (n - len lb)). pose proof (covers_own (len lb) x' n Nb). pose proof (covers_own (len lb) y' n Nb).
      repeat split; try assumption; eapply covers_down; eassumption.
    + exists (x * 2 ^ (n - len la)), (y * 2 ^ (n - len la)). pose proof (covers_own (len la) x n Na). pose proof (covers_own (len la) y n Na).
      repeat split; try assumption; eapply covers_down; eassumption.
Qed.
Lemma c60_overlap_3d_lemma : forall c L k e e' (a b : storage k) la lb o x y z x' y' z' n,
  made c Dim3D L k e a la -> made c Dim3D L k e' b lb -> len la <= usize_bits c -> len lb <= usize_bits c ->
  to_grid_index_3d c (ops c Dim3D k) a o = Ret (x, y, z) -> to_grid_index_3d c (ops c Dim3D k) b o = Ret (x', y', z') ->
  len la <= n -> len lb <= n ->
  ((exists X Y Z, covers (len la) x n X /\ covers (len la) y n Y /\ covers (len la) z n Z
     /\ covers (len lb) x' n X /\ covers (len lb) y' n Y /\ covers (len lb) z' n Z)
   <-> is_prefix la lb \/ is_prefix lb la).
Proof.
  intros c L k e e' a b la lb o x y z x' y' z' n Ma Mb Wa Wb Ga Gb Na Nb.
  rewrite (c60_nesting_3d_lemma c L k e e' a b la lb o x y z x' y' z' Ma Mb Wa Wb Ga Gb).
  rewrite (c60_nesting_3d_lemma c L k e' e b a lb la o x' y' z' x y z Mb Ma Wb Wa Gb Ga). split.
  - intros (X & Y & Z & A1 & A2 & A3 & B1 & B2 & B3).
    destruct (N.le_ge_cases (len la) (len lb)) as [H|H]; [left|right]; (split; [exact H|]).
    + split; [|split]; eapply covers_up; eassumption.
    + split; [|split]; eapply covers_up; eassumption.
  - intros [(H & A & B & C)|(H & A & B & C)].
    + exists (x' * 2 ^ (n - len lb)), (y' * 2 ^ (n - len lb)), (z' * 2 ^ (n - len lb)).
      pose proof (covers_own (len lb) x' n Nb). pose proof (covers_own (len lb) y' n Nb). pose proof (covers_own (len lb) z' n Nb).
      repeat split; try assumption; eapply covers_down; eassumption.
    + exists (x * 2 ^ (n - len la)), (y * 2 ^ (n - len la)), (z * 2 ^ (n - len la)).
      pose proof (covers_own (len la) x n Na). pose proof (covers_own (len la) y n Na). pose proof (covers_own (len la) z n Na).
      repeat split; try assumption; eapply covers_down; eassumption.
Qed.

(* ---------- C61 ---------- *)
Lemma enc_last D (q : cell D) n : cell_index D q = 2 ^ dim D - 1 -> enc (repeat q n) + 1 = 2 ^ (dim D * N.of_nat n).
Proof.
  intro H. induction n as [|n IH]; [rewrite N.mul_0_r; reflexivity|].
  replace (Datatypes.S n) with (n + 1)%nat by lia. rewrite repeat_app, enc_app. cbn [repeat].
  replace (dim D * N.of_nat (n + 1)) with (dim D * N.of_nat n + dim D) by lia. rewrite N.pow_add_r, <- IH.
  change (len [q]) with 1. rewrite N.mul_1_r.
  assert (E : enc [q] = 2 ^ dim D - 1) by (unfold enc; cbn; rewrite H; lia). rewrite E.
  pose proof (pow2_pos (dim D)). nia.
Qed.
Lemma path_cmp_last D (q : cell D) p r n : dim_ok D -> cell_index D q = 2 ^ dim D - 1 -> len r <= n ->
  path_cmp (p ++ r) (p ++ repeat q (N.to_nat n)) <> Gt.
Proof.
  intros HD Hq Hr. rewrite (path_cmp_codes D _ _ HD). unfold compare_codes.
  assert (L : len (repeat q (N.to_nat n)) = n) by (unfold len; rewrite repeat_length; lia).
  rewrite !len_app, !enc_app, !L. replace (len p + len r - (len p + n)) with 0 by lia. rewrite N.mul_0_r, N.pow_0_r, N.mul_1_r.
  replace (len p + n - (len p + len r)) with (n - len r) by lia.
  pose proof (enc_last D q (N.to_nat n) Hq) as E. rewrite N2Nat.id in E. pose proof (enc_lt HD r) as R.
  assert (S : 2 ^ (dim D * n) = 2 ^ (dim D * len r) * 2 ^ (dim D * (n - len r))) by (rewrite <- N.pow_add_r; f_equal; nia).
  destruct (N.compare_spec ((enc p * 2 ^ (dim D * len r) + enc r) * 2 ^ (dim D * (n - len r)))
    (enc p * 2 ^ (dim D * n) + enc (repeat q (N.to_nat n)))) as [Q|Q|Q]; try discriminate.
  - intro G. apply N.compare_gt_iff in G. lia.
  - exfalso. rewrite S in Q, E. pose proof (pow2_pos (dim D * (n - len r))) as P.
    generalize dependent (2 ^ (dim D * (n - len r))). intros. generalize dependent (2 ^ (dim D * len r)). intros. nia.
Qed.
Lemma c61_subtree_is_a_range_lemma : forall c D L k e e' e2 (p x hi : storage k) lp lx n q,
  (forall t, k = KFixed t -> dim D = 2 \/ (e = true /\ e' = true /\ e2 = true)) ->
  made c D L k e p lp -> made c D L k e' x lx ->
  cell_index D q = 2 ^ dim D - 1 -> made c D L k e2 hi (lp ++ repeat q (N.to_nat n)) -> len lx <= len lp + n ->
  exists r r', idx_cmp c D k p x = Ret r /\ idx_cmp c D k x hi = Ret r' /\ (r <> Gt /\ r' <> Gt <-> is_prefix lp lx).
Proof.
  intros c D L k e e' e2 p x hi lp lx n q Hk Mp Mx Hq Mh Hd.
  rewrite (made_cmp c D L k e e' p x lp lx) by (try assumption; intros t E; specialize (Hk t E); tauto).
  rewrite (made_cmp c D L k e' e2 x hi lx (lp ++ repeat q (N.to_nat n))) by (try assumption; intros t E; specialize (Hk t E); tauto).
  do 2 eexists. split; [reflexivity|]. split; [reflexivity|].
  destruct (made_repr _ _ _ _ _ _ _ Mp) as [HD _]. split.
  - intros (H1 & H2). apply (path_cmp_between D lp lx (lp ++ repeat q (N.to_nat n)) lp HD); [congruence|congruence| |].
    + exists []. symmetry. apply app_nil_r.
    + eexists. reflexivity.
  - intros (r & ->). rewrite len_app in Hd. split.
    + destruct r as [|y r]; [rewrite app_nil_r, path_cmp_refl; discriminate|]. rewrite path_cmp_prefix by discriminate. discriminate.
    + apply path_cmp_last; [exact HD|exact Hq|lia].
Qed.
(* the bound on the depth is needed: everything below the last cell comes after it *)
Lemma c61_deeper_is_after_lemma : forall c D L k e e' (hi x : storage k) lh r,
  made c D L k e hi lh -> made c D L k e' x (lh ++ r) -> r <> [] -> idx_cmp c D k x hi = Ret Gt.
Proof.
  intros c D L k e e' hi x lh r Mh Mx Hr. destruct (made_rep _ _ _ _ _ _ _ Mh) as [HL _].
  destruct (made_facts _ _ _ _ _ _ _ Mx) as [Vx Sx]. destruct (made_facts _ _ _ _ _ _ _ Mh) as [Vh Sh].
  rewrite (c18_cmp_of_different_paths_lemma c D L k x hi _ _ HL Vx Vh Sx Sh).
  - rewrite path_cmp_antisym, path_cmp_prefix by exact Hr. reflexivity.
  - intro E. apply Hr. rewrite <- (app_nil_r lh) in E at 2. apply app_inv_head in E. exact E.
Qed.
