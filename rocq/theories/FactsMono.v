(* FactsMono.v - proofs of the theorems stated in PropMono.v *)
From Verif Require Import Base ModelNumber ModelDim ModelStorage Model2D Model3D Spec SpecMono History BitProofs NumberProofs VecProofs CellProofs StorageProofs OrderProofs ConvProofs HistoryProofs FactsCells FactsOrder FactsTree GridProofs FactsHistory.

(* ---------- C71 ---------- *)
Lemma path_cmp_app D (p a b : list (cell D)) : path_cmp (p ++ a) (p ++ b) = path_cmp a b.
Proof. induction p as [|x p IH]; [reflexivity|]. cbn. rewrite N.compare_refl. exact IH. Qed.
Lemma path_cmp_firstn D n (a b : list (cell D)) : (n <= List.length a)%nat -> (n <= List.length b)%nat ->
  path_cmp (firstn n a) (firstn n b) = path_cmp a b \/ path_cmp (firstn n a) (firstn n b) = Eq.
Proof.
  revert a b. induction n as [|n IH]; intros [|x a] [|y b] Ha Hb; cbn in *; try lia; auto.
  destruct (N.compare (cell_index D x) (cell_index D y)); auto. apply IH; lia.
Qed.
Lemma path_cmp_extend D (a b p q : list (cell D)) : len a = len b -> path_cmp a b <> Eq ->
  path_cmp (a ++ p) (b ++ q) = path_cmp a b.
Proof.
  revert b. induction a as [|x a IH]; intros [|y b] Hl Hn; rewrite ?len_cons in Hl; try (unfold len in Hl; cbn in Hl; lia).
  - cbn in Hn. congruence.
  - cbn in *. destruct (N.compare (cell_index D x) (cell_index D y)); try reflexivity. apply IH; [lia|exact Hn].
Qed.
Lemma var_not_fixed c D L k v : var_ops c D L k = Some v -> forall t, k = KFixed t -> dim D = 2.
Proof. intros E t ->. discriminate E. Qed.
Lemma update_same {A} (l : list A) i x : nth_error l i = Some x -> update l i x = l.
Proof. revert i. induction l as [|y l IH]; intros [|i] H; cbn in *; try congruence. f_equal. apply IH. exact H. Qed.

Lemma idx_cmp_same c D L k (s : storage k) : is_dim D L -> valid c D k s -> idx_cmp c D k s s = Ret Eq.
Proof.
  intros HL V. destruct (c19_cmp_total_lemma c D L k s s HL V V) as (r & E & E'). rewrite E in E'. rewrite E. injection E' as E'.
  destruct r; cbn in E'; congruence.
Qed.
Lemma path_cmp_update D (l : list (cell D)) i x y : nth_error l i = Some y -> cell_index D x <> cell_index D y ->
  path_cmp (update l i x) l = N.compare (cell_index D x) (cell_index D y).
Proof.
  intros H Hn. revert i H. induction l as [|z l IH]; intros [|i] H; cbn in *; try discriminate.
  - injection H as ->. destruct (N.compare_spec (cell_index D x) (cell_index D y)); congruence.
  - rewrite N.compare_refl. apply IH. exact H.
Qed.
Lemma c71_set_cell_lemma : forall c D L k (s s' : storage k) i x y,
  is_dim D L -> writable c k -> valid c D k s ->
  get_cell_at_level (ops c D k) s i = Ret y -> set_cell_at_level (ops c D k) s i x = Ret s' ->
  idx_cmp c D k s' s = Ret (N.compare (cell_index D x) (cell_index D y)).
Proof.
  intros c D L k s s' i x y HL HW Hv Hg Hset. pose proof (is_dim_ok _ _ HL) as HD.
  destruct (valid_repr _ _ _ _ HD Hv) as (l & R). pose proof (repr_shows _ _ _ _ _ HD R) as Hs.
  rewrite (proj2 Hs) in Hg. destruct (nth_error l (N.to_nat i)) as [y'|] eqn:Hy; [|discriminate]. injection Hg as ->.
  pose proof (nth_error_len _ _ _ Hy) as Hi. rewrite N2Nat.id in Hi.
  destruct (raw_set c D k _ _ _ s l i x HD HW R Hi) as (s1 & E1 & R1).
  unfold set_cell_at_level in Hset. rewrite (raw_depth _ _ _ _ _ _ _ _ R) in Hset.
  destruct (N.leb_spec (len l) i); [lia|]. rewrite E1 in Hset. injection Hset as ->.
  destruct (N.eq_dec (cell_index D x) (cell_index D y)) as [E|E].
  - rewrite E, N.compare_refl. apply (idx_inj D) in E; [|exact HD]. subst y. rewrite (update_same _ _ _ Hy) in R1.
    rewrite (raw_inj c D k _ _ _ s' s l HD R1 R). apply (idx_cmp_same c D L); assumption.
  - rewrite <- (path_cmp_update D l _ x y Hy E).
    assert (Rs : repr c D k s' (update l (N.to_nat i) x)). { rewrite <- (len_update l (N.to_nat i) x) in R1. apply raw_repr in R1. exact R1. }
    apply idx_cmp_repr; [exact HD|exact Rs|exact R|].
    rewrite (path_cmp_update D l _ x y Hy E). rewrite N.compare_eq_iff. exact E.
Qed.
Lemma with_depth_shown c D L k v (s s' : storage k) l n : is_dim D L -> var_ops c D L k = Some v ->
  valid c D k s -> shows (ops c D k) s l -> with_depth c v s n = Ret (Some s') ->
  n <= len l /\ valid c D k s' /\ shows (ops c D k) s' (firstn (N.to_nat n) l).
Proof.
  intros HL HV V S E. pose proof (c17_with_depth_truncates_lemma c D L k v s l n HL HV V S) as Q.
  destruct (N.leb_spec n (len l)); [|rewrite E in Q; discriminate].
  destruct Q as (s1 & E1 & V1 & S1). rewrite E in E1. injection E1 as <-. auto.
Qed.
Lemma c71_with_depth_lemma : forall c D L k v (a b a' b' : storage k) n r,
  is_dim D L -> var_ops c D L k = Some v -> valid c D k a -> valid c D k b ->
  with_depth c v a n = Ret (Some a') -> with_depth c v b n = Ret (Some b') ->
  idx_cmp c D k a b = Ret r -> idx_cmp c D k a' b' = Ret r \/ idx_cmp c D k a' b' = Ret Eq.
Proof.
  intros c D L k v a b a' b' n r HL HV Va Vb Ea Eb Hr. pose proof (var_not_fixed _ _ _ _ _ HV) as NF.
  destruct (c01_every_index_shows_one_path_lemma c D L k a HL Va) as (la & Sa & _).
  destruct (c01_every_index_shows_one_path_lemma c D L k b HL Vb) as (lb & Sb & _).
  destruct (with_depth_shown _ _ _ _ _ _ _ _ _ HL HV Va Sa Ea) as (Na & Va' & Sa').
  destruct (with_depth_shown _ _ _ _ _ _ _ _ _ HL HV Vb Sb Eb) as (Nb & Vb' & Sb').
  rewrite (c18_cmp_is_preorder_lemma c D L k a b la lb) in Hr by assumption. injection Hr as <-.
  rewrite (c18_cmp_is_preorder_lemma c D L k a' b' _ _ HL NF Va' Vb' Sa' Sb').
  destruct (path_cmp_firstn D (N.to_nat n) la lb) as [Q|Q]; [unfold len in Na; lia|unfold len in Nb; lia| |]; rewrite Q; auto.
Qed.
Lemma c71_ancestor_of_equal_depth_lemma : forall c D L k v (a b a' b' : storage k) g r,
  is_dim D L -> var_ops c D L k = Some v -> valid c D k a -> valid c D k b ->
  st_depth (ops c D k) a = st_depth (ops c D k) b ->
  ancestor v a g = Ret (Some a') -> ancestor v b g = Ret (Some b') ->
  idx_cmp c D k a b = Ret r -> idx_cmp c D k a' b' = Ret r \/ idx_cmp c D k a' b' = Ret Eq.
Proof.
  intros c D L k v a b a' b' g r HL HV Va Vb Hd Ea Eb Hr. pose proof (var_not_fixed _ _ _ _ _ HV) as NF.
  destruct (c01_every_index_shows_one_path_lemma c D L k a HL Va) as (la & Sa & _).
  destruct (c01_every_index_shows_one_path_lemma c D L k b HL Vb) as (lb & Sb & _).
  pose proof (c14_ancestor_truncates_lemma c D L k v a la g HL HV Va Sa) as Qa.
  pose proof (c14_ancestor_truncates_lemma c D L k v b lb g HL HV Vb Sb) as Qb.
  destruct (N.leb_spec g (len la)) as [Ga|_]; [|rewrite Ea in Qa; discriminate].
  destruct (N.leb_spec g (len lb)) as [Gb|_]; [|rewrite Eb in Qb; discriminate].
  destruct Qa as (a1 & E1 & Va' & Sa'). rewrite Ea in E1. injection E1 as <-.
  destruct Qb as (b1 & E1 & Vb' & Sb'). rewrite Eb in E1. injection E1 as <-.
  rewrite (proj1 Sa), (proj1 Sb) in Hd. rewrite <- Hd in Sb'.
  rewrite (c18_cmp_is_preorder_lemma c D L k a b la lb) in Hr by assumption. injection Hr as <-.
  rewrite (c18_cmp_is_preorder_lemma c D L k a' b' _ _ HL NF Va' Vb' Sa' Sb').
  destruct (path_cmp_firstn D (N.to_nat (len la - g)) la lb) as [Q|Q]; [unfold len in *; lia|unfold len in *; lia| |]; rewrite Q; auto.
Qed.
Lemma descendant_shown c D L k v (s s' : storage k) l cells : is_dim D L -> writable c k -> var_ops c D L k = Some v ->
  valid c D k s -> shows (ops c D k) s l -> appendable c D k s cells -> descendant v s cells = Ret (Some s') ->
  valid c D k s' /\ shows (ops c D k) s' (l ++ cells).
Proof.
  intros HL HW HV V S A E. destruct k as [t|t|]; cbn [var_ops] in HV; [discriminate HV| |]; injection HV as <-.
  - pose proof (c15_static_descendant_lemma c D L t s l cells HL V S A) as Q.
    destruct (len l + len cells <=? BITS c t / dim D); [|discriminate (eq_trans (eq_sym E) Q)].
    destruct Q as (s1 & E1 & V1 & S1). pose proof (eq_trans (eq_sym E) E1) as X. injection X as ->. auto.
  - destruct (c15_dynamic_descendant_lemma c D L s l cells HL HW V S A) as (s1 & E1 & V1 & S1).
    pose proof (eq_trans (eq_sym E) E1) as X. injection X as ->. auto.
Qed.
Lemma c71_descendants_of_one_node_lemma : forall c D L k v (s a b : storage k) p q,
  is_dim D L -> writable c k -> var_ops c D L k = Some v -> valid c D k s ->
  appendable c D k s p -> appendable c D k s q ->
  descendant v s p = Ret (Some a) -> descendant v s q = Ret (Some b) ->
  idx_cmp c D k a b = Ret (path_cmp p q).
Proof.
  intros c D L k v s a b p q HL HW HV V Ap Aq Ea Eb. pose proof (var_not_fixed _ _ _ _ _ HV) as NF.
  destruct (c01_every_index_shows_one_path_lemma c D L k s HL V) as (l & S & _).
  destruct (descendant_shown _ _ _ _ _ _ _ _ _ HL HW HV V S Ap Ea) as [Va Sa].
  destruct (descendant_shown _ _ _ _ _ _ _ _ _ HL HW HV V S Aq Eb) as [Vb Sb].
  rewrite (c18_cmp_is_preorder_lemma c D L k a b _ _ HL NF Va Vb Sa Sb). rewrite path_cmp_app. reflexivity.
Qed.
Lemma c71_descendants_stay_apart_lemma : forall c D L k v (a b a' b' : storage k) p q r,
  is_dim D L -> writable c k -> var_ops c D L k = Some v -> valid c D k a -> valid c D k b ->
  appendable c D k a p -> appendable c D k b q ->
  st_depth (ops c D k) a = st_depth (ops c D k) b -> idx_cmp c D k a b = Ret r -> r <> Eq ->
  descendant v a p = Ret (Some a') -> descendant v b q = Ret (Some b') ->
  idx_cmp c D k a' b' = Ret r.
Proof.
  intros c D L k v a b a' b' p q r HL HW HV Va Vb Ap Aq Hd Hr Hn Ea Eb. pose proof (var_not_fixed _ _ _ _ _ HV) as NF.
  destruct (c01_every_index_shows_one_path_lemma c D L k a HL Va) as (la & Sa & _).
  destruct (c01_every_index_shows_one_path_lemma c D L k b HL Vb) as (lb & Sb & _).
  destruct (descendant_shown _ _ _ _ _ _ _ _ _ HL HW HV Va Sa Ap Ea) as [Va' Sa'].
  destruct (descendant_shown _ _ _ _ _ _ _ _ _ HL HW HV Vb Sb Aq Eb) as [Vb' Sb'].
  rewrite (proj1 Sa), (proj1 Sb) in Hd.
  rewrite (c18_cmp_is_preorder_lemma c D L k a b la lb) in Hr by assumption. injection Hr as <-.
  rewrite (c18_cmp_is_preorder_lemma c D L k a' b' _ _ HL NF Va' Vb' Sa' Sb'). rewrite path_cmp_extend by assumption. reflexivity.
Qed.
(* parents of indices of different depths can be in the opposite order *)
Lemma c71_parents_can_swap_lemma : forall c D L, is_dim D L ->
  exists (a b a' b' : storage (KStatic U8)),
    valid c D (KStatic U8) a /\ valid c D (KStatic U8) b
    /\ parent (static_vops c D U8) a = Ret (Some a') /\ parent (static_vops c D U8) b = Ret (Some b')
    /\ idx_cmp c D (KStatic U8) a b = Ret Lt /\ idx_cmp c D (KStatic U8) a' b' = Ret Gt.
Proof.
  intros c D L [].
  - exists (MkStatic 0x10 2), (MkStatic 0x40 1), (MkStatic 0 1), (MkStatic 0 0).
    destruct c as [ [] [] []]; repeat match goal with |- ?G => let G' := eval hnf in G in match G' with _ /\ _ => split end end;
      first [vm_compute; reflexivity|vm_compute; discriminate].
  - exists (MkStatic 0x10 2), (MkStatic 0x20 1), (MkStatic 0 1), (MkStatic 0 0).
    destruct c as [ [] [] []]; repeat match goal with |- ?G => let G' := eval hnf in G in match G' with _ /\ _ => split end end;
      first [vm_compute; reflexivity|vm_compute; discriminate].
Qed.

(* ---------- C72 ---------- *)
Lemma nth_error_rev {A} (l : list A) i : (i < List.length l)%nat -> nth_error (rev l) i = nth_error l (List.length l - 1 - i).
Proof.
  intros H. revert i H. induction l as [|x l IH]; intros i H; [cbn in H; lia|].
  cbn [rev List.length] in *. destruct (Nat.eq_dec i (List.length l)) as [->|E].
  - rewrite nth_error_app2 by (rewrite rev_length; lia). rewrite rev_length, Nat.sub_diag.
    replace (Datatypes.S (List.length l) - 1 - List.length l)%nat with O by lia. reflexivity.
  - rewrite nth_error_app1 by (rewrite rev_length; lia). rewrite IH by lia.
    replace (Datatypes.S (List.length l) - 1 - i)%nat with (Datatypes.S (List.length l - 1 - i))%nat by lia. reflexivity.
Qed.
Lemma bit_offset v : v < 2 -> v = N.b2n (v =? 1).
Proof. destruct (N.eqb_spec v 1); cbn; lia. Qed.
Lemma testbit_coord {A} (off : A -> N) l i x : (forall q, off q < 2) -> nth_error (rev l) (N.to_nat i) = Some x ->
  N.testbit (coord off l) i = (off x =? 1).
Proof.
  intros Ho. revert i. induction l as [|y l IH] using rev_ind; intros i H.
  - destruct (N.to_nat i); discriminate H.
  - rewrite rev_app_distr in H. rewrite coord_snoc. rewrite (bit_offset (off y)) by apply Ho. rewrite testbit_double.
    destruct (N.eqb_spec i 0) as [->|E].
    + injection H as ->. reflexivity.
    + apply IH. cbn [rev app] in H. replace (N.to_nat i) with (Datatypes.S (N.to_nat (i - 1))) in H by lia. exact H.
Qed.
Lemma testbit_coord_cell {A} (off : A -> N) l i x : (forall q, off q < 2) -> nth_error l (N.to_nat i) = Some x ->
  N.testbit (coord off l) (len l - 1 - i) = (off x =? 1).
Proof.
  intros Ho H. pose proof (nth_error_len _ _ _ H) as Hi. rewrite N2Nat.id in Hi. apply testbit_coord; [exact Ho|].
  unfold len in *. rewrite nth_error_rev by lia. rewrite <- H. f_equal. lia.
Qed.
Lemma testbit_coord_high {A} (off : A -> N) l i : (forall q, off q < 2) -> len l <= i -> N.testbit (coord off l) i = false.
Proof.
  intros Ho Hi. apply (testbit_high _ (len l)); [apply coord_lt; exact Ho|exact Hi].
Qed.
Lemma coord_rev {A} (off : A -> N) l : (forall q, off q < 2) -> bit_reversal (len l) (coord off l) (coord off (rev l)).
Proof.
  intros Ho. split; [rewrite <- len_rev; apply coord_lt; exact Ho|]. intros i Hi.
  destruct (nth_error l (N.to_nat i)) as [x|] eqn:E; [|apply nth_error_None in E; unfold len in Hi; lia].
  rewrite (testbit_coord off (rev l) i x Ho) by (rewrite rev_involutive; exact E).
  symmetry. apply testbit_coord_cell; assumption.
Qed.
Lemma coord_update {A} (off : A -> N) l i x : (forall q, off q < 2) -> i < len l ->
  bit_replaced (len l - 1 - i) (off x) (coord off l) (coord off (update l (N.to_nat i) x)).
Proof.
  intros Ho Hi m. destruct (N.lt_ge_cases m (len l)) as [Hm|Hm].
  - pose (j := len l - 1 - m). assert (Hj : m = len l - 1 - j) by (unfold j; lia). assert (Lj : j < len l) by (unfold j; lia).
    clearbody j. subst m.
    destruct (nth_error l (N.to_nat j)) as [y|] eqn:E; [|apply nth_error_None in E; unfold len in Lj; lia].
    rewrite (testbit_coord_cell off l j y Ho E).
    assert (E' : nth_error (update l (N.to_nat i) x) (N.to_nat j) = Some (if j =? i then x else y)).
    { rewrite nth_error_update. destruct (N.eqb_spec j i) as [->|F].
      - rewrite Nat.eqb_refl. cbn [andb]. destruct (Nat.ltb_spec (N.to_nat i) (List.length l)); [reflexivity|unfold len in Hi; lia].
      - destruct (Nat.eqb_spec (N.to_nat i) (N.to_nat j)); [lia|]. exact E. }
    pose proof (testbit_coord_cell off _ j _ Ho E') as B. rewrite len_update in B. rewrite B.
    destruct (N.eqb_spec j i) as [->|F]; [rewrite N.eqb_refl; reflexivity|].
    destruct (N.eqb_spec (len l - 1 - j) (len l - 1 - i)); [lia|reflexivity].
  - rewrite !testbit_coord_high by (try exact Ho; rewrite ?len_update; exact Hm).
    destruct (N.eqb_spec m (len l - 1 - i)); [lia|reflexivity].
Qed.
Lemma c72_inverted_2d_lemma : forall c L k (s s' : storage k) o x y,
  is_dim Dim2D L -> writable c k -> valid c Dim2D k s -> st_depth (ops c Dim2D k) s <= usize_bits c ->
  to_grid_index_2d c (ops c Dim2D k) s o = Ret (x, y) -> inverted c (ops c Dim2D k) s = Ret s' ->
  exists x' y', to_grid_index_2d c (ops c Dim2D k) s' o = Ret (x', y')
    /\ bit_reversal (st_depth (ops c Dim2D k) s) x x' /\ bit_reversal (st_depth (ops c Dim2D k) s) y y'.
Proof.
  intros c L k s s' o x y HL HW V Hd Hg Hi. pose proof (is_dim_ok _ _ HL) as HD.
  destruct (c01_every_index_shows_one_path_lemma c Dim2D L k s HL V) as (l & S & _).
  destruct (c25_inverted_reverses_lemma c Dim2D L k s l HL HW V S) as (s1 & E1 & V1 & S1). rewrite Hi in E1. injection E1 as <-.
  rewrite (proj1 S) in *.
  rewrite (to_grid_index_2d_ok c k s o l (valid_shows _ _ _ _ _ HD V S) Hd) in Hg.
  assert (Hd' : len (rev l) <= usize_bits c) by (rewrite len_rev; exact Hd).
  pose proof (to_grid_index_2d_ok c k s' o (rev l) (valid_shows _ _ _ _ _ HD V1 S1) Hd') as G.
  injection Hg as <- <-. do 2 eexists. split; [exact G|]. split; apply coord_rev; intro; apply quad_lt.
Qed.
Lemma c72_inverted_3d_lemma : forall c L k (s s' : storage k) o x y z,
  is_dim Dim3D L -> writable c k -> valid c Dim3D k s -> st_depth (ops c Dim3D k) s <= usize_bits c ->
  to_grid_index_3d c (ops c Dim3D k) s o = Ret (x, y, z) -> inverted c (ops c Dim3D k) s = Ret s' ->
  exists x' y' z', to_grid_index_3d c (ops c Dim3D k) s' o = Ret (x', y', z')
    /\ bit_reversal (st_depth (ops c Dim3D k) s) x x' /\ bit_reversal (st_depth (ops c Dim3D k) s) y y'
    /\ bit_reversal (st_depth (ops c Dim3D k) s) z z'.
Proof.
  intros c L k s s' o x y z HL HW V Hd Hg Hi. pose proof (is_dim_ok _ _ HL) as HD.
  destruct (c01_every_index_shows_one_path_lemma c Dim3D L k s HL V) as (l & S & _).
  destruct (c25_inverted_reverses_lemma c Dim3D L k s l HL HW V S) as (s1 & E1 & V1 & S1). rewrite Hi in E1. injection E1 as <-.
  rewrite (proj1 S) in *.
  rewrite (to_grid_index_3d_ok c k s o l (valid_shows _ _ _ _ _ HD V S) Hd) in Hg.
  assert (Hd' : len (rev l) <= usize_bits c) by (rewrite len_rev; exact Hd).
  pose proof (to_grid_index_3d_ok c k s' o (rev l) (valid_shows _ _ _ _ _ HD V1 S1) Hd') as G.
  injection Hg as <- <- <-. do 3 eexists. split; [exact G|]. split; [|split]; apply coord_rev; intro; apply oct_lt.
Qed.
Lemma c72_cells_are_bits_2d_lemma : forall c L k (s : storage k) o i q x y,
  is_dim Dim2D L -> valid c Dim2D k s -> st_depth (ops c Dim2D k) s <= usize_bits c ->
  to_grid_index_2d c (ops c Dim2D k) s o = Ret (x, y) -> get_cell_at_level (ops c Dim2D k) s i = Ret q ->
  let j := st_depth (ops c Dim2D k) s - 1 - i in
  N.testbit x j = (quad_x o q =? 1) /\ N.testbit y j = (quad_y o q =? 1).
Proof.
  intros c L k s o i q x y HL V Hd Hg Hc. pose proof (is_dim_ok _ _ HL) as HD. cbv zeta.
  destruct (c01_every_index_shows_one_path_lemma c Dim2D L k s HL V) as (l & S & _).
  rewrite (proj1 S) in *.
  rewrite (to_grid_index_2d_ok c k s o l (valid_shows _ _ _ _ _ HD V S) Hd) in Hg.
  rewrite (proj2 S) in Hc. destruct (nth_error l (N.to_nat i)) as [q'|] eqn:E; [|discriminate Hc]. injection Hc as ->.
  injection Hg as <- <- . split; apply testbit_coord_cell; try exact E; intro; apply quad_lt.
Qed.
Lemma c72_set_cell_2d_lemma : forall c L k (s s' : storage k) o i q x y,
  is_dim Dim2D L -> writable c k -> valid c Dim2D k s -> st_depth (ops c Dim2D k) s <= usize_bits c ->
  to_grid_index_2d c (ops c Dim2D k) s o = Ret (x, y) -> set_cell_at_level (ops c Dim2D k) s i q = Ret s' ->
  exists x' y', to_grid_index_2d c (ops c Dim2D k) s' o = Ret (x', y')
    /\ let j := st_depth (ops c Dim2D k) s - 1 - i in
       bit_replaced j (quad_x o q) x x' /\ bit_replaced j (quad_y o q) y y'.
Proof.
  intros c L k s s' o i q x y HL HW V Hd Hg Hs. pose proof (is_dim_ok _ _ HL) as HD.
  destruct (c01_every_index_shows_one_path_lemma c Dim2D L k s HL V) as (l & S & _).
  assert (Hi : i < len l).
  { rewrite <- (proj1 S). apply (c04_set_panics_iff_out_of_bounds_lemma c Dim2D L k s i q HL V). eexists; exact Hs. }
  destruct (c01_set_cell_replaces_one_cell_lemma c Dim2D L k s l i q HL HW V S Hi) as (s1 & E1 & V1 & S1).
  rewrite Hs in E1. injection E1 as <-.
  rewrite <- update_firstn_skipn in S1 by (unfold len in Hi; lia).
  rewrite (proj1 S) in *.
  rewrite (to_grid_index_2d_ok c k s o l (valid_shows _ _ _ _ _ HD V S) Hd) in Hg.
  assert (Hd' : len (update l (N.to_nat i) q) <= usize_bits c) by (rewrite len_update; exact Hd).
  pose proof (to_grid_index_2d_ok c k s' o _ (valid_shows _ _ _ _ _ HD V1 S1) Hd') as G.
  injection Hg as <- <- . do 2 eexists. split; [exact G|]. cbv zeta.
  split; apply coord_update; try exact Hi; intro; apply quad_lt.
Qed.
Lemma c72_descendant_2d_lemma : forall c L k v (s s' : storage k) o cells x y,
  is_dim Dim2D L -> writable c k -> var_ops c Dim2D L k = Some v -> valid c Dim2D k s -> appendable c Dim2D k s cells ->
  st_depth (ops c Dim2D k) s + len cells <= usize_bits c ->
  to_grid_index_2d c (ops c Dim2D k) s o = Ret (x, y) -> descendant v s cells = Ret (Some s') ->
  to_grid_index_2d c (ops c Dim2D k) s' o
  = Ret (x * 2 ^ len cells + coord (quad_x o) cells, y * 2 ^ len cells + coord (quad_y o) cells).
Proof.
  intros c L k v s s' o cells x y HL HW HV V A Hd Hg He. pose proof (is_dim_ok _ _ HL) as HD.
  destruct (c01_every_index_shows_one_path_lemma c Dim2D L k s HL V) as (l & S & _).
  destruct (descendant_shown _ _ _ _ _ _ _ _ _ HL HW HV V S A He) as [V1 S1].
  rewrite (proj1 S) in *. assert (Hd0 : len l <= usize_bits c) by lia.
  assert (Hd' : len (l ++ cells) <= usize_bits c) by (rewrite len_app; exact Hd).
  rewrite (to_grid_index_2d_ok c k s o l (valid_shows _ _ _ _ _ HD V S) Hd0) in Hg.
  rewrite (to_grid_index_2d_ok c k s' o _ (valid_shows _ _ _ _ _ HD V1 S1) Hd').
  injection Hg as <- <- . unfold grid2. rewrite !coord_app. reflexivity.
Qed.
Lemma c72_cells_are_bits_3d_lemma : forall c L k (s : storage k) o i q x y z,
  is_dim Dim3D L -> valid c Dim3D k s -> st_depth (ops c Dim3D k) s <= usize_bits c ->
  to_grid_index_3d c (ops c Dim3D k) s o = Ret (x, y, z) -> get_cell_at_level (ops c Dim3D k) s i = Ret q ->
  let j := st_depth (ops c Dim3D k) s - 1 - i in
  N.testbit x j = (oct_x o q =? 1) /\ N.testbit y j = (oct_y o q =? 1) /\ N.testbit z j = (oct_z o q =? 1).
Proof.
  intros c L k s o i q x y z HL V Hd Hg Hc. pose proof (is_dim_ok _ _ HL) as HD. cbv zeta.
  destruct (c01_every_index_shows_one_path_lemma c Dim3D L k s HL V) as (l & S & _).
  rewrite (proj1 S) in *.
  rewrite (to_grid_index_3d_ok c k s o l (valid_shows _ _ _ _ _ HD V S) Hd) in Hg.
  rewrite (proj2 S) in Hc. destruct (nth_error l (N.to_nat i)) as [q'|] eqn:E; [|discriminate Hc]. injection Hc as ->.
  injection Hg as <- <- <- . split; [|split]; apply testbit_coord_cell; try exact E; intro; apply oct_lt.
Qed.
Lemma c72_set_cell_3d_lemma : forall c L k (s s' : storage k) o i q x y z,
  is_dim Dim3D L -> writable c k -> valid c Dim3D k s -> st_depth (ops c Dim3D k) s <= usize_bits c ->
  to_grid_index_3d c (ops c Dim3D k) s o = Ret (x, y, z) -> set_cell_at_level (ops c Dim3D k) s i q = Ret s' ->
  exists x' y' z', to_grid_index_3d c (ops c Dim3D k) s' o = Ret (x', y', z')
    /\ let j := st_depth (ops c Dim3D k) s - 1 - i in
       bit_replaced j (oct_x o q) x x' /\ bit_replaced j (oct_y o q) y y' /\ bit_replaced j (oct_z o q) z z'.
Proof.
  intros c L k s s' o i q x y z HL HW V Hd Hg Hs. pose proof (is_dim_ok _ _ HL) as HD.
  destruct (c01_every_index_shows_one_path_lemma c Dim3D L k s HL V) as (l & S & _).
  assert (Hi : i < len l).
  { rewrite <- (proj1 S). apply (c04_set_panics_iff_out_of_bounds_lemma c Dim3D L k s i q HL V). eexists; exact Hs. }
  destruct (c01_set_cell_replaces_one_cell_lemma c Dim3D L k s l i q HL HW V S Hi) as (s1 & E1 & V1 & S1).
  rewrite Hs in E1. injection E1 as <-.
  rewrite <- update_firstn_skipn in S1 by (unfold len in Hi; lia).
  rewrite (proj1 S) in *.
  rewrite (to_grid_index_3d_ok c k s o l (valid_shows _ _ _ _ _ HD V S) Hd) in Hg.
  assert (Hd' : len (update l (N.to_nat i) q) <= usize_bits c) by (rewrite len_update; exact Hd).
  pose proof (to_grid_index_3d_ok c k s' o _ (valid_shows _ _ _ _ _ HD V1 S1) Hd') as G.
  injection Hg as <- <- <- . do 3 eexists. split; [exact G|]. cbv zeta.
  split; [|split]; apply coord_update; try exact Hi; intro; apply oct_lt.
Qed.
Lemma c72_descendant_3d_lemma : forall c L k v (s s' : storage k) o cells x y z,
  is_dim Dim3D L -> writable c k -> var_ops c Dim3D L k = Some v -> valid c Dim3D k s -> appendable c Dim3D k s cells ->
  st_depth (ops c Dim3D k) s + len cells <= usize_bits c ->
  to_grid_index_3d c (ops c Dim3D k) s o = Ret (x, y, z) -> descendant v s cells = Ret (Some s') ->
  to_grid_index_3d c (ops c Dim3D k) s' o
  = Ret (x * 2 ^ len cells + coord (oct_x o) cells, y * 2 ^ len cells + coord (oct_y o) cells, z * 2 ^ len cells + coord (oct_z o) cells).
Proof.
  intros c L k v s s' o cells x y z HL HW HV V A Hd Hg He. pose proof (is_dim_ok _ _ HL) as HD.
  destruct (c01_every_index_shows_one_path_lemma c Dim3D L k s HL V) as (l & S & _).
  destruct (descendant_shown _ _ _ _ _ _ _ _ _ HL HW HV V S A He) as [V1 S1].
  rewrite (proj1 S) in *. assert (Hd0 : len l <= usize_bits c) by lia.
  assert (Hd' : len (l ++ cells) <= usize_bits c) by (rewrite len_app; exact Hd).
  rewrite (to_grid_index_3d_ok c k s o l (valid_shows _ _ _ _ _ HD V S) Hd0) in Hg.
  rewrite (to_grid_index_3d_ok c k s' o _ (valid_shows _ _ _ _ _ HD V1 S1) Hd').
  injection Hg as <- <- <- . unfold grid3. rewrite !coord_app. reflexivity.
Qed.
