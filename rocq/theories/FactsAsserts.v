(* FactsAsserts.v - lemmas behind PropAsserts.v: what the assertions of the repository's tests demand (C76) *)
From Verif Require Import Base ModelNumber ModelDim Model2D Model3D ModelStorage Spec History ModelSuite ExampleTools
  BitProofs CellProofs StorageProofs ConvProofs OrderProofs HistoryProofs FactsCells FactsGrid FactsHistory FactsSuite.

Lemma check_iff b : check b = Ret tt <-> b = true.
Proof. destruct b; cbn [check]; split; congruence. Qed.
Lemma cell_eqb_iff D x y : dim_ok D -> (cell_eqb D x y = true <-> x = y).
Proof.
  intros HD. unfold cell_eqb. rewrite (cmp_ok D HD). split.
  - destruct (N.compare_spec (cell_index D x) (cell_index D y)) as [E|E|E]; try discriminate. intros _. exact (idx_inj D x y HD E).
  - intros ->. rewrite N.compare_refl. reflexivity.
Qed.
Lemma cells_eq_iff D a b : dim_ok D -> (cells_eq D a b = true <-> a = b).
Proof.
  intros HD. revert b. induction a as [|x a IH]; intros [|y b]; cbn [cells_eq]; try (split; congruence).
  rewrite andb_true_iff, (cell_eqb_iff D x y HD), IH. split; [intros [-> ->]; reflexivity|intros [= -> ->]; auto].
Qed.
Lemma levels_prefix {A} (l' l : list A) : (forall i x, nth_error l' i = Some x -> nth_error l i = Some x) -> is_prefix l' l.
Proof.
  revert l. induction l' as [|x l' IH]; intros l H; [exists l; reflexivity|]. destruct l as [|y l]; [discriminate (H 0%nat x eq_refl)|].
  pose proof (H 0%nat x eq_refl) as E. injection E as <-. destruct (IH l) as (r & ->); [|exists r; reflexivity]. intros i z E. exact (H (S i) z E).
Qed.

Lemma c76_assertions_lemma : forall c D L k e (s : storage k) l, made c D L k e s l ->
  (forall n, depth_is c D k s n = Ret tt <-> len l = n)
  /\ (forall i x, level_is c D k s i x = Ret tt <-> nth_error l (N.to_nat i) = Some x)
  /\ (forall l', levels_are c D k s l' = Ret tt <-> is_prefix l' l)
  /\ (forall l', collects c D k s l' = Ret tt <-> l = l')
  /\ (forall n, set_cell_oob c D k s n = Ret tt <-> len l <= n).
Proof.
  intros c D L k e s l M. destruct (made_rep _ _ _ _ _ _ _ M) as [HL RR]. pose proof (is_dim_ok _ _ HL) as HD. pose proof (rep_repr _ _ _ _ _ _ RR) as R.
  assert (Lv : forall i x, level_is c D k s i x = Ret tt <-> nth_error l (N.to_nat i) = Some x).
  { intros i x. destruct (repr_shows c D k s l HD R) as [_ S]. unfold level_is. rewrite S. destruct (nth_error l (N.to_nat i)) as [y|]; cbn [bind].
    - rewrite check_iff, (cell_eqb_iff D x y HD). split; congruence.
    - split; discriminate. }
  split; [|split; [exact Lv|split; [|split]]].
  - intros n. unfold depth_is. rewrite check_iff, (raw_depth _ _ _ _ _ _ _ _ R), N.eqb_eq. split; congruence.
  - intros l'. split.
    + intros H. apply levels_prefix. intros i x E. unfold levels_are in H. pose proof (for_all_inv _ _ H (N.of_nat i, x)) as Q. cbn [fst snd] in Q.
      rewrite <- (Nat2N.id i). apply Lv, Q. apply enumerate_in. rewrite Nat2N.id. exact E.
    + intros (r & ->). exact (levels_ok c D L k HL s l' r R).
  - intros l'. unfold collects. rewrite (collect_cells_ok c D k s l HD R). cbn [bind]. rewrite check_iff, (cells_eq_iff D l' l HD). split; congruence.
  - intros n. split; [|exact (set_cell_oob_ok c D L k HL s l n R)]. unfold set_cell_oob. destruct (unwrap (cell_try_from D 1)) as [one| |]; cbn [bind]; try discriminate.
    intros H. destruct (N.le_gt_cases (len l) n) as [Q|Q]; [exact Q|exfalso]. destruct (rep_set c D k e s l n one HD RR Q) as (s' & E & _).
    rewrite E in H. discriminate.
Qed.
Lemma c76_root_assertions_lemma : forall c D L k v (s : storage k) l, made c D L k true s l -> var_ops c D L k = Some v ->
  (parent_of_root D k v s = Ret tt <-> l = [])
  /\ (forall n r,
     match k with KFixed t | KStatic t => n <= BITS c t / dim D | KDynamic => writable c KDynamic /\ dim D * n + 24 <= 2 ^ usize_bits c end ->
     ancestor_to_root c D L k v n s r = Ret tt <-> l = []).
Proof.
  intros c D L k v s l M HV. destruct (made_rep _ _ _ _ _ _ _ M) as [HL C]. cbn [rep] in C. pose proof (is_dim_ok _ _ HL) as HD. split.
  - split; [|intros ->; exact (parent_of_root_ok c D L k v HV s C)]. unfold parent_of_root, parent, is_none. intros H.
    destruct (len l) eqn:E; [apply len_0_nil; exact E|exfalso].
    destruct (rep_ancestor c D L k v true s l 1 HL HV C) as (s' & E' & _); [lia|]. rewrite E' in H. discriminate.
  - intros n r F0. assert (F : forall m, m <= n -> fits c D k m).
    { intros m Hm. destruct k as [t|t|]; cbn [fits]; [lia|lia|]. destruct F0 as [W F0]. split; [exact W|]. clear -F0 Hm. nia. }
    split; [|intros ->; exact (ancestor_to_root_ok c D L k HL v HV n s r F C)].
    unfold ancestor_to_root. draw L n r cells Hl. destruct (whole_canon c D L k HL cells) as (s0 & E & C0); [apply (whole_var c D L k v HV); rewrite Hl; apply F; lia|].
    rewrite E. cbn [bind]. destruct (rep_ancestor c D L k v true s0 cells n HL HV C0) as (s1 & E1 & C1); [lia|]. cbn [rep] in C1. rewrite Hl, N.sub_diag in C1. cbn [N.to_nat firstn] in C1.
    unfold is_some. rewrite E1. cbn [bind]. rewrite check_iff. intros H. apply (idx_eq_canon c D k s s1 l [] HD C C1) in H. exact H.
Qed.
Lemma c76_limit_assertions_lemma : forall c D L t m r, is_dim D L ->
  (from_too_many c D L (KFixed t) m r = Ret tt <-> BITS c t / dim D <= m)
  /\ (from_too_many c D L (KStatic t) m r = Ret tt <-> BITS c t / dim D <= m)
  /\ (child_oob c D L (KStatic t) (static_vops c D t) m r = Ret tt <-> m = BITS c t / dim D)
  /\ (descendant_too_far c D L (KStatic t) (static_vops c D t) m r = Ret tt <-> m = BITS c t / dim D).
Proof.
  intros c D L t m r HL. pose proof (is_dim_ok _ _ HL) as HD.
  assert (B : child_oob c D L (KStatic t) (static_vops c D t) m r = Ret tt <-> m = BITS c t / dim D).
  { unfold child_oob. draw L m r l Hl. unfold index_of, expect. cbn [try_from_cells].
    destruct (c03_static_try_from_err_lemma c D L t l HL) as [Er Ok']. destruct (N.le_gt_cases (len l) (BITS c t / dim D)) as [Q|Q].
    - destruct (whole_canon c D L (KStatic t) HL l) as (s & E & C); [exact Q|]. unfold index_of, expect in E. cbn [try_from_cells] in E.
      unfold bind in E |- *. destruct (static_try_from c D t l) as [[s0|]| |]; try discriminate. cbn [unwrap] in E |- *. injection E as ->. unfold is_none, bind, child, descendant.
      cbn [vo_descendant static_vops]. destruct (N.eq_dec (len l) (BITS c t / dim D)) as [E|E].
      + rewrite (static_descendant_none c D t s l [cell_zero D] HD (canon_repr _ _ _ _ _ C)).
        * split; intros _; [congruence|reflexivity].
        * change (len [cell_zero D]) with 1. change 1 with (2 ^ 0). apply N.pow_lt_mono_r; [lia|]. pose proof (usize_ge16 c). lia.
        * change (len [cell_zero D]) with 1. unfold MAX_LEVELS. lia.
      + destruct (rep_static_descendant c D t true s l [cell_zero D] HD C) as (s1 & E1 & _); [change (len [cell_zero D]) with 1; unfold MAX_LEVELS; lia|].
        rewrite E1. split; [discriminate|lia].
    - rewrite (proj2 Er Q). cbn [bind unwrap]. split; [discriminate|lia]. }
  split; [|split; [|split; [exact B|exact B]]].
  - unfold from_too_many. draw L (m + 1) r l Hl. unfold is_err. cbn [try_from_cells]. destruct (c03_fixed_try_from_err_lemma c D L t l HL) as [Er Ok'].
    destruct (N.le_gt_cases (len l) (BITS c t / dim D)) as [Q|Q].
    + destruct (proj2 Ok' Q) as (s & E). rewrite E. cbn [bind]. split; [discriminate|lia].
    + rewrite (proj2 Er Q). cbn [bind]. split; [lia|reflexivity].
  - unfold from_too_many. draw L (m + 1) r l Hl. unfold is_err. cbn [try_from_cells]. destruct (c03_static_try_from_err_lemma c D L t l HL) as [Er Ok'].
    destruct (N.le_gt_cases (len l) (BITS c t / dim D)) as [Q|Q].
    + destruct (proj2 Ok' Q) as (s & E). rewrite E. cbn [bind]. split; [discriminate|lia].
    + rewrite (proj2 Er Q). cbn [bind]. split; [lia|reflexivity].
Qed.
(* the assertions of the tests ordering: two neighbours in the sorted list pass if they are in order, and if the second contains the first *)
Lemma c76_order_assertion_lemma : forall c D L k e e' (a b : storage k) la lb, made c D L k e a la -> made c D L k e' b lb ->
  (all_in_order c D k [a; b] 2 = Ret tt <-> path_cmp la lb <> Gt \/ is_prefix lb la).
Proof.
  intros c D L k e e' a b la lb Ma Mb. destruct (made_rep _ _ _ _ _ _ _ Ma) as [HL Ra]. destruct (made_rep _ _ _ _ _ _ _ Mb) as [_ Rb].
  pose proof (is_dim_ok _ _ HL) as HD. apply rep_repr in Ra, Rb. unfold all_in_order, for_all. change (range 0 (2 - 1)) with [0]. cbn [foldM].
  change (vec_get [a; b] 0) with (Ret a). change (vec_get [a; b] (0 + 1)) with (Ret b). cbn [bind].
  rewrite (collect_cells_ok c D k a la HD Ra), (collect_cells_ok c D k b lb HD Rb). cbn [bind].
  assert (Z : zip_in_order D la lb = Ret tt <-> path_cmp la lb <> Gt \/ is_prefix lb la).
  { clear -HD. revert lb. induction la as [|x la IH]; intros lb.
    - destruct lb as [|y lb]; cbn [zip_in_order path_cmp]; (split; [intros _; left; discriminate|reflexivity]).
    - destruct lb as [|y lb]; cbn [zip_in_order path_cmp]; [split; [intros _; right; exists (x :: la); reflexivity|reflexivity]|].
      rewrite (cmp_ok D HD). destruct (N.compare_spec (cell_index D x) (cell_index D y)) as [E|E|E]; cbn [check bind].
      + apply (idx_inj D x y HD) in E. subst y. rewrite IH. split; (intros [H|(r & H)]; [left; exact H|right; exists r]); [rewrite H; reflexivity|].
        cbn [app] in H. injection H as H. exact H.
      + split; [intros _; left; discriminate|reflexivity].
      + split; [discriminate|]. intros [H|(r & H)]; [congruence|]. cbn [app] in H. injection H as -> _. lia. }
  destruct (zip_in_order D la lb) as [[]| |]; cbn [bind]; exact Z.
Qed.

Lemma c76_some_assertion_lemma : forall c D L k (a b : storage k) la lb, made c D L k true a la -> made c D L k true b lb ->
  (is_some k (Ret (Some b)) a = Ret tt <-> la = lb) /\ is_some k (Ret None) a = Panic /\ is_some k Panic a = Panic.
Proof.
  intros c D L k a b la lb Ma Mb. destruct (made_rep _ _ _ _ _ _ _ Ma) as [HL Ra]. destruct (made_rep _ _ _ _ _ _ _ Mb) as [_ Rb].
  split; [|split; reflexivity]. unfold is_some. cbn [bind]. rewrite check_iff. exact (idx_eq_canon c D k a b la lb (is_dim_ok _ _ HL) Ra Rb).
Qed.
Lemma c76_grid_assertion_2d_lemma : forall c k n (from : N -> N -> quadrant_ordering -> outcome (storage k)) r,
  match k with KFixed t => n = BITS c t / 2 | KStatic t => n <= BITS c t / 2 | KDynamic => writable c KDynamic /\ 2 * n + 24 <= 2 ^ usize_bits c end ->
  n <= usize_bits c ->
  exists (s : storage k) l, made c Dim2D layout2D k true s l /\ len l = n
    /\ (roundtrip_2d c k n from r = Ret tt <-> forall o, from (coord (quad_x o) l) (coord (quad_y o) l) o = Ret s).
Proof.
  intros c k n from r F HU. assert (HL : is_dim Dim2D layout2D) by constructor. pose proof (is_dim_ok _ _ HL) as HD. unfold roundtrip_2d. draw layout2D n r l Hl.
  assert (W : whole c Dim2D k (len l)) by (rewrite Hl; destruct k; exact F).
  destruct (whole_canon c Dim2D layout2D k HL l W) as (s & E & C). destruct (index_of_ok c Dim2D layout2D k l HL (whole_fits _ _ _ _ W)) as (s' & E' & St).
  rewrite E in E'. injection E' as <-. pose proof (starts_made _ _ _ _ _ _ _ St) as M. destruct (made_rep _ _ _ _ _ _ _ M) as [_ C'].
  assert (Q : shown c Dim2D k l = l) by exact (proj1 (idx_eq_canon c Dim2D k s s _ _ HD C' C) (proj2 (idx_eq_iff k s s) eq_refl)).
  rewrite Q in M. exists s, l. split; [exact M|split; [exact Hl|]]. rewrite E. cbn [bind].
  assert (G : forall o, to_grid_index_2d c (ops c Dim2D k) s o = Ret (coord (quad_x o) l, coord (quad_y o) l)).
  { intro o. apply c11_to_grid_index_2d_lemma; [exact (repr_valid _ _ _ _ _ HD (canon_repr _ _ _ _ _ C))|exact (repr_shows c Dim2D k s l HD (canon_repr _ _ _ _ _ C))|rewrite Hl; exact HU]. }
  split.
  - intros H o. pose proof (for_all_inv _ _ H o) as Z. cbv beta in Z. rewrite G in Z. cbn [bind] in Z. specialize (Z ltac:(destruct o; cbn; tauto)).
    destruct (from _ _ o) as [i| |]; cbn [bind] in Z; try discriminate. apply check_iff, idx_eq_iff in Z. rewrite Z. reflexivity.
  - intros H. apply for_all_ok. intros o _. rewrite G. cbn [bind]. rewrite H. cbn [bind]. apply check_iff, idx_eq_iff. reflexivity.
Qed.
Lemma c76_grid_assertion_3d_lemma : forall c k n (from : N -> N -> N -> octant_ordering -> outcome (storage k)) r,
  match k with KFixed t => n = BITS c t / 3 | KStatic t => n <= BITS c t / 3 | KDynamic => writable c KDynamic /\ 3 * n + 24 <= 2 ^ usize_bits c end ->
  n <= usize_bits c ->
  exists (s : storage k) l, made c Dim3D layout3D k true s l /\ len l = n
    /\ (roundtrip_3d c k n from r = Ret tt <-> forall o, from (coord (oct_x o) l) (coord (oct_y o) l) (coord (oct_z o) l) o = Ret s).
Proof.
  intros c k n from r F HU. assert (HL : is_dim Dim3D layout3D) by constructor. pose proof (is_dim_ok _ _ HL) as HD. unfold roundtrip_3d. draw layout3D n r l Hl.
  assert (W : whole c Dim3D k (len l)) by (rewrite Hl; destruct k; exact F).
  destruct (whole_canon c Dim3D layout3D k HL l W) as (s & E & C). destruct (index_of_ok c Dim3D layout3D k l HL (whole_fits _ _ _ _ W)) as (s' & E' & St).
  rewrite E in E'. injection E' as <-. pose proof (starts_made _ _ _ _ _ _ _ St) as M. destruct (made_rep _ _ _ _ _ _ _ M) as [_ C'].
  assert (Q : shown c Dim3D k l = l) by exact (proj1 (idx_eq_canon c Dim3D k s s _ _ HD C' C) (proj2 (idx_eq_iff k s s) eq_refl)).
  rewrite Q in M. exists s, l. split; [exact M|split; [exact Hl|]]. rewrite E. cbn [bind].
  assert (G : forall o, to_grid_index_3d c (ops c Dim3D k) s o = Ret (coord (oct_x o) l, coord (oct_y o) l, coord (oct_z o) l)).
  { intro o. apply c11_to_grid_index_3d_lemma; [exact (repr_valid _ _ _ _ _ HD (canon_repr _ _ _ _ _ C))|exact (repr_shows c Dim3D k s l HD (canon_repr _ _ _ _ _ C))|rewrite Hl; exact HU]. }
  split.
  - intros H o. pose proof (for_all_inv _ _ H o) as Z. cbv beta in Z. rewrite G in Z. cbn [bind] in Z. specialize (Z ltac:(destruct o; cbn; tauto)).
    destruct (from _ _ _ o) as [i| |]; cbn [bind] in Z; try discriminate. apply check_iff, idx_eq_iff in Z. rewrite Z. reflexivity.
  - intros H. apply for_all_ok. intros o _. rewrite G. cbn [bind]. rewrite H. cbn [bind]. apply check_iff, idx_eq_iff. reflexivity.
Qed.
