(* FactsOrder.v - proofs of the theorems stated in PropOrder.v *)
From Verif Require Import Base ModelNumber ModelDim ModelStorage Model2D Model3D Spec History BitProofs NumberProofs VecProofs CellProofs StorageProofs OrderProofs ConvProofs HistoryProofs FactsCells.

(* ---------- C18 ---------- *)
Lemma rest_full D w v n : w = dim D * n -> rest D w v n = 0.
Proof. intros ->. unfold rest. rewrite N.sub_diag. apply N.mod_1_r. Qed.
Lemma c18_cmp_is_preorder_lemma : forall c D L k (a b : storage k) la lb,
  is_dim D L -> (forall t, k = KFixed t -> dim D = 2) ->
  valid c D k a -> valid c D k b -> shows (ops c D k) a la -> shows (ops c D k) b lb ->
  idx_cmp c D k a b = Ret (path_cmp la lb).
Proof.
  intros c D L k a b la lb HL HF Va Vb Sa Sb. pose proof (is_dim_ok _ _ HL) as HD.
  pose proof (valid_shows _ _ _ _ _ HD Va Sa) as Ra. pose proof (valid_shows _ _ _ _ _ HD Vb Sb) as Rb.
  destruct k as [t|t|]; cbn [idx_cmp].
  - rewrite (fixed_cmp_raw c D t a b la lb HD Ra Rb). f_equal. specialize (HF t eq_refl).
    assert (E : forall l : list (cell D), len l = MAX_LEVELS c D t -> BITS c t = dim D * len l).
    { intros l ->. unfold MAX_LEVELS. rewrite HF. destruct (BITS_cases c t) as [E|[E|[E|[E|E]]]]; rewrite E; reflexivity. }
    rewrite (rest_full D _ _ (len la)) by (apply E; symmetry; exact (proj1 Sa)). rewrite (rest_full D _ _ (len lb)) by (apply E; symmetry; exact (proj1 Sb)).
    rewrite N.compare_refl. destruct (path_cmp la lb); reflexivity.
  - apply static_cmp_ok; assumption.
  - apply dynamic_cmp_ok; assumption.
Qed.
Lemma c18_cmp_of_different_paths_lemma : forall c D L k (a b : storage k) la lb,
  is_dim D L -> valid c D k a -> valid c D k b -> shows (ops c D k) a la -> shows (ops c D k) b lb ->
  la <> lb -> idx_cmp c D k a b = Ret (path_cmp la lb).
Proof.
  intros c D L k a b la lb HL Va Vb Sa Sb Hne. pose proof (is_dim_ok _ _ HL) as HD.
  apply idx_cmp_repr; try (apply valid_shows; assumption); try assumption. intro E. apply path_cmp_eq in E; auto.
Qed.
Lemma c18_cmp_of_made_indices_lemma : forall c D L k (a b : storage k) la lb,
  made c D L k true a la -> made c D L k true b lb -> idx_cmp c D k a b = Ret (path_cmp la lb).
Proof.
  intros c D L k a b la lb Ma Mb. destruct (made_canon _ _ _ _ _ _ Ma) as [HD Ca]. destruct (made_canon _ _ _ _ _ _ Mb) as [_ Cb].
  apply idx_cmp_canon; assumption.
Qed.

(* ---------- C19 ---------- *)
(* on valid values, cmp is comparison of keys in a total order *)
Lemma idx_cmp_some c D L k (a b : storage k) : is_dim D L -> valid c D k a -> valid c D k b ->
  exists r, idx_cmp c D k a b = Ret r.
Proof.
  intros HL Va Vb. pose proof (is_dim_ok _ _ HL) as HD.
  destruct (valid_repr _ _ _ _ HD Va) as (la & Ra). destruct (valid_repr _ _ _ _ HD Vb) as (lb & Rb).
  destruct k as [t|t|]; cbn [idx_cmp]; [eexists; reflexivity| |].
  - rewrite (static_cmp_ok c D t a b la lb HD Ra Rb). eexists; reflexivity.
  - rewrite (dynamic_cmp_ok c D a b la lb HD Ra Rb). eexists; reflexivity.
Qed.
Lemma c19_cmp_total_lemma : forall c D L k (a b : storage k),
  is_dim D L -> valid c D k a -> valid c D k b ->
  exists r, idx_cmp c D k a b = Ret r /\ idx_cmp c D k b a = Ret (CompOpp r).
Proof.
  intros c D L k a b HL Va Vb. pose proof (is_dim_ok _ _ HL) as HD.
  destruct (valid_repr _ _ _ _ HD Va) as (la & Ra). destruct (valid_repr _ _ _ _ HD Vb) as (lb & Rb).
  destruct k as [t|t|]; cbn [idx_cmp].
  - exists (fixed_cmp a b). split; [reflexivity|]. unfold fixed_cmp. rewrite N.compare_antisym. reflexivity.
  - exists (path_cmp la lb). rewrite (static_cmp_ok c D t a b la lb HD Ra Rb), (static_cmp_ok c D t b a lb la HD Rb Ra).
    split; [reflexivity|]. rewrite path_cmp_antisym by assumption. reflexivity.
  - exists (path_cmp la lb). rewrite (dynamic_cmp_ok c D a b la lb HD Ra Rb), (dynamic_cmp_ok c D b a lb la HD Rb Ra).
    split; [reflexivity|]. rewrite path_cmp_antisym by assumption. reflexivity.
Qed.
Lemma c19_cmp_transitive_lemma : forall c D L k (a b d : storage k) r,
  is_dim D L -> valid c D k a -> valid c D k b -> valid c D k d ->
  idx_cmp c D k a b = Ret r -> idx_cmp c D k b d = Ret r -> idx_cmp c D k a d = Ret r.
Proof.
  intros c D L k a b d r HL Va Vb Vd. pose proof (is_dim_ok _ _ HL) as HD.
  destruct (valid_repr _ _ _ _ HD Va) as (la & Ra). destruct (valid_repr _ _ _ _ HD Vb) as (lb & Rb).
  destruct (valid_repr _ _ _ _ HD Vd) as (ld & Rd).
  destruct k as [t|t|]; cbn [idx_cmp].
  - unfold fixed_cmp. intros E1 E2. injection E1 as E1. injection E2 as E2. f_equal. destruct r.
    + apply N.compare_eq in E1, E2. apply N.compare_eq_iff. lia.
    + rewrite N.compare_lt_iff in *. lia.
    + rewrite N.compare_gt_iff in *. lia.
  - rewrite (static_cmp_ok c D t a b la lb HD Ra Rb), (static_cmp_ok c D t b d lb ld HD Rb Rd), (static_cmp_ok c D t a d la ld HD Ra Rd).
    intros E1 E2. injection E1 as E1. injection E2 as E2. f_equal. eapply path_cmp_trans; eassumption.
  - rewrite (dynamic_cmp_ok c D a b la lb HD Ra Rb), (dynamic_cmp_ok c D b d lb ld HD Rb Rd), (dynamic_cmp_ok c D a d la ld HD Ra Rd).
    intros E1 E2. injection E1 as E1. injection E2 as E2. f_equal. eapply path_cmp_trans; eassumption.
Qed.
Lemma c19_equal_iff_eq_lemma : forall c D L k (a b : storage k) la lb,
  made c D L k true a la -> made c D L k true b lb ->
  (idx_cmp c D k a b = Ret Eq <-> idx_eq k a b = true).
Proof.
  intros c D L k a b la lb Ma Mb. destruct (made_canon _ _ _ _ _ _ Ma) as [HD Ca]. destruct (made_canon _ _ _ _ _ _ Mb) as [_ Cb].
  rewrite (idx_cmp_canon c D k a b la lb HD Ca Cb), (idx_eq_canon c D k a b la lb HD Ca Cb).
  rewrite <- (path_cmp_eq HD la lb). split; [intros [= E]; exact E|intros ->; reflexivity].
Qed.
(* == implies Equal for all valid values; the converse fails for raw values, see C43 *)
Lemma c19_eq_implies_equal_lemma : forall c D L k (a b : storage k),
  is_dim D L -> valid c D k a -> idx_eq k a b = true -> idx_cmp c D k a b = Ret Eq.
Proof.
  intros c D L k a b HL Va E. apply idx_eq_iff in E. subst b.
  destruct (c19_cmp_total_lemma c D L k a a HL Va Va) as (r & E1 & E2). rewrite E1 in *. destruct r; try discriminate. reflexivity.
Qed.

(* ---------- C20 ---------- *)
Lemma path_cmp_between D (a x b p : list (cell D)) : dim_ok D ->
  path_cmp a x <> Gt -> path_cmp x b <> Gt -> is_prefix p a -> is_prefix p b -> is_prefix p x.
Proof.
  intros HD. revert a x b. induction p as [|y p IH]; intros a x b H1 H2 (ra & ->) (rb & ->).
  - exists x. reflexivity.
  - cbn [app path_cmp] in H1, H2. destruct x as [|z x]; [exfalso; apply H1; reflexivity|].
    cbn [app path_cmp] in H1, H2.
    destruct (N.compare_spec (cell_index D y) (cell_index D z)) as [E|E|E];
    destruct (N.compare_spec (cell_index D z) (cell_index D y)) as [E'|E'|E']; try lia; try (exfalso; congruence).
    apply (idx_inj D y z HD) in E. subst z.
    destruct (IH (p ++ ra) x (p ++ rb) H1 H2) as (r & ->); [exists ra; reflexivity|exists rb; reflexivity|].
    exists r. reflexivity.
Qed.
Lemma c20_subtree_is_contiguous_lemma : forall c D L k (a x b : storage k) la lx lb p,
  is_dim D L -> valid c D k a -> valid c D k x -> valid c D k b ->
  shows (ops c D k) a la -> shows (ops c D k) x lx -> shows (ops c D k) b lb ->
  idx_cmp c D k a x <> Ret Gt -> idx_cmp c D k x b <> Ret Gt ->
  is_prefix p la -> is_prefix p lb -> is_prefix p lx.
Proof.
  intros c D L k a x b la lx lb p HL Va Vx Vb Sa Sx Sb H1 H2 Pa Pb. pose proof (is_dim_ok _ _ HL) as HD.
  assert (K : forall (u v : storage k) lu lv, valid c D k u -> valid c D k v -> shows (ops c D k) u lu -> shows (ops c D k) v lv ->
    idx_cmp c D k u v <> Ret Gt -> path_cmp lu lv <> Gt).
  { intros u v lu lv Vu Vv Su Sv H E. apply H. rewrite <- E. eapply c18_cmp_of_different_paths_lemma; try eassumption.
    intros ->. rewrite path_cmp_refl in E. discriminate. }
  apply (path_cmp_between D la lx lb p HD); eauto.
Qed.

(* ---------- C21, C22, C44 ---------- *)
Lemma c21_eq_is_equality_of_paths_lemma : forall c D L k (a b : storage k) la lb,
  made c D L k true a la -> made c D L k true b lb -> (idx_eq k a b = true <-> la = lb).
Proof.
  intros c D L k a b la lb Ma Mb. destruct (made_canon _ _ _ _ _ _ Ma) as [HD Ca]. destruct (made_canon _ _ _ _ _ _ Mb) as [_ Cb].
  apply (idx_eq_canon c D); assumption.
Qed.
Lemma c21_equal_values_have_equal_paths_lemma : forall c D L k (a b : storage k) la lb,
  is_dim D L -> idx_eq k a b = true -> shows (ops c D k) a la -> shows (ops c D k) b lb -> la = lb.
Proof. intros c D L k a b la lb HL E Sa Sb. apply idx_eq_iff in E. subst b. eapply shows_unique; eassumption. Qed.

Lemma c22_zeroed_2d_equals_zero_path_partial_lemma : forall c d s, 2 * d + 24 <= 2 ^ usize_bits c ->
  dynamic_try_from c Dim2D layout2D (repeat (cell_zero Dim2D) (N.to_nat d)) = Ret (Ok s) ->
  (idx_eq KDynamic (dynamic_zeroed_2d d) s = true <-> d mod 4 <> 0).
Proof.
  intros c d s H E.
  assert (Hl : len (repeat (cell_zero Dim2D) (N.to_nat d)) = d) by (rewrite len_repeat, N2Nat.id; reflexivity).
  destruct (dynamic_try_from_w c Dim2D layout2D (repeat (cell_zero Dim2D) (N.to_nat d)) is_dim2) as (s' & E' & C);
    [rewrite Hl; cbn [dim Dim2D]; lia|]. rewrite map_stored_zeros in C. rewrite E in E'. injection E' as <-.
  rewrite idx_eq_iff. split.
  - intros <- Hz. pose proof (raw_width _ _ _ _ _ _ _ _ C) as W. rewrite Hl in W. cbn [width min_width dim Dim2D dy_bits] in W.
    unfold dynamic_zeroed_2d in W. cbn [dy_bits] in W. rewrite len_zeros in W. clear - W Hz. lia.
  - intros Hz. pose proof (dynamic_zeroed_2d_rep c d H) as R. destruct (N.eqb_spec (d mod 4) 0); [contradiction|]. cbn [negb rep] in R.
    eapply (canon_unique c Dim2D KDynamic); [apply dim2_ok|exact R|exact C].
Qed.
Lemma c22_zeroed_2d_equals_zero_path_refuted_lemma :
  ~ (forall c d s, 2 * d + 24 <= 2 ^ usize_bits c ->
     dynamic_try_from c Dim2D layout2D (repeat (cell_zero Dim2D) (N.to_nat d)) = Ret (Ok s) ->
     idx_eq KDynamic (dynamic_zeroed_2d d) s = true).
Proof.
  intro H. assert (A : idx_eq KDynamic (dynamic_zeroed_2d 0) (MkDynamic [] 0) = true).
  { apply (H (Cfg true PW64 LittleEndian)); vm_compute; reflexivity || discriminate. }
  vm_compute in A. discriminate.
Qed.
Lemma c22_zeroed_3d_equals_zero_path_lemma : forall c d s z, 3 * d + 24 <= 2 ^ usize_bits c ->
  dynamic_zeroed_3d c d = Ret z ->
  dynamic_try_from c Dim3D layout3D (repeat (cell_zero Dim3D) (N.to_nat d)) = Ret (Ok s) ->
  idx_eq KDynamic z s = true.
Proof.
  intros c d s z H Ez E.
  assert (Hl : len (repeat (cell_zero Dim3D) (N.to_nat d)) = d) by (rewrite len_repeat, N2Nat.id; reflexivity).
  destruct (dynamic_try_from_w c Dim3D layout3D (repeat (cell_zero Dim3D) (N.to_nat d)) is_dim3) as (s' & E' & C);
    [rewrite Hl; cbn [dim Dim3D]; lia|]. rewrite map_stored_zeros in C. rewrite E in E'. injection E' as <-.
  destruct (dynamic_zeroed_3d_ok c d H) as (z' & Ez' & Cz). rewrite Ez in Ez'. injection Ez' as <-.
  apply idx_eq_iff. eapply (canon_unique c Dim3D KDynamic); [apply dim3_ok|exact Cz|exact C].
Qed.

Lemma c44_hash_consistent_with_eq_lemma : forall k (a b : storage k), idx_eq k a b = true <-> idx_hash k a = idx_hash k b.
Proof. intros k a b. rewrite idx_eq_iff, idx_hash_inj. reflexivity. Qed.
Lemma c44_same_path_same_hash_lemma : forall c D L k (a b : storage k) l,
  made c D L k true a l -> made c D L k true b l -> idx_hash k a = idx_hash k b.
Proof.
  intros c D L k a b l Ma Mb. apply c44_hash_consistent_with_eq_lemma.
  apply (c21_eq_is_equality_of_paths_lemma c D L k a b l l Ma Mb). reflexivity.
Qed.
