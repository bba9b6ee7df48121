(* FactsHistory.v - proofs of the theorems stated in PropHistory.v *)
From Verif Require Import Base ModelNumber ModelAlign ModelDim ModelStorage Model2D Model3D ModelHelper Spec History BitProofs NumberProofs VecProofs VecSetProofs CellProofs StorageProofs OrderProofs ConvProofs GridProofs NameProofs HistoryProofs ProfileProofs SafetyProofs FactsCells FactsOrder FactsGrid FactsName.

(* ---------- C38 ---------- *)
Lemma c38_histories_behave_like_lists_lemma : forall c D L k e s l (h : list (call D)),
  starts c D L k e s l ->
  match run_spec c (View k e l) h with
  | Done (v, answers) => exists s', run_model c L (pack k s) h = Ret (pack (v_kind v) s', answers)
      /\ valid c D (v_kind v) s' /\ shows (ops c D (v_kind v)) s' (v_path v)
  | MustPanic => run_model c L (pack k s) h = Panic
  | NoClaim => True
  end.
Proof. intros c D L k e s l h H. exact (history_ok c D L k e s l h H). Qed.
Lemma made_facts c D L k e (s : storage k) l : made c D L k e s l -> valid c D k s /\ shows (ops c D k) s l.
Proof.
  intro M. destruct (made_repr _ _ _ _ _ _ _ M) as [HD R]. split; [eapply repr_valid; eassumption|eapply repr_shows; eassumption].
Qed.
Lemma c38_observations_lemma : forall c D L k e (s : storage k) l, made c D L k e s l ->
  valid c D k s
  /\ st_depth (ops c D k) s = len l
  /\ (forall i, get_cell_at_level (ops c D k) s i = match nth_error l (N.to_nat i) with Some x => Ret x | None => Panic end)
  /\ collect_cells c (ops c D k) s = Ret l.
Proof.
  intros c D L k e s l M. destruct (made_facts _ _ _ _ _ _ _ M) as [V S].
  destruct (made_rep _ _ _ _ _ _ _ M) as [HL _].
  split; [exact V|]. split; [exact (proj1 S)|]. split; [exact (proj2 S)|].
  exact (c05_collected_cells_lemma c D L k s l HL V S).
Qed.
Lemma c38_observations_2d_lemma : forall c k e (s : storage k) l, made c Dim2D layout2D k e s l ->
  to_string_2d c (ops c Dim2D k) s CellConcatenation = Ret (cell_name (D := Dim2D) l)
  /\ (len l <= usize_bits c ->
      (forall o, to_grid_index_2d c (ops c Dim2D k) s o = Ret (grid2 o l))
      /\ to_string_2d c (ops c Dim2D k) s GridIndex = Ret (grid_name2 l)).
Proof.
  intros c k e s l M. destruct (made_facts _ _ _ _ _ _ _ M) as [V S].
  split; [exact (proj1 (c26_cell_names_2d_lemma c k s l V S))|]. intro Hl. split.
  - intro o. exact (proj1 (c11_to_grid_index_2d_lemma c k s l o V S Hl)).
  - rewrite (c27_grid_name_2d_lemma c k s l V S Hl). reflexivity.
Qed.
Lemma c38_observations_3d_lemma : forall c k e (s : storage k) l, made c Dim3D layout3D k e s l ->
  to_string_3d c (ops c Dim3D k) s CellConcatenation = Ret (cell_name (D := Dim3D) l)
  /\ (len l <= usize_bits c ->
      (forall o, to_grid_index_3d c (ops c Dim3D k) s o = Ret (grid3 o l))
      /\ to_string_3d c (ops c Dim3D k) s GridIndex = Ret (grid_name3 l)).
Proof.
  intros c k e s l M. destruct (made_facts _ _ _ _ _ _ _ M) as [V S].
  split; [exact (proj1 (c26_cell_names_3d_lemma c k s l V S))|]. intro Hl. split.
  - intro o. exact (proj1 (c11_to_grid_index_3d_lemma c k s l o V S Hl)).
  - rewrite (c27_grid_name_3d_lemma c k s l V S Hl). reflexivity.
Qed.
Lemma c38_relations_lemma : forall c D L k (a b : storage k) la lb,
  made c D L k true a la -> made c D L k true b lb ->
  idx_cmp c D k a b = Ret (path_cmp la lb)
  /\ (idx_eq k a b = true <-> la = lb)
  /\ (la = lb -> a = b /\ idx_hash k a = idx_hash k b).
Proof.
  intros c D L k a b la lb Ma Mb. split; [exact (c18_cmp_of_made_indices_lemma c D L k a b la lb Ma Mb)|].
  pose proof (c21_eq_is_equality_of_paths_lemma c D L k a b la lb Ma Mb) as E. split; [exact E|].
  intro H. subst lb. destruct (made_canon _ _ _ _ _ _ Ma) as [HD Ca]. destruct (made_canon _ _ _ _ _ _ Mb) as [_ Cb].
  assert (a = b) by (eapply canon_unique; eassumption). subst b. auto.
Qed.
Lemma c38_every_path_can_be_made_lemma : forall c D L k (l : list (cell D)), is_dim D L ->
  match k with
  | KFixed t => len l = BITS c t / dim D
  | KStatic t => len l <= BITS c t / dim D
  | KDynamic => writable c KDynamic /\ dim D * len l + 24 <= 2 ^ usize_bits c
  end ->
  exists s, made c D L k true s l.
Proof.
  intros c D L k l HL H. destruct k as [t|t|].
  - destruct (proj2 (proj2 (c03_fixed_try_from_err_lemma c D L t l HL))) as (s & E); [rewrite H; apply N.le_refl|].
    exists s. pose proof (start_fixed_cells c D L t l s HL E) as St. rewrite H, N.sub_diag in St.
    cbn [N.to_nat repeat] in St. rewrite app_nil_r in St.
    exists (KFixed t), true, s, l, [], []. split; [exact St|]. split; reflexivity.
  - destruct (proj2 (proj2 (c03_static_try_from_err_lemma c D L t l HL)) H) as (s & E).
    exists s, (KStatic t), true, s, l, [], []. repeat split. exact (start_static_cells c D L t l s HL E).
  - destruct H as [HE Hn]. destruct (c03_dynamic_try_from_never_fails_lemma c D L l HL) as (s & E); [lia|].
    exists s, KDynamic, true, s, l, [], []. split; [|split; reflexivity].
    pose proof (start_dynamic_cells c D L l s HL Hn E) as St. rewrite map_stored in St by exact HE. exact St.
Qed.

(* ---------- C39 ---------- *)
Lemma usize_bits_unchecked c : usize_bits (unchecked c) = usize_bits c.
Proof. reflexivity. Qed.
Lemma step_spec_unchecked c D (v : view D) o : step_spec (unchecked c) v o = step_spec c v o.
Proof. destruct v as [k e l]. destruct o; destruct k; reflexivity. Qed.
Lemma run_spec_unchecked c D (h : list (call D)) : forall v, run_spec (unchecked c) v h = run_spec c v h.
Proof.
  induction h as [|o h IH]; intro v; [reflexivity|]. cbn [run_spec]. rewrite step_spec_unchecked.
  destruct (step_spec c v o) as [[v' a]| |]; [|reflexivity|reflexivity]. rewrite IH. reflexivity.
Qed.
Lemma raw_unchecked c D k n w r s l : raw c D k n w r s l -> raw (unchecked c) D k n w r s l.
Proof.
  intros [A B C E F]. constructor; [destruct k; exact A|exact B|destruct k; exact C|destruct k; exact E|exact F].
Qed.
Lemma rep_unchecked c D k e s l : rep c D k e s l -> rep (unchecked c) D k e s l.
Proof.
  destruct e; cbn [rep]; [apply raw_unchecked|]. intros [R W]. split; [apply raw_unchecked; exact R|exact W].
Qed.
Lemma c39_histories_lemma : forall c D L k e s l (h : list (call D)),
  starts c D L k e s l -> run_spec c (View k e l) h <> NoClaim ->
  run_model c L (pack k s) h <> UB /\ run_model (unchecked c) L (pack k s) h = run_model c L (pack k s) h
  /\ (run_model c L (pack k s) h = Panic <-> run_spec c (View k e l) h = MustPanic).
Proof.
  intros c D L k e s l h St NC. destruct (starts_rep _ _ _ _ _ _ _ St) as [HL R].
  pose proof (run_rep c D L h HL k e s l R) as A.
  pose proof (run_rep (unchecked c) D L h HL k e s l (rep_unchecked _ _ _ _ _ _ R)) as B.
  rewrite run_spec_unchecked in B. destruct (run_spec c (View k e l) h) as [[v ans]| |]; [| |contradiction].
  - destruct A as (s1 & A & _). rewrite A. destruct B as (s2 & B & _).
    rewrite (agrees_run c D L _ h HL _ A). repeat split; intro X; discriminate X.
  - rewrite A, B. repeat split; discriminate.
Qed.
Lemma c39_observations_lemma : forall c D L k (a b : storage k) l, is_dim D L ->
  valid c D k a -> valid c D k b -> shows (ops c D k) a l ->
  (exists r, idx_cmp c D k a b = Ret r /\ idx_cmp (unchecked c) D k a b = Ret r)
  /\ collect_cells c (ops c D k) a = Ret l /\ collect_cells (unchecked c) (ops (unchecked c) D k) a = Ret l
  /\ shows (ops (unchecked c) D k) a l.
Proof.
  intros c D L k a b l HL Va Vb S.
  assert (S' : shows (ops (unchecked c) D k) a l).
  { destruct S as [Sd Sg]. split; [rewrite depth_unchecked; exact Sd|]. intro i.
    assert (HD : dim_ok D) by (destruct HL; [exact dim2_ok|exact dim3_ok]).
    pose proof (valid_shows c D k a l HD Va (conj Sd Sg)) as R.
    exact (proj2 (repr_shows (unchecked c) D k a l HD (raw_unchecked _ _ _ _ _ _ _ _ R)) i). }
  destruct (idx_cmp_some c D L k a b HL Va Vb) as (r & E).
  split; [exists r; split; [exact E|exact (agrees_idx_cmp c D k a b r E)]|].
  split; [exact (c05_collected_cells_lemma c D L k a l HL Va S)|].
  split; [exact (c05_collected_cells_lemma (unchecked c) D L k a l HL Va S')|exact S'].
Qed.
Lemma c39_names_2d_lemma : forall c k (s : storage k) l, valid c Dim2D k s -> shows (ops c Dim2D k) s l ->
  len l <= usize_bits c ->
  (forall o, exists r, to_grid_index_2d c (ops c Dim2D k) s o = Ret r
     /\ to_grid_index_2d (unchecked c) (ops (unchecked c) Dim2D k) s o = Ret r)
  /\ forall n, exists r, to_string_2d c (ops c Dim2D k) s n = Ret r
     /\ to_string_2d (unchecked c) (ops (unchecked c) Dim2D k) s n = Ret r.
Proof.
  intros c k s l V S Hl. split.
  - intro o. eexists. pose proof (proj1 (c11_to_grid_index_2d_lemma c k s l o V S Hl)) as E.
    split; [exact E|exact (agrees_to_grid_2d c k s o _ E)].
  - intro n. assert (E : exists r, to_string_2d c (ops c Dim2D k) s n = Ret r).
    { destruct n; eexists; [exact (proj1 (c26_cell_names_2d_lemma c k s l V S))
        |exact (proj2 (c26_cell_names_2d_lemma c k s l V S))|exact (c27_grid_name_2d_lemma c k s l V S Hl)]. }
    destruct E as (r & E). exists r. split; [exact E|exact (agrees_to_string_2d c k s n r E)].
Qed.
Lemma c39_names_3d_lemma : forall c k (s : storage k) l, valid c Dim3D k s -> shows (ops c Dim3D k) s l ->
  len l <= usize_bits c ->
  (forall o, exists r, to_grid_index_3d c (ops c Dim3D k) s o = Ret r
     /\ to_grid_index_3d (unchecked c) (ops (unchecked c) Dim3D k) s o = Ret r)
  /\ forall n, exists r, to_string_3d c (ops c Dim3D k) s n = Ret r
     /\ to_string_3d (unchecked c) (ops (unchecked c) Dim3D k) s n = Ret r.
Proof.
  intros c k s l V S Hl. split.
  - intro o. eexists. pose proof (proj1 (c11_to_grid_index_3d_lemma c k s l o V S Hl)) as E.
    split; [exact E|exact (agrees_to_grid_3d c k s o _ E)].
  - intro n. assert (E : exists r, to_string_3d c (ops c Dim3D k) s n = Ret r).
    { destruct n; eexists; [exact (proj1 (c26_cell_names_3d_lemma c k s l V S))
        |exact (proj2 (c26_cell_names_3d_lemma c k s l V S))|exact (c27_grid_name_3d_lemma c k s l V S Hl)]. }
    destruct E as (r & E). exists r. split; [exact E|exact (agrees_to_string_3d c k s n r E)].
Qed.
(* constructors from cells *)
Lemma c39_try_from_lemma : forall c D L cells, is_dim D L ->
  (forall t, exists r, fixed_try_from c D t cells = Ret r /\ fixed_try_from (unchecked c) D t cells = Ret r)
  /\ (forall t, exists r, static_try_from c D t cells = Ret r /\ static_try_from (unchecked c) D t cells = Ret r)
  /\ (dim D * len cells + 8 <= 2 ^ usize_bits c ->
      exists r, dynamic_try_from c D L cells = Ret r /\ dynamic_try_from (unchecked c) D L cells = Ret r).
Proof.
  intros c D L cells HL. split; [|split].
  - intro t. destruct (N.le_gt_cases (len cells) (BITS c t / dim D)) as [H|H].
    + destruct (proj2 (proj2 (c03_fixed_try_from_err_lemma c D L t cells HL)) H) as (s & E).
      eexists. split; [exact E|exact (agrees_fixed_try_from c D t cells _ E)].
    + pose proof (proj2 (proj1 (c03_fixed_try_from_err_lemma c D L t cells HL)) H) as E.
      eexists. split; [exact E|exact (agrees_fixed_try_from c D t cells _ E)].
  - intro t. destruct (N.le_gt_cases (len cells) (BITS c t / dim D)) as [H|H].
    + destruct (proj2 (proj2 (c03_static_try_from_err_lemma c D L t cells HL)) H) as (s & E).
      eexists. split; [exact E|exact (agrees_static_try_from c D t cells _ E)].
    + pose proof (proj2 (proj1 (c03_static_try_from_err_lemma c D L t cells HL)) H) as E.
      eexists. split; [exact E|exact (agrees_static_try_from c D t cells _ E)].
  - intro H. destruct (c03_dynamic_try_from_never_fails_lemma c D L cells HL H) as (s & E).
    eexists. split; [exact E|exact (agrees_dynamic_try_from c D L cells HL _ E)].
Qed.
(* whatever a build with overflow checks returns for a grid index is also returned without them *)
Lemma c39_from_grid_index_lemma : forall c,
  (forall t x y o r, fixed_from_grid_index_2d c t x y o = Ret r -> fixed_from_grid_index_2d (unchecked c) t x y o = Ret r)
  /\ (forall t x y d o r, static_from_grid_index_2d c t x y d o = Ret r -> static_from_grid_index_2d (unchecked c) t x y d o = Ret r)
  /\ (forall x y d o r, dynamic_from_grid_index_2d c x y d o = Ret r -> dynamic_from_grid_index_2d (unchecked c) x y d o = Ret r)
  /\ (forall t x y z o r, fixed_from_grid_index_3d c t x y z o = Ret r -> fixed_from_grid_index_3d (unchecked c) t x y z o = Ret r)
  /\ (forall x y z o r, from_grid_index_fast c x y z o = Ret r -> from_grid_index_fast (unchecked c) x y z o = Ret r)
  /\ (forall t x y z d o r, static_from_grid_index_3d c t x y z d o = Ret r -> static_from_grid_index_3d (unchecked c) t x y z d o = Ret r)
  /\ (forall x y z d o r, dynamic_from_grid_index_3d c x y z d o = Ret r -> dynamic_from_grid_index_3d (unchecked c) x y z d o = Ret r).
Proof.
  intro c. repeat split; intros; [eapply agrees_fixed_grid_2d|eapply agrees_static_grid_2d|eapply agrees_dynamic_grid_2d
    |eapply agrees_fixed_grid_3d|eapply agrees_fast|eapply agrees_static_grid_3d|eapply agrees_dynamic_grid_3d]; eassumption.
Qed.
(* the same for every history of calls, valid or not, from any index value *)
Lemma c39_any_history_lemma : forall c D L (i : index) (h : list (call D)) r, is_dim D L ->
  run_model c L i h = Ret r -> run_model (unchecked c) L i h = Ret r.
Proof. intros c D L i h r HL E. exact (agrees_run c D L i h HL r E). Qed.

(* ---------- C48 ---------- *)
Lemma c48_index_methods_lemma : forall c D L k (s s' : storage k), is_dim D L ->
  (forall i, get_cell_at_level (ops c D k) s i <> UB)
  /\ (forall i x, set_cell_at_level (ops c D k) s i x <> UB)
  /\ inverted c (ops c D k) s <> UB
  /\ (forall i, cell_iter_next c (ops c D k) s i <> UB)
  /\ idx_cmp c D k s s' <> UB
  /\ forall v, var_ops c D L k = Some v ->
       (forall g, ancestor v s g <> UB) /\ parent v s <> UB /\ (forall n, with_depth c v s n <> UB)
       /\ (forall cells, descendant v s cells <> UB) /\ (forall x, child v s x <> UB).
Proof.
  intros c D L k s s' HL. split; [intro; apply safe_get_cell|]. split; [intros; eapply safe_set_cell; eassumption|].
  split; [eapply safe_inverted; eassumption|]. split; [intro; apply safe_next|]. split; [apply safe_idx_cmp|].
  intros v E. split; [intro; eapply safe_ancestor; eassumption|]. split; [eapply safe_ancestor; eassumption|].
  split; [intro; eapply safe_with_depth; eassumption|]. split; intro; eapply safe_descendant; eassumption.
Qed.
Lemma c48_constructors_lemma : forall c D L cells, is_dim D L ->
  (forall t, fixed_try_from c D t cells <> UB) /\ (forall t, static_try_from c D t cells <> UB)
  /\ dynamic_try_from c D L cells <> UB.
Proof.
  intros c D L cells HL. split; [intro; eapply safe_fixed_try_from; eassumption|].
  split; [intro; eapply safe_static_try_from; eassumption|eapply safe_dynamic_try_from; eassumption].
Qed.
Lemma c48_conversions_lemma : forall c D L t, is_dim D L ->
  (forall s, sx_depth s < 2 ^ 8 -> dynamic_from_static c D L t s <> UB) /\ (forall s, static_from_dynamic c D t s <> UB).
Proof.
  intros c D L t HL. split.
  - intros s H. eapply safe_dynamic_from_static; [eassumption|]. eapply N.lt_le_trans; [exact H|].
    unfold usize_bits; destruct (pointer c); vm_compute; discriminate.
  - intro s. eapply safe_static_from_dynamic; eassumption.
Qed.
Lemma c48_grid_and_names_lemma : forall c k (s : storage k),
  (forall o, to_grid_index_2d c (ops c Dim2D k) s o <> UB) /\ (forall o, to_grid_index_3d c (ops c Dim3D k) s o <> UB)
  /\ (forall n, to_string_2d c (ops c Dim2D k) s n <> UB) /\ (forall n, to_string_3d c (ops c Dim3D k) s n <> UB).
Proof.
  intros c k s. split; [intro; apply safe_to_grid_2d|]. split; [intro; apply safe_to_grid_3d|].
  split; intro; [apply safe_to_string_2d|apply safe_to_string_3d].
Qed.
Lemma c48_from_grid_index_lemma : forall c,
  (forall t x y o, fixed_from_grid_index_2d c t x y o <> UB) /\ (forall t x y d o, static_from_grid_index_2d c t x y d o <> UB)
  /\ (forall x y d o, dynamic_from_grid_index_2d c x y d o <> UB) /\ (forall t x y z o, fixed_from_grid_index_3d c t x y z o <> UB)
  /\ (forall x y z o, from_grid_index_fast c x y z o <> UB) /\ (forall t x y z d o, static_from_grid_index_3d c t x y z d o <> UB)
  /\ (forall x y z d o, dynamic_from_grid_index_3d c x y z d o <> UB) /\ (forall d, dynamic_zeroed_3d c d <> UB).
Proof.
  intro c. repeat match goal with |- _ /\ _ => split end; intros; [apply safe_fixed_grid_2d|apply safe_static_grid_2d|apply safe_dynamic_grid_2d
    |apply safe_fixed_grid_3d|apply safe_fast|apply safe_static_grid_3d|apply safe_dynamic_grid_3d|apply safe_dynamic_zeroed_3d].
Qed.
(* the unsafe methods of Bits for Vec<u8>: the caller has to provide enough bytes *)
Lemma c48_vec_set_bits_lemma : forall c vec s e new_value,
  e < 2 ^ usize_bits c -> new_value <> [] -> e - s <= 8 * len new_value -> vec_set_bits c vec s e new_value <> UB.
Proof. intros. apply safe_set_vec_u8_bits; assumption. Qed.
Lemma c48_vec_set_bits_from_usize_lemma : forall c vec s e x,
  e < 2 ^ usize_bits c -> e - s <= usize_bits c -> vec_set_bits_from_usize c vec s e x <> UB.
Proof. intros. apply safe_vec_set_bits_from_usize; assumption. Qed.
Lemma c48_vec_set_bits_short_value_lemma : forall c vec s e value,
  Forall (fun b => b < 256) value -> Forall (fun b => b < 256) vec ->
  s <= e -> e <= 8 * len vec -> 8 * len vec + 8 <= 2 ^ usize_bits c ->
  (vec_set_bits c vec s e value = UB
     <-> s / 8 < (e + 7) / 8 /\ len value <= last_source_byte s e /\ (value <> [] \/ overflow_checks c = false))
  /\ (vec_set_bits c vec s e value = Panic <-> s / 8 < (e + 7) / 8 /\ value = [] /\ overflow_checks c = true).
Proof.
  intros c vec s e nv Hnv Hvec Hse He HW. unfold vec_set_bits.
  assert (Z : len nv = 0 <-> nv = []).
  { split; [|intros ->; reflexivity]. unfold len. destruct nv; [reflexivity|cbn [List.length]; lia]. }
  destruct (N.lt_ge_cases (s / 8) ((e + 7) / 8)) as [A|A].
  - destruct (N.lt_ge_cases (last_source_byte s e) (len nv)) as [B|B].
    + destruct (set_vec_u8_bits_source c vec s e nv Hnv B Hvec Hse He HW) as (v & -> & _).
      split; split; intro H; try discriminate; exfalso.
      * destruct H as (_ & H & _). clear - B H. lia.
      * destruct H as (_ & H & _). apply Z in H. clear - B H. lia.
    + rewrite set_vec_u8_bits_short by assumption.
      destruct (N.eqb_spec (len nv) 0) as [E|E].
      * apply Z in E. destruct (overflow_checks c); cbn [andb]; split; split; intro H; try discriminate; auto.
        -- exfalso. destruct H as (_ & _ & [H|H]); [contradiction|discriminate].
        -- destruct H as (_ & _ & H). discriminate.
      * assert (E' : nv <> []) by (rewrite <- Z; exact E). cbn [andb]. split; split; intro H; try discriminate; auto.
        destruct H as (_ & H & _). contradiction.
  - rewrite set_vec_u8_bits_nothing by (clear - A Hse He HW; lia).
    split; split; intro H; try discriminate; exfalso; destruct H as (H & _); clear - A H; lia.
Qed.
