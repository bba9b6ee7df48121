(* SafetyProofs.v - no function reaches undefined behaviour, in any build configuration and for any index value, even
   one whose fields do not fit together. *)
From Coq Require Import Lia ZifyBool ZifyNat ZifyN.
From Verif Require Import Base ModelNumber ModelAlign ModelDim ModelStorage Model2D Model3D ModelHelper Spec History BitProofs
  ProfileProofs.
Ltac Zify.zify_post_hook ::= Z.div_mod_to_equations.

Definition safe {A} (m : outcome A) : Prop := m <> UB.

Lemma safe_ret {A} (a : A) : safe (Ret a).
Proof. discriminate. Qed.
Lemma safe_panic {A} : safe (@Panic A).
Proof. discriminate. Qed.
Lemma safe_bind {A B} (m : outcome A) (k : A -> outcome B) : safe m -> (forall x, m = Ret x -> safe (k x)) -> safe (bind m k).
Proof. unfold safe. intros Hm Hk. destruct m as [a| |]; cbn; [apply Hk; reflexivity|discriminate|exfalso; apply Hm; reflexivity]. Qed.
Lemma safe_foldM {A S} (f : S -> A -> outcome S) l s : (forall s x, safe (f s x)) -> safe (foldM f l s).
Proof.
  intro H. revert s. induction l as [|x l IH]; intro s; cbn; [apply safe_ret|]. apply safe_bind; [apply H|]. intros; apply IH.
Qed.
Lemma safe_mapM {A B} (f : A -> outcome B) l : (forall x, safe (f x)) -> safe (mapM f l).
Proof.
  intro H. induction l as [|x l IH]; cbn; [apply safe_ret|]. apply safe_bind; [apply H|]. intros.
  apply safe_bind; [exact IH|]. intros; apply safe_ret.
Qed.
Ltac sarith := unfold safe, add, sub, mul, shl, shr;
  match goal with |- (if ?b then _ else _) <> _ => destruct b; [discriminate|] end; destruct (overflow_checks _); discriminate.
Lemma safe_add c w a b : safe (add c w a b). Proof. sarith. Qed.
Lemma safe_sub c w a b : safe (sub c w a b). Proof. sarith. Qed.
Lemma safe_mul c w a b : safe (mul c w a b). Proof. sarith. Qed.
Lemma safe_shl c w a b : safe (shl c w a b). Proof. sarith. Qed.
Lemma safe_shr c w a b : safe (shr c w a b). Proof. sarith. Qed.
Lemma safe_unwrap {A} (r : result A) : safe (unwrap r). Proof. destruct r; discriminate. Qed.
Lemma safe_unwrap_opt {A} (r : option A) : safe (unwrap_opt r). Proof. destruct r; discriminate. Qed.
Lemma safe_vec_get {A} (l : list A) i : safe (vec_get l i). Proof. apply safe_unwrap_opt. Qed.
Lemma safe_vec_set {A} (l : list A) i x : safe (vec_set l i x).
Proof. unfold vec_set. destruct (i <? len l); discriminate. Qed.
Lemma safe_vec_slice {A} (l : list A) i j : safe (vec_slice l i j).
Proof. unfold vec_slice. destruct (_ && _); discriminate. Qed.
Create HintDb sf discriminated.
#[export] Hint Constants Opaque : sf.
#[export] Hint Resolve safe_ret safe_panic safe_add safe_sub safe_mul safe_shl safe_shr safe_unwrap safe_unwrap_opt safe_vec_get
  safe_vec_set safe_vec_slice : sf.
Ltac sf1 := first
  [ match goal with |- safe (Ret _) => apply safe_ret | |- safe Panic => apply safe_panic end
  | match goal with |- safe (bind _ _) => apply safe_bind; [|intros] end
  | solve [auto with sf nocore]
  | match goal with |- safe (foldM _ _ _) => apply safe_foldM; intros end
  | match goal with |- safe (mapM _ _) => apply safe_mapM; intros end
  | match goal with |- safe (if ?b then _ else _) => destruct b end
  | match goal with |- safe (match ?b with _ => _ end) => destruct b end ].
Ltac sf := cbn zeta; repeat sf1.

Lemma safe_num_get_bits c t v s e : safe (num_get_bits c t v s e).
Proof. unfold num_get_bits. sf. Qed.
Lemma safe_num_set_bits c t v s e x : safe (num_set_bits c t v s e x).
Proof. unfold num_set_bits. sf. Qed.
#[export] Hint Resolve safe_num_get_bits safe_num_set_bits : sf.
Lemma safe_num_get_bits_as_usize c t v s e : safe (num_get_bits_as_usize c t v s e).
Proof. unfold num_get_bits_as_usize. sf. Qed.
Lemma safe_num_set_bits_from_usize c t v s e x : safe (num_set_bits_from_usize c t v s e x).
Proof. unfold num_set_bits_from_usize. sf. Qed.
Lemma safe_vec_get_bits c v s e : safe (vec_get_bits c v s e).
Proof. unfold vec_get_bits, vec_get_bits_step. sf. Qed.
Lemma safe_vec_get_bits_as_usize c v s e : safe (vec_get_bits_as_usize c v s e).
Proof. unfold vec_get_bits_as_usize, vec_get_bits_as_usize_step. sf. Qed.
Lemma safe_align_to c t x a : safe (align_to c t x a).
Proof. unfold align_to. sf. Qed.
#[export] Hint Resolve safe_num_get_bits_as_usize safe_num_set_bits_from_usize safe_vec_get_bits_as_usize : sf.

(* ---------- the unaligned two byte read ---------- *)
Lemma safe_read_u16 c l i : i + 1 < len l -> safe (read_u16 c l i).
Proof.
  unfold read_u16, len. intro H.
  destruct (nth_error l (N.to_nat i)) eqn:E1; [|apply nth_error_None in E1; lia].
  destruct (nth_error l (N.to_nat (i + 1))) eqn:E2; [|apply nth_error_None in E2; lia]. discriminate.
Qed.
Lemma sub_exact c w a b : b <= a -> sub c w a b = Ret (a - b).
Proof. intro H. unfold sub. rewrite (proj2 (N.leb_le _ _) H). reflexivity. Qed.

Lemma safe_step c e nv vec ss nvs i : nvs < 8 * len nv -> safe (set_vec_u8_bits_step c e nv (vec, ss, nvs) i).
Proof.
  intro H. unfold set_vec_u8_bits_step. cbn zeta.
  repeat match goal with |- safe (bind (sub c _ (len nv) 1) _) => fail 1 | _ => sf1 end.
  rewrite sub_exact by lia. cbn [bind].
  apply safe_bind; [|intros; sf].
  destruct (nvs / 8 =? len nv - 1) eqn:E; [sf|].
  apply safe_bind; [apply safe_read_u16; lia|]. intros; sf.
Qed.

(* the state after a step, when the positions do not overflow *)
Lemma step_next c e nv vec ss nvs i st' :
  (i + 1) * 8 < 2 ^ usize_bits c -> ss <= N.min ((i + 1) * 8) e -> nvs <= ss -> 
  set_vec_u8_bits_step c e nv (vec, ss, nvs) i = Ret st' ->
  exists vec', st' = (vec', N.min ((i + 1) * 8) e, nvs + (N.min ((i + 1) * 8) e - ss)).
Proof.
  intros Hi Hs Hn. unfold set_vec_u8_bits_step. cbn zeta.
  assert (A1 : add c (usize_bits c) i 1 = Ret (i + 1)) by (unfold add; rewrite (proj2 (N.ltb_lt _ _)) by lia; reflexivity).
  assert (A2 : mul c (usize_bits c) (i + 1) 8 = Ret ((i + 1) * 8)) by (unfold mul; rewrite (proj2 (N.ltb_lt _ _)) by lia; reflexivity).
  rewrite A1. cbn [bind]. rewrite A2. cbn [bind].
  set (m := N.min ((i + 1) * 8) e) in *. assert (Hm : m <= (i + 1) * 8) by lia. clearbody m.
  rewrite (sub_exact _ _ m ss Hs). cbn [bind].
  assert (A3 : add c (usize_bits c) nvs (m - ss) = Ret (nvs + (m - ss)))
    by (unfold add; rewrite (proj2 (N.ltb_lt _ _)) by lia; reflexivity).
  rewrite A3. cbn [bind]. clear A1 A2 A3. intro H.
  repeat (apply bind_inv in H; destruct H as (? & _ & H)).
  injection H as <-. eexists. reflexivity.
Qed.

Lemma safe_loop c s e nv : s < e -> e + 7 < 2 ^ usize_bits c -> e - s <= 8 * len nv ->
  forall n i vec ss, i + N.of_nat n <= (e + 7) / 8 -> ss = N.max s (8 * i) -> s / 8 <= i ->
  safe (foldM (set_vec_u8_bits_step c e nv) (nrange i n) (vec, ss, ss - s)).
Proof.
  intros Hse He Hl n. induction n as [|n IH]; intros i vec ss Hi Hss Hsi; cbn [nrange foldM]; [apply safe_ret|].
  assert (B : i <= (e - 1) / 8) by lia. assert (B2 : 8 * i < e) by lia.
  apply safe_bind; [apply safe_step; lia|]. intros st' E.
  apply step_next in E; [|lia|lia|lia].
  destruct E as (vec' & ->).
  assert (C : N.min ((i + 1) * 8) e <= (i+1) * 8) by lia.
  destruct (N.le_gt_cases ((i + 1) * 8) e) as [L|L].
  - replace (ss - s + (N.min ((i + 1) * 8) e - ss)) with (N.min ((i + 1) * 8) e - s) by lia.
    apply IH; lia.
  - assert (n = O) by lia. subst n. apply safe_ret.
Qed.

Lemma nrange_short {A} (f : A -> N -> outcome A) lo n st : (n <= 1)%nat -> safe (f st lo) -> safe (foldM f (nrange lo n) st).
Proof.
  intros Hn H. destruct n as [|[|n]]; [apply safe_ret| |lia]. cbn. apply safe_bind; [exact H|]. intros; apply safe_ret.
Qed.

Lemma safe_set_vec_u8_bits c vec s e nv : e < 2 ^ usize_bits c -> nv <> [] -> e - s <= 8 * len nv ->
  safe (set_vec_u8_bits c vec s e nv).
Proof.
  intros He Hnv Hl. unfold set_vec_u8_bits. cbn zeta.
  assert (Hnz : 0 < len nv) by (destruct nv; [contradiction|unfold len; cbn [List.length]; lia]).
  apply safe_bind; [apply safe_add|]. intros e7 E7. apply safe_bind; [|intros; apply safe_ret]. unfold range.
  unfold add in E7. destruct (e + 7 <? 2 ^ usize_bits c) eqn:B.
  - injection E7 as <-. apply N.ltb_lt in B. destruct (N.lt_ge_cases s e) as [L|L].
    + pose proof (safe_loop c s e nv L B Hl (N.to_nat ((e + 7) / 8 - s / 8)) (s / 8) vec s) as G.
      rewrite N.sub_diag in G. apply G; lia.
    + apply nrange_short; [lia|]. apply safe_step. lia.
  - apply N.ltb_ge in B. destruct (overflow_checks c); [discriminate|]. injection E7 as <-.
    assert (cast (usize_bits c) (e + 7) / 8 = 0).
    { unfold cast. apply N.div_small. assert (2 ^ usize_bits c >= 2 ^ 16) by (unfold usize_bits; destruct (pointer c); cbn; lia).
      replace (e + 7) with (e + 7 - 2 ^ usize_bits c + 1 * 2 ^ usize_bits c) by lia.
      rewrite N.mod_add by lia. rewrite N.mod_small; lia. }
    rewrite H. apply nrange_short; [lia|]. apply safe_step. lia.
Qed.

(* Vec::set_bits_from_usize: the new value has usize::BITS bits *)
Lemma usize_slice_len c x : len (num_as_u8_slice c USize x) = usize_bits c / 8.
Proof.
  unfold num_as_u8_slice, to_bytes, num_size, BITS, usize_bits, len.
  destruct (target_endian c), (pointer c); cbn; reflexivity.
Qed.
Lemma safe_vec_set_bits_from_usize c v s e x : e < 2 ^ usize_bits c -> e - s <= usize_bits c ->
  safe (vec_set_bits_from_usize c v s e x).
Proof.
  intros He Hl. unfold vec_set_bits_from_usize. 
  pose proof (usize_slice_len c x) as E.
  assert (W : usize_bits c / 8 * 8 = usize_bits c /\ 2 <= usize_bits c / 8) by (unfold usize_bits; destruct (pointer c); cbn; lia).
  apply safe_set_vec_u8_bits; [exact He| |rewrite E; clear - W Hl; lia].
  intro H0. rewrite H0 in E. cbn in E. clear - W E. lia.
Qed.

Lemma add_bound c w a b r : add c w a b = Ret r -> r < 2 ^ w /\ r <= a + b.
Proof.
  unfold add. destruct (a + b <? 2 ^ w) eqn:E.
  - intro H. injection H as <-. apply N.ltb_lt in E. lia.
  - destruct (overflow_checks c); [discriminate|]. intro H. injection H as <-. unfold cast.
    assert (2 ^ w <> 0) by (apply N.pow_nonzero; discriminate). split; [apply N.mod_lt; assumption|].
    apply N.mod_le. assumption.
Qed.

Lemma safe_get c D k s i : safe (st_get (ops c D k) s i).
Proof. destruct k; cbn [ops st_get fixed_ops static_ops dynamic_ops]; unfold fixed_get_cell, static_get_cell, dynamic_get_cell; sf. Qed.
Lemma safe_set c D k s i x : dim D <= 16 -> safe (st_set (ops c D k) s i x).
Proof.
  intro HD. destruct k; cbn [ops st_set fixed_ops static_ops dynamic_ops]; unfold fixed_set_cell, static_set_cell; try (sf; fail).
  unfold dynamic_set_cell. cbn zeta.
  repeat match goal with |- safe (bind _ _) => apply safe_bind; [|intros] end; auto with sf nocore.
  match goal with H : add c _ ?a (dim D) = Ret ?e |- _ => apply add_bound in H; destruct H as [B1 B2];
    apply safe_vec_set_bits_from_usize; [exact B1|] end.
  assert (H3 : 16 <= usize_bits c) by (unfold usize_bits; destruct (pointer c); cbn; discriminate). clear - HD H3 B1 B2. lia.
Qed.
#[export] Hint Resolve safe_get safe_set : sf.

Section Ops.
  Context (c : cfg) (D : Dimension) (L : DynLayout) (HL : is_dim D L).

  Lemma dim_16 : dim D <= 16.
  Proof. destruct HL; cbn; discriminate. Qed.
  Hint Resolve dim_16 : sf.

  Lemma safe_get_cell k s i : safe (get_cell_at_level (ops c D k) s i).
  Proof. unfold get_cell_at_level. sf. Qed.
  Lemma safe_set_cell k s i x : safe (set_cell_at_level (ops c D k) s i x).
  Proof. unfold set_cell_at_level. sf. Qed.
  Lemma safe_inverted k s : safe (inverted c (ops c D k) s).
  Proof. unfold inverted. sf. Qed.
  Lemma safe_next k s i : safe (cell_iter_next c (ops c D k) s i).
  Proof. unfold cell_iter_next. sf. Qed.
  Lemma safe_collect k s : st_depth (ops c D k) s < 2 ^ usize_bits c -> safe (collect_cells c (ops c D k) s).
  Proof.
    intro Hd. unfold collect_cells, cell_iter_start. set (d := st_depth (ops c D k) s) in *.
    assert (G : forall n i, i + N.of_nat n = d -> safe (collect_from (S n) c (ops c D k) s i)).
    { induction n as [|n IH]; intros i Hi; cbn [collect_from]; unfold cell_iter_next; fold d.
      - rewrite (proj2 (N.eqb_eq _ _)) by lia. apply safe_ret.
      - rewrite (proj2 (N.eqb_neq _ _)) by lia. 
        assert (E : add c (usize_bits c) i 1 = Ret (i + 1)).
        { unfold add. rewrite (proj2 (N.ltb_lt _ _)); [reflexivity|]. clear - Hi Hd. lia. }
        rewrite E. cbn [bind].
        destruct (st_get (ops c D k) s i) as [x| |] eqn:Ex; cbn [bind]; [|apply safe_panic|exfalso; revert Ex; apply safe_get].
        apply safe_bind; [apply (IH (i + 1)); lia|]. intros; apply safe_ret. }
    apply G. lia.
  Qed.
  Lemma safe_set_cells k s l : safe (set_cells (ops c D k) s l).
  Proof. unfold set_cells. sf. Qed.
  Lemma safe_set_cells_from k b s l : safe (set_cells_from c (ops c D k) b s l).
  Proof. unfold set_cells_from. sf. Qed.
  Lemma safe_fixed_try_from t l : safe (fixed_try_from c D t l).
  Proof. pose proof (safe_set_cells (KFixed t)) as H. unfold fixed_try_from. sf; apply H. Qed.
  Lemma safe_static_try_from t l : safe (static_try_from c D t l).
  Proof. pose proof (safe_set_cells (KStatic t)) as H. unfold static_try_from. sf; apply H. Qed.
  Lemma safe_num_bytes n : safe (dl_num_bytes L c n).
  Proof. destruct HL; cbn; sf. Qed.
  Lemma safe_bits_in_first_byte n : safe (dl_bits_in_first_byte L c n).
  Proof. destruct HL; cbn; sf. Qed.
  Lemma safe_leftover n : safe (dl_leftover_bits L c n).
  Proof. destruct HL; cbn; sf. Qed.
  Hint Resolve safe_num_bytes safe_bits_in_first_byte safe_leftover : sf.
  Lemma safe_dynamic_try_from l : safe (dynamic_try_from c D L l).
  Proof. unfold dynamic_try_from. sf. apply (safe_set_cells KDynamic). Qed.
  Lemma safe_ancestor k v s g : var_ops c D L k = Some v -> safe (ancestor v s g).
  Proof.
    intro E. destruct k as [t|t|]; cbn in E; try discriminate; injection E as <-; unfold ancestor; cbn [vo_ancestor static_vops dynamic_vops].
    - unfold static_ancestor. sf. apply (safe_set c D (KStatic t)). apply dim_16.
    - unfold dynamic_ancestor. sf.
  Qed.
  Lemma safe_descendant k v s l : var_ops c D L k = Some v -> safe (descendant v s l).
  Proof.
    intro E. destruct k as [t|t|]; cbn in E; try discriminate; injection E as <-; unfold descendant; cbn [vo_descendant static_vops dynamic_vops].
    - unfold static_descendant. sf. apply (safe_set_cells_from (KStatic t)).
    - unfold dynamic_descendant. sf. apply (safe_set_cells_from KDynamic).
  Qed.
  Lemma safe_with_depth k v s n : var_ops c D L k = Some v -> safe (with_depth c v s n).
  Proof. intro E. unfold with_depth. sf. eapply safe_ancestor; eassumption. Qed.
  Lemma safe_idx_cmp k a b : safe (idx_cmp c D k a b).
  Proof.
    destruct k as [t|t|]; cbn [idx_cmp]; [apply safe_ret|unfold static_cmp; sf|]. unfold dynamic_cmp.
    generalize (range 0 (N.max (dy_depth a) (dy_depth b))). intro l.
    induction l as [|i l IH]; cbn [dynamic_cmp_loop]; [apply safe_ret|].
    assert (G : forall s, safe (get_cell_at_level_or_none c D s i)).
    { intro s. unfold get_cell_at_level_or_none. sf; apply (safe_get c D KDynamic). }
    apply safe_bind; [apply G|]. intros. apply safe_bind; [apply G|]. intros.
    destruct (option_cell_cmp D _ _); try apply safe_ret. exact IH.
  Qed.
  Lemma safe_dynamic_from_static t s : sx_depth s < 2 ^ usize_bits c -> safe (dynamic_from_static c D L t s).
  Proof.
    intro H. unfold dynamic_from_static. apply safe_bind; [apply (safe_collect (KStatic t)); exact H|]. intros.
    apply safe_bind; [|intros; apply safe_unwrap_opt]. apply (safe_descendant KDynamic). reflexivity.
  Qed.
  Lemma safe_static_from_dynamic t s : safe (static_from_dynamic c D t s).
  Proof.
    unfold static_from_dynamic. sf; [apply (safe_get c D KDynamic)|apply (safe_set c D (KStatic t)); apply dim_16].
  Qed.
  Lemma safe_cell_concatenation k s : safe (cell_concatenation (ops c D k) s).
  Proof. unfold cell_concatenation. sf. Qed.
End Ops.
Lemma safe_dynamic_zeroed_3d c d : safe (dynamic_zeroed_3d c d).
Proof. unfold dynamic_zeroed_3d. sf. Qed.
#[export] Hint Resolve safe_dynamic_zeroed_3d : sf.
Lemma safe_to_grid_2d c k s o : safe (to_grid_index_2d c (ops c Dim2D k) s o).
Proof. unfold to_grid_index_2d. sf. Qed.
Lemma safe_to_grid_3d c k s o : safe (to_grid_index_3d c (ops c Dim3D k) s o).
Proof. unfold to_grid_index_3d. sf. Qed.
#[export] Hint Resolve safe_to_grid_2d safe_to_grid_3d safe_cell_concatenation : sf.
Lemma safe_to_string_2d c k s n : safe (to_string_2d c (ops c Dim2D k) s n).
Proof. unfold to_string_2d. destruct n; sf. Qed.
Lemma safe_to_string_3d c k s n : safe (to_string_3d c (ops c Dim3D k) s n).
Proof. unfold to_string_3d. destruct n; sf. Qed.
Lemma safe_grid_chunk_2d c a b i : safe (grid_chunk_2d c a b i).
Proof. unfold grid_chunk_2d. sf. Qed.
Lemma safe_grid_chunk_3d_u64 c a b d sh : safe (grid_chunk_3d_u64 c a b d sh).
Proof. unfold grid_chunk_3d_u64. sf. Qed.
Lemma safe_grid_chunk_3d_u32 c a b d sh : safe (grid_chunk_3d_u32 c a b d sh).
Proof. unfold grid_chunk_3d_u32. sf. Qed.
#[export] Hint Resolve safe_grid_chunk_2d safe_grid_chunk_3d_u64 safe_grid_chunk_3d_u32 : sf.
Lemma safe_bitmask c t : safe (MAX_LEVELS_BITMASK c t).
Proof. unfold MAX_LEVELS_BITMASK. sf. Qed.
#[export] Hint Resolve safe_bitmask : sf.
Lemma safe_fixed_grid_2d c t x y o : safe (fixed_from_grid_index_2d c t x y o).
Proof. unfold fixed_from_grid_index_2d. sf. Qed.
Lemma safe_static_grid_2d c t x y d o : safe (static_from_grid_index_2d c t x y d o).
Proof. unfold static_from_grid_index_2d. sf. Qed.
Lemma safe_dynamic_grid_2d c x y d o : safe (dynamic_from_grid_index_2d c x y d o).
Proof. unfold dynamic_from_grid_index_2d, dynamic_grid_byte_2d. sf. Qed.
Lemma safe_fixed_grid_3d c t x y z o : safe (fixed_from_grid_index_3d c t x y z o).
Proof. unfold fixed_from_grid_index_3d. sf. Qed.
Lemma safe_fast c x y z o : safe (from_grid_index_fast c x y z o).
Proof. unfold from_grid_index_fast. sf. Qed.
Lemma safe_static_grid_3d c t x y z d o : safe (static_from_grid_index_3d c t x y z d o).
Proof. unfold static_from_grid_index_3d. sf. Qed.
Lemma safe_dynamic_grid_3d c x y z d o : safe (dynamic_from_grid_index_3d c x y z d o).
Proof. unfold dynamic_from_grid_index_3d. sf; apply (safe_set c Dim3D KDynamic); cbn; discriminate. Qed.
Lemma safe_display c {T} (f : T -> naming -> outcome string) d : (forall x n, safe (f x n)) -> safe (display_fmt c f d).
Proof. intro H. unfold display_fmt. sf; apply H. Qed.
