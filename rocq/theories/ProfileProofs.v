(* ProfileProofs.v - whatever a build with overflow checks returns is also returned by the build without them. *)
From Verif Require Import Base ModelNumber ModelAlign ModelDim ModelStorage Model2D Model3D ModelHelper Spec History BitProofs.

Definition agrees {A} (a b : outcome A) : Prop := forall v, a = Ret v -> b = Ret v.

Lemma agrees_refl {A} (a : outcome A) : agrees a a.
Proof. intros v H; exact H. Qed.
Lemma agrees_bind {A B} (a a' : outcome A) (k k' : A -> outcome B) :
  agrees a a' -> (forall x, agrees (k x) (k' x)) -> agrees (bind a k) (bind a' k').
Proof. intros Ha Hk v H. apply bind_inv in H. destruct H as (x & E & H). rewrite (Ha x E). exact (Hk x v H). Qed.
Lemma agrees_foldM {A S} (f f' : S -> A -> outcome S) l s :
  (forall s x, agrees (f s x) (f' s x)) -> agrees (foldM f l s) (foldM f' l s).
Proof.
  intro H. revert s. induction l as [|x l IH]; intro s; cbn; [apply agrees_refl|].
  apply agrees_bind; [apply H|]. intro; apply IH.
Qed.
Lemma agrees_mapM {A B} (f f' : A -> outcome B) l : (forall x, agrees (f x) (f' x)) -> agrees (mapM f l) (mapM f' l).
Proof.
  intro H. induction l as [|x l IH]; cbn; [apply agrees_refl|].
  apply agrees_bind; [apply H|]. intro. apply agrees_bind; [exact IH|]. intro; apply agrees_refl.
Qed.

Ltac arith := intros v; unfold add, sub, mul, shl, shr;
  match goal with |- (if ?b then _ else _) = _ -> _ => destruct b; [auto|] end;
  cbn [overflow_checks unchecked]; destruct (overflow_checks _); [discriminate|auto].
Lemma agrees_add c w a b : agrees (add c w a b) (add (unchecked c) w a b).
Proof. arith. Qed.
Lemma agrees_sub c w a b : agrees (sub c w a b) (sub (unchecked c) w a b).
Proof. arith. Qed.
Lemma agrees_mul c w a b : agrees (mul c w a b) (mul (unchecked c) w a b).
Proof. arith. Qed.
Lemma agrees_shl c w a b : agrees (shl c w a b) (shl (unchecked c) w a b).
Proof. arith. Qed.
Lemma agrees_shr c w a b : agrees (shr c w a b) (shr (unchecked c) w a b).
Proof. arith. Qed.

Create HintDb ag discriminated.
#[export] Hint Constants Opaque : ag.
#[export] Hint Resolve agrees_add agrees_sub agrees_mul agrees_shl agrees_shr : ag.
(* machine parameters are the same *)
Ltac params := repeat match goal with
  | |- context [usize_bits (unchecked ?c)] => change (usize_bits (unchecked c)) with (usize_bits c)
  | |- context [BITS (unchecked ?c)] => change (BITS (unchecked c)) with (BITS c)
  | |- context [target_endian (unchecked ?c)] => change (target_endian (unchecked c)) with (target_endian c)
  | |- context [pointer (unchecked ?c)] => change (pointer (unchecked c)) with (pointer c)
  | |- context [MAX_LEVELS (unchecked ?c)] => change (MAX_LEVELS (unchecked c)) with (MAX_LEVELS c)
  | |- context [num_size (unchecked ?c)] => change (num_size (unchecked c)) with (num_size c)
  | |- context [num_as (unchecked ?c)] => change (num_as (unchecked c)) with (num_as c)
  | |- context [num_from (unchecked ?c)] => change (num_from (unchecked c)) with (num_from c)
  | |- context [num_as_u8_slice (unchecked ?c)] => change (num_as_u8_slice (unchecked c)) with (num_as_u8_slice c)
  | |- context [num_from_u8_slice (unchecked ?c)] => change (num_from_u8_slice (unchecked c)) with (num_from_u8_slice c)
  | |- context [read_u16 (unchecked ?c)] => change (read_u16 (unchecked c)) with (read_u16 c)
  | |- context [MAX_LEVELS_BITMASK (unchecked ?c)] => change (MAX_LEVELS_BITMASK (unchecked c)) with (MAX_LEVELS_BITMASK c)
  end.
Ltac ag1 := first
  [ match goal with |- agrees ?a ?a => apply agrees_refl end
  | match goal with |- agrees (bind _ _) _ => apply agrees_bind; [|intro] end
  | solve [auto with ag nocore]
  | match goal with |- agrees (foldM _ _ _) _ => apply agrees_foldM; intros end
  | match goal with |- agrees (mapM _ _) _ => apply agrees_mapM; intros end
  | match goal with |- agrees (if ?b then _ else _) (if ?b then _ else _) => destruct b end
  | match goal with |- agrees (match ?b with _ => _ end) (match ?b with _ => _ end) => destruct b end ].
Ltac ag := cbn zeta; params; repeat (ag1; params).

Lemma agrees_num_get_bits c t v s e : agrees (num_get_bits c t v s e) (num_get_bits (unchecked c) t v s e).
Proof. unfold num_get_bits. ag. Qed.
Lemma agrees_num_set_bits c t v s e x : agrees (num_set_bits c t v s e x) (num_set_bits (unchecked c) t v s e x).
Proof. unfold num_set_bits. ag. Qed.
#[export] Hint Resolve agrees_num_get_bits agrees_num_set_bits : ag.
Lemma agrees_num_get_bits_as_usize c t v s e :
  agrees (num_get_bits_as_usize c t v s e) (num_get_bits_as_usize (unchecked c) t v s e).
Proof. unfold num_get_bits_as_usize. ag. Qed.
Lemma agrees_num_set_bits_from_usize c t v s e x :
  agrees (num_set_bits_from_usize c t v s e x) (num_set_bits_from_usize (unchecked c) t v s e x).
Proof. unfold num_set_bits_from_usize. ag. Qed.
Lemma agrees_set_vec_u8_bits c v s e x : agrees (set_vec_u8_bits c v s e x) (set_vec_u8_bits (unchecked c) v s e x).
Proof. unfold set_vec_u8_bits, set_vec_u8_bits_step. ag. Qed.
#[export] Hint Resolve agrees_set_vec_u8_bits : ag.
Lemma agrees_vec_set_bits c v s e x : agrees (vec_set_bits c v s e x) (vec_set_bits (unchecked c) v s e x).
Proof. unfold vec_set_bits. ag. Qed.
Lemma agrees_vec_set_bits_from_usize c v s e x :
  agrees (vec_set_bits_from_usize c v s e x) (vec_set_bits_from_usize (unchecked c) v s e x).
Proof. unfold vec_set_bits_from_usize. ag. Qed.
Lemma agrees_vec_get_bits c v s e : agrees (vec_get_bits c v s e) (vec_get_bits (unchecked c) v s e).
Proof. unfold vec_get_bits, vec_get_bits_step. ag. Qed.
Lemma agrees_vec_get_bits_as_usize c v s e : agrees (vec_get_bits_as_usize c v s e) (vec_get_bits_as_usize (unchecked c) v s e).
Proof. unfold vec_get_bits_as_usize, vec_get_bits_as_usize_step. ag. Qed.
#[export] Hint Resolve agrees_vec_set_bits_from_usize agrees_vec_get_bits_as_usize : ag.
Lemma agrees_align_to c t x a : agrees (align_to c t x a) (align_to (unchecked c) t x a).
Proof. unfold align_to. ag. Qed.

Lemma agrees_get c D k s i : agrees (st_get (ops c D k) s i) (st_get (ops (unchecked c) D k) s i).
Proof. destruct k; cbn [ops st_get fixed_ops static_ops dynamic_ops]; unfold fixed_get_cell, static_get_cell, dynamic_get_cell; ag. Qed.
Lemma agrees_set c D k s i x : agrees (st_set (ops c D k) s i x) (st_set (ops (unchecked c) D k) s i x).
Proof. destruct k; cbn [ops st_set fixed_ops static_ops dynamic_ops]; unfold fixed_set_cell, static_set_cell, dynamic_set_cell; ag. Qed.
Lemma depth_unchecked c D k s : st_depth (ops (unchecked c) D k) s = st_depth (ops c D k) s.
Proof. destruct k; cbn [ops st_depth fixed_ops static_ops dynamic_ops]; params; reflexivity. Qed.
#[export] Hint Resolve agrees_get agrees_set : ag.
Ltac depth := rewrite ?depth_unchecked.

Lemma agrees_get_cell c D k s i : agrees (get_cell_at_level (ops c D k) s i) (get_cell_at_level (ops (unchecked c) D k) s i).
Proof. unfold get_cell_at_level. depth. ag. Qed.
Lemma agrees_set_cell c D k s i x :
  agrees (set_cell_at_level (ops c D k) s i x) (set_cell_at_level (ops (unchecked c) D k) s i x).
Proof. unfold set_cell_at_level. depth. ag. Qed.
Lemma agrees_inverted c D k s : agrees (inverted c (ops c D k) s) (inverted (unchecked c) (ops (unchecked c) D k) s).
Proof. unfold inverted. depth. ag. Qed.
Lemma agrees_next c D k s i : agrees (cell_iter_next c (ops c D k) s i) (cell_iter_next (unchecked c) (ops (unchecked c) D k) s i).
Proof. unfold cell_iter_next. depth. ag. Qed.
Lemma agrees_collect c D k s : agrees (collect_cells c (ops c D k) s) (collect_cells (unchecked c) (ops (unchecked c) D k) s).
Proof.
  unfold collect_cells. depth. generalize (S (N.to_nat (st_depth (ops c D k) s))) cell_iter_start. intro n.
  induction n as [|n IH]; intro i; [intros v H; discriminate H|]. cbn [collect_from].
  apply agrees_bind; [apply agrees_next|]. intros [[x|] i']; [|apply agrees_refl].
  apply agrees_bind; [apply IH|]. intro; apply agrees_refl.
Qed.
Lemma agrees_set_cells c D k s l : agrees (set_cells (ops c D k) s l) (set_cells (ops (unchecked c) D k) s l).
Proof. unfold set_cells. ag. Qed.
Lemma agrees_set_cells_from c D k b s l :
  agrees (set_cells_from c (ops c D k) b s l) (set_cells_from (unchecked c) (ops (unchecked c) D k) b s l).
Proof. unfold set_cells_from. ag. Qed.

Lemma agrees_fixed_try_from c D t l : agrees (fixed_try_from c D t l) (fixed_try_from (unchecked c) D t l).
Proof. pose proof (agrees_set_cells c D (KFixed t)) as H. unfold fixed_try_from. ag; apply H. Qed.
Lemma agrees_static_try_from c D t l : agrees (static_try_from c D t l) (static_try_from (unchecked c) D t l).
Proof. pose proof (agrees_set_cells c D (KStatic t)) as H. unfold static_try_from. ag; apply H. Qed.
Lemma agrees_num_bytes c D L n : is_dim D L -> agrees (dl_num_bytes L c n) (dl_num_bytes L (unchecked c) n).
Proof. intros []; cbn; ag. Qed.
Lemma agrees_bits_in_first_byte c D L n : is_dim D L -> agrees (dl_bits_in_first_byte L c n) (dl_bits_in_first_byte L (unchecked c) n).
Proof. intros []; cbn; ag. Qed.
Lemma agrees_leftover c D L n : is_dim D L -> agrees (dl_leftover_bits L c n) (dl_leftover_bits L (unchecked c) n).
Proof. intros []; cbn; ag. Qed.
Lemma agrees_dynamic_try_from c D L l : is_dim D L -> agrees (dynamic_try_from c D L l) (dynamic_try_from (unchecked c) D L l).
Proof.
  intro HL. unfold dynamic_try_from. apply agrees_bind; [eapply agrees_num_bytes; eassumption|]. intro.
  apply agrees_bind; [|intro; apply agrees_refl]. apply (agrees_set_cells c D KDynamic).
Qed.
Lemma agrees_dynamic_zeroed_3d c d : agrees (dynamic_zeroed_3d c d) (dynamic_zeroed_3d (unchecked c) d).
Proof. unfold dynamic_zeroed_3d. ag. Qed.
#[export] Hint Resolve agrees_dynamic_zeroed_3d : ag.

Lemma agrees_ancestor c D L k v v' s g : is_dim D L -> var_ops c D L k = Some v -> var_ops (unchecked c) D L k = Some v' ->
  agrees (ancestor v s g) (ancestor v' s g).
Proof.
  intros HL E E'. destruct k as [t|t|]; cbn in E, E'; try discriminate; injection E as <-; injection E' as <-;
    cbn [ancestor vo_ancestor static_vops dynamic_vops].
  - unfold ancestor. cbn [vo_ancestor static_vops]. unfold static_ancestor. ag;
    apply (agrees_set c D (KStatic t)).
  - unfold ancestor. cbn [vo_ancestor dynamic_vops]. unfold dynamic_ancestor. ag;
      try (eapply agrees_num_bytes; eassumption); try (eapply agrees_bits_in_first_byte; eassumption);
      try (eapply agrees_leftover; eassumption).
Qed.
Lemma agrees_descendant c D L k v v' s l : is_dim D L -> var_ops c D L k = Some v -> var_ops (unchecked c) D L k = Some v' ->
  agrees (descendant v s l) (descendant v' s l).
Proof.
  intros HL E E'. destruct k as [t|t|]; cbn in E, E'; try discriminate; injection E as <-; injection E' as <-.
  - unfold descendant. cbn [vo_descendant static_vops]. unfold static_descendant. ag;
    apply (agrees_set_cells_from c D (KStatic t)).
  - unfold descendant. cbn [vo_descendant dynamic_vops]. unfold dynamic_descendant. ag;
      try (eapply agrees_num_bytes; eassumption). apply (agrees_set_cells_from c D KDynamic).
Qed.
Lemma var_ops_depth c D L k v : var_ops c D L k = Some v -> vo_ops v = ops c D k.
Proof. destruct k; cbn; intro E; try discriminate; injection E as <-; reflexivity. Qed.
Lemma agrees_with_depth c D L k v v' s n : is_dim D L -> var_ops c D L k = Some v -> var_ops (unchecked c) D L k = Some v' ->
  agrees (with_depth c v s n) (with_depth (unchecked c) v' s n).
Proof.
  intros HL E E'. unfold with_depth. rewrite (var_ops_depth _ _ _ _ _ E), (var_ops_depth _ _ _ _ _ E').
  depth. ag; eapply agrees_ancestor; eassumption.
Qed.

Lemma agrees_idx_cmp c D k a b : agrees (idx_cmp c D k a b) (idx_cmp (unchecked c) D k a b).
Proof.
  destruct k as [t|t|]; cbn [idx_cmp].
  - apply agrees_refl.
  - unfold static_cmp. ag.
  - unfold dynamic_cmp. generalize (range 0 (N.max (dy_depth a) (dy_depth b))). intro l.
    induction l as [|i l IH]; cbn [dynamic_cmp_loop]; [apply agrees_refl|].
    assert (G : forall s, agrees (get_cell_at_level_or_none c D s i) (get_cell_at_level_or_none (unchecked c) D s i)).
    { intro s. unfold get_cell_at_level_or_none. ag; apply (agrees_get c D KDynamic). }
    apply agrees_bind; [apply G|]. intro. apply agrees_bind; [apply G|]. intro.
    destruct (option_cell_cmp D _ _); try apply agrees_refl. exact IH.
Qed.

Lemma agrees_dynamic_from_static c D L t s : is_dim D L ->
  agrees (dynamic_from_static c D L t s) (dynamic_from_static (unchecked c) D L t s).
Proof.
  intro HL. unfold dynamic_from_static. apply agrees_bind; [apply (agrees_collect c D (KStatic t))|]. intro.
  apply agrees_bind; [|intro; apply agrees_refl]. apply (agrees_descendant c D L KDynamic); auto.
Qed.
Lemma agrees_static_from_dynamic c D t s : agrees (static_from_dynamic c D t s) (static_from_dynamic (unchecked c) D t s).
Proof.
  unfold static_from_dynamic. ag; [apply (agrees_get c D KDynamic)|apply (agrees_set c D (KStatic t))].
Qed.

Lemma agrees_to_grid_2d c k s o :
  agrees (to_grid_index_2d c (ops c Dim2D k) s o) (to_grid_index_2d (unchecked c) (ops (unchecked c) Dim2D k) s o).
Proof. unfold to_grid_index_2d. depth. ag. Qed.
Lemma agrees_to_grid_3d c k s o :
  agrees (to_grid_index_3d c (ops c Dim3D k) s o) (to_grid_index_3d (unchecked c) (ops (unchecked c) Dim3D k) s o).
Proof. unfold to_grid_index_3d. depth. ag. Qed.
#[export] Hint Resolve agrees_to_grid_2d agrees_to_grid_3d : ag.
Lemma agrees_cell_concatenation c D k s :
  agrees (cell_concatenation (ops c D k) s) (cell_concatenation (ops (unchecked c) D k) s).
Proof. unfold cell_concatenation. depth. ag. Qed.
#[export] Hint Resolve agrees_cell_concatenation : ag.
Lemma agrees_to_string_2d c k s n :
  agrees (to_string_2d c (ops c Dim2D k) s n) (to_string_2d (unchecked c) (ops (unchecked c) Dim2D k) s n).
Proof. unfold to_string_2d. depth. destruct n; ag. Qed.
Lemma agrees_to_string_3d c k s n :
  agrees (to_string_3d c (ops c Dim3D k) s n) (to_string_3d (unchecked c) (ops (unchecked c) Dim3D k) s n).
Proof. unfold to_string_3d. depth. destruct n; ag. Qed.

Lemma agrees_grid_chunk_2d c a b i : agrees (grid_chunk_2d c a b i) (grid_chunk_2d (unchecked c) a b i).
Proof. unfold grid_chunk_2d. ag. Qed.
Lemma agrees_grid_chunk_3d_u64 c a b d sh : agrees (grid_chunk_3d_u64 c a b d sh) (grid_chunk_3d_u64 (unchecked c) a b d sh).
Proof. unfold grid_chunk_3d_u64. ag. Qed.
Lemma agrees_grid_chunk_3d_u32 c a b d sh : agrees (grid_chunk_3d_u32 c a b d sh) (grid_chunk_3d_u32 (unchecked c) a b d sh).
Proof. unfold grid_chunk_3d_u32. ag. Qed.
#[export] Hint Resolve agrees_grid_chunk_2d agrees_grid_chunk_3d_u64 agrees_grid_chunk_3d_u32 : ag.
Lemma agrees_fixed_grid_2d c t x y o : agrees (fixed_from_grid_index_2d c t x y o) (fixed_from_grid_index_2d (unchecked c) t x y o).
Proof. unfold fixed_from_grid_index_2d. ag. Qed.
Lemma agrees_static_grid_2d c t x y d o :
  agrees (static_from_grid_index_2d c t x y d o) (static_from_grid_index_2d (unchecked c) t x y d o).
Proof. unfold static_from_grid_index_2d. ag. Qed.
Lemma agrees_dynamic_grid_2d c x y d o :
  agrees (dynamic_from_grid_index_2d c x y d o) (dynamic_from_grid_index_2d (unchecked c) x y d o).
Proof. unfold dynamic_from_grid_index_2d, dynamic_grid_byte_2d. ag. Qed.
Lemma agrees_fixed_grid_3d c t x y z o :
  agrees (fixed_from_grid_index_3d c t x y z o) (fixed_from_grid_index_3d (unchecked c) t x y z o).
Proof. unfold fixed_from_grid_index_3d. ag. Qed.
Lemma agrees_fast c x y z o : agrees (from_grid_index_fast c x y z o) (from_grid_index_fast (unchecked c) x y z o).
Proof. unfold from_grid_index_fast. ag. Qed.
Lemma agrees_static_grid_3d c t x y z d o :
  agrees (static_from_grid_index_3d c t x y z d o) (static_from_grid_index_3d (unchecked c) t x y z d o).
Proof. unfold static_from_grid_index_3d. ag. Qed.
Lemma agrees_dynamic_grid_3d c x y z d o :
  agrees (dynamic_from_grid_index_3d c x y z d o) (dynamic_from_grid_index_3d (unchecked c) x y z d o).
Proof. unfold dynamic_from_grid_index_3d. ag; apply (agrees_set c Dim3D KDynamic). Qed.

(* histories *)
Lemma agrees_with_var c D L k (s : storage k) f f' : 
  (forall v v', var_ops c D L k = Some v -> var_ops (unchecked c) D L k = Some v' -> agrees (f v) (f' v')) ->
  agrees (with_var c L k s f) (with_var (unchecked c) L k s f').
Proof.
  intro H. unfold with_var. destruct k as [t|t|]; cbn [var_ops] in *.
  - apply agrees_refl.
  - apply agrees_bind; [apply H; reflexivity|]. intro; apply agrees_refl.
  - apply agrees_bind; [apply H; reflexivity|]. intro; apply agrees_refl.
Qed.

Lemma fixed_from_dynamic_unchecked c D t s : fixed_from_dynamic (unchecked c) D t s = fixed_from_dynamic c D t s.
Proof. unfold fixed_from_dynamic. params. reflexivity. Qed.
Lemma static_from_fixed_unchecked c D t s : static_from_fixed (unchecked c) D t s = static_from_fixed c D t s.
Proof. unfold static_from_fixed. params. reflexivity. Qed.
Lemma dynamic_from_fixed_unchecked c D t s : dynamic_from_fixed (unchecked c) D t s = dynamic_from_fixed c D t s.
Proof. unfold dynamic_from_fixed. params. reflexivity. Qed.
Lemma agrees_step c D L i (o : call D) : is_dim D L -> agrees (step_model c L i o) (step_model (unchecked c) L i o).
Proof.
  intro HL. destruct i as [k s]. destruct o; cbn [step_model projT1 projT2].
  - apply agrees_bind; [apply agrees_get_cell|]. intro; apply agrees_refl.
  - apply agrees_bind; [apply agrees_set_cell|]. intro; apply agrees_refl.
  - apply agrees_bind; [apply agrees_collect|]. intro; apply agrees_refl.
  - apply agrees_with_var. intros. eapply agrees_descendant; eassumption.
  - apply agrees_with_var. intros. eapply agrees_descendant; eassumption.
  - apply agrees_with_var. intros. eapply agrees_ancestor; eassumption.
  - apply agrees_with_var. intros. eapply agrees_ancestor; eassumption.
  - apply agrees_with_var. intros. eapply agrees_with_depth; eassumption.
  - apply agrees_bind; [apply agrees_inverted|]. intro; apply agrees_refl.
  - destruct k as [t'|t'|]; cbn [to_fixed]; rewrite ?fixed_from_dynamic_unchecked; apply agrees_refl.
  - destruct k as [t'|t'|]; cbn [to_static]; rewrite ?static_from_fixed_unchecked; try match goal with |- agrees ?a ?a => apply agrees_refl end.
    apply agrees_bind; [apply agrees_static_from_dynamic|]. intro; apply agrees_refl.
  - destruct k as [t'|t'|]; cbn [to_dynamic]; rewrite ?dynamic_from_fixed_unchecked; try match goal with |- agrees ?a ?a => apply agrees_refl end.
    apply agrees_bind; [apply agrees_dynamic_from_static; exact HL|]. intro; apply agrees_refl.
Qed.

Lemma agrees_run c D L i (h : list (call D)) : is_dim D L -> agrees (run_model c L i h) (run_model (unchecked c) L i h).
Proof.
  intro HL. revert i. induction h as [|o h IH]; intro i; cbn [run_model]; [apply agrees_refl|].
  apply agrees_bind; [apply agrees_step; exact HL|]. intro. apply agrees_bind; [apply IH|]. intro; apply agrees_refl.
Qed.

Lemma agrees_display c {T} (f f' : T -> naming -> outcome string) d :
  (forall x n, agrees (f x n) (f' x n)) -> agrees (display_fmt c f d) (display_fmt (unchecked c) f' d).
Proof. intro H. unfold display_fmt. ag; apply H. Qed.
