(* FactsDeep.v - lemmas behind PropDeep.v: static 3D indices whose raw depth exceeds the maximum (C65) *)
From Coq Require Import ZifyBool ZifyNat ZifyN.
From Verif Require Import Base ModelNumber ModelDim ModelStorage Model2D Model3D ModelBits Spec History BitProofs NumberProofs CellProofs StorageProofs
  SafetyProofs FactsCells FactsInts FactsHistory FactsRest FactsKinds.

Lemma foldM_ret_in {A S} (f : S -> A -> outcome S) l x : forall s r, foldM f l s = Ret r -> In x l -> exists a a', f a x = Ret a'.
Proof.
  induction l as [|y l IH]; intros s r E H; [contradiction|]. cbn [foldM] in E. destruct (f s y) as [s'| |] eqn:F; cbn [bind] in E; try discriminate.
  destruct H as [->|H]; [eauto|]. exact (IH s' r E H).
Qed.
Lemma mapM_ret_in {A B} (f : A -> outcome B) l x : forall r, mapM f l = Ret r -> In x l -> exists b, f x = Ret b.
Proof.
  induction l as [|y l IH]; intros r E H; [contradiction|]. cbn [mapM] in E. destruct (f y) as [b| |] eqn:F; cbn [bind] in E; try discriminate.
  destruct (mapM f l) as [bs| |] eqn:G; cbn [bind] in E; try discriminate. destruct H as [->|H]; [eauto|]. exact (IH bs eq_refl H).
Qed.
Lemma panics {A} (o : outcome A) : o <> UB -> (forall r, o <> Ret r) -> o = Panic.
Proof. destruct o as [r| |]; intros H H'; [exfalso; exact (H' r eq_refl)|reflexivity|congruence]. Qed.

Lemma too_deep_off c t i : BITS c t / 3 <= i -> BITS c t < (i + 1) * 3.
Proof. intro H. pose proof (N.div_mod' (BITS c t) 3). pose proof (N.mod_lt (BITS c t) 3 ltac:(discriminate)). lia. Qed.
Lemma small_off c i : i < 2 ^ 8 -> (i + 1) * 3 < 2 ^ usize_bits c /\ i + 1 < 2 ^ usize_bits c.
Proof. intro H. change (2 ^ 8) with 256 in H. destruct (usize_bits_cases c) as [E|[E|E]]; rewrite E; change (2 ^ 16) with 65536; change (2 ^ 32) with 4294967296; change (2 ^ 64) with 18446744073709551616; lia. Qed.
Lemma get_beyond c t b i : overflow_checks c = true -> BITS c t / 3 <= i -> i < 2 ^ 8 -> static_get_cell c Dim3D t b i = Panic.
Proof.
  intros HO Hi Hs. destruct (small_off c i Hs) as [A B]. unfold static_get_cell. cbv zeta. rewrite add_ok by exact B. rewrite bind_ret.
  change (dim Dim3D) with 3. rewrite mul_ok by exact A. rewrite bind_ret. unfold sub. rewrite HO.
  destruct (N.leb_spec ((i + 1) * 3) (BITS c t)) as [H|_]; [|reflexivity]. pose proof (too_deep_off c t i Hi). lia.
Qed.
Lemma set_beyond c t b i x : overflow_checks c = true -> BITS c t / 3 <= i -> i < 2 ^ 8 -> static_set_cell c Dim3D t b i x = Panic.
Proof.
  intros HO Hi Hs. destruct (small_off c i Hs) as [A B]. unfold static_set_cell. cbv zeta. rewrite add_ok by exact B. rewrite bind_ret.
  change (dim Dim3D) with 3. rewrite mul_ok by exact A. rewrite bind_ret. unfold sub. rewrite HO.
  destruct (N.leb_spec ((i + 1) * 3) (BITS c t)) as [H|_]; [|reflexivity]. pose proof (too_deep_off c t i Hi). lia.
Qed.

(* ---------- C65 ---------- *)
Lemma c65_cells_lemma : forall c t b d, overflow_checks c = true -> b < 2 ^ BITS c t -> BITS c t / 3 < d -> d < 2 ^ 8 ->
  let s := static_from_raw_index b d in
  st_depth (static_ops c Dim3D t) s = d
  /\ (forall i, i < BITS c t / 3 -> exists x, get_cell_at_level (static_ops c Dim3D t) s i = Ret x
        /\ cell_index Dim3D x = b / 2 ^ (BITS c t - 3 * (i + 1)) mod 2 ^ 3)
  /\ (forall i, BITS c t / 3 <= i -> get_cell_at_level (static_ops c Dim3D t) s i = Panic).
Proof.
  intros c t b d HO Hb Hd Hl s. split; [reflexivity|]. split.
  - intros i Hi. set (s0 := MkStatic 0 (BITS c t / 3)).
    assert (V : valid c Dim3D (KStatic t) s0) by (split; [apply pow2_pos|cbn; lia]).
    destruct (c58_static_bits_lemma c Dim3D layout3D t s0 b is_dim3 V Hb) as (_ & l & S & Hn & F).
    destruct (nth_error_N_lt l i ltac:(rewrite Hn; exact Hi)) as (x & Hx). exists x. split; [|exact (F i x Hx)].
    destruct S as [_ G]. specialize (G i). rewrite Hx in G. unfold get_cell_at_level in *. change (st_depth (static_ops c Dim3D t) s) with d.
    destruct (N.leb_spec d i); [lia|]. destruct (N.leb_spec (st_depth (static_ops c Dim3D t) (static_put_bits s0 b)) i) as [K|K]; [discriminate|exact G].
  - intros i Hi. unfold get_cell_at_level. change (st_depth (static_ops c Dim3D t) s) with d. destruct (N.leb_spec d i); [reflexivity|].
    apply get_beyond; [exact HO|exact Hi|lia].
Qed.
Lemma get_deep c t b d j : overflow_checks c = true -> BITS c t / 3 < d -> d < 2 ^ 8 ->
  get_cell_at_level (static_ops c Dim3D t) (static_from_raw_index b d) j
  = get_cell_at_level (static_ops c Dim3D t) (static_from_raw_index b (BITS c t / 3)) j.
Proof.
  intros HO Hd Hl. unfold get_cell_at_level. cbn [static_ops st_depth st_get static_from_raw_index sx_depth sx_bits].
  destruct (N.leb_spec (BITS c t / 3) j) as [H|H]; destruct (N.leb_spec d j) as [H'|H']; try reflexivity; [|lia].
  apply get_beyond; [exact HO|exact H|lia].
Qed.
Lemma c65_set_cell_lemma : forall c t b d i x, overflow_checks c = true -> b < 2 ^ BITS c t -> BITS c t / 3 < d -> d < 2 ^ 8 ->
  let s := static_from_raw_index b d in
  if i <? BITS c t / 3
  then exists b', set_cell_at_level (static_ops c Dim3D t) s i x = Ret (static_from_raw_index b' d) /\ b' < 2 ^ BITS c t
         /\ get_cell_at_level (static_ops c Dim3D t) (static_from_raw_index b' d) i = Ret x
         /\ forall j, j <> i -> get_cell_at_level (static_ops c Dim3D t) (static_from_raw_index b' d) j = get_cell_at_level (static_ops c Dim3D t) s j
  else set_cell_at_level (static_ops c Dim3D t) s i x = Panic.
Proof.
  intros c t b d i x HO Hb Hd Hl s. unfold set_cell_at_level at 1 2. change (st_depth (static_ops c Dim3D t) s) with d.
  destruct (N.ltb_spec i (BITS c t / 3)) as [Hi|Hi].
  - destruct (N.leb_spec d i); [lia|]. set (s0 := static_from_raw_index b (BITS c t / 3)).
    assert (V : valid c Dim3D (KStatic t) s0) by (split; [exact Hb|cbn; lia]).
    destruct (c01_set_cell_effect_lemma c Dim3D layout3D (KStatic t) s0 i x is_dim3 I V Hi) as ([b' d'] & E & V' & Ed & G & F).
    cbn in Ed. subst d'. change (MkStatic b' (BITS c t / 3)) with (static_from_raw_index b' (BITS c t / 3)) in *.
    exists b'. split; [|split; [exact (proj1 V')|split]].
    + unfold set_cell_at_level in E. change (st_depth (ops c Dim3D (KStatic t)) s0) with (BITS c t / 3) in E.
      destruct (N.leb_spec (BITS c t / 3) i); [lia|]. cbn [ops static_ops st_set s0 s static_from_raw_index sx_bits sx_depth] in *.
      destruct (static_set_cell c Dim3D t b i x) as [v| |]; cbn [bind] in *; try discriminate. injection E as ->. reflexivity.
    + rewrite get_deep by assumption. exact G.
    + intros j Hj. unfold s. rewrite (get_deep c t b' d), (get_deep c t b d) by assumption. exact (F j Hj).
  - destruct (N.leb_spec d i); [reflexivity|]. cbn [static_ops st_set s static_from_raw_index sx_bits sx_depth].
    rewrite set_beyond by (try assumption; lia). reflexivity.
Qed.
Lemma in_levels c t d : BITS c t / 3 < d -> In (BITS c t / 3) (range 0 d).
Proof. intro H. apply in_range. lia. Qed.
Lemma M_small c t d : BITS c t / 3 < d -> d < 2 ^ 8 -> BITS c t / 3 < 2 ^ 8.
Proof. lia. Qed.
Lemma collect_deep c t b d : overflow_checks c = true -> BITS c t / 3 < d -> d < 2 ^ 8 -> forall fuel i r, i <= BITS c t / 3 ->
  collect_from fuel c (static_ops c Dim3D t) (static_from_raw_index b d) i <> Ret r.
Proof.
  intros HO Hd Hl. induction fuel as [|fuel IH]; intros i r Hi; cbn [collect_from]; [discriminate|].
  unfold cell_iter_next. change (st_depth (static_ops c Dim3D t) (static_from_raw_index b d)) with d.
  destruct (N.eqb_spec i d) as [E|_]; [lia|]. rewrite add_ok by (apply small_off; lia). rewrite bind_ret.
  cbn [static_ops st_get static_from_raw_index sx_bits]. destruct (N.eq_dec i (BITS c t / 3)) as [->|Hne].
  - rewrite get_beyond by (try assumption; lia). discriminate.
  - destruct (static_get_cell c Dim3D t b i) as [x| |]; cbn [bind]; try discriminate.
    specialize (IH (i + 1)). cbn [static_ops st_get static_from_raw_index sx_bits] in IH.
    destruct (collect_from fuel c _ _ (i + 1)) as [xs| |] eqn:G; cbn [bind]; try discriminate. exfalso. exact (IH xs ltac:(lia) eq_refl).
Qed.
Lemma c65_reading_operations_panic_lemma : forall c t b d, overflow_checks c = true -> BITS c t / 3 < d -> d < 2 ^ 8 ->
  let s := static_from_raw_index b d in
  collect_cells c (static_ops c Dim3D t) s = Panic
  /\ (forall o, to_grid_index_3d c (static_ops c Dim3D t) s o = Panic)
  /\ (forall n, to_string_3d c (static_ops c Dim3D t) s n = Panic)
  /\ inverted c (static_ops c Dim3D t) s = Panic
  /\ dynamic_from_static c Dim3D layout3D t s = Panic.
Proof.
  intros c t b d HO Hd Hl s. pose proof (M_small c t d Hd Hl) as HM.
  assert (G : st_get (static_ops c Dim3D t) s (BITS c t / 3) = Panic) by (apply get_beyond; [exact HO|lia|exact HM]).
  assert (C : collect_cells c (static_ops c Dim3D t) s = Panic).
  { apply panics; [apply (safe_collect c Dim3D (KStatic t) s); pose proof (small_off c d Hl); change (st_depth (ops c Dim3D (KStatic t)) s) with d; lia|]. intro r. unfold collect_cells, cell_iter_start. apply collect_deep; try assumption. lia. }
  split; [exact C|].
  assert (T : forall o, to_grid_index_3d c (static_ops c Dim3D t) s o = Panic).
  { intro o. apply panics; [exact (proj1 (proj2 (c48_grid_and_names_lemma c (KStatic t) s)) o)|]. intros r E. unfold to_grid_index_3d in E.
    destruct (foldM_ret_in _ _ (BITS c t / 3) _ _ E (in_levels c t d Hd)) as ([[x y] z] & a' & F). rewrite G in F. discriminate F. }
  split; [exact T|].
  assert (N1 : cell_concatenation (static_ops c Dim3D t) s = Panic).
  { apply panics; [exact (proj2 (proj2 (proj2 (c48_grid_and_names_lemma c (KStatic t) s))) CellConcatenation)|]. intros r E. unfold cell_concatenation in E.
    destruct (mapM _ _) as [chars| |] eqn:F in E; cbn [bind] in E; try discriminate.
    destruct (mapM_ret_in _ _ (BITS c t / 3) _ F (in_levels c t d Hd)) as (x & K). rewrite G in K. discriminate K. }
  split; [intros [| |]; cbn [to_string_3d]; [exact N1|rewrite N1; reflexivity|rewrite T; reflexivity]|].
  split.
  - apply panics; [exact (proj1 (proj2 (proj2 (c48_index_methods_lemma c Dim3D layout3D (KStatic t) s s is_dim3))))|].
    intros r E. unfold inverted in E.
    destruct (foldM_ret_in _ _ (BITS c t / 3) _ _ E (in_levels c t d Hd)) as (a & a' & F). rewrite G in F.
    destruct (sub _ _ _ _) as [u| |] in F; cbn [bind] in F; try discriminate. destruct (sub _ _ _ _) as [u'| |] in F; cbn [bind] in F; discriminate.
  - unfold dynamic_from_static. rewrite C. reflexivity.
Qed.
Lemma c65_tree_operations_lemma : forall c t b d, overflow_checks c = true -> BITS c t / 3 < d -> d < 2 ^ 8 ->
  let s := static_from_raw_index b d in
  (forall g, 0 < g -> ancestor (static_vops c Dim3D t) s g = if d <? g then Ret None else Panic)
  /\ parent (static_vops c Dim3D t) s = Panic
  /\ (forall n, with_depth c (static_vops c Dim3D t) s n = if d <? n then Ret None else if n =? d then Ret (Some s) else Panic)
  /\ (forall cells, d + len cells < 2 ^ usize_bits c -> descendant (static_vops c Dim3D t) s cells = Ret None)
  /\ (forall x, child (static_vops c Dim3D t) s x = Ret None)
  /\ fixed_from_static s = fixed_from_raw_index b.
Proof.
  intros c t b d HO Hd Hl s.
  assert (A : forall g, 0 < g -> ancestor (static_vops c Dim3D t) s g = if d <? g then Ret None else Panic).
  { intros g Hg. destruct (c48_index_methods_lemma c Dim3D layout3D (KStatic t) s s is_dim3) as (_ & _ & _ & _ & _ & K).
    destruct (K _ eq_refl) as (SA & _). specialize (SA g). unfold ancestor in *. cbn [static_vops vo_ancestor] in *. unfold static_ancestor in *.
    change (sx_depth s) with d in *. destruct (N.ltb_spec d g) as [H|H]; [reflexivity|]. apply panics; [exact SA|]. intros r E.
    assert (Cg : cast 8 g = g) by (unfold cast; apply N.mod_small; lia). rewrite Cg in E. rewrite sub_ok in E by lia. rewrite bind_ret in E.
    destruct (foldM _ _ _) as [r'| |] eqn:F in E; cbn [bind] in E; try discriminate.
    destruct (foldM_ret_in _ _ (d - 1) _ _ F ltac:(apply in_range; lia)) as ([b1 d1] & a' & P). cbn [static_ops st_set sx_bits] in P.
    rewrite set_beyond in P by (try assumption; lia). discriminate P. }
  split; [exact A|]. split; [unfold parent; rewrite A by lia; destruct (N.ltb_spec d 1); [lia|reflexivity]|].
  assert (Dn : forall cells, d + len cells < 2 ^ usize_bits c -> descendant (static_vops c Dim3D t) s cells = Ret None).
  { intros cells H. unfold descendant. cbn [static_vops vo_descendant]. unfold static_descendant. change (sx_depth s) with d. rewrite add_ok by exact H. rewrite bind_ret.
    change (MAX_LEVELS c Dim3D t) with (BITS c t / 3). destruct (N.ltb_spec (BITS c t / 3) (d + len cells)); [reflexivity|lia]. }
  split; [|split; [exact Dn|split; [|reflexivity]]].
  - intro n. unfold with_depth. change (st_depth (vo_ops (static_vops c Dim3D t)) s) with d. destruct (N.ltb_spec d n) as [H|H]; [reflexivity|].
    rewrite sub_ok by exact H. rewrite bind_ret. destruct (N.eqb_spec n d) as [->|Hne].
    + rewrite N.sub_diag. reflexivity.
    + destruct (N.eqb_spec (d - n) 0); [lia|]. rewrite A by lia. destruct (N.ltb_spec d (d - n)); [lia|reflexivity].
  - intro x. apply Dn. change (len [x]) with 1. apply small_off. exact Hl.
Qed.
(* without overflow checks the position of a level beyond the maximum wraps around *)
Definition wrapped c t i := 2 ^ usize_bits c + BITS c t - 3 * (i + 1).
Lemma wrapped_range c t i : BITS c t / 3 <= i -> i < 2 ^ 8 -> wrapped c t i < 2 ^ usize_bits c /\ 2 ^ usize_bits c < wrapped c t i + 768.
Proof.
  intros Hi Hs. pose proof (too_deep_off c t i Hi). change (2 ^ 8) with 256 in Hs. unfold wrapped.
  assert (65536 <= 2 ^ usize_bits c) by (destruct (usize_bits_cases c) as [E|[E|E]]; rewrite E; discriminate).
  assert (0 < BITS c t) by (destruct (BITS_cases c t) as [E|[E|[E|[E|E]]]]; rewrite E; reflexivity). lia.
Qed.
Lemma positions_release c t i {A} (f : N -> N -> outcome A) : overflow_checks c = false -> BITS c t / 3 <= i -> i < 2 ^ 8 ->
  (let! l1 := add c (usize_bits c) i 1 in
   let! off := mul c (usize_bits c) l1 3 in
   let! start_bit := sub c (usize_bits c) (BITS c t) off in
   let! end_bit := add c (usize_bits c) start_bit 3 in f start_bit end_bit)
  = f (wrapped c t i) (if 3 * (i + 1) <=? BITS c t + 3 then BITS c t + 3 - 3 * (i + 1) else wrapped c t i + 3).
Proof.
  intros HO Hi Hs. destruct (small_off c i Hs) as [A1 A2]. pose proof (too_deep_off c t i Hi) as Hoff. destruct (wrapped_range c t i Hi Hs) as [W1 W2].
  rewrite add_ok by exact A2. rewrite bind_ret. rewrite mul_ok by exact A1. rewrite bind_ret. unfold sub. rewrite HO.
  destruct (N.leb_spec ((i + 1) * 3) (BITS c t)) as [H|_]; [lia|]. cbv iota.
  replace (cast (usize_bits c) (2 ^ usize_bits c + BITS c t - (i + 1) * 3)) with (wrapped c t i).
  2:{ unfold wrapped in *. rewrite (N.mul_comm (i + 1) 3). unfold cast. symmetry. apply N.mod_small. exact W1. }
  rewrite bind_ret. unfold add. rewrite HO. destruct (N.leb_spec (3 * (i + 1)) (BITS c t + 3)) as [H|H].
  - destruct (N.ltb_spec (wrapped c t i + 3) (2 ^ usize_bits c)) as [K|_]; [unfold wrapped in K; lia|]. cbv iota.
    replace (cast (usize_bits c) (wrapped c t i + 3)) with (BITS c t + 3 - 3 * (i + 1)); [reflexivity|].
    unfold cast, wrapped. replace (2 ^ usize_bits c + BITS c t - 3 * (i + 1) + 3) with (BITS c t + 3 - 3 * (i + 1) + 1 * 2 ^ usize_bits c) by lia.
    rewrite N.mod_add by apply pow2_ne0. symmetry. apply N.mod_small. pose proof (pow2_pos (usize_bits c)). 
    assert (65536 <= 2 ^ usize_bits c) by (destruct (usize_bits_cases c) as [E|[E|E]]; rewrite E; discriminate). lia.
  - destruct (N.ltb_spec (wrapped c t i + 3) (2 ^ usize_bits c)) as [_|K]; [|unfold wrapped in K; lia]. reflexivity.
Qed.
Lemma wrapped_cut c t i : BITS c t / 3 <= i -> i < 2 ^ 8 ->
  if BITS c t =? 8 then wrapped c t i mod 2 ^ N.min 32 (BITS c t) = (1032 - 3 * (i + 1)) mod 256
  else BITS c t <= wrapped c t i mod 2 ^ N.min 32 (BITS c t).
Proof.
  intros Hi Hs. pose proof (too_deep_off c t i Hi) as Hoff. change (2 ^ 8) with 256 in Hs. unfold wrapped.
  destruct (BITS_cases c t) as [E|[E|[E|[E|E]]]]; rewrite E in *; cbn [N.eqb Pos.eqb N.min N.compare Pos.compare Pos.compare_cont];
  destruct (usize_bits_cases c) as [F|[F|F]]; rewrite F; clear E F Hi;
  change (2 ^ 8) with 256; change (2 ^ 16) with 65536; change (2 ^ 32) with 4294967296; change (2 ^ 64) with 18446744073709551616; lia.
Qed.
Lemma get_release c t b i : overflow_checks c = false -> b < 2 ^ BITS c t -> BITS c t / 3 <= i -> i < 2 ^ 8 ->
  exists x, static_get_cell c Dim3D t b i = Ret x
    /\ cell_index Dim3D x = if BITS c t =? 8 then b / 2 ^ ((1032 - 3 * (i + 1)) mod 256) mod 2 ^ 3 else 0.
Proof.
  intros HO Hb Hi Hs. pose proof (too_deep_off c t i Hi) as Hoff. destruct (wrapped_range c t i Hi Hs) as [W1 W2].
  pose proof (wrapped_cut c t i Hi Hs) as WC. unfold static_get_cell. cbv zeta. change (dim Dim3D) with 3.
  rewrite (positions_release c t i (fun s e => let! b0 := num_get_bits c t b s e in unwrap (cell_try_from Dim3D (cast (usize_bits c) (num_as c U8 b0)))) HO Hi Hs).
  set (v := if BITS c t =? 8 then b / 2 ^ ((1032 - 3 * (i + 1)) mod 256) mod 2 ^ 3 else 0).
  assert (Hv : v < 8).
  { unfold v. destruct (BITS c t =? 8); [apply (N.mod_lt _ (2 ^ 3)); discriminate|reflexivity]. }
  assert (G : num_get_bits c t b (wrapped c t i) (if 3 * (i + 1) <=? BITS c t + 3 then BITS c t + 3 - 3 * (i + 1) else wrapped c t i + 3) = Ret v).
  { destruct (N.leb_spec (3 * (i + 1)) (BITS c t + 3)) as [H|H].
    - rewrite c54_get_bits_release_lemma by (try assumption; assert (65536 <= 2 ^ usize_bits c) by (destruct (usize_bits_cases c) as [E|[E|E]]; rewrite E; discriminate); lia).
      assert (range_len (wrapped c t i) (BITS c t + 3 - 3 * (i + 1)) = 0) as ->.
      { unfold range_len. destruct (N.ltb_spec (wrapped c t i) (BITS c t + 3 - 3 * (i + 1))) as [K|_]; [|reflexivity].
        assert (65536 <= 2 ^ usize_bits c) by (destruct (usize_bits_cases c) as [E|[E|E]]; rewrite E; discriminate). lia. }
      change (0 mod 2 ^ 32) with 0. rewrite (proj2 (N.leb_le 0 _) ltac:(lia)). rewrite N.mod_1_r. f_equal. unfold v.
      destruct (N.eqb_spec (BITS c t) 8) as [E|_]; [|reflexivity]. rewrite E in *. symmetry.
      assert (Hi3 : i = 2) by (change (8 / 3) with 2 in Hi; lia). subst i. change ((1032 - 3 * (2 + 1)) mod 256) with 255.
      rewrite N.div_small; [reflexivity|]. eapply N.lt_trans; [exact Hb|reflexivity].
    - rewrite c54_get_bits_release_lemma by (try assumption; assert (65536 <= 2 ^ usize_bits c) by (destruct (usize_bits_cases c) as [E|[E|E]]; rewrite E; discriminate); clear WC; unfold wrapped in *; lia).
      assert (range_len (wrapped c t i) (wrapped c t i + 3) = 3) as ->.
      { unfold range_len. destruct (N.ltb_spec (wrapped c t i) (wrapped c t i + 3)); lia. }
      change (3 mod 2 ^ 32) with 3. destruct (N.leb_spec 3 (BITS c t)) as [_|K].
      2:{ destruct (BITS_cases c t) as [E|[E|[E|[E|E]]]]; rewrite E in K; lia. }
      f_equal. unfold v. destruct (N.eqb_spec (BITS c t) 8) as [E|E].
      + rewrite WC. reflexivity.
      + rewrite N.div_small; [reflexivity|]. eapply N.lt_le_trans; [exact Hb|]. apply N.pow_le_mono_r; [discriminate|exact WC]. }
  rewrite G, bind_ret. destruct (try_total Dim3D dim3_ok v Hv) as (x & Hx).
  assert (cast (usize_bits c) (num_as c U8 v) = v) as ->.
  { unfold num_as, cast. change (BITS c U8) with 8. rewrite (N.mod_small v) by lia. apply N.mod_small.
    assert (65536 <= 2 ^ usize_bits c) by (destruct (usize_bits_cases c) as [E|[E|E]]; rewrite E; discriminate). lia. }
  rewrite Hx. exists x. split; [reflexivity|]. apply (try_ok Dim3D dim3_ok). exact Hx.
Qed.
Lemma c65_cells_release_lemma : forall c t b d, overflow_checks c = false -> b < 2 ^ BITS c t -> BITS c t / 3 < d -> d < 2 ^ 8 ->
  exists l, shows (static_ops c Dim3D t) (static_from_raw_index b d) l /\ len l = d
    /\ forall i x, nth_error l (N.to_nat i) = Some x ->
         cell_index Dim3D x = if i <? BITS c t / 3 then b / 2 ^ (BITS c t - 3 * (i + 1)) mod 2 ^ 3
                              else if BITS c t =? 8 then b / 2 ^ ((1032 - 3 * (i + 1)) mod 256) mod 2 ^ 3 else 0.
Proof.
  intros c t b d HO Hb Hd Hl.
  assert (G : forall i, i < d -> exists x, get_cell_at_level (static_ops c Dim3D t) (static_from_raw_index b d) i = Ret x /\ 
      cell_index Dim3D x = if i <? BITS c t / 3 then b / 2 ^ (BITS c t - 3 * (i + 1)) mod 2 ^ 3
                              else if BITS c t =? 8 then b / 2 ^ ((1032 - 3 * (i + 1)) mod 256) mod 2 ^ 3 else 0).
  { intros i Hi. unfold get_cell_at_level at 1. cbn [static_ops st_depth st_get static_from_raw_index sx_depth sx_bits].
    destruct (N.leb_spec d i); [lia|]. destruct (N.ltb_spec i (BITS c t / 3)) as [H'|H'].
    - set (s0 := MkStatic 0 (BITS c t / 3)). assert (V : valid c Dim3D (KStatic t) s0) by (split; [apply pow2_pos|cbn; lia]).
      destruct (c58_static_bits_lemma c Dim3D layout3D t s0 b is_dim3 V Hb) as (_ & l & S & Hn & F).
      destruct (nth_error_N_lt l i ltac:(rewrite Hn; exact H')) as (x & Hx). exists x. split; [|exact (F i x Hx)].
      destruct S as [_ G]. specialize (G i). rewrite Hx in G. unfold get_cell_at_level in G.
      destruct (N.leb_spec (st_depth (static_ops c Dim3D t) (static_put_bits s0 b)) i) as [K|K]; [discriminate|exact G].
    - apply get_release; try assumption. lia. }
  assert (K : forall n, (n <= N.to_nat d)%nat -> exists l, List.length l = n /\ forall i x, nth_error l i = Some x ->
             get_cell_at_level (static_ops c Dim3D t) (static_from_raw_index b d) (N.of_nat i) = Ret x).
  { induction n as [|n IH]; intro Hn; [exists []; split; [reflexivity|]; intros [|i] x E; discriminate|].
    destruct IH as (l & El & F); [lia|]. destruct (G (N.of_nat n) ltac:(lia)) as (x & Gx & _). exists (l ++ [x]).
    split; [rewrite app_length, El; cbn; lia|]. intros i y E. destruct (Nat.lt_ge_cases i n) as [Hi|Hi].
    - rewrite nth_error_app1 in E by lia. exact (F i y E).
    - rewrite nth_error_app2 in E by lia. rewrite El in E. destruct (i - n)%nat as [|m] eqn:Em; [|destruct m; discriminate].
      injection E as <-. replace i with n by lia. exact Gx. }
  destruct (K (N.to_nat d) (Nat.le_refl _)) as (l & El & F). assert (Hlen : len l = d) by (unfold len; lia).
  exists l. split; [|split; [exact Hlen|]].
  - split; [symmetry; exact Hlen|]. intro i. destruct (nth_error l (N.to_nat i)) as [x|] eqn:E.
    + specialize (F _ _ E). rewrite N2Nat.id in F. exact F.
    + apply nth_error_None in E. unfold get_cell_at_level. cbn [static_ops st_depth static_from_raw_index sx_depth].
      destruct (N.leb_spec d i); [reflexivity|lia].
  - intros i x E. pose proof (F _ _ E) as Fx. rewrite N2Nat.id in Fx. pose proof (nth_error_len _ _ _ E) as Hi. rewrite N2Nat.id in Hi.
    destruct (G i ltac:(lia)) as (y & Gy & Cy). rewrite Fx in Gy. injection Gy as ->. exact Cy.
Qed.
Lemma wrapped_mod c t i : BITS c t / 3 <= i -> i < 2 ^ 8 ->
  wrapped c t i mod 2 ^ BITS c t mod BITS c t = (BITS c t - 3 * (i + 1) mod BITS c t) mod BITS c t.
Proof.
  intros Hi Hs. destruct (wrapped_range c t i Hi Hs) as [W1 W2]. change (2 ^ 8) with 256 in Hs.
  assert (P : exists k, 2 ^ usize_bits c = BITS c t * k /\ 0 < k).
  { destruct (usize_bits_cases c) as [F|[F|F]]; destruct (BITS_cases c t) as [E|[E|[E|[E|E]]]]; rewrite E, F;
    (exists (2 ^ usize_bits c / BITS c t); rewrite E, F; split; reflexivity). }
  assert (Q : exists k, 2 ^ BITS c t = BITS c t * k).
  { destruct (BITS_cases c t) as [E|[E|[E|[E|E]]]]; rewrite E; (exists (2 ^ BITS c t / BITS c t); rewrite E; reflexivity). }
  assert (B : 0 < BITS c t) by (destruct (BITS_cases c t) as [E|[E|[E|[E|E]]]]; rewrite E; reflexivity).
  destruct P as (k & P & Hk). destruct Q as (q & Q). set (w := BITS c t) in *.
  assert (R : wrapped c t i mod 2 ^ w mod w = wrapped c t i mod w).
  { pose proof (pow2_ne0 w) as Z. rewrite (N.div_mod' (wrapped c t i) (2 ^ w)) at 2. rewrite Q at 2. rewrite <- N.mul_assoc.
    rewrite (N.mul_comm w), N.add_comm. rewrite N.mod_add by lia. reflexivity. }
  rewrite R. unfold wrapped in *. fold w in W1, W2 |- *. clear R.
  pose proof (N.div_mod' (3 * (i + 1)) w) as DM. pose proof (N.mod_lt (3 * (i + 1)) w ltac:(lia)) as ML.
  set (m := 3 * (i + 1) mod w) in *. set (u := 3 * (i + 1) / w) in *.
  assert (U : 65536 <= 2 ^ usize_bits c) by (destruct (usize_bits_cases c) as [E|[E|E]]; rewrite E; discriminate).
  assert (u <= k).
  { destruct (N.le_gt_cases u k) as [H|H]; [exact H|]. exfalso. assert (w * k <= w * u) by (apply N.mul_le_mono_l; lia). clear Q. lia. }
  replace (2 ^ usize_bits c + w - 3 * (i + 1)) with (w - m + (k - u) * w); [apply N.mod_add; lia|].
  rewrite P, DM. clear Q. rewrite N.mul_sub_distr_r. assert (u * w <= k * w) by (apply N.mul_le_mono_r; assumption). lia.
Qed.
Lemma c65_set_cell_release_lemma : forall c t b d i x, overflow_checks c = false -> b < 2 ^ BITS c t -> BITS c t / 3 <= i -> i < d -> d < 2 ^ 8 ->
  let w := BITS c t in
  let p := (w - 3 * (i + 1) mod w) mod w in
  let n := if 3 * (i + 1) <=? w + 3 then 0 else 3 in
  exists b', set_cell_at_level (static_ops c Dim3D t) (static_from_raw_index b d) i x = Ret (static_from_raw_index b' d) /\ b' < 2 ^ w
    /\ forall j, j < w -> N.testbit b' j = if j <? p then N.testbit b j
                                          else if j <? p + n then N.testbit (cell_index Dim3D x) (j - p)
                                          else N.testbit b j || N.testbit (cell_index Dim3D x) (j - p).
Proof.
  intros c t b d i x HO Hb Hi Hd Hl w p n. assert (Hs : i < 2 ^ 8) by lia.
  pose proof (too_deep_off c t i Hi) as Hoff. destruct (wrapped_range c t i Hi Hs) as [W1 W2]. pose proof (wrapped_mod c t i Hi Hs) as WM.
  assert (U : 65536 <= 2 ^ usize_bits c) by (destruct (usize_bits_cases c) as [E|[E|E]]; rewrite E; discriminate).
  assert (B3 : 8 <= BITS c t) by (destruct (BITS_cases c t) as [E|[E|[E|[E|E]]]]; rewrite E; discriminate).
  set (e := if 3 * (i + 1) <=? BITS c t + 3 then BITS c t + 3 - 3 * (i + 1) else wrapped c t i + 3).
  assert (He : e < 2 ^ usize_bits c).
  { clear WM. unfold e. clear e p n. destruct (N.leb_spec (3 * (i + 1)) (BITS c t + 3)); [lia|]. unfold wrapped. lia. }
  assert (Rn : range_len (wrapped c t i) e = n).
  { clear WM. unfold range_len, e, n. fold w. clear p n e He. destruct (N.leb_spec (3 * (i + 1)) (w + 3)).
    - destruct (N.ltb_spec (wrapped c t i) (w + 3 - 3 * (i + 1))); [unfold w in *; lia|reflexivity].
    - destruct (N.ltb_spec (wrapped c t i) (wrapped c t i + 3)); lia. }
  unfold set_cell_at_level. cbn [static_ops st_depth st_set static_from_raw_index sx_depth sx_bits].
  rewrite (proj2 (N.leb_gt d i) Hd). unfold static_set_cell. cbv zeta. change (dim Dim3D) with 3.
  rewrite (positions_release c t i (fun s e => num_set_bits c t b s e (num_from c t (cast 8 (cell_index Dim3D x)))) HO Hi Hs). fold e.
  set (y := num_from c t (cast 8 (cell_index Dim3D x))).
  assert (Hx : cell_index Dim3D x < 8) by (apply idx_lt8; exact dim3_ok).
  assert (Hy : y = cell_index Dim3D x).
  { unfold y, num_from, cast. rewrite (N.mod_small (cell_index Dim3D x) (2 ^ 8)) by (eapply N.lt_trans; [exact Hx|reflexivity]).
    apply N.mod_small. eapply N.lt_le_trans; [exact Hx|]. apply (N.pow_le_mono_r 2 3); [discriminate|]. eapply N.le_trans; [|exact B3]; discriminate. }
  rewrite Hy. clear y Hy.
  pose proof (c54_set_bits_every_range_lemma c t b (wrapped c t i) e (cell_index Dim3D x) Hb) as S. rewrite Rn in S.
  specialize (S ltac:(clear - B3; unfold n; destruct (3 * (i + 1) <=? w + 3); clear n; lia)). cbv zeta in S. rewrite HO in S. cbn [andb] in S. rewrite WM in S. fold w in S. fold p in S.
  destruct S as (b' & -> & Hb' & S). exists b'. split; [reflexivity|]. split; [exact Hb'|exact S].
Qed.
