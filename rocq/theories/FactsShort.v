(* FactsShort.v - proofs of the theorems stated in PropShort.v *)
From Verif Require Import Base ModelNumber ModelDim ModelStorage Model2D Model3D ModelBits Spec History BitProofs NumberProofs VecProofs CellProofs
  StorageProofs OrderProofs SafetyProofs FactsLimits FactsWide FactsKinds FactsHuge.

(* ---------- positions without any condition on the length ---------- *)
Definition wrapped_place (c : cfg) (D : Dimension) (n i : N) : N := (8 * n + dim D * (2 ^ usize_bits c - (i + 1))) mod 2 ^ usize_bits c.
Lemma positions_any {B} c D n i (k : N -> N -> outcome B) : overflow_checks c = false -> i + 1 < 2 ^ usize_bits c ->
  (let! nbits := mul c (usize_bits c) n 8 in let! l1 := add c (usize_bits c) i 1 in let! off := mul c (usize_bits c) l1 (dim D) in
   let! st := sub c (usize_bits c) nbits off in let! en := add c (usize_bits c) st (dim D) in k st en)
  = k (wrapped_place c D n i) ((wrapped_place c D n i + dim D) mod 2 ^ usize_bits c).
Proof.
  intros HO Hi. rewrite (mul_rel c _ n 8 HO), bind_ret. rewrite add_ok by exact Hi. rewrite bind_ret. rewrite (mul_rel c _ (i + 1) _ HO), bind_ret.
  rewrite <- (N.mod_add (n * 8) (dim D) (2 ^ usize_bits c)) by apply pow2_ne0.
  rewrite sub_rel_mod by (assumption || nia). rewrite bind_ret. rewrite (add_rel c _ _ _ HO), bind_ret. unfold wrapped_place.
  replace (n * 8 + dim D * 2 ^ usize_bits c - (i + 1) * dim D) with (8 * n + dim D * (2 ^ usize_bits c - (i + 1))) by nia. reflexivity.
Qed.
Lemma wrapped_place_lt c D n i : wrapped_place c D n i < 2 ^ usize_bits c.
Proof. apply N.mod_lt. apply pow2_ne0. Qed.

(* ---------- reading and writing outside the vector ---------- *)
Lemma get_step_inv c v e st i st' : vec_get_bits_as_usize_step c v e st i = Ret st' -> i < len v.
Proof.
  destruct st as [[r cs] us]. intro H. unfold vec_get_bits_as_usize_step in H. cbv zeta in H.
  do 4 (apply bind_inv in H; destruct H as (? & _ & H)). apply bind_inv in H. destruct H as (b & G & _).
  unfold vec_get in G. destruct (nth_error v (N.to_nat i)) eqn:E; [|discriminate G].
  assert (Q : (N.to_nat i < List.length v)%nat) by (apply nth_error_Some; congruence). unfold len. lia.
Qed.
Lemma get_loop_inv c v e l : forall st st', foldM (vec_get_bits_as_usize_step c v e) l st = Ret st' -> forall i, In i l -> i < len v.
Proof.
  induction l as [|j l IH]; intros st st' E i Hi; [destruct Hi|]. cbn [foldM] in E. apply bind_inv in E. destruct E as (st1 & E1 & E).
  destruct Hi as [<-|Hi]; [exact (get_step_inv _ _ _ _ _ _ E1)|exact (IH _ _ E i Hi)].
Qed.
Lemma get_usize_beyond c v s e : e + 7 < 2 ^ usize_bits c -> s < e -> 8 * len v < e -> vec_get_bits_as_usize c v s e = Panic.
Proof.
  intros HW Hs Hl. destruct (vec_get_bits_as_usize c v s e) as [r| |] eqn:E;
    [|reflexivity|exfalso; exact (safe_vec_get_bits_as_usize c v s e E)].
  exfalso. unfold vec_get_bits_as_usize in E. cbv zeta in E. rewrite add_ok in E by exact HW. rewrite bind_ret in E.
  apply bind_inv in E. destruct E as (st & E & _).
  pose proof (get_loop_inv _ _ _ _ _ _ E ((e + 7) / 8 - 1)) as Q. rewrite in_range in Q. clear -Q Hs Hl. lia.
Qed.
Lemma set_loop_inv c e nv l : forall st st', foldM (set_vec_u8_bits_step c e nv) l st = Ret st' -> forall i, In i l -> i < len (fst (fst st)).
Proof.
  induction l as [|j l IH]; intros [[p ss] ns] st' E i Hi; [destruct Hi|]. cbn [foldM] in E. apply bind_inv in E. destruct E as (st1 & E1 & E).
  pose proof (set_step_inv _ _ _ _ _ _ _ _ E1) as [L1 L2]. cbn [fst] in *.
  destruct Hi as [<-|Hi]; [exact L2|]. rewrite <- L1. exact (IH _ _ E i Hi).
Qed.
Lemma set_usize_beyond c v s e x : e + 7 < 2 ^ usize_bits c -> s < e -> e - s <= usize_bits c -> 8 * len v < e ->
  vec_set_bits_from_usize c v s e x = Panic.
Proof.
  intros HW Hs Hn Hl. pose proof (safe_vec_set_bits_from_usize c v s e x ltac:(lia) Hn) as Sf.
  destruct (vec_set_bits_from_usize c v s e x) as [r| |] eqn:E; [|reflexivity|exfalso; exact (Sf eq_refl)].
  exfalso. unfold vec_set_bits_from_usize, set_vec_u8_bits in E. cbv zeta in E. rewrite add_ok in E by exact HW. rewrite bind_ret in E.
  apply bind_inv in E. destruct E as (st & E & _).
  pose proof (set_loop_inv _ _ _ _ _ _ E ((e + 7) / 8 - 1)) as Q. rewrite in_range in Q. cbn [fst] in Q. clear -Q Hs Hl. lia.
Qed.

(* ---------- C58 ---------- *)
Lemma c58_get_any_vector_release_lemma : forall c D L (s : storage KDynamic) b i, is_dim D L -> overflow_checks c = false ->
  Forall (fun x => x < 256) b -> i < dy_depth s -> dy_depth s < 2 ^ usize_bits c ->
  let W := usize_bits c in
  let pos := (8 * len b + dim D * (2 ^ W - (i + 1))) mod 2 ^ W in
  if 2 ^ W <? pos + dim D + 8 then st_get (dynamic_ops c D) (dynamic_put_bits s b) i = Ret (cell_zero D)
  else if pos + dim D <=? 8 * len b
  then exists x, st_get (dynamic_ops c D) (dynamic_put_bits s b) i = Ret x /\ cell_index D x = bytes_value b / 2 ^ pos mod 2 ^ dim D
  else st_get (dynamic_ops c D) (dynamic_put_bits s b) i = Panic.
Proof.
  intros c D L s b i HL HO Hb Hi Hd. cbv zeta. set (pos := (8 * len b + dim D * (2 ^ usize_bits c - (i + 1))) mod 2 ^ usize_bits c). pose proof (is_dim_ok D L HL) as HD.
  pose proof (usize_ge16 c). pose proof (pow2_usize_ge c). pose proof (dim_ge D HD). pose proof (dim_le D HD).
  cbn [dynamic_ops st_get dynamic_put_bits dy_bits]. unfold dynamic_get_cell. cbv zeta. unfold vec_size.
  rewrite positions_any by (assumption || lia). change (wrapped_place c D (len b) i) with pos.
  assert (Lt : pos < 2 ^ usize_bits c) by apply wrapped_place_lt. clearbody pos.
  destruct (N.ltb_spec (2 ^ usize_bits c) (pos + dim D + 8)) as [R|R].
  - assert (Z : unwrap (cell_try_from D 0) = Ret (cell_zero D)) by (rewrite <- (zero_idx D HD); apply unwrap_idx; exact HD).
    destruct (N.lt_ge_cases (pos + dim D) (2 ^ usize_bits c)) as [Q|Q].
    + rewrite N.mod_small by exact Q. rewrite get_usize_top by (assumption || lia). exact Z.
    + replace (pos + dim D) with (pos + dim D - 2 ^ usize_bits c + 1 * 2 ^ usize_bits c) by lia. rewrite N.mod_add by apply pow2_ne0.
      rewrite N.mod_small by lia. rewrite get_usize_back by lia. exact Z.
  - rewrite N.mod_small by lia. destruct (N.leb_spec (pos + dim D) (8 * len b)) as [In|Out].
    + rewrite get_usize_any by (assumption || lia). rewrite bind_ret. replace (pos + dim D - pos) with (dim D) by lia.
      apply unwrap_cell; [exact HD|]. apply bits_of_lt.
    + rewrite get_usize_beyond by lia. reflexivity.
Qed.
Lemma c58_set_any_vector_release_lemma : forall c D L (s : storage KDynamic) b i x, is_dim D L -> overflow_checks c = false ->
  Forall (fun y => y < 256) b -> i < dy_depth s -> dy_depth s < 2 ^ usize_bits c ->
  let W := usize_bits c in
  let pos := (8 * len b + dim D * (2 ^ W - (i + 1))) mod 2 ^ W in
  if 2 ^ W <? pos + dim D + 8 then st_set (dynamic_ops c D) (dynamic_put_bits s b) i x = Ret (dynamic_put_bits s b)
  else if pos + dim D <=? 8 * len b
  then exists b', st_set (dynamic_ops c D) (dynamic_put_bits s b) i x = Ret (dynamic_put_bits s b')
         /\ len b' = len b /\ Forall (fun y => y < 256) b'
         /\ bits_replaced (bytes_value b) pos (dim D) (cell_index D (stored c D KDynamic x)) (bytes_value b')
  else st_set (dynamic_ops c D) (dynamic_put_bits s b) i x = Panic.
Proof.
  intros c D L s b i x HL HO Hb Hi Hd. cbv zeta. set (pos := (8 * len b + dim D * (2 ^ usize_bits c - (i + 1))) mod 2 ^ usize_bits c). pose proof (is_dim_ok D L HL) as HD.
  pose proof (usize_ge16 c). pose proof (pow2_usize_ge c). pose proof (dim_ge D HD). pose proof (dim_le D HD).
  cbn [dynamic_ops st_set dynamic_put_bits dy_bits dy_depth]. unfold dynamic_set_cell. cbv zeta. unfold vec_size.
  rewrite positions_any by (assumption || lia). change (wrapped_place c D (len b) i) with pos.
  assert (Lt : pos < 2 ^ usize_bits c) by apply wrapped_place_lt. clearbody pos.
  destruct (N.ltb_spec (2 ^ usize_bits c) (pos + dim D + 8)) as [R|R].
  - unfold vec_set_bits_from_usize. destruct (N.lt_ge_cases (pos + dim D) (2 ^ usize_bits c)) as [Q|Q].
    + rewrite N.mod_small by exact Q. rewrite set_vec_top by (assumption || lia). reflexivity.
    + replace (pos + dim D) with (pos + dim D - 2 ^ usize_bits c + 1 * 2 ^ usize_bits c) by lia. rewrite N.mod_add by apply pow2_ne0.
      rewrite N.mod_small by lia. rewrite set_vec_back by lia. reflexivity.
  - rewrite N.mod_small by lia. destruct (N.leb_spec (pos + dim D) (8 * len b)) as [In|Out].
    + unfold vec_set_bits_from_usize.
      destruct (set_vec_any c b pos (pos + dim D) (num_as_u8_slice c USize (cell_index D x)) (cell_index D (stored c D KDynamic x))) as (b' & E & B & Ll & V);
        try (assumption || lia). { replace (pos + dim D - pos) with (dim D) by lia. apply reads_cell. exact HD. }
      rewrite E, bind_ret. exists b'. split; [reflexivity|]. split; [exact Ll|]. split; [exact B|].
      rewrite V. replace (pos + dim D - pos) with (dim D) by lia. intro j. apply testbit_put.
    + rewrite set_usize_beyond by lia. reflexivity.
Qed.
(* with overflow checks *)
Lemma c58_set_short_vector_lemma : forall c D L (s : storage KDynamic) b i x, is_dim D L -> overflow_checks c = true ->
  Forall (fun y => y < 256) b -> 8 * len b + 8 <= 2 ^ usize_bits c -> i < dy_depth s -> dy_depth s < 2 ^ usize_bits c ->
  if dim D * (i + 1) <=? 8 * len b
  then exists b', st_set (dynamic_ops c D) (dynamic_put_bits s b) i x = Ret (dynamic_put_bits s b')
         /\ len b' = len b /\ Forall (fun y => y < 256) b'
         /\ bits_replaced (bytes_value b) (8 * len b - dim D * (i + 1)) (dim D) (cell_index D (stored c D KDynamic x)) (bytes_value b')
  else st_set (dynamic_ops c D) (dynamic_put_bits s b) i x = Panic.
Proof.
  intros c D L s b i x HL Ho Hb Hw Hi Hd. pose proof (is_dim_ok D L HL) as HD. pose proof (dim_ge D HD). pose proof (dim_le D HD). pose proof (usize_ge16 c).
  cbn [dynamic_ops st_set dynamic_put_bits dy_bits dy_depth]. unfold dynamic_set_cell. cbv zeta. unfold vec_size.
  rewrite mul_ok by lia. rewrite bind_ret. rewrite add_ok by lia. rewrite bind_ret.
  destruct (N.leb_spec (dim D * (i + 1)) (8 * len b)) as [A|A].
  - rewrite mul_ok by lia. rewrite bind_ret. rewrite sub_ok by lia. rewrite bind_ret. rewrite add_ok by lia. rewrite bind_ret.
    replace (len b * 8 - (i + 1) * dim D) with (8 * len b - dim D * (i + 1)) by lia.
    unfold vec_set_bits_from_usize. set (pos := 8 * len b - dim D * (i + 1)) in *.
    assert (In : pos + dim D <= 8 * len b) by (unfold pos; nia). clearbody pos.
    destruct (set_vec_any c b pos (pos + dim D) (num_as_u8_slice c USize (cell_index D x)) (cell_index D (stored c D KDynamic x))) as (b' & E & B & Ll & V);
      try (assumption || lia). { replace (pos + dim D - pos) with (dim D) by lia. apply reads_cell. exact HD. }
    rewrite E, bind_ret. exists b'. split; [reflexivity|]. split; [exact Ll|]. split; [exact B|].
    rewrite V. replace (pos + dim D - pos) with (dim D) by lia. intro j. apply testbit_put.
  - unfold mul. destruct (N.ltb_spec ((i + 1) * dim D) (2 ^ usize_bits c)) as [B|B]; [|rewrite Ho; reflexivity]. cbn [bind].
    unfold sub. rewrite (proj2 (N.leb_gt _ _)) by lia. rewrite Ho. reflexivity.
Qed.
Lemma nrange_plus lo a b : nrange lo (a + b) = nrange lo a ++ nrange (lo + N.of_nat a) b.
Proof.
  revert lo. induction a as [|a IH]; intro lo; cbn [nrange plus app].
  - f_equal. lia.
  - f_equal. rewrite IH. do 2 f_equal. lia.
Qed.
Lemma split_range lo mid hi : lo <= mid -> mid <= hi -> range lo hi = range lo mid ++ range mid hi.
Proof.
  intros H1 H2. unfold range. replace (N.to_nat (hi - lo)) with (N.to_nat (mid - lo) + N.to_nat (hi - mid))%nat by lia.
  rewrite nrange_plus. do 2 f_equal. lia.
Qed.
(* comparison stops with a panic at the first level for which one of the two has no bits, if it gets there *)
Lemma cmp_loop_app c D a b l1 l2 : dynamic_cmp_loop c D a b (l1 ++ l2)
  = match dynamic_cmp_loop c D a b l1 with Ret Eq => dynamic_cmp_loop c D a b l2 | r => r end.
Proof.
  induction l1 as [|i l1 IH]; cbn [app dynamic_cmp_loop]; [reflexivity|].
  destruct (get_cell_at_level_or_none c D a i) as [x| |]; cbn [bind]; try reflexivity.
  destruct (get_cell_at_level_or_none c D b i) as [y| |]; cbn [bind]; try reflexivity.
  destruct (option_cell_cmp D x y); [exact IH|reflexivity ..].
Qed.
Lemma cmp_loop_ext c D a b a' b' l : (forall i, In i l -> get_cell_at_level_or_none c D a i = get_cell_at_level_or_none c D a' i
    /\ get_cell_at_level_or_none c D b i = get_cell_at_level_or_none c D b' i) ->
  dynamic_cmp_loop c D a b l = dynamic_cmp_loop c D a' b' l.
Proof.
  induction l as [|i l IH]; intro H; cbn [dynamic_cmp_loop]; [reflexivity|]. destruct (H i) as [-> ->]; [left; reflexivity|].
  rewrite IH; [reflexivity|]. intros j Hj. apply H. right. exact Hj.
Qed.
Lemma or_none_cut c D bits d k i : i < k ->
  get_cell_at_level_or_none c D (MkDynamic bits d) i = get_cell_at_level_or_none c D (MkDynamic bits (N.min d k)) i.
Proof.
  intro H. unfold get_cell_at_level_or_none. cbn [dy_depth dy_bits]. replace (N.min d k <=? i) with (d <=? i); [reflexivity|].
  destruct (N.leb_spec d i), (N.leb_spec (N.min d k) i); (reflexivity || lia).
Qed.
Lemma c58_short_comparison_lemma : forall c D L d b d' b', is_dim D L -> overflow_checks c = true ->
  Forall (fun x => x < 256) b -> Forall (fun x => x < 256) b' ->
  8 * len b + 8 <= 2 ^ usize_bits c -> 8 * len b' + 8 <= 2 ^ usize_bits c -> d < 2 ^ usize_bits c -> d' < 2 ^ usize_bits c ->
  let missing_from d b := if d <=? 8 * len b / dim D then 2 ^ usize_bits c else 8 * len b / dim D in
  let k := N.min (missing_from d b) (missing_from d' b') in
  exists l l', shows (dynamic_ops c D) (MkDynamic b (N.min d k)) l /\ shows (dynamic_ops c D) (MkDynamic b' (N.min d' k)) l'
    /\ dynamic_cmp c D (MkDynamic b d) (MkDynamic b' d')
       = match path_cmp l l' with Eq => if len l =? k then Panic else Ret Eq | r => Ret r end.
Proof.
  intros c D L d b d' b' HL Ho Hb Hb' Hw Hw' Hd Hd' mf k. pose proof (is_dim_ok D L HL) as HD. pose proof (dim_ge D HD) as G.
  assert (Q : forall n, dim D * (n / dim D) <= n) by (intro n; apply N.mul_div_le; lia).
  assert (V : valid c D KDynamic (MkDynamic b (N.min d k))).
  { split; [exact Hb|]. split; [|exact Hw]. cbn [dy_bits dy_depth]. transitivity (dim D * (8 * len b / dim D)); [|apply Q]. apply N.mul_le_mono_l.
    unfold k, mf. destruct (N.leb_spec d (8 * len b / dim D)); lia. }
  assert (V' : valid c D KDynamic (MkDynamic b' (N.min d' k))).
  { split; [exact Hb'|]. split; [|exact Hw']. cbn [dy_bits dy_depth]. transitivity (dim D * (8 * len b' / dim D)); [|apply Q]. apply N.mul_le_mono_l.
    unfold k, mf. destruct (N.leb_spec d' (8 * len b' / dim D)); lia. }
  destruct (valid_repr c D KDynamic _ HD V) as (l & R). destruct (valid_repr c D KDynamic _ HD V') as (l' & R').
  pose proof (repr_shows c D KDynamic _ _ HD R) as S. pose proof (repr_shows c D KDynamic _ _ HD R') as S'.
  exists l, l'. split; [exact S|]. split; [exact S'|].
  assert (Ll : len l = N.min d k) by (symmetry; exact (proj1 S)). assert (Ll' : len l' = N.min d' k) by (symmetry; exact (proj1 S')).
  pose proof (dynamic_cmp_ok c D _ _ l l' HD R R') as E. unfold dynamic_cmp in E |- *. cbn [dy_depth] in E |- *.
  set (m := N.max d d'). assert (Em : N.max (N.min d k) (N.min d' k) = N.min m k) by (unfold m; lia). rewrite Em in E.
  rewrite (split_range 0 (N.min m k) m) by lia. rewrite cmp_loop_app.
  rewrite (cmp_loop_ext c D _ _ (MkDynamic b (N.min d k)) (MkDynamic b' (N.min d' k))).
  2:{ intros i Hi. apply in_range in Hi. split; apply or_none_cut; lia. }
  rewrite E. destruct (path_cmp l l') eqn:P; try reflexivity. apply (path_cmp_eq HD) in P.
  destruct (N.eqb_spec (len l) k) as [K|K].
  - (* level k is read and one of the two vectors has no bits for it *)
    assert (Kd : k <= d /\ k <= d') by (subst l'; lia). assert (Km : N.min m k = k) by (unfold m; lia). rewrite Km.
    assert (Kl : k < m).
    { unfold m. unfold k, mf in K, Kd |- *. destruct (N.leb_spec d (8 * len b / dim D)), (N.leb_spec d' (8 * len b' / dim D)); lia. }
    rewrite range_cons by exact Kl. cbn [dynamic_cmp_loop].
    assert (P1 : forall bits n, 8 * len bits + 8 <= 2 ^ usize_bits c -> k < n /\ 8 * len bits < dim D * (k + 1) -> k + 1 < 2 ^ usize_bits c ->
              get_cell_at_level_or_none c D (MkDynamic bits n) k = Panic).
    { intros bits n B1 [B2 B4] B3. unfold get_cell_at_level_or_none. cbn [dy_depth dy_bits]. rewrite (proj2 (N.leb_gt _ _) B2).
      unfold dynamic_get_cell. cbv zeta. unfold vec_size. rewrite mul_ok by lia. rewrite bind_ret. rewrite add_ok by exact B3. rewrite bind_ret.
      unfold mul. destruct (N.ltb_spec ((k + 1) * dim D) (2 ^ usize_bits c)) as [B|B]; [|rewrite Ho; reflexivity]. cbn [bind].
      unfold sub. rewrite (proj2 (N.leb_gt _ _)) by lia. rewrite Ho. reflexivity. }
    assert (P2 : forall n, n < dim D * (n / dim D + 1)).
    { intro n. rewrite N.add_1_r. apply N.mul_succ_div_gt. lia. }
    assert (HA : (k < d /\ 8 * len b < dim D * (k + 1)) \/ (k < d' /\ 8 * len b' < dim D * (k + 1))).
    { clear - P2 Kl Kd Hd Hd'. pose proof (P2 (8 * len b)) as P3. pose proof (P2 (8 * len b')) as P4. clear P2. unfold m in Kl. unfold k, mf in *.
      destruct (N.leb_spec d (8 * len b / dim D)), (N.leb_spec d' (8 * len b' / dim D)).
      - lia.
      - rewrite N.min_r in * by lia. right. split; [lia|exact P4].
      - rewrite N.min_l in * by lia. left. split; [lia|exact P3].
      - destruct (N.min_spec (8 * len b / dim D) (8 * len b' / dim D)) as [[M1 M2]|[M1 M2]]; rewrite M2 in *;
          [left; split; [lia|exact P3]|right; split; [lia|exact P4]]. }
    assert (K1 : k + 1 < 2 ^ usize_bits c) by (clear - Kl Hd Hd'; unfold m in Kl; lia).
    destruct HA as [HA|HA].
    + rewrite (P1 b d Hw HA K1). reflexivity.
    + destruct (get_cell_at_level_or_none c D (MkDynamic b d) k) as [x| |] eqn:X; cbn [bind]; [|reflexivity|].
      * rewrite (P1 b' d' Hw' HA K1). reflexivity.
      * exfalso. revert X. change (safe (get_cell_at_level_or_none c D (MkDynamic b d) k)).
        unfold get_cell_at_level_or_none. sf; apply (safe_get c D KDynamic).
  - assert (Km : m <= k) by (unfold m; subst l'; lia). rewrite range_nil by lia. reflexivity.
Qed.
