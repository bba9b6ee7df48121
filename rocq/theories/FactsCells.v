(* FactsCells.v - proofs of the theorems stated in PropCells.v *)
From Verif Require Import Base ModelNumber ModelDim ModelStorage Model2D Model3D Spec History BitProofs NumberProofs VecProofs CellProofs StorageProofs OrderProofs ConvProofs HistoryProofs.

(* an index is determined by its path and the bits behind it *)
Lemma raw_inj c D k n w r s s' l : dim_ok D -> raw c D k n w r s l -> raw c D k n w r s' l -> s = s'.
Proof.
  intros HD [A1 A2 A3 A4 A5] [B1 B2 B3 B4 B5].
  assert (E : num k s = num k s') by (rewrite (holds_value _ _ _ A2), (holds_value _ _ _ B2), A5, B5; reflexivity).
  destruct k as [t|t|]; cbn in *.
  - destruct s, s'; cbn in *; congruence.
  - destruct s, s'; cbn in *; congruence.
  - destruct A1 as [A1 _], B1 as [B1 _]. destruct s as [b d], s' as [b' d']; cbn in *. f_equal; [|congruence].
    apply bytes_value_inj; try assumption. lia.
Qed.
(* set_cell_at_level_unchecked returns for every level below the depth, whatever the byte order *)
Lemma raw_set_any c D k n w r s l i x : dim_ok D -> raw c D k n w r s l -> i < len l ->
  exists s' x', st_set (ops c D k) s i x = Ret s' /\ raw c D k n w r s' (update l (N.to_nat i) x').
Proof.
  intros HD H Hi. destruct (raw_set_w c D k n w r s l i x HD H Hi) as (s' & E & R). exists s', (stored c D k x). auto.
Qed.

(* ---------- C01 ---------- *)
Lemma c01_every_index_shows_one_path_lemma : forall c D L k (s : storage k),
  is_dim D L -> valid c D k s ->
  exists l, shows (ops c D k) s l /\ forall l', shows (ops c D k) s l' -> l' = l.
Proof.
  intros c D L k s HL Hv. pose proof (is_dim_ok _ _ HL) as HD. destruct (valid_repr _ _ _ _ HD Hv) as (l & R).
  exists l. split; [apply repr_shows; assumption|]. intros l' H'. eapply shows_unique; [exact H'|]. apply repr_shows; assumption.
Qed.
Lemma c01_set_cell_replaces_one_cell_lemma : forall c D L k (s : storage k) l i x,
  is_dim D L -> writable c k -> valid c D k s -> shows (ops c D k) s l -> i < len l ->
  exists s', set_cell_at_level (ops c D k) s i x = Ret s' /\ valid c D k s'
    /\ shows (ops c D k) s' (firstn (N.to_nat i) l ++ x :: skipn (N.to_nat i + 1) l).
Proof.
  intros c D L k s l i x HL HW Hv Hs Hi. pose proof (is_dim_ok _ _ HL) as HD.
  pose proof (valid_shows _ _ _ _ _ HD Hv Hs) as R.
  destruct (raw_set c D k _ _ _ s l i x HD HW R Hi) as (s' & E & R').
  assert (Hl : len (update l (N.to_nat i) x) = len l) by apply len_update.
  rewrite <- Hl in R' at 1. apply raw_repr in R'.
  exists s'. split; [|split; [eapply repr_valid; eassumption|]].
  - unfold set_cell_at_level. rewrite (raw_depth _ _ _ _ _ _ _ _ R). destruct (N.leb_spec (len l) i); [lia|]. exact E.
  - rewrite update_firstn_skipn in R' by (unfold len in Hi; lia). apply repr_shows; assumption.
Qed.
Lemma c01_set_cell_effect_lemma : forall c D L k (s : storage k) i x,
  is_dim D L -> writable c k -> valid c D k s -> i < st_depth (ops c D k) s ->
  exists s', set_cell_at_level (ops c D k) s i x = Ret s' /\ valid c D k s'
    /\ st_depth (ops c D k) s' = st_depth (ops c D k) s
    /\ get_cell_at_level (ops c D k) s' i = Ret x
    /\ forall j, j <> i -> get_cell_at_level (ops c D k) s' j = get_cell_at_level (ops c D k) s j.
Proof.
  intros c D L k s i x HL HW Hv Hi. destruct (c01_every_index_shows_one_path_lemma c D L k s HL Hv) as (l & Hs & _).
  assert (Hi' : i < len l) by (rewrite <- (proj1 Hs); exact Hi).
  destruct (c01_set_cell_replaces_one_cell_lemma c D L k s l i x HL HW Hv Hs Hi') as (s' & E & Hv' & Hs').
  exists s'. split; [exact E|]. split; [exact Hv'|]. destruct Hs as [Hd Hg], Hs' as [Hd' Hg'].
  rewrite <- update_firstn_skipn in Hd', Hg' by (unfold len in Hi'; lia).
  split; [rewrite Hd', Hd; apply len_update|]. split.
  - rewrite Hg', nth_error_update_same by (unfold len in Hi'; lia). reflexivity.
  - intros j Hj. rewrite Hg', Hg, nth_error_update_other by lia. reflexivity.
Qed.
(* nothing but the cell changes: writing the old cell back restores the index bit for bit *)
Lemma c01_set_cell_back_lemma : forall c D L k (s s' : storage k) i x y,
  is_dim D L -> writable c k -> valid c D k s ->
  get_cell_at_level (ops c D k) s i = Ret y -> set_cell_at_level (ops c D k) s i x = Ret s' ->
  set_cell_at_level (ops c D k) s' i y = Ret s.
Proof.
  intros c D L k s s' i x y HL HW Hv Hg Hset. pose proof (is_dim_ok _ _ HL) as HD.
  destruct (valid_repr _ _ _ _ HD Hv) as (l & R). pose proof (repr_shows _ _ _ _ _ HD R) as Hs.
  rewrite (proj2 Hs) in Hg. destruct (nth_error l (N.to_nat i)) as [y'|] eqn:Hy; [|discriminate]. injection Hg as ->.
  pose proof (nth_error_len _ _ _ Hy) as Hi. rewrite N2Nat.id in Hi.
  destruct (raw_set c D k _ _ _ s l i x HD HW R Hi) as (s1 & E1 & R1).
  unfold set_cell_at_level in Hset |- *. rewrite (raw_depth _ _ _ _ _ _ _ _ R) in Hset.
  destruct (N.leb_spec (len l) i); [lia|]. rewrite E1 in Hset. injection Hset as ->.
  rewrite (raw_depth _ _ _ _ _ _ _ _ R1). destruct (N.leb_spec (len l) i); [lia|].
  assert (Hi1 : i < len (update l (N.to_nat i) x)) by (rewrite len_update; exact Hi).
  destruct (raw_set c D k _ _ _ s' _ i y HD HW R1 Hi1) as (s2 & E2 & R2). rewrite E2. f_equal.
  eapply raw_inj; [exact HD|exact R2|].
  replace (update (update l (N.to_nat i) x) (N.to_nat i) y) with l; [exact R|].
  apply nth_error_ext. intro j. rewrite !nth_error_update, update_length.
  destruct (Nat.eqb_spec (N.to_nat i) j) as [<-|Hj]; cbn [andb]; [|reflexivity].
  destruct (Nat.ltb_spec (N.to_nat i) (List.length l)); [exact Hy|reflexivity].
Qed.

(* ---------- C02, C03 ---------- *)
Lemma c03_fixed_try_from_err_lemma : forall c D L t cells, is_dim D L ->
  (fixed_try_from c D t cells = Ret (Err (DepthLimitedExceeded (BITS c t / dim D))) <-> BITS c t / dim D < len cells)
  /\ ((exists s, fixed_try_from c D t cells = Ret (Ok s)) <-> len cells <= BITS c t / dim D).
Proof.
  intros c D L t cells HL. pose proof (is_dim_ok _ _ HL) as HD.
  destruct (N.le_gt_cases (len cells) (BITS c t / dim D)) as [H|H].
  - destruct (fixed_try_from_ok c D t cells HD H) as (s & E & _). rewrite E.
    split; split; intro A; try discriminate; try lia; try (eexists; reflexivity).
  - assert (E : fixed_try_from c D t cells = Ret (Err (DepthLimitedExceeded (BITS c t / dim D)))).
    { unfold fixed_try_from, MAX_LEVELS. destruct (N.ltb_spec (BITS c t / dim D) (len cells)); [reflexivity|lia]. }
    rewrite E. split; split; intro A; auto; try (destruct A; discriminate); lia.
Qed.
Lemma c03_static_try_from_err_lemma : forall c D L t cells, is_dim D L ->
  (static_try_from c D t cells = Ret (Err (DepthLimitedExceeded (BITS c t / dim D))) <-> BITS c t / dim D < len cells)
  /\ ((exists s, static_try_from c D t cells = Ret (Ok s)) <-> len cells <= BITS c t / dim D).
Proof.
  intros c D L t cells HL. pose proof (is_dim_ok _ _ HL) as HD.
  destruct (N.le_gt_cases (len cells) (BITS c t / dim D)) as [H|H].
  - destruct (static_try_from_ok c D t cells HD H) as (s & E & _). rewrite E.
    split; split; intro A; try discriminate; try lia; try (eexists; reflexivity).
  - assert (E : static_try_from c D t cells = Ret (Err (DepthLimitedExceeded (BITS c t / dim D)))).
    { unfold static_try_from, MAX_LEVELS. destruct (N.ltb_spec (BITS c t / dim D) (len cells)); [reflexivity|lia]. }
    rewrite E. split; split; intro A; auto; try (destruct A; discriminate); lia.
Qed.
Lemma c03_dynamic_try_from_never_fails_lemma : forall c D L cells, is_dim D L ->
  dim D * len cells + 8 <= 2 ^ usize_bits c -> exists s, dynamic_try_from c D L cells = Ret (Ok s).
Proof.
  intros c D L cells HL H. destruct (dynamic_try_from_w c D L cells HL H) as (s & A & _). exists s; exact A.
Qed.

Lemma c02_fixed_try_from_order_lemma : forall c D L t cells s, is_dim D L ->
  fixed_try_from c D t cells = Ret (Ok s) ->
  valid c D (KFixed t) s
  /\ shows (fixed_ops c D t) s (cells ++ repeat (cell_zero D) (N.to_nat (BITS c t / dim D - len cells))).
Proof.
  intros c D L t cells s HL E. pose proof (is_dim_ok _ _ HL) as HD.
  assert (H : len cells <= BITS c t / dim D) by (apply (c03_fixed_try_from_err_lemma c D L t cells HL); exists s; exact E).
  destruct (fixed_try_from_ok c D t cells HD H) as (s' & E' & R). rewrite E in E'. injection E' as <-.
  apply canon_repr in R. split; [eapply repr_valid; eassumption|]. apply (repr_shows c D (KFixed t)); assumption.
Qed.
Lemma c02_static_try_from_order_lemma : forall c D L t cells s, is_dim D L ->
  static_try_from c D t cells = Ret (Ok s) -> valid c D (KStatic t) s /\ shows (static_ops c D t) s cells.
Proof.
  intros c D L t cells s HL E. pose proof (is_dim_ok _ _ HL) as HD.
  assert (H : len cells <= BITS c t / dim D) by (apply (c03_static_try_from_err_lemma c D L t cells HL); exists s; exact E).
  destruct (static_try_from_ok c D t cells HD H) as (s' & E' & R). rewrite E in E'. injection E' as <-.
  apply canon_repr in R. split; [eapply repr_valid; eassumption|]. apply (repr_shows c D (KStatic t)); assumption.
Qed.
Lemma c02_dynamic_try_from_order_lemma : forall c D L cells, is_dim D L -> writable c KDynamic ->
  dim D * len cells + 8 <= 2 ^ usize_bits c ->
  exists s, dynamic_try_from c D L cells = Ret (Ok s) /\ valid c D KDynamic s /\ shows (dynamic_ops c D) s cells.
Proof.
  intros c D L cells HL HE H. pose proof (is_dim_ok _ _ HL) as HD.
  destruct (dynamic_try_from_ok c D L cells HL HE H) as (s & E & R). exists s. split; [exact E|].
  apply canon_repr in R. split; [eapply repr_valid; eassumption|]. apply (repr_shows c D KDynamic); assumption.
Qed.

(* ---------- C04 ---------- *)
Lemma c04_get_panics_iff_out_of_bounds_lemma : forall c D L k (s : storage k) i,
  is_dim D L -> valid c D k s ->
  (get_cell_at_level (ops c D k) s i = Panic <-> st_depth (ops c D k) s <= i)
  /\ ((exists x, get_cell_at_level (ops c D k) s i = Ret x) <-> i < st_depth (ops c D k) s).
Proof.
  intros c D L k s i HL Hv. destruct (c01_every_index_shows_one_path_lemma c D L k s HL Hv) as (l & Hs & _).
  rewrite (proj1 Hs), (proj2 Hs). destruct (nth_error l (N.to_nat i)) as [x|] eqn:E.
  - pose proof (nth_error_len _ _ _ E). rewrite N2Nat.id in *.
    split; split; intro A; try discriminate; try lia; try (eexists; reflexivity).
  - apply nth_error_None in E. unfold len. split; split; intro A; try reflexivity; try lia.
    destruct A; discriminate.
Qed.
Lemma c04_set_panics_iff_out_of_bounds_lemma : forall c D L k (s : storage k) i x,
  is_dim D L -> valid c D k s ->
  (set_cell_at_level (ops c D k) s i x = Panic <-> st_depth (ops c D k) s <= i)
  /\ ((exists s', set_cell_at_level (ops c D k) s i x = Ret s') <-> i < st_depth (ops c D k) s).
Proof.
  intros c D L k s i x HL Hv. pose proof (is_dim_ok _ _ HL) as HD. destruct (valid_repr _ _ _ _ HD Hv) as (l & R).
  pose proof (raw_depth _ _ _ _ _ _ _ _ R) as Hd. unfold set_cell_at_level. rewrite Hd.
  destruct (N.leb_spec (len l) i) as [H|H].
  - split; split; intro A; try reflexivity; try lia. destruct A; discriminate.
  - destruct (raw_set_any c D k _ _ _ s l i x HD R H) as (s' & x' & E & _). rewrite E.
    split; split; intro A; try discriminate; try lia; try (eexists; reflexivity).
Qed.

(* ---------- C05 ---------- *)
Lemma next_calls_from c D k s l : dim_ok D -> repr c D k s l -> forall n i, i <= len l ->
  next_calls c (ops c D k) s i n
  = Ret (map Some (firstn n (skipn (N.to_nat i) l)) ++ repeat None (n - (List.length l - N.to_nat i))).
Proof.
  intros HD R. pose proof (raw_depth _ _ _ _ _ _ _ _ R) as Hd. pose proof (sane_width c k s (raw_sane _ _ _ _ _ _ _ _ R)) as HW.
  destruct (raw_holds _ _ _ _ _ _ _ _ R) as (_ & HB & _). pose proof (dim_ge D HD) as HG.
  induction n as [|n IH]; intros i Hi; cbn [next_calls].
  - rewrite firstn_O. reflexivity.
  - unfold cell_iter_next. rewrite Hd. destruct (N.eqb_spec i (len l)) as [->|Hne].
    + rewrite bind_ret. cbn [fst snd]. rewrite IH by lia. rewrite bind_ret. rewrite to_nat_len, skipn_all, !firstn_nil.
      cbn [map app]. rewrite Nat.sub_diag, !Nat.sub_0_r. reflexivity.
    + assert (Hlt : i < len l) by lia. destruct (nth_error_N_lt l i Hlt) as (x & Hx).
      assert (len l <= dim D * len l) by nia.
      rewrite add_ok by lia. rewrite bind_ret. rewrite (raw_get c D k _ _ _ s l i x HD R Hx). rewrite !bind_ret. cbn [fst snd].
      rewrite IH by lia. rewrite bind_ret. f_equal.
      replace (skipn (N.to_nat i) l) with (x :: skipn (N.to_nat (i + 1)) l).
      * cbn [firstn map app]. f_equal. f_equal. f_equal. unfold len in Hlt. lia.
      * apply nth_error_split in Hx. destruct Hx as (a & b & -> & Ha). replace (N.to_nat (i + 1)) with (S (List.length a)) by lia.
        rewrite <- Ha. rewrite skipn_length_app. replace (a ++ x :: b) with ((a ++ [x]) ++ b) by (rewrite <- app_assoc; reflexivity).
        replace (S (List.length a)) with (List.length (a ++ [x])) by (rewrite app_length; cbn; lia). rewrite skipn_length_app. reflexivity.
Qed.
Lemma c05_cells_iterator_lemma : forall c D L k (s : storage k) l n,
  is_dim D L -> valid c D k s -> shows (ops c D k) s l ->
  next_calls c (ops c D k) s cell_iter_start n = Ret (map Some (firstn n l) ++ repeat None (n - List.length l)).
Proof.
  intros c D L k s l n HL Hv Hs. pose proof (is_dim_ok _ _ HL) as HD. pose proof (valid_shows _ _ _ _ _ HD Hv Hs) as R.
  rewrite (next_calls_from c D k s l HD R) by (unfold cell_iter_start; lia).
  cbn [cell_iter_start N.to_nat skipn]. rewrite Nat.sub_0_r. reflexivity.
Qed.
Lemma c05_collected_cells_lemma : forall c D L k (s : storage k) l,
  is_dim D L -> valid c D k s -> shows (ops c D k) s l -> collect_cells c (ops c D k) s = Ret l.
Proof.
  intros c D L k s l HL Hv Hs. pose proof (is_dim_ok _ _ HL) as HD. apply collect_cells_ok; [exact HD|]. apply valid_shows; assumption.
Qed.

(* ---------- C25 ---------- *)
Lemma c25_inverted_reverses_lemma : forall c D L k (s : storage k) l,
  is_dim D L -> writable c k -> valid c D k s -> shows (ops c D k) s l ->
  exists s', inverted c (ops c D k) s = Ret s' /\ valid c D k s' /\ shows (ops c D k) s' (rev l).
Proof.
  intros c D L k s l HL HW Hv Hs. pose proof (is_dim_ok _ _ HL) as HD. pose proof (valid_shows _ _ _ _ _ HD Hv Hs) as R.
  destruct (inverted_raw c D k _ _ s l HD HW R) as (s' & E & R'). exists s'. split; [exact E|].
  rewrite <- (len_rev l) in R' at 1. apply raw_repr in R'. split; [eapply repr_valid; eassumption|apply repr_shows; assumption].
Qed.
Lemma c25_inverted_twice_lemma : forall c D L k (s s' : storage k),
  is_dim D L -> writable c k -> valid c D k s ->
  inverted c (ops c D k) s = Ret s' -> inverted c (ops c D k) s' = Ret s.
Proof.
  intros c D L k s s' HL HW Hv E. pose proof (is_dim_ok _ _ HL) as HD. destruct (valid_repr _ _ _ _ HD Hv) as (l & R).
  destruct (inverted_raw c D k _ _ s l HD HW R) as (s1 & E1 & R1). rewrite E in E1. injection E1 as <-.
  rewrite <- (len_rev l) in R1 at 1. destruct (inverted_raw c D k _ _ s' _ HD HW R1) as (s2 & E2 & R2). rewrite E2. f_equal.
  rewrite len_rev, rev_involutive in R2. eapply raw_inj; [exact HD|exact R2|exact R].
Qed.

(* ---------- C47 ---------- *)
Lemma c47_fixed_default_lemma : forall c D L t, is_dim D L ->
  valid c D (KFixed t) fixed_default
  /\ shows (fixed_ops c D t) fixed_default (repeat (cell_zero D) (N.to_nat (BITS c t / dim D))).
Proof.
  intros c D L t HL. pose proof (is_dim_ok _ _ HL) as HD. pose proof (canon_repr _ _ _ _ _ (fixed_default_canon c D t HD)) as R.
  split; [eapply repr_valid; eassumption|]. apply (repr_shows c D (KFixed t)); assumption.
Qed.
Lemma c47_static_default_lemma : forall c D L t, is_dim D L ->
  valid c D (KStatic t) static_default /\ shows (static_ops c D t) static_default [].
Proof.
  intros c D L t HL. pose proof (is_dim_ok _ _ HL) as HD.
  pose proof (canon_repr _ _ _ _ _ (static_zero_canon c D t 0 HD ltac:(lia))) as R.
  split; [eapply (repr_valid c D (KStatic t)); eassumption|]. apply (repr_shows c D (KStatic t)); assumption.
Qed.
Lemma c47_dynamic_default_lemma : forall c D L, is_dim D L ->
  valid c D KDynamic dynamic_default /\ shows (dynamic_ops c D) dynamic_default [].
Proof.
  intros c D L HL. pose proof (is_dim_ok _ _ HL) as HD. pose proof (canon_repr _ _ _ _ _ (canon_dynamic_default c D L HL)) as R.
  split; [eapply repr_valid; eassumption|]. apply (repr_shows c D KDynamic); assumption.
Qed.
Lemma c47_static_zeroed_lemma : forall c D L t d, is_dim D L -> d < 2 ^ 8 ->
  (static_zeroed c D t d = None <-> BITS c t / dim D < d)
  /\ forall s, static_zeroed c D t d = Some s ->
       valid c D (KStatic t) s /\ shows (static_ops c D t) s (repeat (cell_zero D) (N.to_nat d)).
Proof.
  intros c D L t d HL Hd. pose proof (is_dim_ok _ _ HL) as HD. rewrite static_zeroed_ok by assumption. unfold MAX_LEVELS.
  destruct (N.leb_spec d (BITS c t / dim D)) as [H|H].
  - split; [split; [discriminate|lia]|]. intros s E. injection E as <-.
    pose proof (canon_repr _ _ _ _ _ (static_zero_canon c D t d HD H)) as R.
    split; [eapply (repr_valid c D (KStatic t)); eassumption|]. apply (repr_shows c D (KStatic t)); assumption.
  - split; [split; auto|]. discriminate.
Qed.
Lemma c47_dynamic_zeroed_2d_lemma : forall c d, 2 * d + 24 <= 2 ^ usize_bits c ->
  valid c Dim2D KDynamic (dynamic_zeroed_2d d)
  /\ shows (dynamic_ops c Dim2D) (dynamic_zeroed_2d d) (repeat (cell_zero Dim2D) (N.to_nat d)).
Proof.
  intros c d H. pose proof (dynamic_zeroed_2d_raw c d H) as R.
  assert (E : len (repeat (cell_zero Dim2D) (N.to_nat d)) = d) by (rewrite len_repeat, N2Nat.id; reflexivity).
  rewrite <- E in R at 1. apply raw_repr in R.
  split; [eapply (repr_valid c Dim2D KDynamic); [apply dim2_ok|exact R]|]. apply (repr_shows c Dim2D KDynamic); [apply dim2_ok|exact R].
Qed.
Lemma c47_dynamic_zeroed_3d_lemma : forall c d, 3 * d + 24 <= 2 ^ usize_bits c ->
  exists s, dynamic_zeroed_3d c d = Ret s /\ valid c Dim3D KDynamic s
    /\ shows (dynamic_ops c Dim3D) s (repeat (cell_zero Dim3D) (N.to_nat d)).
Proof.
  intros c d H. destruct (dynamic_zeroed_3d_ok c d H) as (s & E & R). apply canon_repr in R. exists s. split; [exact E|].
  split; [eapply (repr_valid c Dim3D KDynamic); [apply dim3_ok|exact R]|]. apply (repr_shows c Dim3D KDynamic); [apply dim3_ok|exact R].
Qed.
