(* FactsLimits.v - proofs of the theorems stated in PropLimits.v *)
From Verif Require Import Base ModelNumber ModelDim ModelStorage Model2D Model3D Spec History BitProofs NumberProofs VecProofs CellProofs StorageProofs OrderProofs ConvProofs Grid3DProofs HistoryProofs FactsCells FactsOrder.

(* ---------- C36 ---------- *)
Lemma stored_not_16 c D (l : list (cell D)) : target_endian c = BigEndian -> usize_bits c <> 16 ->
  map (stored c D KDynamic) l = repeat (cell_zero D) (List.length l).
Proof.
  intros HE H. induction l as [|x l IH]; [reflexivity|]. cbn [map List.length repeat]. rewrite IH. unfold stored. rewrite HE.
  destruct (N.eqb_spec (usize_bits c) 16); [contradiction|reflexivity].
Qed.
Lemma canon_facts c D k (s : storage k) l : dim_ok D -> canon c D k s l -> valid c D k s /\ shows (ops c D k) s l.
Proof. intros HD H. apply canon_repr in H. split; [eapply repr_valid; eassumption|eapply repr_shows; eassumption]. Qed.
Lemma c36_try_from_16_bit_lemma : forall c D L cells, is_dim D L -> target_endian c = BigEndian -> usize_bits c = 16 ->
  dim D * len cells + 8 <= 2 ^ usize_bits c ->
  exists s, dynamic_try_from c D L cells = Ret (Ok s) /\ valid c D KDynamic s /\ shows (dynamic_ops c D) s cells.
Proof.
  intros c D L cells HL HE HW H. destruct (dynamic_try_from_w c D L cells HL H) as (s & E & C).
  rewrite map_stored in C by (right; assumption). exists s. split; [exact E|]. exact (canon_facts c D KDynamic s cells (is_dim_ok D L HL) C).
Qed.
Lemma c36_try_from_writes_zero_lemma : forall c D L cells, is_dim D L -> target_endian c = BigEndian -> usize_bits c <> 16 ->
  dim D * len cells + 8 <= 2 ^ usize_bits c ->
  exists s, dynamic_try_from c D L cells = Ret (Ok s) /\ valid c D KDynamic s
    /\ shows (dynamic_ops c D) s (repeat (cell_zero D) (List.length cells)).
Proof.
  intros c D L cells HL HE HW H. destruct (dynamic_try_from_w c D L cells HL H) as (s & E & C).
  rewrite stored_not_16 in C by assumption. exists s. split; [exact E|].
  exact (canon_facts c D KDynamic s _ (is_dim_ok D L HL) C).
Qed.
Lemma c36_reads_back_partial_lemma : forall c D L cells, is_dim D L -> target_endian c = BigEndian ->
  dim D * len cells + 8 <= 2 ^ usize_bits c ->
  exists s, dynamic_try_from c D L cells = Ret (Ok s)
    /\ (shows (dynamic_ops c D) s cells <-> usize_bits c = 16 \/ cells = repeat (cell_zero D) (List.length cells)).
Proof.
  intros c D L cells HL HE H. pose proof (is_dim_ok D L HL) as HD.
  destruct (N.eq_dec (usize_bits c) 16) as [HW|HW].
  - destruct (c36_try_from_16_bit_lemma c D L cells HL HE HW H) as (s & E & _ & S).
    exists s. split; [exact E|]. split; [auto|intros _; exact S].
  - destruct (c36_try_from_writes_zero_lemma c D L cells HL HE HW H) as (s & E & V & S).
    exists s. split; [exact E|]. split.
    + intro S'. right. destruct (c01_every_index_shows_one_path_lemma c D L KDynamic s HL V) as (l & _ & U).
      rewrite (U _ S') at 1. rewrite <- (U _ S). reflexivity.
    + intros [X|X]; [contradiction|]. rewrite X. exact S.
Qed.
Lemma c36_reads_back_refuted_lemma :
  ~ (forall c D L cells, is_dim D L -> target_endian c = BigEndian -> dim D * len cells + 8 <= 2 ^ usize_bits c ->
     exists s, dynamic_try_from c D L cells = Ret (Ok s) /\ shows (dynamic_ops c D) s cells).
Proof.
  intro H. destruct (H (Cfg true PW64 BigEndian) Dim2D layout2D [Q1; Q2; Q3] is_dim2 eq_refl) as (s & E & [_ S]).
  { vm_compute. discriminate. }
  assert (X : s = MkDynamic [0] 3).
  { assert (Y : dynamic_try_from (Cfg true PW64 BigEndian) Dim2D layout2D [Q1; Q2; Q3] = Ret (Ok (MkDynamic [0] 3)))
      by (vm_compute; reflexivity). congruence. }
  subst s. specialize (S 0). vm_compute in S. discriminate S.
Qed.
Lemma c36_set_cell_lemma : forall c D L s l i x, is_dim D L -> target_endian c = BigEndian ->
  valid c D KDynamic s -> shows (dynamic_ops c D) s l -> i < len l ->
  exists s', set_cell_at_level (dynamic_ops c D) s i x = Ret s' /\ valid c D KDynamic s'
    /\ shows (dynamic_ops c D) s'
         (firstn (N.to_nat i) l ++ (if usize_bits c =? 16 then x else cell_zero D) :: skipn (N.to_nat i + 1) l).
Proof.
  intros c D L s l i x HL HE V S Hi. pose proof (is_dim_ok D L HL) as HD.
  pose proof (valid_shows c D KDynamic s l HD V S) as R.
  destruct (raw_set_w c D KDynamic _ _ _ s l i x HD R Hi) as (s' & E & R').
  assert (Hl : len (update l (N.to_nat i) (stored c D KDynamic x)) = len l) by apply len_update.
  rewrite <- Hl in R' at 1. apply raw_repr in R'.
  exists s'. split; [|split; [eapply repr_valid; eassumption|]].
  - change (set_cell_at_level (ops c D KDynamic) s i x = Ret s').
    unfold set_cell_at_level. rewrite (raw_depth _ _ _ _ _ _ _ _ R).
    destruct (N.leb_spec (len l) i); [lia|]. exact E.
  - rewrite update_firstn_skipn in R' by (unfold len in Hi; lia). unfold stored in R'. rewrite HE in R'. exact (repr_shows c D KDynamic s' _ HD R').
Qed.


(* the other operations that write: on 32-bit and 64-bit big-endian targets every cell they write is Zero *)
Lemma c36_descendant_lemma : forall c D L s l cells, is_dim D L -> target_endian c = BigEndian ->
  valid c D KDynamic s -> shows (dynamic_ops c D) s l ->
  8 * len (dy_bits s) + dim D * len cells + 16 <= 2 ^ usize_bits c ->
  exists s', descendant (dynamic_vops c D L) s cells = Ret (Some s') /\ valid c D KDynamic s'
    /\ shows (dynamic_ops c D) s' (l ++ if usize_bits c =? 16 then cells else repeat (cell_zero D) (List.length cells)).
Proof.
  intros c D L s l cells HL HE V S Hc. pose proof (is_dim_ok D L HL) as HD.
  pose proof (valid_shows c D KDynamic s l HD V S) as R.
  destruct (dynamic_descendant_w c D L s l cells HL) as (s' & E & R' & _).
  - destruct (nbytes_fit D (len l + len cells)) as [F1 F2]. destruct (nbytes_fit D (len l)) as [G1 G2].
    clear - Hc F1 F2 G1 G2. lia.
  - exact R.
  - exists s'. split; [exact E|]. split; [eapply repr_valid; eassumption|].
    apply (repr_shows c D KDynamic s' _ HD) in R'. destruct (N.eqb_spec (usize_bits c) 16) as [W|W].
    + rewrite map_stored in R' by (right; exact W). exact R'.
    + rewrite stored_not_16 in R' by assumption. exact R'.
Qed.
Lemma c36_inverted_lemma : forall c D L s l, is_dim D L -> target_endian c = BigEndian ->
  valid c D KDynamic s -> shows (dynamic_ops c D) s l ->
  exists s', inverted c (dynamic_ops c D) s = Ret s' /\ valid c D KDynamic s'
    /\ shows (dynamic_ops c D) s' (if usize_bits c =? 16 then rev l else repeat (cell_zero D) (List.length l)).
Proof.
  intros c D L s l HL HE V S. pose proof (is_dim_ok D L HL) as HD.
  pose proof (valid_shows c D KDynamic s l HD V S) as R.
  destruct (inverted_raw_w c D KDynamic _ _ s l HD R) as (s' & E & R').
  exists s'. split; [exact E|].
  assert (Hl : len (rev (map (stored c D KDynamic) l)) = len l) by (rewrite len_rev, len_map; reflexivity).
  rewrite <- Hl in R' at 1. apply raw_repr in R'. split; [eapply repr_valid; eassumption|].
  apply (repr_shows c D KDynamic s' _ HD) in R'. destruct (N.eqb_spec (usize_bits c) 16) as [W|W].
  - rewrite map_stored in R' by (right; exact W). exact R'.
  - rewrite stored_not_16 in R' by assumption.
    replace (rev (repeat (cell_zero D) (List.length l))) with (repeat (cell_zero D) (List.length l)) in R'; [exact R'|].
    clear. induction (List.length l) as [|n IH]; [reflexivity|]. cbn [repeat rev]. rewrite <- IH. apply repeat_cons.
Qed.
Lemma c36_from_static_lemma : forall c D L t (s : storage (KStatic t)) l, is_dim D L -> target_endian c = BigEndian ->
  valid c D (KStatic t) s -> shows (static_ops c D t) s l ->
  exists s', dynamic_from_static c D L t s = Ret s' /\ valid c D KDynamic s'
    /\ shows (dynamic_ops c D) s' (if usize_bits c =? 16 then l else repeat (cell_zero D) (List.length l)).
Proof.
  intros c D L t s l HL HE V S. pose proof (is_dim_ok D L HL) as HD.
  pose proof (valid_shows c D (KStatic t) s l HD V S) as R.
  destruct (dynamic_from_static_w c D L t s l HL R) as (s' & E & C).
  exists s'. split; [exact E|]. destruct (N.eqb_spec (usize_bits c) 16) as [W|W].
  - rewrite map_stored in C by (right; exact W). exact (canon_facts c D KDynamic s' _ HD C).
  - rewrite stored_not_16 in C by assumption. exact (canon_facts c D KDynamic s' _ HD C).
Qed.
Lemma c36_from_grid_index_3d_lemma : forall c x y z d o, target_endian c = BigEndian -> usize_bits c <> 16 ->
  d <= usize_bits c / 2 -> x < 2 ^ usize_bits c -> y < 2 ^ usize_bits c -> z < 2 ^ usize_bits c ->
  exists s, dynamic_from_grid_index_3d c x y z d o = Ret s /\ valid c Dim3D KDynamic s
    /\ shows (dynamic_ops c Dim3D) s (repeat O0 (N.to_nat d)).
Proof.
  intros c x y z d o HE W Hd Hx Hy Hz.
  destruct (dynamic_from_grid_3d_w c x y z d o Hd Hx Hy Hz) as (s & l & E & C & P).
  exists s. split; [exact E|]. rewrite stored_not_16 in C by assumption.
  replace (N.to_nat d) with (@List.length (cell Dim3D) l).
  - exact (canon_facts c Dim3D KDynamic s _ dim3_ok C).
  - destruct P as [Pl _]. unfold len in Pl. change (cell Dim3D) with octant. lia.
Qed.

(* ---------- C43 ---------- *)
(* a raw index equals the index made from its cells exactly when the bits behind the path are zero *)
Lemma c43_static_raw_equality_partial_lemma : forall c t b d, b < 2 ^ BITS c t -> d <= BITS c t / 3 ->
  exists l s, shows (static_ops c Dim3D t) (static_from_raw_index b d) l
    /\ static_try_from c Dim3D t l = Ret (Ok s)
    /\ (idx_eq (KStatic t) (static_from_raw_index b d) s = true <-> b mod 2 ^ (BITS c t - 3 * d) = 0).
Proof.
  intros c t b d Hb Hd.
  assert (V : valid c Dim3D (KStatic t) (static_from_raw_index b d)) by (split; assumption).
  destruct (valid_repr c Dim3D (KStatic t) _ dim3_ok V) as (l & R).
  pose proof (repr_shows _ _ _ _ _ dim3_ok R) as S.
  assert (Hl : len l = d) by (symmetry; exact (proj1 S)).
  destruct (static_try_from_ok c Dim3D t l dim3_ok) as (s & E & C).
  { rewrite Hl. exact Hd. }
  exists l, s. split; [exact S|]. split; [exact E|].
  assert (Hr : rest Dim3D (BITS c t) b (len l) = b mod 2 ^ (BITS c t - 3 * d)).
  { rewrite Hl. unfold rest. reflexivity. }
  rewrite <- Hr. split.
  - intro Q. cbn [idx_eq] in Q. unfold static_eq in Q. apply andb_prop in Q. destruct Q as [Q1 Q2].
    apply N.eqb_eq in Q1, Q2. cbn [static_from_raw_index sx_bits sx_depth] in Q1, Q2.
    pose proof (raw_rest _ _ _ _ _ _ _ _ C) as C'. cbn [num] in C'. rewrite <- Q1 in C'. exact C'.
  - intro Z. assert (C2 : canon c Dim3D (KStatic t) (static_from_raw_index b d) l).
    { destruct R as [A B C0 D0 F]. constructor; try assumption. }
    rewrite (canon_unique c Dim3D (KStatic t) _ s l dim3_ok C2 C). cbn [idx_eq]. unfold static_eq.
    rewrite !N.eqb_refl. reflexivity.
Qed.
Lemma c43_fixed_raw_equality_partial_lemma : forall c t b, b < 2 ^ BITS c t ->
  exists l s, shows (fixed_ops c Dim3D t) (fixed_from_raw_index b) l
    /\ fixed_try_from c Dim3D t l = Ret (Ok s)
    /\ (idx_eq (KFixed t) (fixed_from_raw_index b) s = true <-> b mod 2 ^ (BITS c t mod 3) = 0).
Proof.
  intros c t b Hb.
  assert (V : valid c Dim3D (KFixed t) (fixed_from_raw_index b)) by exact Hb.
  destruct (valid_repr c Dim3D (KFixed t) _ dim3_ok V) as (l & R).
  pose proof (repr_shows _ _ _ _ _ dim3_ok R) as S.
  assert (Hl : len l = MAX_LEVELS c Dim3D t) by (symmetry; exact (proj1 S)).
  destruct (fixed_try_from_ok c Dim3D t l dim3_ok) as (s & E & C).
  { rewrite Hl. apply N.le_refl. }
  rewrite Hl, N.sub_diag in C. cbn [N.to_nat repeat] in C. rewrite app_nil_r in C.
  exists l, s. split; [exact S|]. split; [exact E|].
  assert (Hr : rest Dim3D (BITS c t) b (len l) = b mod 2 ^ (BITS c t mod 3)).
  { rewrite Hl. unfold rest. f_equal. f_equal. unfold MAX_LEVELS. cbn [dim Dim3D].
    pose proof (N.div_mod (BITS c t) 3 ltac:(discriminate)) as X. lia. }
  rewrite <- Hr. split.
  - intro Q. cbn [idx_eq] in Q. unfold fixed_eq in Q. apply N.eqb_eq in Q. cbn [fixed_from_raw_index fx_bits] in Q.
    pose proof (raw_rest _ _ _ _ _ _ _ _ C) as C'. cbn [num] in C'. rewrite <- Q in C'. exact C'.
  - intro Z. assert (C2 : canon c Dim3D (KFixed t) (fixed_from_raw_index b) l).
    { destruct R as [A B C0 D0 F]. constructor; try assumption. }
    rewrite (canon_unique c Dim3D (KFixed t) _ s l dim3_ok C2 C). cbn [idx_eq]. unfold fixed_eq.
    apply N.eqb_refl.
Qed.
Lemma c43_raw_cmp_returns_lemma : forall c t b d b' d',
  b < 2 ^ BITS c t -> d <= BITS c t / 3 -> b' < 2 ^ BITS c t -> d' <= BITS c t / 3 ->
  exists l l', shows (static_ops c Dim3D t) (static_from_raw_index b d) l
    /\ shows (static_ops c Dim3D t) (static_from_raw_index b' d') l'
    /\ static_cmp c Dim3D t (static_from_raw_index b d) (static_from_raw_index b' d') = Ret (path_cmp l l').
Proof.
  intros c t b d b' d' Hb Hd Hb' Hd'.
  assert (V : valid c Dim3D (KStatic t) (static_from_raw_index b d)) by (split; assumption).
  assert (V' : valid c Dim3D (KStatic t) (static_from_raw_index b' d')) by (split; assumption).
  destruct (valid_repr c Dim3D (KStatic t) _ dim3_ok V) as (l & R).
  destruct (valid_repr c Dim3D (KStatic t) _ dim3_ok V') as (l' & R').
  pose proof (repr_shows _ _ _ _ _ dim3_ok R) as S. pose proof (repr_shows _ _ _ _ _ dim3_ok R') as S'.
  exists l, l'. split; [exact S|]. split; [exact S'|].
  apply (c18_cmp_is_preorder_lemma c Dim3D layout3D (KStatic t) _ _ l l' is_dim3); try assumption.
  intros t' X. discriminate X.
Qed.
Lemma c43_too_deep_cmp_panics_lemma : forall c t b d b' d', overflow_checks c = true -> d < 2 ^ 8 -> d' < 2 ^ 8 ->
  BITS c t / 3 < d \/ BITS c t / 3 < d' ->
  static_cmp c Dim3D t (static_from_raw_index b d) (static_from_raw_index b' d') = Panic.
Proof.
  intros c t b d b' d' Ho Hd Hd' H. unfold static_cmp. cbn zeta. cbn [static_from_raw_index sx_bits sx_depth dim Dim3D].
  assert (W : 2 ^ 16 <= 2 ^ usize_bits c) by (apply N.pow_le_mono_r; [discriminate|]; unfold usize_bits; destruct (pointer c); discriminate).
  change (2 ^ 16) with 65536 in W. change (2 ^ 8) with 256 in Hd, Hd'.
  rewrite mul_ok by lia. cbn [bind].
  assert (K : forall x, BITS c t / 3 < x -> sub c (usize_bits c) (BITS c t) (x * 3) = Panic).
  { intros x Hx. unfold sub. rewrite Ho. rewrite (proj2 (N.leb_gt _ _)); [reflexivity|].
    pose proof (N.div_mod (BITS c t) 3 ltac:(discriminate)). pose proof (N.mod_lt (BITS c t) 3 ltac:(discriminate)). lia. }
  destruct (N.lt_ge_cases (BITS c t / 3) d) as [G|G]; [rewrite K by exact G; reflexivity|].
  destruct H as [H|H]; [lia|].
  unfold sub at 1. destruct (d * 3 <=? BITS c t); [|rewrite Ho; reflexivity]. cbn [bind].
  rewrite mul_ok by lia. cbn [bind]. rewrite K by exact H. reflexivity.
Qed.
Lemma c43_raw_equality_refuted_lemma :
  ~ (forall c t b d b' d' l, b < 2 ^ BITS c t -> d < 2 ^ 8 -> b' < 2 ^ BITS c t -> d' < 2 ^ 8 ->
     shows (static_ops c Dim3D t) (static_from_raw_index b d) l -> shows (static_ops c Dim3D t) (static_from_raw_index b' d') l ->
     idx_eq (KStatic t) (static_from_raw_index b d) (static_from_raw_index b' d') = true)
  /\ ~ (forall c t b b' l, b < 2 ^ BITS c t -> b' < 2 ^ BITS c t ->
     shows (fixed_ops c Dim3D t) (fixed_from_raw_index b) l -> shows (fixed_ops c Dim3D t) (fixed_from_raw_index b') l ->
     idx_eq (KFixed t) (fixed_from_raw_index b) (fixed_from_raw_index b') = true).
Proof.
  split; intro H.
  - specialize (H (Cfg true PW64 LittleEndian) U8 0x20 1 0x21 1 [O1] eq_refl eq_refl eq_refl eq_refl).
    assert (S : forall b, b = 0x20 \/ b = 0x21 -> shows (static_ops (Cfg true PW64 LittleEndian) Dim3D U8) (static_from_raw_index b 1) [O1]).
    { intros b Hb. split; [reflexivity|]. intro k. destruct Hb as [Hb|Hb]; subst b;
        (destruct k as [|p]; [vm_compute; reflexivity|]; destruct p; unfold get_cell_at_level; cbn [st_depth static_ops static_from_raw_index sx_depth];
         rewrite (proj2 (N.leb_le _ _)) by lia; rewrite (proj2 (nth_error_None _ _)) by (cbn [List.length]; lia); reflexivity). }
    specialize (H (S _ (or_introl eq_refl)) (S _ (or_intror eq_refl))). vm_compute in H. discriminate H.
  - specialize (H (Cfg true PW64 LittleEndian) U8 0x20 0x21 [O1; O0] eq_refl eq_refl).
    assert (S : forall b, b = 0x20 \/ b = 0x21 -> shows (fixed_ops (Cfg true PW64 LittleEndian) Dim3D U8) (fixed_from_raw_index b) [O1; O0]).
    { intros b Hb. split; [reflexivity|]. intro k. destruct Hb as [Hb|Hb]; subst b;
        (destruct (N.lt_ge_cases k 2) as [K|K];
         [assert (K' : k = 0 \/ k = 1) by lia; destruct K' as [K'|K']; subst k; vm_compute; reflexivity|];
         unfold get_cell_at_level; change (st_depth _ _) with 2;
         rewrite (proj2 (N.leb_le _ _)) by lia; rewrite (proj2 (nth_error_None _ _)) by (cbn [List.length]; lia); reflexivity). }
    specialize (H (S _ (or_introl eq_refl)) (S _ (or_intror eq_refl))). vm_compute in H. discriminate H.
Qed.

(* ---------- C46 ---------- *)
Lemma c46_capacity_partial_lemma : forall c D L cells, is_dim D L -> overflow_checks c = true ->
  ((exists s, dynamic_try_from c D L cells = Ret (Ok s)) <-> dim D * len cells + 8 <= 2 ^ usize_bits c)
  /\ (2 ^ usize_bits c < dim D * len cells + 8 -> dynamic_try_from c D L cells = Panic).
Proof.
  intros c D L cells HL Ho.
  assert (P : 2 ^ usize_bits c < dim D * len cells + 8 -> dynamic_try_from c D L cells = Panic).
  { intro H. unfold dynamic_try_from. destruct HL; cbn [dl_num_bytes layout2D layout3D dim Dim2D Dim3D] in *.
    - unfold add. destruct (N.ltb_spec (len cells + 3) (2 ^ usize_bits c)) as [A|A]; [|rewrite Ho; reflexivity].
      cbn [bind]. assert (X : exists m, 2 ^ usize_bits c = 8 * m).
      { unfold usize_bits. destruct (pointer c); [exists (2 ^ 13)|exists (2 ^ 29)|exists (2 ^ 61)]; reflexivity. }
      destruct X as (m & X). assert (B : m <= (len cells + 3) / 4).
      { apply N.div_le_lower_bound; [discriminate|]. lia. }
      assert (B0 : 2 ^ 16 <= 2 ^ usize_bits c) by (apply N.pow_le_mono_r; [discriminate|]; unfold usize_bits; destruct (pointer c); discriminate).
      change (2 ^ 16) with 65536 in B0.
      destruct cells as [|x cells]; [exfalso; cbn in H; lia|].
      unfold set_cells, enumerate. cbn [enum_from foldM fst snd].
      replace (st_set (dynamic_ops c Dim2D) _ 0 x) with (@Panic dynamic_storage); [reflexivity|].
      cbn [st_set dynamic_ops dy_bits]. unfold dynamic_set_cell. cbn zeta. unfold vec_size.
      replace (len (zeros ((len (x :: cells) + 3) / 4))) with ((len (x :: cells) + 3) / 4)
        by (unfold zeros; rewrite len_repeat; lia).
      unfold mul at 1. rewrite Ho. rewrite (proj2 (N.ltb_ge _ _)) by lia. reflexivity.
    - unfold mul. destruct (N.ltb_spec (len cells * 3) (2 ^ usize_bits c)) as [A|A]; [|rewrite Ho; reflexivity].
      cbn [bind]. unfold add at 1. rewrite (proj2 (N.ltb_ge _ _)) by lia. rewrite Ho. reflexivity. }
  split; [|exact P]. split.
  - intros (s & E). destruct (N.le_gt_cases (dim D * len cells + 8) (2 ^ usize_bits c)) as [G|G]; [exact G|].
    rewrite (P G) in E. discriminate E.
  - intro G. exact (c03_dynamic_try_from_never_fails_lemma c D L cells HL G).
Qed.
Lemma c46_too_many_bytes_partial_lemma : forall c D L s, is_dim D L -> overflow_checks c = true ->
  2 ^ usize_bits c <= 8 * len (dy_bits s) ->
  (forall i, get_cell_at_level (dynamic_ops c D) s i = Panic) /\ (forall i x, set_cell_at_level (dynamic_ops c D) s i x = Panic).
Proof.
  intros c D L s HL Ho H. unfold get_cell_at_level, set_cell_at_level. cbn [st_depth st_get st_set dynamic_ops].
  split; intros; (destruct (dy_depth s <=? i); [reflexivity|]); [unfold dynamic_get_cell|unfold dynamic_set_cell]; cbn zeta;
    unfold vec_size; unfold mul at 1; rewrite (proj2 (N.ltb_ge _ _)) by lia; rewrite Ho; reflexivity.
Qed.
Lemma c46_unlimited_depth_refuted_lemma :
  ~ (forall c D L cells, is_dim D L -> target_endian c = LittleEndian -> exists s, dynamic_try_from c D L cells = Ret (Ok s))
  /\ ~ (forall c d, d < 2 ^ usize_bits c -> exists s, dynamic_zeroed_3d c d = Ret s)
  /\ ~ (forall c d, 0 < d -> d < 2 ^ usize_bits c -> exists x, get_cell_at_level (dynamic_ops c Dim2D) (dynamic_zeroed_2d d) 0 = Ret x).
Proof.
  split; [|split]; intro H.
  - destruct (H (Cfg true PW16 LittleEndian) Dim2D layout2D (repeat Q1 (N.to_nat 32765)) is_dim2 eq_refl) as (s & E).
    rewrite (proj2 (c46_capacity_partial_lemma (Cfg true PW16 LittleEndian) Dim2D layout2D _ is_dim2 eq_refl)) in E; [discriminate E|].
    rewrite len_repeat, N2Nat.id. vm_compute. reflexivity.
  - destruct (H (Cfg true PW64 LittleEndian) (2 ^ 64 - 1) eq_refl) as (s & E). vm_compute in E. discriminate E.
  - destruct (H (Cfg true PW64 LittleEndian) (2 ^ 64 - 1) eq_refl eq_refl) as (x & E).
    rewrite (proj1 (c46_too_many_bytes_partial_lemma (Cfg true PW64 LittleEndian) Dim2D layout2D (dynamic_zeroed_2d (2 ^ 64 - 1)) is_dim2 eq_refl
      ltac:(cbn [dynamic_zeroed_2d dy_bits]; unfold zeros; rewrite len_repeat, N2Nat.id; vm_compute; discriminate))) in E. discriminate E.
Qed.
