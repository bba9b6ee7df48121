(* StorageProofs.v - construction, navigation and conversion of indices as operations on lists of cells *)
From Verif Require Import Base ModelNumber ModelDim ModelStorage Spec BitProofs NumberProofs VecProofs CellProofs.

Lemma len_repeat {A} (x : A) n : len (repeat x n) = N.of_nat n.
Proof. unfold len. rewrite repeat_length. reflexivity. Qed.
Lemma len_firstn {A} (l : list A) n : n <= len l -> len (firstn (N.to_nat n) l) = n.
Proof. unfold len. intros H. rewrite firstn_length. lia. Qed.
Lemma to_nat_len {A} (l : list A) : N.to_nat (len l) = List.length l.
Proof. unfold len. lia. Qed.

Lemma skipn_skipn {A} x y (l : list A) : skipn x (skipn y l) = skipn (x + y) l.
Proof.
  revert l; induction y as [|y IH]; intro l; [rewrite Nat.add_0_r; reflexivity|].
  replace (x + S y)%nat with (S (x + y)) by lia. destruct l as [|z l]; [destruct x; reflexivity|]. cbn [skipn]. apply IH.
Qed.

Lemma firstn_plus {A} a b (l : list A) : firstn (a + b) l = firstn a l ++ firstn b (skipn a l).
Proof.
  revert l; induction a as [|a IH]; intro l; [reflexivity|]. destruct l as [|z l]; cbn; [destruct b; reflexivity|].
  f_equal; apply IH.
Qed.

Lemma skipn_length_app {A} (a b : list A) : skipn (List.length a) (a ++ b) = b.
Proof. induction a; cbn; auto. Qed.

(* ---------- loops that write consecutive levels ---------- *)
Lemma raw_set_cells_from_w c D k n w r s a b cells : dim_ok D ->
  raw c D k n w r s (a ++ b) -> len b = len cells ->
  exists s', set_cells_from c (ops c D k) (len a) s cells = Ret s' /\ raw c D k n w r s' (a ++ map (stored c D k) cells).
Proof.
  intros HD H Hb. pose proof (sane_width c k s (raw_sane _ _ _ _ _ _ _ _ H)) as Hws.
  rewrite (raw_width _ _ _ _ _ _ _ _ H) in Hws. pose proof (raw_holds _ _ _ _ _ _ _ _ H) as (_ & Hl & _).
  rewrite len_app in Hl. pose proof (dim_ge D HD) as Hd.
  assert (Hlen : len a + len b <= w) by nia.
  unfold set_cells_from.
  destruct (foldM_enum_inv (fun i s1 => raw c D k n w r s1 (a ++ map (stored c D k) (firstn (N.to_nat i) cells) ++ skipn (N.to_nat i) b))
    (fun r lc => let! level := add c (usize_bits c) (len a) (fst lc) in st_set (ops c D k) r level (snd lc)) cells s)
    as (s' & E & H').
  - exact H.
  - intros i x s1 Hx H1. pose proof (nth_error_len _ _ _ Hx) as Hi. cbn [fst snd].
    rewrite add_ok by lia. cbn [bind].
    destruct (raw_set_w c D k n w r s1 _ (len a + N.of_nat i) x HD H1) as (s2 & E2 & H2).
    + rewrite !len_app, len_map. unfold len in *. rewrite skipn_length, firstn_length. lia.
    + exists s2. split; [exact E2|]. revert H2.
      replace (N.to_nat (len a + N.of_nat i)) with (List.length (a ++ map (stored c D k) (firstn i cells)))
        by (rewrite app_length, map_length, firstn_length; unfold len in *; lia).
      rewrite Nat2N.id. rewrite app_assoc.
      destruct (skipn i b) as [|y r'] eqn:Er.
      { exfalso. assert (List.length (skipn i b) = O) by (rewrite Er; reflexivity). rewrite skipn_length in *.
        unfold len in *; lia. }
      rewrite update_app_last. intros H2.
      replace (N.to_nat (N.of_nat i + 1)) with (S i) by lia.
      replace (skipn (S i) b) with r'.
      2:{ change (S i) with (1 + i)%nat. rewrite <- skipn_skipn, Er. reflexivity. }
      apply nth_error_split in Hx. destruct Hx as (p & q & Ec & Ep). subst cells i.
      rewrite firstn_app, firstn_all, Nat.sub_diag in H2. cbn [firstn] in H2. rewrite app_nil_r in H2.
      replace (firstn (S (List.length p)) (p ++ x :: q)) with (p ++ [x]).
      2:{ rewrite firstn_app. rewrite firstn_all2 by lia. replace (S (List.length p) - List.length p)%nat with 1%nat by lia.
          reflexivity. }
      rewrite map_app. cbn [map]. rewrite <- !app_assoc in *. exact H2.
  - exists s'. split; [exact E|]. rewrite to_nat_len in H'. rewrite firstn_all in H'.
    rewrite skipn_all2 in H' by (unfold len in Hb; lia). rewrite app_nil_r in H'. exact H'.
Qed.
Lemma raw_set_cells_from c D k n w r s a b cells : dim_ok D -> writable c k ->
  raw c D k n w r s (a ++ b) -> len b = len cells ->
  exists s', set_cells_from c (ops c D k) (len a) s cells = Ret s' /\ raw c D k n w r s' (a ++ cells).
Proof.
  intros HD HW H Hb. pose proof (raw_set_cells_from_w c D k n w r s a b cells HD H Hb) as Q. rewrite (map_stored c D k cells HW) in Q. exact Q.
Qed.

Lemma raw_set_cells_w c D k n w r s b cells : dim_ok D ->
  raw c D k n w r s b -> len b = len cells ->
  exists s', set_cells (ops c D k) s cells = Ret s' /\ raw c D k n w r s' (map (stored c D k) cells).
Proof.
  intros HD H Hb.
  destruct (raw_set_cells_from_w c D k n w r s [] b cells HD H Hb) as (s' & E & H').
  exists s'. split; [|exact H']. rewrite <- E. unfold set_cells, set_cells_from.
  assert (G : forall l s0 m, m + len l <= 2 ^ usize_bits c ->
     foldM (fun r lc => st_set (ops c D k) r (fst lc) (snd lc)) (enum_from m l) s0
     = foldM (fun r lc => let! level := add c (usize_bits c) (len (@nil (cell D))) (fst lc) in
                          st_set (ops c D k) r level (snd lc)) (enum_from m l) s0).
  { induction l as [|x l IH]; intros s0 m Hm; cbn [enum_from foldM]; [reflexivity|].
    cbn [fst snd]. change (len (@nil (cell D))) with 0 at 1. rewrite len_cons in Hm. rewrite add_ok by lia. cbn [bind].
    rewrite N.add_0_l. destruct (st_set (ops c D k) s0 m x); cbn [bind]; [|reflexivity|reflexivity].
    apply IH. lia. }
  apply G. pose proof (sane_width c k s (raw_sane _ _ _ _ _ _ _ _ H)) as Hws.
  rewrite (raw_width _ _ _ _ _ _ _ _ H) in Hws. pose proof (raw_holds _ _ _ _ _ _ _ _ H) as (_ & Hl & _).
  pose proof (dim_ge D HD). nia.
Qed.
Lemma raw_set_cells c D k n w r s b cells : dim_ok D -> writable c k ->
  raw c D k n w r s b -> len b = len cells ->
  exists s', set_cells (ops c D k) s cells = Ret s' /\ raw c D k n w r s' cells.
Proof.
  intros HD HW H Hb. pose proof (raw_set_cells_w c D k n w r s b cells HD H Hb) as Q. rewrite (map_stored c D k cells HW) in Q. exact Q.
Qed.

(* all-zero storages *)
Lemma holds_0 D w n : dim_ok D -> dim D * n <= w ->
  holds w 0 (repeat (cell_zero D) (N.to_nat n)) /\ rest D w 0 n = 0.
Proof.
  intros HD Hn. destruct (holds_rest_zero_zeros HD w 0 [] n) as [A B].
  - apply holds_nil. apply pow2_pos.
  - apply N.mod_0_l, pow2_ne0.
  - exact Hn.
  - split; [exact A|exact B].
Qed.
Lemma raw_zero c D k s n : dim_ok D -> sane c k s -> num k s = 0 -> dim D * n <= width c k s ->
  raw c D k (st_depth (ops c D k) s) (width c k s) 0 s (repeat (cell_zero D) (N.to_nat n)).
Proof.
  intros HD Hs Hz Hn. destruct (holds_0 D (width c k s) n HD Hn) as [A B].
  constructor; auto; rewrite Hz.
  - exact A.
  - rewrite len_repeat, N2Nat.id. exact B.
Qed.

(* ---------- changing only the depth ---------- *)
Lemma raw_static_depth c D t n w r s l n' : raw c D (KStatic t) n w r s l ->
  raw c D (KStatic t) n' w r (MkStatic (sx_bits s) n') l.
Proof. intros [A B C E F]. constructor; auto. Qed.

Lemma max_levels_le c D t : dim_ok D -> MAX_LEVELS c D t <= 128.
Proof.
  intros HD. unfold MAX_LEVELS. pose proof (BITS_le c t). pose proof (dim_ge D HD).
  etransitivity; [|exact H]. apply N.div_le_upper_bound; nia.
Qed.
Lemma max_levels_fit c D t n : dim_ok D -> n <= MAX_LEVELS c D t -> dim D * n <= BITS c t.
Proof.
  intros HD Hn. pose proof (dim_ge D HD). unfold MAX_LEVELS in Hn.
  etransitivity; [apply N.mul_le_mono_l; exact Hn|]. apply N.mul_div_le. lia.
Qed.
Lemma max_levels_ge c D t n : dim_ok D -> dim D * n <= BITS c t -> n <= MAX_LEVELS c D t.
Proof. intros HD Hn. pose proof (dim_ge D HD). unfold MAX_LEVELS. apply N.div_le_lower_bound; lia. Qed.

(* ---------- try_from ---------- *)
Lemma fixed_try_from_ok c D t cells : dim_ok D -> len cells <= MAX_LEVELS c D t ->
  exists s, fixed_try_from c D t cells = Ret (Ok s)
    /\ canon c D (KFixed t) s (cells ++ repeat (cell_zero D) (N.to_nat (MAX_LEVELS c D t - len cells))).
Proof.
  intros HD Hc. unfold fixed_try_from. destruct (N.ltb_spec (MAX_LEVELS c D t) (len cells)); [lia|].
  assert (H0 : raw c D (KFixed t) (MAX_LEVELS c D t) (BITS c t) 0 fixed_default (repeat (cell_zero D) (N.to_nat (len cells)))).
  { apply (raw_zero c D (KFixed t) fixed_default); auto.
    - cbn. apply pow2_pos.
    - cbn. apply max_levels_fit; assumption. }
  destruct (raw_set_cells c D (KFixed t) _ _ _ _ _ cells HD I H0) as (s & E & H1).
  { rewrite len_repeat; lia. }
  cbn [ops storage] in E. rewrite E. cbn [bind]. exists s. split; [reflexivity|].
  destruct H1 as [A B C E1 F].
  destruct (holds_rest_zero_zeros HD _ _ _ (MAX_LEVELS c D t - len cells) B F) as [X Y].
  { apply max_levels_fit; [exact HD|lia]. }
  unfold canon. rewrite len_app, len_repeat, N2Nat.id.
  constructor; auto.
  - rewrite C. lia.
  - rewrite len_app, len_repeat, N2Nat.id. exact Y.
Qed.

Lemma static_try_from_ok c D t cells : dim_ok D -> len cells <= MAX_LEVELS c D t ->
  exists s, static_try_from c D t cells = Ret (Ok s) /\ canon c D (KStatic t) s cells.
Proof.
  intros HD Hc. unfold static_try_from. destruct (N.ltb_spec (MAX_LEVELS c D t) (len cells)); [lia|].
  assert (H0 : raw c D (KStatic t) 0 (BITS c t) 0 static_default (repeat (cell_zero D) (N.to_nat (len cells)))).
  { apply (raw_zero c D (KStatic t) static_default); auto.
    - cbn. apply pow2_pos.
    - cbn. apply max_levels_fit; assumption. }
  destruct (raw_set_cells c D (KStatic t) _ _ _ _ _ cells HD I H0) as (s & E & H1).
  { rewrite len_repeat; lia. }
  cbn [ops storage] in E. rewrite E. cbn [bind]. eexists. split; [reflexivity|].
  pose proof (max_levels_le c D t HD). rewrite (cast_small 8) by (change (2 ^ 8) with 256; lia).
  eapply raw_static_depth; exact H1.
Qed.

(* ---------- dynamic layout ---------- *)
Definition nbytes (D : Dimension) (n : N) : N := (dim D * n + 7) / 8.
Lemma layout_num_bytes c D L n : is_dim D L -> dim D * n + 8 <= 2 ^ usize_bits c -> dl_num_bytes L c n = Ret (nbytes D n).
Proof.
  intros [] Hn; cbn in *; unfold nbytes; cbn.
  - rewrite add_ok by lia. cbn [bind]. f_equal. lia.
  - rewrite mul_ok by lia. cbn [bind]. rewrite add_ok by lia. cbn [bind]. f_equal. lia.
Qed.
Lemma nbytes_fit D n : dim D * n <= 8 * nbytes D n /\ 8 * nbytes D n < dim D * n + 8.
Proof. unfold nbytes. lia. Qed.
Lemma nbytes_fit_w c D n : dim D * n + 8 <= 2 ^ usize_bits c -> 8 * nbytes D n + 8 <= 2 ^ usize_bits c.
Proof.
  intros H. unfold nbytes.
  assert (E : exists m, 2 ^ usize_bits c = 8 * m).
  { destruct (usize_bits_cases c) as [-> | [-> | ->]].
    - exists 8192; reflexivity.
    - exists 536870912; reflexivity.
    - exists 2305843009213693952; reflexivity. }
  destruct E as [m E]. rewrite E in *. lia.
Qed.
Lemma nbytes_le D a b : a <= b -> nbytes D a <= nbytes D b.
Proof. intros H. unfold nbytes. apply N.div_le_mono; [lia|]. apply N.add_le_mono_r, N.mul_le_mono_l, H. Qed.

Lemma dynamic_zero_raw c D n m : dim_ok D -> dim D * n <= 8 * m -> 8 * m + 8 <= 2 ^ usize_bits c ->
  raw c D KDynamic n (8 * m) 0 (MkDynamic (zeros m) n) (repeat (cell_zero D) (N.to_nat n)).
Proof.
  intros HD Hn Hw. pose proof (raw_zero c D KDynamic (MkDynamic (zeros m) n) n HD) as H.
  cbn in H. rewrite len_zeros, bytes_value_zeros in H. apply H; auto. split; [apply bytes_ok_zeros|exact Hw].
Qed.

Lemma dynamic_try_from_w c D L cells : is_dim D L ->
  dim D * len cells + 8 <= 2 ^ usize_bits c ->
  exists s, dynamic_try_from c D L cells = Ret (Ok s) /\ canon c D KDynamic s (map (stored c D KDynamic) cells).
Proof.
  intros HL Hc. pose proof (is_dim_ok D L HL) as HD. unfold dynamic_try_from.
  rewrite (layout_num_bytes c D L) by assumption. cbn [bind].
  destruct (nbytes_fit D (len cells)) as [F1 F2].
  pose proof (dynamic_zero_raw c D (len cells) (nbytes D (len cells)) HD F1 (nbytes_fit_w _ _ _ Hc)) as H0.
  destruct (raw_set_cells_w c D KDynamic _ _ _ _ _ cells HD H0) as (s & E & H1).
  { rewrite len_repeat; lia. }
  cbn [ops storage] in E. rewrite E. cbn [bind]. eexists. split; [reflexivity|].
  unfold canon. rewrite len_map. exact H1.
Qed.
Lemma dynamic_try_from_ok c D L cells : is_dim D L -> writable c KDynamic ->
  dim D * len cells + 8 <= 2 ^ usize_bits c ->
  exists s, dynamic_try_from c D L cells = Ret (Ok s) /\ canon c D KDynamic s cells.
Proof.
  intros HD HW H. pose proof (dynamic_try_from_w c D L cells HD H) as Q. rewrite (map_stored c D KDynamic cells HW) in Q. exact Q.
Qed.

(* ---------- ancestor ---------- *)
(* static storage: the levels below are overwritten with zero *)
Lemma raw_zero_levels c D k n w r s l lo : dim_ok D -> raw c D k n w r s l -> lo <= len l ->
  exists s', foldM (fun r level => st_set (ops c D k) r level (cell_zero D)) (range lo (len l)) s = Ret s'
    /\ raw c D k n w r s' (firstn (N.to_nat lo) l ++ repeat (cell_zero D) (N.to_nat (len l - lo))).
Proof.
  intros HD H Hlo.
  destruct (foldM_range_inv (fun i s1 => raw c D k n w r s1
     (firstn (N.to_nat lo) l ++ repeat (cell_zero D) (N.to_nat (i - lo)) ++ skipn (N.to_nat i) l))
    (fun r level => st_set (ops c D k) r level (cell_zero D)) lo (len l) s) as (s' & E & H').
  - exact Hlo.
  - rewrite N.sub_diag. cbn [N.to_nat repeat app]. change (N.to_nat 0) with O. cbn [repeat app].
    rewrite firstn_skipn. exact H.
  - intros i s1 Hi H1.
    destruct (raw_set_w c D k n w r s1 _ i (cell_zero D) HD H1) as (s2 & E2 & H2).
    + rewrite !len_app, len_repeat, len_firstn by lia. unfold len in *. rewrite skipn_length. lia.
    + exists s2. split; [exact E2|]. rewrite stored_zero in H2. revert H2.
      rewrite app_assoc.
      destruct (skipn (N.to_nat i) l) as [|y r'] eqn:Er.
      { exfalso. assert (List.length (skipn (N.to_nat i) l) = O) by (rewrite Er; reflexivity). rewrite skipn_length in *.
        unfold len in *; lia. }
      replace (N.to_nat i) with (List.length (firstn (N.to_nat lo) l ++ repeat (cell_zero D) (N.to_nat (i - lo)))) at 1
        by (rewrite app_length, firstn_length, repeat_length; unfold len in *; lia).
      rewrite update_app_last. intros H2.
      replace (N.to_nat (i + 1 - lo)) with (N.to_nat (i - lo) + 1)%nat by lia.
      replace (skipn (N.to_nat (i + 1)) l) with r'.
      2:{ replace (N.to_nat (i + 1)) with (1 + N.to_nat i)%nat by lia. rewrite <- skipn_skipn, Er. reflexivity. }
      rewrite repeat_app. cbn [repeat]. rewrite <- !app_assoc in *. exact H2.
  - exists s'. split; [exact E|]. rewrite skipn_all2 in H' by (unfold len; lia). rewrite app_nil_r in H'. exact H'.
Qed.

Lemma static_ancestor_gen c D t s l g r : dim_ok D ->
  raw c D (KStatic t) (len l) (BITS c t) r s l -> g <= len l ->
  exists s', static_ancestor c D t s g = Ret (Some s')
    /\ raw c D (KStatic t) (len l - g) (BITS c t) r s'
         (firstn (N.to_nat (len l - g)) l ++ repeat (cell_zero D) (N.to_nat g)).
Proof.
  intros HD H Hg. pose proof (raw_depth _ _ _ _ _ _ _ _ H) as Hdep. cbn in Hdep.
  pose proof (raw_holds _ _ _ _ _ _ _ _ H) as (_ & Hl & _).
  pose proof (BITS_le c t). pose proof (dim_ge D HD).
  assert (len l <= 128) by nia.
  unfold static_ancestor. rewrite Hdep. destruct (N.ltb_spec (len l) g); [lia|].
  rewrite (cast_small 8 g) by (change (2 ^ 8) with 256; lia). rewrite sub_ok by lia. cbn [bind].
  destruct (raw_zero_levels c D (KStatic t) _ _ _ _ _ (len l - g) HD H) as (s' & E & H'); [lia|].
  cbn [ops storage] in E. rewrite E. cbn [bind].
  eexists. split; [reflexivity|]. eapply raw_static_depth.
  replace (len l - (len l - g)) with g in H' by lia. exact H'.
Qed.

Lemma firstn_prefix_raw c D k n w r s l m z : dim_ok D -> m <= len l ->
  raw c D k n w r s (firstn (N.to_nat m) l ++ z) -> raw c D k n w (rest D w (num k s) m) s (firstn (N.to_nat m) l).
Proof.
  intros HD Hm H. apply raw_prefix in H; [|exact HD]. rewrite len_firstn in H by exact Hm. exact H.
Qed.

Lemma static_ancestor_repr c D t s l g : dim_ok D -> repr c D (KStatic t) s l -> g <= len l ->
  exists s', static_ancestor c D t s g = Ret (Some s') /\ repr c D (KStatic t) s' (firstn (N.to_nat (len l - g)) l).
Proof.
  intros HD H Hg. destruct (static_ancestor_gen c D t s l g _ HD H Hg) as (s' & E & H').
  exists s'. split; [exact E|]. apply firstn_prefix_raw in H'; [|exact HD|lia].
  rewrite <- (len_firstn l (len l - g)) in H' at 1 by lia. eapply raw_repr; exact H'.
Qed.
Lemma static_ancestor_canon c D t s l g : dim_ok D -> canon c D (KStatic t) s l -> g <= len l ->
  exists s', static_ancestor c D t s g = Ret (Some s') /\ canon c D (KStatic t) s' (firstn (N.to_nat (len l - g)) l).
Proof.
  intros HD H Hg. destruct (static_ancestor_gen c D t s l g _ HD H Hg) as (s' & E & H').
  exists s'. split; [exact E|].
  assert (Hr : rest D (BITS c t) (num (KStatic t) s') (len (firstn (N.to_nat (len l - g)) l)) = 0).
  { eapply (holds_zero_tail HD); [exact (raw_holds _ _ _ _ _ _ _ _ H')|].
    pose proof (raw_rest _ _ _ _ _ _ _ _ H') as R. rewrite len_app, len_repeat in R. exact R. }
  apply firstn_prefix_raw in H'; [|exact HD|lia].
  unfold canon. rewrite len_firstn in * by lia. rewrite Hr in H'. exact H'.
Qed.

(* dynamic storage: bytes are dropped and the first remaining byte is masked *)
Lemma bytes_value_skipn l n : n <= len l -> bytes_ok l ->
  bytes_value (skipn (N.to_nat n) l) = bytes_value l / 2 ^ (8 * n).
Proof.
  intros Hn Hl. rewrite <- (firstn_skipn (N.to_nat n) l) at 2. rewrite bytes_value_app, len_firstn by exact Hn.
  rewrite N.mul_comm, N.div_add by apply pow2_ne0. rewrite N.div_small; [lia|].
  rewrite <- (len_firstn l n Hn) at 2. apply bytes_value_lt, bytes_ok_firstn, Hl.
Qed.
Lemma len_skipn {A} (l : list A) n : len (skipn (N.to_nat n) l) = len l - n.
Proof. unfold len. rewrite skipn_length. lia. Qed.

(* dropping low bits of the bit string *)
Lemma holds_shrink D w v (l : list (cell D)) j m : dim_ok D -> holds w v l -> m <= len l -> j <= w - dim D * m ->
  holds (w - j) (v / 2 ^ j) (firstn (N.to_nat m) l).
Proof.
  intros HD H Hm Hj. pose proof H as (Hv & Hl & _).
  rewrite <- (firstn_skipn (N.to_nat m) l) in H. apply (holds_prefix HD) in H.
  destruct H as (_ & Hl' & He). rewrite len_firstn in * by exact Hm. unfold holds. rewrite len_firstn by exact Hm.
  repeat split.
  - apply N.div_lt_upper_bound; [apply pow2_ne0|]. rewrite <- N.pow_add_r. replace (j + (w - j)) with w by lia. exact Hv.
  - lia.
  - rewrite N.div_div by apply pow2_ne0. rewrite <- N.pow_add_r.
    replace (j + (w - j - dim D * m)) with (w - dim D * m) by lia. exact He.
Qed.

(* clearing low bits *)
Lemma put_zero_low v n : put v 0 n 0 = v / 2 ^ n * 2 ^ n.
Proof.
  apply N.bits_inj; intro i. rewrite testbit_put, testbit_mul_pow2, testbit_div_pow2, testbit_0.
  destruct (N.leb_spec 0 i); [|lia]. destruct (N.ltb_spec i (0 + n)), (N.leb_spec n i); cbn [andb]; try lia; try reflexivity.
  f_equal; lia.
Qed.
Lemma holds_clear_low D w v (l : list (cell D)) n : dim_ok D -> holds w v l -> n <= w - dim D * len l -> holds w (put v 0 n 0) l.
Proof.
  intros HD (Hv & Hl & He) Hn. repeat split.
  - apply put_lt; [exact Hv|lia].
  - exact Hl.
  - rewrite <- He. apply N.bits_inj; intro i. rewrite !testbit_div_pow2, testbit_put.
    destruct (N.ltb_spec (i + (w - dim D * len l)) (0 + n)); [lia|]. rewrite andb_false_r. reflexivity.
Qed.

Lemma mask_byte c b n : b < 256 -> n < 8 ->
  (let! one := shl c 8 1 n in let! m := sub c 8 one 1 in Ret (N.land b (lnot 8 m))) = Ret (put b 0 n 0).
Proof.
  intros Hb Hn. rewrite shl_ok by exact Hn. rewrite bind_ret.
  assert (Hc : cast 8 (N.shiftl 1 n) = 2 ^ n).
  { rewrite N.shiftl_1_l. apply cast_small. apply pow2_lt_mono; exact Hn. }
  rewrite Hc. pose proof (pow2_pos n). rewrite sub_ok by lia. rewrite bind_ret. f_equal.
  replace (2 ^ n - 1) with (N.ones n) by (rewrite N.ones_equiv; lia).
  assert (N.ones n < 2 ^ 8).
  { rewrite N.ones_equiv. assert (2 ^ n < 2 ^ 8) by (apply pow2_lt_mono; exact Hn). lia. }
  apply N.bits_inj; intro i. rewrite N.land_spec, testbit_lnot, testbit_ones, testbit_put, testbit_0 by assumption.
  change 256 with (2 ^ 8) in Hb.
  destruct (N.leb_spec 0 i); [|lia]. destruct (N.ltb_spec i 8), (N.ltb_spec i n), (N.ltb_spec i (0 + n)); cbn [andb negb];
    try lia; rewrite ?andb_false_r, ?andb_true_r; try reflexivity.
  symmetry. apply (testbit_high b 8); [exact Hb|lia].
Qed.

(* bits_in_first_byte is zero exactly when the path fills its bytes; otherwise leftover is the number of unused bits *)
Lemma layout_leftover c D L n b : is_dim D L -> dim D * n + 8 <= 2 ^ usize_bits c ->
  dl_bits_in_first_byte L c n = Ret b -> 
  (b = 0 /\ 8 * nbytes D n = dim D * n) \/
  (0 < b /\ dl_leftover_bits L c b = Ret (8 * nbytes D n - dim D * n) /\ 0 < 8 * nbytes D n - dim D * n < 8).
Proof.
  intros [] Hn; cbn in *; unfold nbytes; cbn [dim Dim2D Dim3D] in *; pose proof (pow2_usize_ge c).
  - intros H0; injection H0 as <-. destruct (N.eq_dec (n mod 4) 0) as [E|E]; [left; lia|right].
    rewrite sub_ok by lia. cbn [bind]. rewrite mul_ok by lia. split; [lia|]. split; [f_equal; lia|lia].
  - rewrite mul_ok by lia. cbn [bind]. intros H0; injection H0 as <-.
    destruct (N.eq_dec (n * 3 mod 8) 0) as [E|E]; [left; lia|right].
    rewrite sub_ok by lia. split; [lia|]. split; [f_equal; lia|lia].
Qed.
Lemma layout_bits_ok c D L n : is_dim D L -> dim D * n + 8 <= 2 ^ usize_bits c -> exists b, dl_bits_in_first_byte L c n = Ret b.
Proof.
  intros [] Hn; cbn in *; [eauto|]. rewrite mul_ok by lia. cbn. eauto.
Qed.

Lemma dynamic_ancestor_gen c D L s l g : is_dim D L -> repr c D KDynamic s l -> g <= len l ->
  exists s', dynamic_ancestor c L s g = Ret (Some s')
    /\ repr c D KDynamic s' (firstn (N.to_nat (len l - g)) l)
    /\ len (dy_bits s') = len (dy_bits s) - (nbytes D (len l) - nbytes D (len l - g))
    /\ (len (dy_bits s) = nbytes D (len l) ->
        rest D (width c KDynamic s') (num KDynamic s') (len l - g) = 0).
Proof.
  intros HL H Hg. pose proof (is_dim_ok D L HL) as HD. destruct s as [bs dep].
  pose proof (raw_depth _ _ _ _ _ _ _ _ H) as Hdep. cbn in Hdep. subst dep.
  destruct (raw_sane _ _ _ _ _ _ _ _ H) as [Hbs Hw]. cbn in Hbs, Hw.
  pose proof (raw_holds _ _ _ _ _ _ _ _ H) as Hh. cbn in Hh. pose proof Hh as (_ & Hl & _).
  assert (HlW : dim D * len l + 8 <= 2 ^ usize_bits c) by lia.
  set (m := len l - g). assert (Hm : m <= len l) by lia.
  assert (HmW : dim D * m + 8 <= 2 ^ usize_bits c) by (pose proof (N.mul_le_mono_l m (len l) (dim D) Hm); lia).
  pose proof (nbytes_le D m (len l) Hm) as Hnb.
  destruct (nbytes_fit D (len l)) as [F1 F2]. destruct (nbytes_fit D m) as [G1 G2].
  set (j := nbytes D (len l) - nbytes D m).
  assert (Hj : j <= len bs) by lia.
  unfold dynamic_ancestor. cbn [dy_depth dy_bits]. cbn zeta. destruct (N.ltb_spec (len l) g); [lia|].
  rewrite sub_ok by exact Hg. fold m. rewrite bind_ret.
  rewrite (layout_num_bytes c D L (len l)) by assumption. rewrite bind_ret.
  rewrite (layout_num_bytes c D L m) by assumption. rewrite bind_ret.
  rewrite sub_ok by exact Hnb. fold j. rewrite bind_ret.
  destruct (layout_bits_ok c D L m HL HmW) as [b Hb]. rewrite Hb, bind_ret.
  set (bs1 := skipn (N.to_nat j) bs).
  assert (Hbs1 : bytes_ok bs1) by (apply bytes_ok_skipn; exact Hbs).
  assert (Hlen1 : len bs1 = len bs - j) by apply len_skipn.
  assert (Hh1 : holds (8 * len bs1) (bytes_value bs1) (firstn (N.to_nat m) l)).
  { unfold bs1 at 2. rewrite bytes_value_skipn by assumption. rewrite Hlen1.
    replace (8 * (len bs - j)) with (8 * len bs - 8 * j) by lia. apply holds_shrink; try assumption. lia. }
  assert (Fin : forall bs2, bytes_ok bs2 -> len bs2 = len bs1 -> holds (8 * len bs2) (bytes_value bs2) (firstn (N.to_nat m) l) ->
     repr c D KDynamic (MkDynamic bs2 m) (firstn (N.to_nat m) l)
     /\ len (dy_bits (MkDynamic bs2 m)) = len bs - j).
  { intros bs2 A B C. split; [|cbn; lia]. constructor; cbn; auto.
    - split; [exact A|lia].
    - rewrite len_firstn by exact Hm. reflexivity. }
  destruct (layout_leftover c D L m b HL HmW Hb) as [[-> Hfull] | (Hb0 & Hlo & Hlo8)].
  - rewrite andb_false_r. cbn [bind]. eexists. split; [reflexivity|].
    destruct (Fin bs1 Hbs1 eq_refl Hh1) as [X Y]. split; [exact X|]. split; [exact Y|].
    intros Hc. cbn [num width dy_bits]. rewrite Hlen1, Hc. unfold rest.
    replace (8 * (nbytes D (len l) - j) - dim D * m) with 0 by lia. change (2 ^ 0) with 1. apply N.mod_1_r.
  - assert (Hnm : 0 < nbytes D m) by lia.
    destruct (N.ltb_spec 0 (nbytes D m)); [|lia]. destruct (N.ltb_spec 0 b); [|lia]. cbn [andb].
    rewrite Hlo, bind_ret. set (lo := 8 * nbytes D m - dim D * m) in *.
    destruct bs1 as [|b0 bs1'] eqn:Ebs1.
    { exfalso. change (len (@nil N)) with 0 in Hlen1. lia. }
    pose proof (mask_byte c b0 lo) as MB. rewrite shl_ok in * by lia. rewrite !bind_ret in *.
    assert (Hb0' : b0 < 256) by (inversion Hbs1; assumption).
    specialize (MB Hb0' ltac:(lia)). apply bind_inv in MB. destruct MB as (mm & Emm & MB). injection MB as MB.
    rewrite Emm, bind_ret. unfold vec_get. change (N.to_nat 0) with O. cbn [nth_error unwrap_opt]. rewrite bind_ret.
    rewrite MB. rewrite vec_set_ok by (rewrite len_cons; lia). rewrite bind_ret. change (N.to_nat 0) with O.
    eexists. split; [reflexivity|].
    set (bs2 := update (b0 :: bs1') 0 (put b0 0 lo 0)).
    assert (A1 : bytes_ok bs2).
    { apply Forall_update; [exact Hbs1|]. apply bytes_ok_put; [exact Hb0'|lia]. }
    assert (A2 : len bs2 = len (b0 :: bs1')) by apply len_update.
    assert (A3 : bytes_value bs2 = put (bytes_value (b0 :: bs1')) 0 lo 0).
    { unfold bs2. change O with (N.to_nat 0). rewrite bytes_value_update; [f_equal; lia|exact Hbs1|reflexivity|lia]. }
    assert (A4 : holds (8 * len bs2) (bytes_value bs2) (firstn (N.to_nat m) l)).
    { rewrite A2, A3. apply holds_clear_low; [exact HD|exact Hh1|]. rewrite len_firstn by exact Hm. lia. }
    destruct (Fin bs2 A1 A2 A4) as [X Y]. split; [exact X|]. split; [exact Y|].
    intros Hc. cbn [num width dy_bits]. rewrite A2, A3, Hlen1, Hc. unfold rest.
    replace (8 * (nbytes D (len l) - j) - dim D * m) with lo by lia. rewrite put_zero_low.
    apply N.mod_mul, pow2_ne0.
Qed.

Lemma dynamic_ancestor_repr c D L s l g : is_dim D L -> repr c D KDynamic s l -> g <= len l ->
  exists s', dynamic_ancestor c L s g = Ret (Some s') /\ repr c D KDynamic s' (firstn (N.to_nat (len l - g)) l).
Proof.
  intros HL H Hg. destruct (dynamic_ancestor_gen c D L s l g HL H Hg) as (s' & A & B & _). eauto.
Qed.
Lemma dynamic_ancestor_canon c D L s l g : is_dim D L -> canon c D KDynamic s l -> g <= len l ->
  exists s', dynamic_ancestor c L s g = Ret (Some s') /\ canon c D KDynamic s' (firstn (N.to_nat (len l - g)) l).
Proof.
  intros HL H Hg. destruct (dynamic_ancestor_gen c D L s l g HL (canon_repr _ _ _ _ _ H) Hg) as (s' & A & B & C & E).
  exists s'. split; [exact A|]. pose proof (raw_width _ _ _ _ _ _ _ _ H) as Hw. cbn in Hw.
  assert (Hlen : len (dy_bits s) = nbytes D (len l)) by (unfold nbytes; lia).
  specialize (E Hlen). pose proof (nbytes_le D (len l - g) (len l) ltac:(lia)) as Hnb.
  destruct B as [B1 B2 B3 B4 B5]. unfold canon.
  assert (W : width c KDynamic s' = min_width D KDynamic c (len (firstn (N.to_nat (len l - g)) l))).
  { rewrite len_firstn by lia. cbn. fold (nbytes D (len l - g)). lia. }
  rewrite <- W. constructor; auto. rewrite len_firstn by lia. exact E.
Qed.

(* ---------- descendant ---------- *)
Lemma static_descendant_gen c D t s l cells r : dim_ok D ->
  len l + len cells <= MAX_LEVELS c D t ->
  raw c D (KStatic t) (len l) (BITS c t) r s l ->
  exists s', static_descendant c D t s cells = Ret (Some s') 
    /\ repr c D (KStatic t) s' (l ++ cells) /\ (r = 0 -> canon c D (KStatic t) s' (l ++ cells)).
Proof.
  intros HD Hc H. pose proof (raw_depth _ _ _ _ _ _ _ _ H) as Hdep. cbn in Hdep.
  pose proof (max_levels_le c D t HD) as HM. pose proof (pow2_usize_ge c).
  pose proof (max_levels_fit c D t _ HD Hc) as Hfit.
  unfold static_descendant. rewrite Hdep. rewrite add_ok by lia. cbn [bind].
  destruct (N.ltb_spec (MAX_LEVELS c D t) (len l + len cells)); [lia|].
  pose proof (raw_holds _ _ _ _ _ _ _ _ H) as Hh.
  destruct (raw_exists c D (KStatic t) s (len l + len cells) HD (raw_sane _ _ _ _ _ _ _ _ H)) as (l2 & Hl2 & H2).
  { exact Hfit. }
  (* l2 extends l *)
  assert (E2 : exists b, l2 = l ++ b).
  { exists (skipn (N.to_nat (len l)) l2). rewrite <- (firstn_skipn (N.to_nat (len l)) l2) at 1. f_equal.
    rewrite <- (firstn_skipn (N.to_nat (len l)) l2) in H2. apply raw_prefix in H2; [|exact HD].
    eapply raw_unique; [exact HD|exact H2|exact H|]. rewrite len_firstn; lia. }
  destruct E2 as [b ->]. rewrite len_app in Hl2.
  destruct (raw_set_cells_from c D (KStatic t) _ _ _ _ _ _ cells HD I H2) as (s' & E & H'); [lia|].
  cbn [st_depth ops static_ops] in H'. rewrite Hdep in H'.
  cbn [ops storage] in E. rewrite E. cbn [bind]. eexists. split; [reflexivity|].
  rewrite (cast_small 8) by (change (2 ^ 8) with 256; lia).
  eapply raw_static_depth with (n' := len l + len cells) in H'.
  assert (Ll : len l + len cells = len (l ++ cells)) by (rewrite len_app; reflexivity).
  rewrite Ll in *. split; [eapply raw_repr; exact H'|].
  intros ->.
  assert (R0 : rest D (BITS c t) (num (KStatic t) s) (len (l ++ cells)) = 0).
  { destruct (holds_rest_zero_zeros HD _ _ _ (len cells) Hh (raw_rest _ _ _ _ _ _ _ _ H)) as [_ Z]; [lia|].
    rewrite Ll in Z. exact Z. }
  cbn [width] in H'. rewrite R0 in H'. exact H'.
Qed.

Lemma dynamic_descendant_w c D L s l cells : is_dim D L ->
  8 * (len (dy_bits s) + (nbytes D (len l + len cells) - nbytes D (len l))) + 8 <= 2 ^ usize_bits c ->
  repr c D KDynamic s l ->
  exists s', dynamic_descendant c D L s cells = Ret (Some s') 
    /\ repr c D KDynamic s' (l ++ map (stored c D KDynamic) cells) /\ (canon c D KDynamic s l -> canon c D KDynamic s' (l ++ map (stored c D KDynamic) cells))
    /\ len (dy_bits s') = len (dy_bits s) + (nbytes D (len l + len cells) - nbytes D (len l)).
Proof.
  intros HL HW H. pose proof (is_dim_ok D L HL) as HD. destruct s as [bs dep].
  pose proof (raw_depth _ _ _ _ _ _ _ _ H) as Hdep. cbn in Hdep. subst dep. cbn [dy_bits] in HW.
  destruct (raw_sane _ _ _ _ _ _ _ _ H) as [Hbs Hw]. cbn in Hbs, Hw.
  pose proof (raw_holds _ _ _ _ _ _ _ _ H) as Hh. cbn in Hh. pose proof Hh as (Hv & Hl & He).
  destruct (nbytes_fit D (len l)) as [F1 F2]. destruct (nbytes_fit D (len l + len cells)) as [G1 G2].
  pose proof (nbytes_le D (len l) (len l + len cells) ltac:(lia)) as Hnb.
  set (j := nbytes D (len l + len cells) - nbytes D (len l)) in *.
  assert (HlB : nbytes D (len l) <= len bs) by (unfold nbytes; lia).
  pose proof (dim_ge D HD) as Hd.
  unfold dynamic_descendant. cbn [dy_depth dy_bits]. cbn zeta.
  assert (len l + len cells <= dim D * (len l + len cells)) by nia.
  rewrite add_ok by lia. rewrite bind_ret.
  rewrite (layout_num_bytes c D L (len l)) by (assumption || lia). rewrite bind_ret.
  rewrite (layout_num_bytes c D L) by (assumption || lia). rewrite bind_ret.
  rewrite sub_ok by exact Hnb. fold j. rewrite bind_ret.
  set (s1 := MkDynamic (zeros j ++ bs) (len l + len cells)).
  assert (Hb1 : bytes_ok (zeros j ++ bs)) by (apply bytes_ok_app; [apply bytes_ok_zeros|exact Hbs]).
  assert (Hn1 : num KDynamic s1 = bytes_value bs * 2 ^ (8 * j)).
  { cbn. rewrite bytes_value_app, bytes_value_zeros, len_zeros. lia. }
  assert (Hw1 : width c KDynamic s1 = 8 * len bs + 8 * j).
  { cbn. rewrite len_app, len_zeros. lia. }
  assert (Hs1 : sane c KDynamic s1).
  { split; [exact Hb1|]. cbn in Hw1. cbn. lia. }
  assert (Hh1 : holds (width c KDynamic s1) (num KDynamic s1) l).
  { rewrite Hn1, Hw1. repeat split.
    - rewrite N.pow_add_r. apply N.mul_lt_mono_pos_r; [apply pow2_pos|exact Hv].
    - lia.
    - replace (8 * len bs + 8 * j - dim D * len l) with ((8 * j) + (8 * len bs - dim D * len l)) by lia.
      rewrite N.pow_add_r, <- N.div_div by apply pow2_ne0. rewrite N.div_mul by apply pow2_ne0. exact He. }
  assert (Hfit : dim D * (len l + len cells) <= width c KDynamic s1) by (rewrite Hw1; lia).
  destruct (raw_exists c D KDynamic s1 (len l + len cells) HD Hs1 Hfit) as (l2 & Hl2 & H2).
  assert (E2 : exists b, l2 = l ++ b).
  { exists (skipn (N.to_nat (len l)) l2). rewrite <- (firstn_skipn (N.to_nat (len l)) l2) at 1. f_equal.
    eapply (holds_unique HD); [|exact Hh1|rewrite len_firstn; lia].
    eapply (holds_prefix HD). rewrite firstn_skipn. exact (raw_holds _ _ _ _ _ _ _ _ H2). }
  destruct E2 as [b ->]. rewrite len_app in Hl2.
  destruct (raw_set_cells_from_w c D KDynamic _ _ _ _ _ _ cells HD H2) as (s' & E & H'); [lia|].
  cbn [ops storage] in E. rewrite E. cbn [bind]. eexists. split; [reflexivity|].
  cbn [st_depth ops dynamic_ops] in H'. cbn [dy_depth s1] in H'.
  assert (Ll : len l + len cells = len (l ++ map (stored c D KDynamic) cells)) by (rewrite len_app, len_map; reflexivity).
  assert (Hj : j + nbytes D (len l) = nbytes D (len l + len cells)) by (unfold j; lia).
  assert (Wd : len (dy_bits s') = len bs + j).
  { pose proof (raw_width _ _ _ _ _ _ _ _ H') as Q. rewrite Hw1 in Q. cbn in Q. lia. }
  rewrite Ll in *. split; [eapply raw_repr; exact H'|]. split; [|exact Wd].
  intros [C1 C2 C3 C4 C5]. cbn in C4. fold (nbytes D (len l)) in C4.
  unfold canon. assert (Wc : width c KDynamic s1 = min_width D KDynamic c (len (l ++ map (stored c D KDynamic) cells))).
  { rewrite Hw1. cbn. fold (nbytes D (len (l ++ map (stored c D KDynamic) cells))). lia. }
  rewrite <- Wc.
  assert (R0 : rest D (width c KDynamic s1) (num KDynamic s1) (len (l ++ map (stored c D KDynamic) cells)) = 0).
  { cbn [num dy_bits] in C5. 
    assert (R1 : rest D (width c KDynamic s1) (num KDynamic s1) (len l) = 0).
    { rewrite Hn1, Hw1. unfold rest in *. cbn in C5. fold (nbytes D (len l)) in C5. rewrite <- C4 in C5.
      replace (8 * len bs + 8 * j - dim D * len l) with ((8 * len bs - dim D * len l) + 8 * j) by (clear - Hl; clearbody j; lia).
      rewrite N.pow_add_r, N.mul_mod_distr_r by apply pow2_ne0. rewrite C5. reflexivity. }
    destruct (holds_rest_zero_zeros HD _ _ _ (len cells) Hh1 R1) as [_ Z]; [lia|]. rewrite Ll in Z. exact Z. }
  rewrite R0 in H'. exact H'.
Qed.
Lemma dynamic_descendant_gen c D L s l cells : is_dim D L -> writable c KDynamic ->
  8 * (len (dy_bits s) + (nbytes D (len l + len cells) - nbytes D (len l))) + 8 <= 2 ^ usize_bits c ->
  repr c D KDynamic s l ->
  exists s', dynamic_descendant c D L s cells = Ret (Some s') 
    /\ repr c D KDynamic s' (l ++ cells) /\ (canon c D KDynamic s l -> canon c D KDynamic s' (l ++ cells))
    /\ len (dy_bits s') = len (dy_bits s) + (nbytes D (len l + len cells) - nbytes D (len l)).
Proof.
  intros HL HW HB H. pose proof (dynamic_descendant_w c D L s l cells HL HB H) as Q.
  rewrite (map_stored c D KDynamic cells HW) in Q. exact Q.
Qed.

(* ---------- inverted ---------- *)
Lemma inverted_raw_w c D k w r s l : dim_ok D -> raw c D k (len l) w r s l ->
  exists s', inverted c (ops c D k) s = Ret s' /\ raw c D k (len l) w r s' (rev (map (stored c D k) l)).
Proof.
  intros HD H. unfold inverted. rewrite (raw_depth _ _ _ _ _ _ _ _ H).
  destruct (foldM_range_inv (fun i s1 => raw c D k (len l) w r s1
     (firstn (N.to_nat (len l - i)) l ++ rev (map (stored c D k) (firstn (N.to_nat i) l))))
    (fun ret level =>
             let! a := sub c (usize_bits c) (len l) level in
             let! inverted_level := sub c (usize_bits c) a 1 in
             let! x := st_get (ops c D k) s level in
             st_set (ops c D k) ret inverted_level x) 0 (len l) s) as (s' & E & H').
  - lia.
  - rewrite N.sub_0_r, to_nat_len, firstn_all. change (N.to_nat 0) with O. cbn [firstn map rev]. rewrite app_nil_r. exact H.
  - intros i s1 Hi H1. rewrite sub_ok by lia. rewrite bind_ret. rewrite sub_ok by lia. rewrite bind_ret.
    destruct (nth_error_N_lt l i) as [x Hx]; [lia|].
    rewrite (raw_get _ _ _ _ _ _ _ _ _ _ HD H Hx). rewrite bind_ret.
    destruct (raw_set_w c D k _ w r s1 _ (len l - i - 1) x HD H1) as (s2 & E2 & H2).
    + rewrite len_app, len_rev, len_map, !len_firstn by lia. lia.
    + exists s2. split; [exact E2|]. revert H2.
      assert (S1 : firstn (N.to_nat (len l - i)) l
                   = firstn (N.to_nat (len l - i - 1)) l ++ firstn 1 (skipn (N.to_nat (len l - i - 1)) l)).
      { replace (N.to_nat (len l - i)) with (N.to_nat (len l - i - 1) + 1)%nat by lia.
        apply firstn_plus. }
      rewrite S1. rewrite <- app_assoc.
      destruct (skipn (N.to_nat (len l - i - 1)) l) as [|y q] eqn:Eq.
      { exfalso. assert (List.length (skipn (N.to_nat (len l - i - 1)) l) = O) by (rewrite Eq; reflexivity).
        rewrite skipn_length in *. unfold len in *; lia. }
      cbn [firstn app].
      replace (N.to_nat (len l - i - 1)) with (List.length (firstn (N.to_nat (len l - i - 1)) l)) at 2
        by (rewrite firstn_length; unfold len in *; lia).
      rewrite update_app_last. intros H2.
      replace (len l - (i + 1)) with (len l - i - 1) by lia.
      replace (rev (map (stored c D k) (firstn (N.to_nat (i + 1)) l))) with (stored c D k x :: rev (map (stored c D k) (firstn (N.to_nat i) l))); [exact H2|].
      apply nth_error_split in Hx. destruct Hx as (p & z & -> & Hp).
      replace (N.to_nat (i + 1)) with (List.length (p ++ [x])) by (rewrite app_length; cbn [List.length]; lia).
      rewrite <- Hp. rewrite firstn_app, firstn_all, Nat.sub_diag. cbn [firstn]. rewrite app_nil_r.
      change (x :: z) with ([x] ++ z). rewrite app_assoc, firstn_app, firstn_all, Nat.sub_diag. cbn [firstn].
      rewrite app_nil_r, map_app, rev_app_distr. reflexivity.
  - exists s'. split; [exact E|]. rewrite N.sub_diag, to_nat_len, firstn_all in H'. exact H'.
Qed.
Lemma inverted_raw c D k w r s l : dim_ok D -> writable c k -> raw c D k (len l) w r s l ->
  exists s', inverted c (ops c D k) s = Ret s' /\ raw c D k (len l) w r s' (rev l).
Proof.
  intros HD HW H. pose proof (inverted_raw_w c D k w r s l HD H) as Q. rewrite (map_stored c D k l HW) in Q. exact Q.
Qed.

(* ---------- cells().collect() ---------- *)
Lemma collect_from_ok c D k s l fuel i : dim_ok D -> repr c D k s l -> i <= len l -> (N.to_nat (len l - i) < fuel)%nat ->
  collect_from fuel c (ops c D k) s i = Ret (skipn (N.to_nat i) l).
Proof.
  intros HD H. pose proof (sane_width c k s (raw_sane _ _ _ _ _ _ _ _ H)) as Hws.
  pose proof (raw_holds _ _ _ _ _ _ _ _ H) as (_ & Hl & _). pose proof (dim_ge D HD).
  assert (HlW : len l + 8 <= 2 ^ usize_bits c) by nia. clear Hws Hl.
  revert i; induction fuel as [|fuel IH]; intros i Hi Hf; [lia|].
  cbn [collect_from]. unfold cell_iter_next. rewrite (raw_depth _ _ _ _ _ _ _ _ H).
  destruct (N.eqb_spec i (len l)) as [->|E].
  - cbn [bind]. rewrite skipn_all2 by (unfold len; lia). reflexivity.
  - rewrite add_ok by lia. rewrite bind_ret.
    destruct (nth_error_N_lt l i) as [x Hx]; [lia|].
    rewrite (raw_get _ _ _ _ _ _ _ _ _ _ HD H Hx). rewrite !bind_ret. rewrite IH by lia. cbn [bind].
    f_equal. apply nth_error_split in Hx. destruct Hx as (p & z & -> & Hp).
    replace (N.to_nat (i + 1)) with (List.length (p ++ [x])) by (rewrite app_length; cbn [List.length]; lia).
    rewrite <- Hp, skipn_length_app. f_equal. change (x :: z) with ([x] ++ z). rewrite app_assoc. apply skipn_length_app.
Qed.
Lemma collect_cells_ok c D k s l : dim_ok D -> repr c D k s l -> collect_cells c (ops c D k) s = Ret l.
Proof.
  intros HD H. unfold collect_cells, cell_iter_start. rewrite (collect_from_ok c D k s l); try assumption.
  - reflexivity.
  - lia.
  - rewrite (raw_depth _ _ _ _ _ _ _ _ H). lia.
Qed.
