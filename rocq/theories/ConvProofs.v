(* ConvProofs.v - conversions between storages *)
From Verif Require Import Base ModelNumber ModelDim ModelStorage Spec BitProofs NumberProofs VecProofs CellProofs StorageProofs.

Local Notation zero_cells D n := (repeat (cell_zero D) (N.to_nat n)).

(* ---------- fixed -> static ---------- *)
Lemma static_from_fixed_repr c D t s l : dim_ok D -> repr c D (KFixed t) s l ->
  repr c D (KStatic t) (static_from_fixed c D t s) l.
Proof.
  intros HD [A B C E F]. constructor; auto. cbn in C |- *.
  pose proof (max_levels_le c D t HD). rewrite cast_small by (change (2 ^ 8) with 256; lia). exact C.
Qed.
Lemma static_from_fixed_canon c D t s l : dim_ok D -> canon c D (KFixed t) s l ->
  canon c D (KStatic t) (static_from_fixed c D t s) l.
Proof.
  intros HD [A B C E F]. constructor; auto. cbn in C |- *.
  pose proof (max_levels_le c D t HD). rewrite cast_small by (change (2 ^ 8) with 256; lia). exact C.
Qed.

(* ---------- fixed -> dynamic ---------- *)
Lemma num_size_of c t : N.of_nat (N.to_nat (num_size c t)) = num_size c t.
Proof. lia. Qed.
Lemma dynamic_from_fixed_bits c D t s : fx_bits s < 2 ^ BITS c t ->
  dy_bits (dynamic_from_fixed c D t s) = to_le_bytes (N.to_nat (num_size c t)) (fx_bits s).
Proof.
  intros H. unfold dynamic_from_fixed, num_as_u8_slice, to_bytes. cbn [dy_bits].
  destruct (target_endian c); [apply rev_involutive|reflexivity].
Qed.
Lemma max_levels_bytes c D L t : is_dim D L -> nbytes D (MAX_LEVELS c D t) = num_size c t.
Proof.
  intros H. unfold nbytes, MAX_LEVELS, num_size. destruct H; destruct (BITS_cases c t) as [E|[E|[E|[E|E]]]]; rewrite E; reflexivity.
Qed.
Lemma dynamic_from_fixed_repr c D L t s l : is_dim D L -> repr c D (KFixed t) s l ->
  repr c D KDynamic (dynamic_from_fixed c D t s) l
  /\ (canon c D (KFixed t) s l -> canon c D KDynamic (dynamic_from_fixed c D t s) l).
Proof.
  intros HL [A B C E F]. cbn in A, B, C, E. pose proof (dynamic_from_fixed_bits c D t s A) as Eb.
  pose proof (num_size_8 c t) as S8. pose proof (BITS_le c t). pose proof (pow2_usize_ge c).
  assert (V : bytes_value (dy_bits (dynamic_from_fixed c D t s)) = fx_bits s).
  { rewrite Eb. apply bytes_value_to_le. rewrite num_size_of, S8. exact A. }
  assert (Lb : len (dy_bits (dynamic_from_fixed c D t s)) = num_size c t).
  { rewrite Eb, len_to_le_bytes. lia. }
  assert (W : 8 * len (dy_bits (dynamic_from_fixed c D t s)) = BITS c t) by lia.
  assert (OK : bytes_ok (dy_bits (dynamic_from_fixed c D t s))) by (rewrite Eb; apply bytes_ok_to_le).
  assert (R : forall r, rest D (BITS c t) (fx_bits s) (len l) = r ->
     raw c D KDynamic (len l) (BITS c t) r (dynamic_from_fixed c D t s) l).
  { intros r Hr. constructor; cbn [num width sane ops dynamic_ops st_depth].
    - split; [exact OK|]. lia.
    - rewrite V. exact B.
    - exact C.
    - exact W.
    - rewrite V. exact Hr. }
  split.
  - eapply raw_repr. apply R. reflexivity.
  - intros [_ _ _ _ F']. cbn in F'. unfold canon.
    replace (min_width D KDynamic c (len l)) with (BITS c t); [apply R; exact F'|].
    cbn [min_width]. change ((dim D * len l + 7) / 8) with (nbytes D (len l)). rewrite <- C.
    rewrite (max_levels_bytes c D L t HL). symmetry; exact S8.
Qed.

(* ---------- static -> fixed ---------- *)
Lemma raw_fixed_of c D t n s l : dim_ok D -> fx_bits s < 2 ^ BITS c t ->
  raw c D (KStatic t) n (BITS c t) 0 (MkStatic (fx_bits s) n) l -> 
  canon c D (KFixed t) s (l ++ zero_cells D (MAX_LEVELS c D t - len l)).
Proof.
  intros HD Hs [A B C E F]. cbn in A, B, F.
  assert (HM : len l <= MAX_LEVELS c D t) by (apply max_levels_ge; [exact HD|apply B]).
  destruct (holds_rest_zero_zeros HD _ _ _ (MAX_LEVELS c D t - len l) B F) as [X Y].
  { apply max_levels_fit; [exact HD|lia]. }
  unfold canon. rewrite len_app, len_repeat, N2Nat.id.
  constructor; auto.
  - cbn. lia.
  - rewrite len_app, len_repeat, N2Nat.id. exact Y.
Qed.
Lemma fixed_from_static_repr c D t s l : dim_ok D -> repr c D (KStatic t) s l ->
  exists tail, repr c D (KFixed t) (fixed_from_static s) (l ++ tail).
Proof.
  intros HD H. destruct (raw_exists c D (KFixed t) (fixed_from_static s) (MAX_LEVELS c D t) HD) as (l2 & Hl2 & H2).
  - exact (raw_sane _ _ _ _ _ _ _ _ H).
  - apply max_levels_fit; [exact HD|lia].
  - pose proof (raw_holds _ _ _ _ _ _ _ _ H) as Hh. cbn in Hh.
    assert (HM : len l <= MAX_LEVELS c D t) by (apply max_levels_ge; [exact HD|apply Hh]).
    exists (skipn (N.to_nat (len l)) l2).
    assert (E : firstn (N.to_nat (len l)) l2 = l).
    { eapply holds_unique; [exact HD| |exact Hh|rewrite len_firstn; lia].
      eapply holds_prefix; [exact HD|]. rewrite firstn_skipn. exact (raw_holds _ _ _ _ _ _ _ _ H2). }
    rewrite <- E at 1. rewrite firstn_skipn. unfold repr. rewrite Hl2. exact H2.
Qed.
Lemma fixed_from_static_canon c D t s l : dim_ok D -> canon c D (KStatic t) s l ->
  canon c D (KFixed t) (fixed_from_static s) (l ++ zero_cells D (MAX_LEVELS c D t - len l)).
Proof.
  intros HD H. apply raw_fixed_of with (n := len l); [exact HD|exact (raw_sane _ _ _ _ _ _ _ _ H)|].
  destruct H as [A B C E F]. constructor; auto.
Qed.

(* ---------- static -> dynamic ---------- *)
Lemma canon_dynamic_default c D L : is_dim D L -> canon c D KDynamic dynamic_default [].
Proof.
  intros HL. pose proof (pow2_usize_ge c). constructor; cbn.
  - split; [constructor|]. change (8 * len (@nil N)) with 0. lia.
  - split; [apply pow2_pos|]. destruct HL; cbn; split; [discriminate|reflexivity|discriminate|reflexivity].
  - reflexivity.
  - destruct HL; reflexivity.
  - destruct HL; reflexivity.
Qed.
Lemma dynamic_from_static_w c D L t s l : is_dim D L ->
  repr c D (KStatic t) s l ->
  exists s', dynamic_from_static c D L t s = Ret s' /\ canon c D KDynamic s' (map (stored c D KDynamic) l).
Proof.
  intros HL H. pose proof (is_dim_ok D L HL) as HD.
  pose proof (raw_holds _ _ _ _ _ _ _ _ H) as (_ & Hw & _). cbn in Hw.
  pose proof (BITS_le c t). pose proof (pow2_usize_ge c).
  unfold dynamic_from_static.
  pose proof (collect_cells_ok c D (KStatic t) s l HD H) as E. cbn [ops storage] in E. rewrite E. rewrite bind_ret.
  pose proof (canon_dynamic_default c D L HL) as Hd0.
  destruct (dynamic_descendant_w c D L dynamic_default [] l HL) as (s' & E' & _ & G & _).
  - cbn [dynamic_default dy_bits]. change (len (@nil N)) with 0. change (len (@nil (cell D))) with 0.
    destruct (nbytes_fit D (0 + len l)). lia.
  - eapply canon_repr; exact Hd0.
  - exists s'. split; [|exact (G Hd0)]. cbn [descendant dynamic_vops vo_descendant]. unfold descendant. cbn.
    rewrite E'. reflexivity.
Qed.
Lemma dynamic_from_static_canon c D L t s l : is_dim D L -> writable c KDynamic ->
  repr c D (KStatic t) s l ->
  exists s', dynamic_from_static c D L t s = Ret s' /\ canon c D KDynamic s' l.
Proof.
  intros HL HW H. pose proof (dynamic_from_static_w c D L t s l HL H) as Q. rewrite (map_stored c D KDynamic l HW) in Q. exact Q.
Qed.

(* ---------- dynamic -> static ---------- *)
Lemma static_from_dynamic_ok c D t s l : dim_ok D -> repr c D KDynamic s l -> len l <= MAX_LEVELS c D t ->
  exists s', static_from_dynamic c D t s = Ret (Ok s') /\ canon c D (KStatic t) s' l.
Proof.
  intros HD H Hl. pose proof (raw_depth _ _ _ _ _ _ _ _ H) as Hdep. cbn in Hdep.
  unfold static_from_dynamic. rewrite Hdep. destruct (N.ltb_spec (MAX_LEVELS c D t) (len l)); [lia|].
  pose proof (max_levels_le c D t HD) as HM.
  destruct (foldM_range_inv (fun i s1 => raw c D (KStatic t) 0 (BITS c t) 0 s1
     (firstn (N.to_nat i) l ++ zero_cells D (len l - i)))
    (fun r level => let! x := st_get (dynamic_ops c D) s level in st_set (static_ops c D t) r level x)
     0 (len l) static_default) as (s' & E & H').
  - lia.
  - change (N.to_nat 0) with O. cbn [firstn app]. rewrite N.sub_0_r.
    apply (raw_zero c D (KStatic t) static_default); auto.
    + cbn. apply pow2_pos.
    + cbn. apply max_levels_fit; assumption.
  - intros i s1 Hi H1. destruct (nth_error_N_lt l i) as [x Hx]; [lia|].
    pose proof (raw_get _ _ _ _ _ _ _ _ _ _ HD H Hx) as G. cbn [ops storage] in G. rewrite G, bind_ret.
    destruct (raw_set c D (KStatic t) _ _ _ s1 _ i x HD I H1) as (s2 & E2 & H2).
    + rewrite len_app, len_firstn, len_repeat by lia. lia.
    + exists s2. split; [exact E2|]. revert H2.
      replace (N.to_nat (len l - i)) with (S (N.to_nat (len l - (i + 1)))) by lia. cbn [repeat].
      replace (N.to_nat i) with (List.length (firstn (N.to_nat i) l)) at 2 by (rewrite firstn_length; unfold len in *; lia).
      rewrite update_app_last.
      apply nth_error_split in Hx. destruct Hx as (p & z & -> & Hp).
      replace (N.to_nat (i + 1)) with (List.length (p ++ [x])) by (rewrite app_length; cbn [List.length]; lia).
      rewrite <- Hp. rewrite firstn_app, firstn_all, Nat.sub_diag. cbn [firstn]. rewrite app_nil_r.
      change (x :: z) with ([x] ++ z). rewrite (app_assoc p [x] z), (firstn_app _ (p ++ [x]) z), firstn_all, Nat.sub_diag. cbn [firstn].
      rewrite app_nil_r. intros H2. rewrite <- (app_assoc p [x]). exact H2.
  - cbn [storage] in E; rewrite E, bind_ret. eexists. split; [reflexivity|].
    rewrite (cast_small 8) by (change (2 ^ 8) with 256; lia).
    rewrite N.sub_diag, to_nat_len, firstn_all in H'. cbn [N.to_nat repeat] in H'. rewrite app_nil_r in H'.
    eapply raw_static_depth; exact H'.
Qed.

(* ---------- dynamic -> fixed ---------- *)
Lemma padded_short n l : len l <= n -> bytes_value (padded n l) = bytes_value l.
Proof.
  intros H. unfold padded. rewrite firstn_all2.
  - rewrite bytes_value_app, bytes_value_zeros. lia.
  - rewrite app_length. pose proof (len_zeros (n - len l)). unfold len in *. lia.
Qed.
Lemma fixed_from_dynamic_bits c D t s l : repr c D KDynamic s l -> len l <= MAX_LEVELS c D t ->
  target_endian c = LittleEndian -> len (dy_bits s) <= num_size c t ->
  fixed_from_dynamic c D t s = Ok (MkFixed (bytes_value (dy_bits s))).
Proof.
  intros H Hl HE Hb. pose proof (raw_depth _ _ _ _ _ _ _ _ H) as Hdep. cbn in Hdep.
  unfold fixed_from_dynamic. rewrite Hdep. destruct (N.ltb_spec (MAX_LEVELS c D t) (len l)); [lia|].
  rewrite num_from_u8_slice_spec by exact (proj1 (raw_sane _ _ _ _ _ _ _ _ H)). rewrite HE. cbn [from_bytes].
  rewrite from_le_bytes_value, padded_short by exact Hb. reflexivity.
Qed.
(* the conversion is right if the byte counts agree *)
Lemma fixed_from_dynamic_same c D t s l : dim_ok D -> repr c D KDynamic s l -> len l <= MAX_LEVELS c D t ->
  target_endian c = LittleEndian -> len (dy_bits s) = num_size c t ->
  exists s', fixed_from_dynamic c D t s = Ok s'
    /\ (exists tail, repr c D (KFixed t) s' (l ++ tail))
    /\ (canon c D KDynamic s l -> canon c D (KFixed t) s' (l ++ zero_cells D (MAX_LEVELS c D t - len l))).
Proof.
  intros HD H Hl HE Hb. rewrite (fixed_from_dynamic_bits c D t s l) by (assumption || lia).
  eexists. split; [reflexivity|]. pose proof (num_size_8 c t) as S8.
  assert (W : 8 * len (dy_bits s) = BITS c t) by lia.
  pose proof (sane_num c KDynamic s (raw_sane _ _ _ _ _ _ _ _ H)) as B1. cbn [num width] in B1. rewrite W in B1.
  pose proof (raw_holds _ _ _ _ _ _ _ _ H) as Hh. cbn [num width] in Hh. rewrite W in Hh.
  split.
  - apply (fixed_from_static_repr c D t (MkStatic (bytes_value (dy_bits s)) (len l)) l HD).
    constructor; auto.
  - intros [_ _ _ Ew F]. cbn [width num] in Ew, F. rewrite <- Ew, W in F.
    eapply (raw_fixed_of c D t (len l)); [exact HD|exact B1|]. constructor; auto.
Qed.

(* and only then: for an index without spare bytes and with at least one non-zero cell *)
Lemma fixed_from_dynamic_short c D L t s l : is_dim D L -> canon c D KDynamic s l -> len l <= MAX_LEVELS c D t ->
  target_endian c = LittleEndian -> nbytes D (len l) <> num_size c t -> enc l <> 0 ->
  forall s' tail, fixed_from_dynamic c D t s = Ok s' -> ~ repr c D (KFixed t) s' (l ++ tail).
Proof.
  intros HL H Hl HE Hb Hnz s' tail E HR. pose proof (is_dim_ok D L HL) as HD.
  assert (Lb : len (dy_bits s) = nbytes D (len l)).
  { pose proof (raw_width _ _ _ _ _ _ _ _ H) as Hw. cbn [width min_width] in Hw. unfold nbytes. lia. }
  assert (Hle : nbytes D (len l) <= num_size c t).
  { rewrite <- (max_levels_bytes c D L t HL). apply nbytes_le. exact Hl. }
  rewrite (fixed_from_dynamic_bits c D t s l) in E by (assumption || lia || (eapply canon_repr; exact H)).
  injection E as <-.
  pose proof (holds_value _ _ _ (raw_holds _ _ _ _ _ _ _ _ H)) as V. cbn [num min_width] in V.
  pose proof (raw_rest _ _ _ _ _ _ _ _ H) as R. cbn [num min_width] in R. rewrite R in V.
  pose proof (raw_holds _ _ _ _ _ _ _ _ HR) as Hh. cbn [num width fx_bits] in Hh.
  destruct (holds_prefix HD _ _ _ _ Hh) as (_ & Hfit & Hv).
  rewrite V, N.add_0_r in Hv. change ((dim D * len l + 7) / 8) with (nbytes D (len l)) in Hv.
  pose proof (num_size_8 c t) as S8.
  assert (X : 8 * nbytes D (len l) - dim D * len l < BITS c t - dim D * len l).
  { destruct (nbytes_fit D (len l)). lia. }
  assert (Y : enc l * 2 ^ (8 * nbytes D (len l) - dim D * len l) / 2 ^ (BITS c t - dim D * len l) < enc l).
  { apply N.div_lt_upper_bound; [apply pow2_ne0|]. rewrite N.mul_comm. apply N.mul_lt_mono_pos_r; [lia|].
    apply N.pow_lt_mono_r; lia. }
  lia.
Qed.
