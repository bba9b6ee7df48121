(* FactsWide.v - proofs of the theorems stated in PropWide.v *)
From Verif Require Import Base ModelNumber ModelDim ModelStorage Model2D Model3D Spec BitProofs NumberProofs CellProofs StorageProofs
  ConvProofs GridProofs Grid2DProofs Grid3DProofs FactsBits FactsGrid History HistoryProofs FactsConv ModelAlign VecProofs OrderProofs FactsCells FactsOrder.
Local Notation zero_cells D n := (repeat (cell_zero D) (N.to_nat n)).

Lemma bind_assoc {A B C} (m : outcome A) (f : A -> outcome B) (g : B -> outcome C) :
  bind (bind m f) g = bind m (fun x => bind (f x) g).
Proof. destruct m; reflexivity. Qed.

(* ---------- bit ranges longer than the integer, without overflow checks ---------- *)
Lemma mask_too_long c t n : BITS c t < n -> n <= 2 ^ N.min 32 (usize_bits c) ->
  unwrap_or_0 (checked_shr (BITS c t) (lnot (BITS c t) 0) (cast 32 (cast (usize_bits c) (2 ^ usize_bits c + BITS c t - n)))) = 0.
Proof.
  intros Hn Hm. pose proof (BITS_le c t) as Hb. set (w := BITS c t) in *. clearbody w.
  assert (E : w <= cast 32 (cast (usize_bits c) (2 ^ usize_bits c + w - n))).
  { unfold cast. destruct (usize_bits_cases c) as [E|[E|E]]; rewrite E in *; cbn in Hm |- *; clear E; lia. }
  unfold checked_shr. destruct (N.ltb_spec (cast 32 (cast (usize_bits c) (2 ^ usize_bits c + w - n))) w); [lia|reflexivity].
Qed.
Lemma num_get_bits_long c t v s e : overflow_checks c = false -> BITS c t < range_len s e ->
  range_len s e <= 2 ^ N.min 32 (usize_bits c) -> num_get_bits c t v s e = Ret 0.
Proof.
  intros HO H1 H2. unfold num_get_bits. cbv zeta. unfold sub. rewrite HO.
  destruct (N.leb_spec (range_len s e) (BITS c t)); [lia|]. rewrite bind_ret. rewrite mask_too_long by assumption.
  rewrite N.land_0_r. reflexivity.
Qed.
Lemma num_get_bits_panic c t v s e : overflow_checks c = true -> BITS c t < range_len s e -> num_get_bits c t v s e = Panic.
Proof.
  intros HO H1. unfold num_get_bits. cbv zeta. unfold sub. rewrite HO.
  destruct (N.leb_spec (range_len s e) (BITS c t)); [lia|reflexivity].
Qed.
Lemma num_get_bits_0 c t s e : range_len s e <= BITS c t -> num_get_bits c t 0 s e = Ret 0.
Proof.
  intros H. unfold num_get_bits. cbv zeta. rewrite sub_ok by exact H. rewrite bind_ret. unfold checked_shr at 1.
  destruct (_ <? _); cbn [unwrap_or_0]; rewrite ?N.shiftr_0_l; reflexivity.
Qed.

Lemma num_set_bits_0 c t s e : s <= e -> e <= BITS c t -> s < BITS c t -> num_set_bits c t 0 s e 0 = Ret 0.
Proof.
  intros H1 H2 H3. rewrite num_set_bits_ok by (assumption || apply pow2_pos). reflexivity.
Qed.

(* ---------- C54 ---------- *)
Lemma c54_get_bits_too_long_release_lemma : forall c t v s e, overflow_checks c = false -> s <= e -> BITS c t < e - s ->
  e - s <= 2 ^ 16 -> num_get_bits c t v s e = Ret 0.
Proof.
  intros c t v s e HO Hs H1 H2. apply num_get_bits_long; rewrite ?range_len_ok by exact Hs; try assumption.
  eapply N.le_trans; [exact H2|]. apply pow2_le_mono. pose proof (usize_ge16 c). lia.
Qed.
(* nothing is cleared, the new value is merged into the old one *)
Lemma c54_set_bits_too_long_release_lemma : forall c t v s e x, overflow_checks c = false -> s <= e -> BITS c t < e - s ->
  e - s <= 2 ^ 16 -> v < 2 ^ BITS c t -> s < BITS c t ->
  exists v', num_set_bits c t v s e x = Ret v' /\ v' < 2 ^ BITS c t
    /\ forall i, N.testbit v' i = N.testbit v i || ((s <=? i) && (i <? BITS c t) && N.testbit x (i - s)).
Proof.
  intros c t v s e x HO Hs H1 H2 Hv Hsb. unfold num_set_bits. cbv zeta. rewrite range_len_ok by exact Hs.
  unfold sub. rewrite HO. destruct (N.leb_spec (e - s) (BITS c t)); [lia|]. rewrite bind_ret.
  assert (L : e - s <= 2 ^ N.min 32 (usize_bits c)).
  { eapply N.le_trans; [exact H2|]. apply pow2_le_mono. pose proof (usize_ge16 c). lia. }
  rewrite mask_too_long by assumption.
  rewrite (cast_small (BITS c t) s) by (eapply N.lt_trans; [exact Hsb|apply lt_pow2]).
  unfold shl. destruct (N.ltb_spec s (BITS c t)); [|lia]. rewrite !bind_ret. rewrite N.shiftl_0_l.
  assert (T : forall i, N.testbit (N.lor (N.land v (lnot (BITS c t) (cast (BITS c t) 0))) (cast (BITS c t) (N.shiftl x s))) i
     = N.testbit v i || ((s <=? i) && (i <? BITS c t) && N.testbit x (i - s))).
  { intro i. rewrite (cast_small (BITS c t) 0) by apply pow2_pos. unfold cast. rewrite N.lor_spec, N.land_spec, testbit_lnot, testbit_mod, testbit_0 by apply pow2_pos.
    destruct (N.ltb_spec i (BITS c t)) as [Hi|Hi]; cbn [andb negb].
    - rewrite andb_true_r. f_equal. destruct (N.leb_spec s i); cbn [andb].
      + rewrite N.shiftl_spec_high' by assumption. reflexivity.
      + apply N.shiftl_spec_low. assumption.
    - rewrite (testbit_high v (BITS c t)) by assumption. rewrite !andb_false_r. reflexivity. }
  eexists. split; [reflexivity|]. split; [|exact T].
  apply lt_pow2_testbit. intros i Hi. rewrite T. rewrite (testbit_high v (BITS c t)) by assumption.
  destruct (N.ltb_spec i (BITS c t)); [lia|]. rewrite andb_false_r. reflexivity.
Qed.

(* ---------- C07 on 16-bit targets ---------- *)
Lemma c07_fixed_3d_16_bit_lemma : forall c t x y z o, usize_bits c = 16 ->
  fixed_from_grid_index_3d c t x y z o
  = if overflow_checks c || (16 <? BITS c t / 3) then Panic else Ret (MkFixed 0).
Proof.
  intros c t x y z o HW. unfold fixed_from_grid_index_3d, MAX_LEVELS_BITMASK. cbv zeta.
  unfold MAX_LEVELS. cbn [dim Dim3D]. rewrite HW.
  destruct (N.ltb_spec 16 (BITS c t / 3)) as [L|L]; [rewrite orb_true_r; reflexivity|]. rewrite orb_false_r.
  assert (M : BITS c t = 8 \/ BITS c t = 16 \/ BITS c t = 32).
  { destruct (BITS_cases c t) as [E|[E|[E|[E|E]]]]; rewrite E in *; auto; cbn in L; lia. }
  assert (L' : BITS c t / 3 <? 16 = true) by (destruct M as [-> |[-> | ->]]; reflexivity). rewrite L', bind_ret.
  rewrite (add_ok c 16) by (destruct M as [-> |[-> | ->]]; reflexivity). rewrite bind_ret.
  assert (C : (BITS c t / 3 + 20) / 21 = 1) by (destruct M as [-> |[-> | ->]]; reflexivity). rewrite C.
  change (range 0 1) with [0]. cbn [foldM].
  rewrite (mul_ok c 16) by reflexivity. rewrite bind_ret. rewrite (add_ok c 16) by reflexivity. rewrite bind_ret.
  change (0 * 21) with 0. change (0 + 21) with 21. change (range_len 0 21) with 21.
  destruct (overflow_checks c) eqn:HO.
  - rewrite num_get_bits_panic; [reflexivity|exact HO|]. cbn [BITS]. rewrite HW. reflexivity.
  - assert (Z : forall v, num_get_bits c USize v 0 21 = Ret 0).
    { intro v. apply num_get_bits_long; [exact HO|cbn [BITS]; rewrite HW; reflexivity|]. rewrite HW. vm_compute. discriminate. }
    rewrite !Z, !bind_ret.
    assert (G : grid_chunk_3d_u64 c (cast 32 0) (cast 32 0) (cast 32 0) (get_bit_shifts_for_xyz o) = Ret 0).
    { unfold grid_chunk_3d_u64. change (cast 32 0) with 0. destruct o; cbn [get_bit_shifts_for_xyz]; unfold shl; reflexivity. }
    rewrite G, bind_ret. rewrite (mul_ok c 16) by reflexivity. rewrite bind_ret. rewrite (add_ok c 16) by (destruct M as [-> |[-> | ->]]; reflexivity).
    rewrite bind_ret. rewrite (add_ok c 16) by (destruct M as [-> |[-> | ->]]; reflexivity). rewrite bind_ret.
    unfold num_from. rewrite (cast_small (BITS c t) 0) by apply pow2_pos.
    rewrite num_set_bits_0 by (destruct M as [-> |[-> | ->]]; vm_compute; (reflexivity || discriminate)). reflexivity.
Qed.

(* ---------- C08 without overflow checks, integers more than twice as wide as usize ---------- *)
(* x.get_bits(0..d) << n without overflow checks *)
Lemma shifted_coordinate c x d n : overflow_checks c = false -> x < 2 ^ usize_bits c -> d <= 2 ^ 16 ->
  exists v, bind (num_get_bits c USize x 0 d) (fun x0 => shl c (usize_bits c) x0 n) = Ret v
    /\ v < 2 ^ usize_bits c /\ (usize_bits c < d -> v = 0).
Proof.
  intros HO Hx Hd. destruct (N.le_gt_cases d (usize_bits c)) as [L|L].
  - rewrite (num_get_bits_ok c USize x) by (cbn [BITS]; lia || exact Hx). rewrite bind_ret. unfold shl. rewrite HO.
    destruct (n <? usize_bits c); eexists; (split; [reflexivity|]); (split; [apply N.mod_lt, pow2_ne0|lia]).
  - rewrite num_get_bits_long; [|exact HO|cbn [BITS]; rewrite range_len_ok by lia; lia|].
    + rewrite bind_ret. exists 0. split; [|split; [apply pow2_pos|reflexivity]]. unfold shl. rewrite HO, !N.shiftl_0_l.
      rewrite cast_small by apply pow2_pos. destruct (n <? usize_bits c); reflexivity.
    + rewrite range_len_ok by lia. rewrite N.sub_0_r. eapply N.le_trans; [exact Hd|]. apply pow2_le_mono. pose proof (usize_ge16 c). lia.
Qed.
Lemma bits_of_beyond v s n w : v < 2 ^ w -> w <= s -> bits_of v s n = 0.
Proof.
  intros Hv Hs. apply N.bits_inj. intro i. tb. rewrite (testbit_high v w) by (assumption || lia). apply andb_false_r.
Qed.

Lemma c08_static_2d_wide_release_lemma : forall c t x y d o, overflow_checks c = false ->
  usize_bits c < BITS c t / 2 -> x < 2 ^ usize_bits c -> y < 2 ^ usize_bits c -> d <= BITS c t / 2 ->
  static_from_grid_index_2d c t x y d o = Ret (Ok (MkStatic 0 d)).
Proof.
  intros c t x y d o HO HW Hx Hy Hd. unfold static_from_grid_index_2d. cbv zeta.
  unfold MAX_LEVELS. cbn [dim Dim2D].
  assert (HM : BITS c t = 2 * (BITS c t / 2) /\ BITS c t / 2 = 4 * (BITS c t / 2 / 4) /\ 2 * usize_bits c <= BITS c t / 2 /\ BITS c t / 2 <= 64
    /\ usize_bits c = 4 * (usize_bits c / 4)).
  { revert HW. unfold BITS, usize_bits. destruct t, (pointer c); cbn; lia. }
  set (M := BITS c t / 2) in *. clearbody M. destruct HM as (HB & H4 & H2 & H64 & H4W).
  pose proof (pow2_usize_ge c) as HP. pose proof (usize_ge16 c) as H16.
  destruct (N.ltb_spec M d); [lia|]. rewrite sub_ok by lia. rewrite bind_ret.
  destruct (shifted_coordinate c x d (M - d) HO Hx) as (xb & Ex & Bx & Zx); [cbn; lia|].
  destruct (shifted_coordinate c y d (M - d) HO Hy) as (yb & Ey & By & Zy); [cbn; lia|].
  rewrite <- bind_assoc, Ex, bind_ret. rewrite <- bind_assoc, Ey, bind_ret.
  destruct (lower_higher o xb yb) as [lo hi] eqn:LH.
  assert (HL : (lo < 2 ^ usize_bits c /\ hi < 2 ^ usize_bits c) /\ (usize_bits c < d -> lo = 0 /\ hi = 0)).
  { destruct o; cbn in LH; injection LH as <- <-; auto. }
  destruct HL as [[Hlo Hhi] HZ]. clear LH Ex Ey Bx By Zx Zy.
  rewrite add_ok by lia. rewrite bind_ret. rewrite add_ok by lia. rewrite bind_ret. rewrite sub_ok by (clear - Hd; lia). rewrite bind_ret.
  match goal with |- context [foldM ?f (rev (range ?a ?b)) 0] => destruct (foldM_rev_range_inv (fun _ v => v = 0) f a b 0) as (v & E & ->) end.
  - clear; lia.
  - reflexivity.
  - intros k v Hk ->. exists 0. split; [|reflexivity]. unfold grid_chunk_2d. cbv zeta.
    assert (HK : 4 * k + 4 <= M /\ (d <= usize_bits c -> usize_bits c <= 4 * k)) by (clear - Hk H4 H2 H4W; lia).
    destruct HK as [HK1 HK2].
    rewrite mul_ok by lia. rewrite bind_ret. rewrite add_ok by lia. rewrite bind_ret.
    assert (Z : forall u, u < 2 ^ usize_bits c -> (usize_bits c < d -> u = 0) -> num_get_bits c USize u (k * 4) (k * 4 + 4) = Ret 0).
    { intros u Hu Zu. destruct (N.le_gt_cases d (usize_bits c)) as [L|L].
      - rewrite num_get_bits_gen by (cbn [BITS]; change (2 ^ 32) with 4294967296; lia || exact Hu). f_equal.
        apply (bits_of_beyond _ _ _ (usize_bits c)); [exact Hu|lia].
      - rewrite Zu by exact L. apply num_get_bits_0. cbn [BITS]. rewrite range_len_ok by lia. lia. }
    rewrite !Z by (assumption || (intro L; destruct (HZ L); assumption)). rewrite !bind_ret.
    rewrite mul_ok by lia. rewrite bind_ret. rewrite add_ok by lia. rewrite bind_ret.
    change (num_from c t (N.lor (add_zero_before_every_bit_u8 (cast 8 0)) (add_zero_behind_every_bit_u8 (cast 8 0)))) with (cast (BITS c t) 0).
    rewrite (cast_small (BITS c t) 0) by apply pow2_pos. apply num_set_bits_0; lia.
  - rewrite E, bind_ret. rewrite (cast_small 8 d) by (change (2 ^ 8) with 256; lia). reflexivity.
Qed.

(* ---------- C09, integers more than three times as wide as usize ---------- *)
Lemma wide_loop_3d c t o xb yb zb cs : let W := usize_bits c in let M := MAX_LEVELS c Dim3D t in
  W < M -> xb < 2 ^ W -> yb < 2 ^ W -> zb < 2 ^ W -> cs <= (M + 7) / 8 ->
  exists v, foldM (fun bits chunk_index =>
        let! start_bit := mul c W chunk_index 8 in
        let! end_bit := add c W start_bit 8 in
        let! x_chunk := num_get_bits c USize xb start_bit end_bit in
        let! y_chunk := num_get_bits c USize yb start_bit end_bit in
        let! z_chunk := num_get_bits c USize zb start_bit end_bit in
        let! chunk := grid_chunk_3d_u32 c (cast 8 x_chunk) (cast 8 y_chunk) (cast 8 z_chunk) (get_bit_shifts_for_xyz o) in
        let! off := mul c W chunk_index 24 in
        let! start_bit := add c W off (BITS c t mod 3) in
        let! end24 := add c W start_bit 24 in
        num_set_bits c t bits start_bit (N.min end24 (BITS c t)) (num_from c t chunk))
      (rev (range cs ((M + 7) / 8))) 0 = Ret v
    /\ v < 2 ^ BITS c t /\ (forall j, j < BITS c t mod 3 -> N.testbit v j = false)
    /\ forall i q, q < 3 -> N.testbit v (BITS c t mod 3 + (3 * i + q)) = (8 * cs <=? i) && N.testbit (sel o xb yb zb q) i.
Proof.
  intros W M HW Hx Hy Hz Hcs. destruct (max_levels_3d c t) as (M1 & M2 & M3 & M4 & M5). fold M in M1, M3, M4, M5.
  pose proof (pow2_usize_ge c) as HP. pose proof (usize_ge16 c) as H16. fold W in HP, H16, M5.
  assert (EW : W = BITS c USize) by reflexivity.
  assert (PM : 2 ^ W <= 2 ^ M) by (apply pow2_le_mono; lia). set (left := BITS c t mod 3) in *. clearbody left M.
  set (mc := (M + 7) / 8) in *.
  assert (Mc : mc <= 6 /\ M <= 8 * mc /\ 8 * mc < M + 8) by (unfold mc; clear - M4; lia).
  clearbody mc. destruct Mc as (Mc1 & Mc2 & Mc3).
  match goal with |- context [foldM ?f (rev (range cs mc)) 0] =>
    destruct (foldM_rev_range_inv (fun k v => v < 2 ^ BITS c t /\ (forall j, j < left -> N.testbit v j = false) /\ forall i q, q < 3 ->
       N.testbit v (left + (3 * i + q)) = (8 * k <=? i) && N.testbit (sel o xb yb zb q) i)
      f cs mc 0) as (v & E & Hv & HL & HI) end.
  - exact Hcs.
  - split; [apply pow2_pos|]. split; [intros; apply testbit_0|]. intros i q Hq. rewrite testbit_0.
    destruct (N.leb_spec (8 * mc) i); [|reflexivity].
    rewrite (testbit_high (sel o xb yb zb q) M); [reflexivity| |lia]. apply (sel_ind (fun a => a < 2 ^ M)); lia.
  - intros k v Hk (Hv & HL & HI).
    rewrite mul_ok by lia. rewrite bind_ret. rewrite add_ok by lia. rewrite bind_ret.
    assert (G : forall u, u < 2 ^ W -> num_get_bits c USize u (k * 8) (k * 8 + 8) = Ret (bits_of u (8 * k) 8)).
    { intros u Hu. rewrite num_get_bits_gen; rewrite <- ?EW; try exact Hu; try lia; try (change (2 ^ 32) with 4294967296; lia).
      replace (k * 8 + 8 - k * 8) with 8 by lia. replace (k * 8) with (8 * k) by lia. reflexivity. }
    rewrite !G, !bind_ret by assumption.
    destruct (grid_chunk_3d_u32_ok c o (bits_of xb (8 * k) 8) (bits_of yb (8 * k) 8) (bits_of zb (8 * k) 8)) as (ch & E & I);
      try apply bits_of_lt.
    rewrite E, bind_ret. rewrite mul_ok by lia. rewrite bind_ret. rewrite add_ok by lia. rewrite bind_ret. rewrite add_ok by lia. rewrite bind_ret.
    destruct (put_chunk_3d c t M left 8 k o xb yb zb v ch) as (v' & E' & Hv' & HL' & HI'); try assumption; try lia.
    cbv zeta in E'. replace (k * 24 + left) with (left + 3 * (8 * k)) by lia. change (3 * 8) with 24 in E'. rewrite E'.
    exists v'. split; [reflexivity|]. split; [exact Hv'|]. split; [intros j Hj; rewrite HL' by exact Hj; apply HL; exact Hj|].
    intros i q Hq. rewrite HI' by exact Hq. rewrite HI by exact Hq.
    destruct (N.leb_spec (8 * k) i), (N.ltb_spec i (8 * k + 8)), (N.leb_spec (8 * (k + 1)) i);
      cbn [andb]; try lia; reflexivity.
  - exists v. auto.
Qed.
(* a word without bits at the three-bit groups and below them is zero *)
Lemma groups_zero v left : (forall j, j < left -> N.testbit v j = false) ->
  (forall i q, q < 3 -> N.testbit v (left + (3 * i + q)) = false) -> v = 0.
Proof.
  intros H1 H2. apply N.bits_inj. intro i. rewrite testbit_0. destruct (N.lt_ge_cases i left) as [L|L]; [apply H1; exact L|].
  replace i with (left + (3 * ((i - left) / 3) + (i - left) mod 3)) by (clear - L; lia). apply H2. apply N.mod_lt. discriminate.
Qed.
Lemma wide_3d_facts c t d : let W := usize_bits c in let M := MAX_LEVELS c Dim3D t in
  W < M -> d <= M -> M < 3 * W /\ 8 * (W / 8) = W /\ (d <= W -> W <= M - d -> W <= 8 * ((M + 7) / 8 - (d + 7) / 8)).
Proof.
  intros W M. unfold W, M, MAX_LEVELS. cbn [dim Dim3D].
  destruct (BITS_cases c t) as [E|[E|[E|[E|E]]]]; rewrite E; destruct (usize_bits_cases c) as [F|[F|F]]; rewrite F; cbn; lia.
Qed.
Lemma c09_static_3d_wide_lemma : forall c t x y z d o,
  usize_bits c < BITS c t / 3 -> x < 2 ^ usize_bits c -> y < 2 ^ usize_bits c -> z < 2 ^ usize_bits c -> d <= BITS c t / 3 ->
  let W := usize_bits c in
  let M := BITS c t / 3 in
  let lost := 8 * ((M + 7) / 8 - (d + 7) / 8) - (M - d) in
  let kept v := v mod 2 ^ (W - (M - d)) / 2 ^ lost * 2 ^ lost in
  if (d <=? W) && (M - d <? W)
  then exists s, static_from_grid_index_3d c t x y z d o = Ret (Ok s) /\ valid c Dim3D (KStatic t) s
         /\ st_depth (static_ops c Dim3D t) s = d
         /\ to_grid_index_3d c (static_ops c Dim3D t) s o = Ret (kept x, kept y, kept z)
  else static_from_grid_index_3d c t x y z d o = if overflow_checks c then Panic else Ret (Ok (MkStatic 0 d)).
Proof.
  intros c t x y z d o HW Hx Hy Hz Hd W M lost kept.
  destruct (wide_3d_facts c t d HW Hd) as (W3 & W8 & WC). fold W M in W3, W8, WC.
  destruct (max_levels_3d c t) as (M1 & M2 & M3 & M4 & M5).
  change (MAX_LEVELS c Dim3D t) with M in M1, M3, M4, M5. fold W M in HW, M5, Hx, Hy, Hz, Hd.
  pose proof (pow2_usize_ge c) as HP. pose proof (usize_ge16 c) as H16. fold W in HP, H16.
  set (mc := (M + 7) / 8) in *. set (cs := mc - (d + 7) / 8) in *.
  (* what follows the reading of the coordinates *)
  assert (TAIL : forall xb yb zb,
     bind (num_get_bits c USize x 0 d) (fun x0 => shl c W x0 (M - d)) = Ret xb ->
     bind (num_get_bits c USize y 0 d) (fun x0 => shl c W x0 (M - d)) = Ret yb ->
     bind (num_get_bits c USize z 0 d) (fun x0 => shl c W x0 (M - d)) = Ret zb ->
     xb < 2 ^ W -> yb < 2 ^ W -> zb < 2 ^ W ->
     exists v, static_from_grid_index_3d c t x y z d o = Ret (Ok (MkStatic v d))
       /\ v < 2 ^ BITS c t /\ (forall j, j < BITS c t mod 3 -> N.testbit v j = false)
       /\ forall i q, q < 3 -> N.testbit v (BITS c t mod 3 + (3 * i + q)) = (8 * cs <=? i) && N.testbit (sel o xb yb zb q) i).
  { intros xb yb zb Ex Ey Ez Bx By Bz.
    destruct (wide_loop_3d c t o xb yb zb cs HW Bx By Bz) as (v & E & Hv); [change (cs <= mc); unfold cs; clear; lia|].
    exists v. split; [|exact Hv]. unfold static_from_grid_index_3d. cbv zeta. cbv zeta in E.
    change (MAX_LEVELS c Dim3D t) with M in *. cbn [dim Dim3D]. fold W in E. fold W.
    destruct (N.ltb_spec M d); [lia|]. rewrite sub_ok by lia. rewrite bind_ret.
    rewrite <- bind_assoc, Ex, bind_ret. rewrite <- bind_assoc, Ey, bind_ret. rewrite <- bind_assoc, Ez, bind_ret.
    rewrite add_ok by lia. rewrite bind_ret. rewrite add_ok by lia. rewrite bind_ret.
    rewrite sub_ok by (clear - Hd; lia). rewrite bind_ret. fold mc. fold cs. fold mc in E. rewrite E, bind_ret.
    rewrite (cast_small 8 d) by (change (2 ^ 8) with 256; lia). reflexivity. }
  destruct (N.leb_spec d W) as [L1|L1]; [destruct (N.ltb_spec (M - d) W) as [L2|L2]|]; cbn [andb].
  - set (sh u := cast W (N.shiftl (u mod 2 ^ d) (M - d))).
    assert (B0 : forall v, bits_of v 0 d = v mod 2 ^ d) by (intro v; unfold bits_of; rewrite N.div_1_r; reflexivity).
    assert (ES : forall u, u < 2 ^ W -> bind (num_get_bits c USize u 0 d) (fun x0 => shl c W x0 (M - d)) = Ret (sh u)).
    { intros u Hu. rewrite (num_get_bits_ok c USize u) by (cbn [BITS]; fold W; lia || exact Hu). rewrite bind_ret, N.sub_0_r, B0.
      unfold shl. destruct (N.ltb_spec (M - d) W); [reflexivity|lia]. }
    assert (SB : forall u, sh u < 2 ^ W) by (intro u; apply N.mod_lt, pow2_ne0).
    assert (ST : forall u i, N.testbit (sh u) (i + (M - d)) = (i <? W - (M - d)) && N.testbit u i).
    { intros u i. unfold sh, cast. rewrite testbit_mod, N.shiftl_spec_high', testbit_mod by (clear; lia).
      replace (i + (M - d) - (M - d)) with i by (clear; lia).
      destruct (N.ltb_spec (i + (M - d)) W), (N.ltb_spec i (W - (M - d))), (N.ltb_spec i d); cbn [andb]; try reflexivity; lia. }
    assert (S0 : forall u i, i < M - d -> N.testbit (sh u) i = false).
    { intros u i Hi. unfold sh, cast. rewrite testbit_mod. rewrite N.shiftl_spec_low by exact Hi. apply andb_false_r. }
    destruct (TAIL (sh x) (sh y) (sh z)) as (v & E & Hv & HL & HI); auto. clear TAIL ES.
    clearbody sh. exists (MkStatic v d). split; [exact E|].
    destruct (raw_exists c Dim3D (KStatic t) (MkStatic v d) d dim3_ok Hv) as (l & Hl & Hraw).
    { cbn [width dim Dim3D]. lia. }
    assert (C : canon c Dim3D (KStatic t) (MkStatic v d) l).
    { unfold canon. rewrite Hl. destruct Hraw as [R1 R2 R3 R4 R5]. constructor; auto. cbn [width num sx_bits min_width] in *.
      try rewrite Hl. apply (rest_zero3 _ _ (BITS c t mod 3) M); auto.
      intros i q Hq Hi. rewrite HI by exact Hq. rewrite (sel_map sh). rewrite S0 by lia. apply andb_false_r. }
    assert (P : path_to3 o d (kept x) (kept y) (kept z) l).
    { apply (word_path3 o (BITS c t) v l _ _ _ d (M - d) (BITS c t mod 3)).
      * exact (raw_holds _ _ _ _ _ _ _ _ Hraw).
      * exact Hl.
      * lia.
      * intros i q Hq Hi. rewrite HI by exact Hq. rewrite (sel_map sh), (sel_map kept), ST. unfold kept.
        fold (clear_low lost (sel o x y z q mod 2 ^ (W - (M - d)))). rewrite testbit_clear_low, testbit_mod. f_equal.
        unfold lost. destruct (N.leb_spec (8 * cs) (i + (M - d))), (N.leb_spec (8 * cs - (M - d)) i); lia || reflexivity. }
    destruct (to_grid_3d_of c (KStatic t) _ l o d _ _ _ (canon_repr _ _ _ _ _ C) P) as (V & D & G); [exact L1|].
    split; [exact V|]. split; [exact D|].
    assert (K : forall u, kept u mod 2 ^ d = kept u).
    { intro u. apply N.mod_small. unfold kept. eapply N.le_lt_trans with (u mod 2 ^ (W - (M - d))).
      - rewrite N.mul_comm. apply N.mul_div_le, pow2_ne0.
      - eapply N.lt_le_trans; [apply N.mod_lt, pow2_ne0|]. apply pow2_le_mono. lia. }
    rewrite !K in G. exact G.
  - specialize (WC L1 L2). destruct (overflow_checks c) eqn:HO.
    + unfold static_from_grid_index_3d. cbv zeta. change (MAX_LEVELS c Dim3D t) with M. fold W.
      destruct (N.ltb_spec M d); [lia|]. rewrite sub_ok by lia. rewrite bind_ret.
      rewrite (num_get_bits_ok c USize x) by (cbn [BITS]; fold W; lia || exact Hx). rewrite bind_ret. unfold shl. rewrite HO.
      destruct (N.ltb_spec (M - d) W); [lia|reflexivity].
    + destruct (shifted_coordinate c x d (M - d) HO Hx) as (xb & Ex & Bx & _); [cbn; lia|].
      destruct (shifted_coordinate c y d (M - d) HO Hy) as (yb & Ey & By & _); [cbn; lia|].
      destruct (shifted_coordinate c z d (M - d) HO Hz) as (zb & Ez & Bz & _); [cbn; lia|].
      destruct (TAIL xb yb zb Ex Ey Ez Bx By Bz) as (v & E & Hv & HL & HI). rewrite E.
      rewrite (groups_zero v _ HL); [reflexivity|]. intros i q Hq. rewrite HI by exact Hq.
      destruct (N.leb_spec (8 * cs) i) as [K|K]; [|reflexivity]. cbn [andb]. apply (testbit_high _ W); [|lia].
      apply (sel_ind (fun a => a < 2 ^ W)); assumption.
  - destruct (overflow_checks c) eqn:HO.
    + unfold static_from_grid_index_3d. cbv zeta. change (MAX_LEVELS c Dim3D t) with M. fold W.
      destruct (N.ltb_spec M d); [lia|]. rewrite sub_ok by lia. rewrite bind_ret.
      rewrite num_get_bits_panic; [reflexivity|exact HO|]. cbn [BITS]. fold W. rewrite range_len_ok by lia. lia.
    + destruct (shifted_coordinate c x d (M - d) HO Hx) as (xb & Ex & Bx & Zx); [cbn; lia|].
      destruct (shifted_coordinate c y d (M - d) HO Hy) as (yb & Ey & By & Zy); [cbn; lia|].
      destruct (shifted_coordinate c z d (M - d) HO Hz) as (zb & Ez & Bz & Zz); [cbn; lia|].
      rewrite Zx in * by exact L1. rewrite Zy in * by exact L1. rewrite Zz in * by exact L1.
      destruct (TAIL 0 0 0 Ex Ey Ez Bx By Bz) as (v & E & Hv & HL & HI). rewrite E.
      rewrite (groups_zero v _ HL); [reflexivity|]. intros i q Hq. rewrite HI by exact Hq.
      rewrite (sel_ind (fun a => a = 0) o 0 0 0 q); auto. rewrite testbit_0. apply andb_false_r.
Qed.

(* ---------- C24 ---------- *)
Lemma byte_of_list l k : bytes_ok l -> bytes_value l / 2 ^ (8 * k) mod 256 = nth (N.to_nat k) l 0.
Proof.
  intros Hl. apply N.bits_inj. intro i. change 256 with (2 ^ 8). rewrite testbit_mod, N.div_pow2_bits, testbit_bytes_value by exact Hl.
  destruct (N.ltb_spec i 8) as [Hi|Hi]; cbn [andb].
  - replace ((i + 8 * k) / 8) with k by lia. replace ((i + 8 * k) mod 8) with i by lia.
    destruct (nth_error l (N.to_nat k)) as [b|] eqn:E.
    + rewrite (nth_error_nth _ _ 0 E). reflexivity.
    + rewrite nth_overflow by (apply nth_error_None; exact E). rewrite testbit_0. reflexivity.
  - symmetry. apply (testbit_high _ 8); [|exact Hi]. destruct (nth_in_or_default (N.to_nat k) l 0) as [I|E].
    + unfold bytes_ok in Hl. rewrite Forall_forall in Hl. apply Hl. exact I.
    + rewrite E. reflexivity.
Qed.
Lemma rev_zeros n : rev (zeros n) = zeros n.
Proof.
  unfold zeros. induction (N.to_nat n) as [|m IH]; [reflexivity|]. cbn [repeat rev]. rewrite IH. symmetry. apply repeat_cons.
Qed.
Lemma nth_app_zeros l n k : nth (N.to_nat k) (l ++ zeros n) 0 = if k <? len l then nth (N.to_nat k) l 0 else 0.
Proof.
  destruct (N.ltb_spec k (len l)) as [H|H]; unfold len in H.
  - apply app_nth1. lia.
  - rewrite app_nth2 by lia. unfold zeros. apply nth_repeat.
Qed.
Lemma nth_zeros_app l n k : nth (N.to_nat k) (zeros n ++ l) 0 = if k <? n then 0 else nth (N.to_nat (k - n)) l 0.
Proof.
  unfold zeros. destruct (N.ltb_spec k n) as [H|H].
  - rewrite app_nth1 by (rewrite repeat_length; lia). apply nth_repeat.
  - rewrite app_nth2 by (rewrite repeat_length; lia). rewrite repeat_length. f_equal. lia.
Qed.
(* an index made by the API: its bytes, and the fixed index of the same cells *)
Lemma made_dynamic_bytes c D L t (s : storage KDynamic) l : made c D L KDynamic true s l -> len l <= BITS c t / dim D ->
  let nb := BITS c t / 8 in let n := (dim D * len l + 7) / 8 in
  n <= nb /\ len (dy_bits s) = n /\ bytes_ok (dy_bits s) /\ is_dim D L /\ dy_depth s = len l
  /\ bytes_value (dy_bits s) = enc l * 2 ^ (8 * n - dim D * len l)
  /\ canon c D (KFixed t) (MkFixed (bytes_value (zeros (nb - n) ++ dy_bits s))) (l ++ zero_cells D (BITS c t / dim D - len l)).
Proof.
  intros HM H nb n. destruct (made_rep _ _ _ _ _ _ _ HM) as [HL C]. pose proof (is_dim_ok _ _ HL) as HD. cbn [rep] in C.
  assert (Hs : len (dy_bits s) = n).
  { pose proof (raw_width _ _ _ _ _ _ _ _ C) as W. cbn [width min_width] in W. fold n in W. lia. }
  assert (Hle : n <= nb).
  { change (nbytes D (len l) <= BITS c t / 8). rewrite num_size_8', <- (max_levels_bytes c D L t HL). apply nbytes_le. exact H. }
  destruct (raw_sane _ _ _ _ _ _ _ _ C) as [B BW].
  assert (V : bytes_value (dy_bits s) = enc l * 2 ^ (8 * n - dim D * len l)).
  { pose proof (holds_value _ _ _ (raw_holds _ _ _ _ _ _ _ _ C)) as V. cbn [num min_width] in V. fold n in V.
    pose proof (raw_rest _ _ _ _ _ _ _ _ C) as RR. cbn [num min_width] in RR. fold n in RR. rewrite RR, N.add_0_r in V. exact V. }
  assert (F : 8 * nb = BITS c t).
  { unfold nb. rewrite num_size_8'. apply num_size_8. }
  assert (Hd : dim D * len l <= 8 * n) by (unfold n; clear; lia).
  split; [exact Hle|]. split; [exact Hs|]. split; [exact B|]. split; [exact HL|].
  split; [exact (raw_depth _ _ _ _ _ _ _ _ C)|]. split; [exact V|].
  rewrite bytes_value_app, bytes_value_zeros, len_zeros, N.add_0_l, V.
  set (v := 2 ^ (8 * (nb - n)) * (enc l * 2 ^ (8 * n - dim D * len l))).
  assert (Ev : v = enc l * 2 ^ (BITS c t - dim D * len l)).
  { unfold v. rewrite N.mul_comm, <- N.mul_assoc, <- N.pow_add_r. f_equal. f_equal. lia. }
  assert (Bv : v < 2 ^ BITS c t).
  { rewrite Ev. replace (BITS c t) with (dim D * len l + (BITS c t - dim D * len l)) at 2 by lia. rewrite N.pow_add_r.
    apply N.mul_lt_mono_pos_r; [apply pow2_pos|]. apply (enc_lt HD). }
  clearbody v. apply (raw_fixed_of c D t (len l) (MkFixed v) l HD Bv). constructor.
  - exact Bv.
  - split; [exact Bv|]. split; [lia|]. cbn [num sx_bits fx_bits]. rewrite Ev. apply N.div_mul, pow2_ne0.
  - reflexivity.
  - reflexivity.
  - cbn [num sx_bits fx_bits]. unfold rest. rewrite Ev. apply N.mod_mul, pow2_ne0.
Qed.
Lemma fixed_from_dynamic_any c D t (s : dynamic_storage) (l : list (cell D)) : bytes_ok (dy_bits s) -> dy_depth s = len l -> len l <= BITS c t / dim D ->
  len (dy_bits s) <= BITS c t / 8 ->
  fixed_from_dynamic c D t s = Ok (MkFixed (bytes_value (match target_endian c with
     | LittleEndian => dy_bits s ++ zeros (BITS c t / 8 - len (dy_bits s))
     | BigEndian => zeros (BITS c t / 8 - len (dy_bits s)) ++ rev (dy_bits s) end))).
Proof.
  intros B Hd H Hn. unfold fixed_from_dynamic, MAX_LEVELS. rewrite Hd. destruct (N.ltb_spec (BITS c t / dim D) (len l)); [lia|].
  rewrite num_from_u8_slice_spec by exact B. rewrite <- num_size_8'. unfold padded.
  rewrite firstn_all2 by (rewrite app_length; unfold zeros; rewrite repeat_length; unfold len in *; lia).
  do 2 f_equal. unfold from_bytes, from_be_bytes. destruct (target_endian c); rewrite from_le_bytes_value; [|reflexivity].
  rewrite rev_app_distr. rewrite rev_zeros. reflexivity.
Qed.
Lemma c24_dynamic_to_fixed_bytes_lemma : forall c D L t (s : storage KDynamic) l,
  made c D L KDynamic true s l -> len l <= BITS c t / dim D ->
  let nb := BITS c t / 8 in let n := (dim D * len l + 7) / 8 in let byte v k := v / 2 ^ (8 * k) mod 256 in
  exists s0 s', valid c D (KFixed t) s0
    /\ shows (fixed_ops c D t) s0 (l ++ repeat (cell_zero D) (N.to_nat (BITS c t / dim D - len l)))
    /\ fixed_from_dynamic c D t s = Ok s'
    /\ forall k, k < nb -> byte (fx_bits s') k =
         match target_endian c with
         | LittleEndian => if k <? n then byte (fx_bits s0) (nb - n + k) else 0
         | BigEndian => if k <? nb - n then 0 else byte (fx_bits s0) (nb - n + (nb - 1 - k))
         end.
Proof.
  intros c D L t s l HM H nb n byte. destruct (made_dynamic_bytes c D L t s l HM H) as (Hle & Hs & B & HL & Hd & _ & C).
  fold nb n in Hle, Hs, C. pose proof (is_dim_ok _ _ HL) as HD.
  eexists. eexists. split; [|split; [|split]].
  - eapply (raw_sane _ _ _ _ _ _ _ _ C).
  - apply (repr_shows c D (KFixed t)); [exact HD|]. apply canon_repr. exact C.
  - apply (fixed_from_dynamic_any c D t s l B Hd H). rewrite Hs. exact Hle.
  - fold nb. rewrite Hs. intros k Hk. cbn [fx_bits]. unfold byte.
    assert (Z : forall m, bytes_ok (zeros m)) by (intro m; unfold zeros, bytes_ok; apply Forall_forall; intros x I; apply repeat_spec in I; subst; reflexivity).
    destruct (target_endian c).
    + rewrite byte_of_list by (apply Forall_app; split; [apply Z|apply bytes_ok_rev; exact B]). rewrite nth_zeros_app.
      destruct (N.ltb_spec k (nb - n)) as [K|K]; [reflexivity|].
      rewrite byte_of_list by (apply Forall_app; split; [apply Z|exact B]). rewrite nth_zeros_app.
      destruct (N.ltb_spec (nb - n + (nb - 1 - k)) (nb - n)); [lia|].
      rewrite rev_nth by (unfold len in Hs; lia). f_equal. unfold len in Hs. lia.
    + rewrite byte_of_list by (apply Forall_app; split; [exact B|apply Z]). rewrite nth_app_zeros, Hs.
      destruct (N.ltb_spec k n) as [K|K]; [|reflexivity].
      rewrite byte_of_list by (apply Forall_app; split; [apply Z|exact B]). rewrite nth_zeros_app.
      destruct (N.ltb_spec (nb - n + k) (nb - n)); [lia|]. f_equal. lia.
Qed.
(* little-endian: all cells move down by the missing bytes, as far as these are whole cells *)
Lemma c24_dynamic_to_fixed_cells_lemma : forall c D L t (s : storage KDynamic) l z,
  made c D L KDynamic true s l -> target_endian c = LittleEndian -> len l <= BITS c t / dim D ->
  dim D * z = 8 * (BITS c t / 8 - (dim D * len l + 7) / 8) ->
  exists s', fixed_from_dynamic c D t s = Ok s'
    /\ shows (fixed_ops c D t) s' (repeat (cell_zero D) (N.to_nat z) ++ l ++ repeat (cell_zero D) (N.to_nat (BITS c t / dim D - z - len l))).
Proof.
  intros c D L t s l z HM HE H Hz. destruct (made_dynamic_bytes c D L t s l HM H) as (Hle & Hs & B & HL & Hd & V & C).
  set (nb := BITS c t / 8) in *. set (n := (dim D * len l + 7) / 8) in *. pose proof (is_dim_ok _ _ HL) as HD.
  eexists. split; [apply (fixed_from_dynamic_any c D t s l B Hd H); rewrite Hs; exact Hle|].
  fold nb. rewrite HE, bytes_value_app, bytes_value_zeros, N.mul_0_r, N.add_0_r, V.
  assert (F : 8 * nb = BITS c t) by (unfold nb; rewrite num_size_8'; apply num_size_8).
  assert (Hdl : dim D * len l <= 8 * n) by (unfold n; clear; lia).
  set (v := enc l * 2 ^ (8 * n - dim D * len l)).
  assert (Bv : v < 2 ^ BITS c t).
  { apply N.lt_le_trans with (2 ^ (8 * n)); [|apply pow2_le_mono; lia]. unfold v.
    replace (8 * n) with (dim D * len l + (8 * n - dim D * len l)) at 2 by lia. rewrite N.pow_add_r.
    apply N.mul_lt_mono_pos_r; [apply pow2_pos|]. apply (enc_lt HD). }
  set (m := zero_cells D z ++ l).
  assert (Hm : len m = z + len l) by (unfold m; rewrite len_app, len_repeat; lia).
  pose proof (dim_ge D HD) as D1.
  assert (R : raw c D (KStatic t) (len m) (BITS c t) 0 (MkStatic v (len m)) m).
  { constructor.
    - exact Bv.
    - split; [exact Bv|]. rewrite Hm. split; [lia|]. cbn [num sx_bits]. unfold m. rewrite enc_app, (enc_zeros HD), N.mul_0_l, N.add_0_l.
      unfold v. replace (BITS c t - dim D * (z + len l)) with (8 * n - dim D * len l) by lia. apply N.div_mul, pow2_ne0.
    - reflexivity.
    - reflexivity.
    - cbn [num sx_bits]. unfold rest. rewrite Hm. replace (BITS c t - dim D * (z + len l)) with (8 * n - dim D * len l) by lia.
      apply N.mod_mul, pow2_ne0. }
  pose proof (raw_fixed_of c D t (len m) (MkFixed v) m HD Bv R) as C'.
  pose proof (repr_shows c D (KFixed t) _ _ HD (canon_repr _ _ _ _ _ C')) as Sh. unfold m in Sh at 1. rewrite <- app_assoc in Sh.
  rewrite Hm in Sh. replace (MAX_LEVELS c D t - (z + len l)) with (BITS c t / dim D - z - len l) in Sh by (unfold MAX_LEVELS; clear; lia).
  exact Sh.
Qed.

(* ---------- C33 ---------- *)
Lemma c33_zero_before_u8_every_value_lemma : forall v, v < 256 -> forall i,
  N.testbit (add_zero_before_every_bit_u8 v) i = (i mod 2 =? 0) && N.testbit (N.lor (v mod 16) (v / 16 mod 4 * 4)) (i / 2).
Proof.
  intros v Hv i. rewrite <- c33_zero_before_u8_partial_lemma.
  - f_equal. apply N.eqb_eq. revert v Hv. apply forall_below. vm_compute. reflexivity.
  - apply N.ltb_lt. revert v Hv. apply forall_below. vm_compute. reflexivity.
Qed.
Lemma c33_zero_behind_u8_every_value_lemma : forall v, v < 256 -> forall i,
  N.testbit (add_zero_behind_every_bit_u8 v) i = (i mod 2 =? 1) && N.testbit (N.lor (v mod 16) (v / 16 mod 4 * 4)) (i / 2).
Proof.
  intros v Hv i. rewrite <- c33_zero_behind_u8_partial_lemma.
  - f_equal. apply N.eqb_eq. revert v Hv. apply forall_below. vm_compute. reflexivity.
  - apply N.ltb_lt. revert v Hv. apply forall_below. vm_compute. reflexivity.
Qed.
Lemma c33_zero_before_u16_every_value_lemma : forall v, v < 2 ^ 16 -> forall i,
  N.testbit (add_zero_before_every_bit_u16 v) i = (i mod 2 =? 0) && N.testbit (N.lor (v mod 256) (v / 256 mod 16 * 16)) (i / 2).
Proof.
  intros v Hv i. rewrite <- c33_zero_before_u16_partial_lemma.
  - f_equal. apply N.eqb_eq. revert v Hv. apply forall_below. vm_compute. reflexivity.
  - apply N.ltb_lt. revert v Hv. apply forall_below. vm_compute. reflexivity.
Qed.

(* ---------- C34 ---------- *)
(* the one sum beyond the type whose wrapped result is right: subtracting one wraps back *)
Lemma c34_align_to_boundary_lemma : forall c t x a, 0 < a -> x + a = 2 ^ BITS c t -> overflow_checks c = false ->
  exists r, align_to c t x a = Ret r /\ r < 2 ^ BITS c t /\ rounded_up x a r.
Proof.
  intros c t x a Ha H HO. unfold align_to. cbv zeta. destruct (N.eqb_spec a 0); [lia|].
  set (P := 2 ^ BITS c t) in *. assert (HP : 1 < P) by (pose proof (pow2_lt_mono 0 (BITS c t) ltac:(pose proof (BITS_le c t); destruct (BITS_cases c t) as [E|[E|[E|[E|E]]]]; rewrite E; lia)); cbn in *; exact H0).
  unfold add, sub, mul, cast. rewrite HO. fold P.
  destruct (N.ltb_spec (x + a) P); [lia|]. rewrite bind_ret. rewrite H, N.mod_same by lia.
  destruct (N.leb_spec 1 0); [lia|]. rewrite bind_ret. rewrite N.add_0_r.
  rewrite (N.mod_small (P - 1)) by lia.
  pose proof (N.mul_div_le (P - 1) a ltac:(lia)) as U. pose proof (N.mod_lt (P - 1) a ltac:(lia)) as Lt. pose proof (N.div_mod (P - 1) a ltac:(lia)) as E.
  rewrite (N.mul_comm a) in U, E.
  destruct (N.ltb_spec ((P - 1) / a * a) P); [|lia]. eexists. split; [reflexivity|]. split; [assumption|]. split; [eexists; reflexivity|].
  set (q := (P - 1) / a) in *. clearbody q. split; [lia|]. intros q' Hq'.
  destruct (N.le_gt_cases q q') as [L|L]; [apply N.mul_le_mono_r; exact L|]. exfalso.
  assert (q' * a + a <= q * a) by nia. lia.
Qed.
