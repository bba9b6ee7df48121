(* Grid2DProofs.v - from_grid_index of the three 2D storages *)
From Verif Require Import Base ModelNumber ModelDim ModelStorage Model2D Model3D Spec BitProofs NumberProofs VecProofs CellProofs StorageProofs ConvProofs GridProofs.

Local Notation zero_cells D n := (repeat (cell_zero D) (N.to_nat n)).

(* v has the bits of lo at even and those of hi at odd positions *)
Definition interleaved (lo hi v : N) : Prop :=
  forall i, N.testbit v (2 * i) = N.testbit lo i /\ N.testbit v (2 * i + 1) = N.testbit hi i.

Lemma chunk_2d_bits a b : a < 16 -> b < 16 ->
  N.lor (add_zero_before_every_bit_u8 (cast 8 a)) (add_zero_behind_every_bit_u8 (cast 8 b)) < 256
  /\ interleaved a b (N.lor (add_zero_before_every_bit_u8 (cast 8 a)) (add_zero_behind_every_bit_u8 (cast 8 b))).
Proof.
  intros Ha Hb. rewrite !cast_small by (change (2 ^ 8) with 256; lia).
  assert (I : interleaved a b (N.lor (add_zero_before_every_bit_u8 a) (add_zero_behind_every_bit_u8 b))).
  { intro i. rewrite !N.lor_spec. rewrite <- (N.add_0_r (2 * i)).
    rewrite !spread_before_u8, !spread_behind_u8 by lia.
    replace (2 * i + 0 + 1) with (2 * i + 1) by lia.
    rewrite !spread_before_u8, !spread_behind_u8 by lia. cbn [N.eqb andb orb Pos.eqb]. rewrite orb_false_r. auto. }
  split; [|exact I]. change 256 with (2 ^ 8). apply lt_pow2_testbit. intros i Hi.
  destruct (I (i / 2)) as [E O]. assert (i = 2 * (i / 2) \/ i = 2 * (i / 2) + 1) as [Q|Q] by lia; rewrite Q.
  - rewrite E. apply (testbit_high a 4); [exact Ha|lia].
  - rewrite O. apply (testbit_high b 4); [exact Hb|lia].
Qed.

Lemma grid_chunk_2d_ok c lo hi k : lo < 2 ^ usize_bits c -> hi < 2 ^ usize_bits c -> 4 * k + 4 <= usize_bits c ->
  exists ch, grid_chunk_2d c lo hi k = Ret ch /\ ch < 256 /\ interleaved (bits_of lo (4 * k) 4) (bits_of hi (4 * k) 4) ch.
Proof.
  intros Hl Hh Hk. pose proof (pow2_usize_ge c). pose proof (usize_le64 c). unfold grid_chunk_2d. cbv zeta.
  rewrite mul_ok by lia. rewrite bind_ret. rewrite add_ok by lia. rewrite bind_ret.
  rewrite (num_get_bits_ok c USize lo) by (cbn [BITS]; lia || exact Hl). rewrite bind_ret.
  rewrite (num_get_bits_ok c USize hi) by (cbn [BITS]; lia || exact Hh). rewrite bind_ret.
  eexists. split; [reflexivity|]. replace (k * 4 + 4 - k * 4) with 4 by lia. replace (k * 4) with (4 * k) by lia.
  apply chunk_2d_bits; change 16 with (2 ^ 4); apply bits_of_lt.
Qed.

(* writing a chunk *)
Lemma put_chunk_2d c t v lo hi ch k : v < 2 ^ BITS c t -> ch < 256 -> 8 * k + 8 <= BITS c t ->
  interleaved (bits_of lo (4 * k) 4) (bits_of hi (4 * k) 4) ch ->
  num_set_bits c t v (8 * k) (8 * k + 8) (num_from c t ch) = Ret (put v (8 * k) 8 ch)
  /\ put v (8 * k) 8 ch < 2 ^ BITS c t
  /\ forall i, N.testbit (put v (8 * k) 8 ch) (2 * i) = (if (4 * k <=? i) && (i <? 4 * k + 4) then N.testbit lo i else N.testbit v (2 * i))
     /\ N.testbit (put v (8 * k) 8 ch) (2 * i + 1) = (if (4 * k <=? i) && (i <? 4 * k + 4) then N.testbit hi i else N.testbit v (2 * i + 1)).
Proof.
  intros Hv Hch Hk HI. pose proof (BITS_ge c t).
  assert (Hc : ch < 2 ^ BITS c t).
  { eapply N.lt_le_trans; [exact Hch|]. change 256 with (2 ^ 8). apply pow2_le_mono. lia. }
  split; [|split].
  - unfold num_from. rewrite cast_small by exact Hc.
    rewrite num_set_bits_ok; try lia; try assumption.
    + do 2 f_equal. lia.
    + replace (8 * k + 8 - 8 * k) with 8 by lia. exact Hch.
  - apply put_lt; [exact Hv|lia].
  - intro i. rewrite !testbit_put. destruct (HI (i - 4 * k)) as [E O].
    destruct (N.leb_spec (4 * k) i) as [A|A].
    + destruct (N.leb_spec (8 * k) (2 * i)); [|lia]. destruct (N.leb_spec (8 * k) (2 * i + 1)); [|lia].
      replace (2 * i - 8 * k) with (2 * (i - 4 * k)) by lia. replace (2 * i + 1 - 8 * k) with (2 * (i - 4 * k) + 1) by lia.
      rewrite E, O, !testbit_bits_of. replace (i - 4 * k + 4 * k) with i by lia.
      destruct (N.ltb_spec i (4 * k + 4)), (N.ltb_spec (2 * i) (8 * k + 8)), (N.ltb_spec (2 * i + 1) (8 * k + 8)),
        (N.ltb_spec (i - 4 * k) 4); cbn [andb]; try lia; auto.
    + destruct (N.leb_spec (8 * k) (2 * i)); [lia|]. destruct (N.leb_spec (8 * k) (2 * i + 1)); [lia|]. auto.
Qed.

Lemma lower_higher_bits o xb yb : forall lo hi, lower_higher o xb yb = (lo, hi) ->
  forall v, interleaved lo hi v ->
  forall i, N.testbit v (2 * i + qx_bit o) = N.testbit xb i /\ N.testbit v (2 * i + qy_bit o) = N.testbit yb i.
Proof.
  intros lo hi E v I i. destruct (I i) as [A B]. destruct o; cbn in *; injection E as <- <-; rewrite ?N.add_0_r; auto.
Qed.

Lemma max_levels_2d c t : MAX_LEVELS c Dim2D t * 2 = BITS c t /\ MAX_LEVELS c Dim2D t mod 4 = 0 /\ 4 <= MAX_LEVELS c Dim2D t.
Proof. unfold MAX_LEVELS. cbn [dim Dim2D]. destruct (BITS_cases c t) as [E|[E|[E|[E|E]]]]; rewrite E; cbn; lia. Qed.

(* a word whose bits are those of two shifted coordinates *)
Lemma word_path2 o w v (l : list quadrant) x y d sh : holds (D:=Dim2D) w v l -> len l = d -> w = 2 * (d + sh) ->
  (forall i, N.testbit v (2 * i + qx_bit o) = N.testbit (N.shiftl (x mod 2 ^ d) sh) i) ->
  (forall i, N.testbit v (2 * i + qy_bit o) = N.testbit (N.shiftl (y mod 2 ^ d) sh) i) ->
  path_to2 o d x y l.
Proof.
  intros H Hl Hw Hx Hy. rewrite <- Hl. apply (holds_path2 o w v l x y H); intros i Hi.
  - replace (w - 2 * len l + 2 * i + qx_bit o) with (2 * (i + sh) + qx_bit o) by lia. rewrite Hx. tb.
    destruct (N.leb_spec sh (i + sh)); [|lia]. replace (i + sh - sh) with i by lia. destruct (N.ltb_spec i d); [reflexivity|lia].
  - replace (w - 2 * len l + 2 * i + qy_bit o) with (2 * (i + sh) + qy_bit o) by lia. rewrite Hy. tb.
    destruct (N.leb_spec sh (i + sh)); [|lia]. replace (i + sh - sh) with i by lia. destruct (N.ltb_spec i d); [reflexivity|lia].
Qed.

(* ---------- fixed depth ---------- *)
Lemma fixed_from_grid_2d_ok c t x y o : MAX_LEVELS c Dim2D t <= usize_bits c ->
  x < 2 ^ usize_bits c -> y < 2 ^ usize_bits c ->
  exists s l, fixed_from_grid_index_2d c t x y o = Ret s /\ canon c Dim2D (KFixed t) s l
    /\ path_to2 o (MAX_LEVELS c Dim2D t) x y l.
Proof.
  intros HW Hx Hy. destruct (max_levels_2d c t) as (M1 & M2 & M3). pose proof (pow2_usize_ge c). pose proof (usize_le64 c).
  unfold fixed_from_grid_index_2d. cbv zeta. destruct (N.ltb_spec (usize_bits c) (MAX_LEVELS c Dim2D t)); [lia|].
  set (M := MAX_LEVELS c Dim2D t) in *.
  rewrite (num_get_bits_ok c USize x) by (cbn [BITS]; lia || exact Hx). rewrite bind_ret.
  rewrite (num_get_bits_ok c USize y) by (cbn [BITS]; lia || exact Hy). rewrite bind_ret.
  rewrite N.sub_0_r.
  assert (B0 : forall v, bits_of v 0 M = v mod 2 ^ M) by (intro v; unfold bits_of; rewrite N.div_1_r; reflexivity).
  rewrite !B0. destruct (lower_higher o (x mod 2 ^ M) (y mod 2 ^ M)) as [lo hi] eqn:LH.
  assert (Hlo : lo < 2 ^ M /\ hi < 2 ^ M).
  { destruct o; cbn in LH; injection LH as <- <-; split; apply N.mod_lt, pow2_ne0. }
  destruct Hlo as [Hlo Hhi]. assert (PM : 2 ^ M <= 2 ^ usize_bits c) by (apply pow2_le_mono; exact HW).
  rewrite add_ok by lia. rewrite bind_ret. replace ((M + 3) / 4) with (M / 4) by lia.
  match goal with |- context [foldM ?f (range 0 (M / 4)) 0] =>
    destruct (foldM_range_inv (fun k v => v < 2 ^ BITS c t /\ forall i,
       N.testbit v (2 * i) = (i <? 4 * k) && N.testbit lo i /\ N.testbit v (2 * i + 1) = (i <? 4 * k) && N.testbit hi i)
      f 0 (M / 4) 0) as (v & E & Hv & HI) end.
  - lia.
  - split; [apply pow2_pos|]. intro i. rewrite !testbit_0. destruct (N.ltb_spec i (4 * 0)); [lia|]. auto.
  - intros k v Hk [Hv HI].
    destruct (grid_chunk_2d_ok c lo hi k) as (ch & E & Hch & Ich); [lia|lia|lia|]. rewrite E, bind_ret.
    rewrite mul_ok by lia. rewrite bind_ret. rewrite add_ok by lia. rewrite bind_ret. rewrite mul_ok by lia. rewrite bind_ret.
    destruct (put_chunk_2d c t v lo hi ch k Hv Hch) as (E2 & Hv2 & HI2); [lia|exact Ich|].
    replace (k * 8) with (8 * k) by lia. replace ((k + 1) * 8) with (8 * k + 8) by lia. rewrite E2.
    eexists. split; [reflexivity|]. split; [exact Hv2|]. intro i. destruct (HI2 i) as [-> ->]. destruct (HI i) as [-> ->].
    destruct (N.leb_spec (4 * k) i), (N.ltb_spec i (4 * k + 4)), (N.ltb_spec i (4 * k)), (N.ltb_spec i (4 * (k + 1)));
      cbn [andb]; try lia; auto.
  - rewrite E, bind_ret. exists (MkFixed v).
    destruct (raw_exists c Dim2D (KFixed t) (MkFixed v) M dim2_ok Hv) as (l & Hl & Hraw).
    { cbn [width dim Dim2D]. lia. }
    exists l. split; [reflexivity|]. split.
    + unfold canon. rewrite Hl. destruct Hraw as [R1 R2 R3 R4 R5]. constructor; auto. cbn [width num fx_bits min_width] in *.
      unfold rest. cbn [dim Dim2D]. rewrite Hl. replace (BITS c t - 2 * M) with 0 by lia. apply N.mod_1_r.
    + apply (word_path2 o (BITS c t) v l x y M 0).
      * exact (raw_holds _ _ _ _ _ _ _ _ Hraw).
      * exact Hl.
      * lia.
      * intro i. rewrite N.shiftl_0_r. refine (proj1 (lower_higher_bits o _ _ lo hi LH v _ i)).
        intro j. destruct (HI j) as [-> ->]. destruct (N.ltb_spec j (4 * (M / 4))); [auto|].
        rewrite (testbit_high lo M), (testbit_high hi M) by (assumption || lia). auto.
      * intro i. rewrite N.shiftl_0_r. refine (proj2 (lower_higher_bits o _ _ lo hi LH v _ i)).
        intro j. destruct (HI j) as [-> ->]. destruct (N.ltb_spec j (4 * (M / 4))); [auto|].
        rewrite (testbit_high lo M), (testbit_high hi M) by (assumption || lia). auto.
Qed.
Lemma fixed_from_grid_2d_panic c t x y o : usize_bits c < MAX_LEVELS c Dim2D t ->
  fixed_from_grid_index_2d c t x y o = Panic.
Proof.
  intros H. unfold fixed_from_grid_index_2d. cbv zeta. destruct (N.ltb_spec (usize_bits c) (MAX_LEVELS c Dim2D t)); [reflexivity|lia].
Qed.

(* ---------- static ---------- *)
(* the shift to the most significant end *)
Lemma shift_to_max c x d M : d <= M -> M <= usize_bits c ->
  (d <> 0 \/ M < usize_bits c \/ overflow_checks c = false) ->
  shl c (usize_bits c) (x mod 2 ^ d) (M - d) = Ret (N.shiftl (x mod 2 ^ d) (M - d)) /\ N.shiftl (x mod 2 ^ d) (M - d) < 2 ^ M.
Proof.
  intros Hd HM Hc.
  assert (L : N.shiftl (x mod 2 ^ d) (M - d) < 2 ^ M).
  { rewrite N.shiftl_mul_pow2. replace M with (d + (M - d)) at 2 by lia. rewrite N.pow_add_r.
    apply N.mul_lt_mono_pos_r; [apply pow2_pos|]. apply N.mod_lt, pow2_ne0. }
  assert (PM : 2 ^ M <= 2 ^ usize_bits c) by (apply pow2_le_mono; exact HM).
  split; [|exact L]. unfold shl. destruct (N.ltb_spec (M - d) (usize_bits c)).
  - rewrite cast_small by lia. reflexivity.
  - assert (d = 0) as -> by lia. assert (M = usize_bits c) as -> by lia.
    destruct Hc as [Hc|[Hc|Hc]]; [lia|lia|]. rewrite Hc. change (2 ^ 0) with 1. rewrite N.mod_1_r, !N.shiftl_0_l.
    rewrite cast_small by apply pow2_pos. reflexivity.
Qed.

Lemma static_from_grid_2d_ok c t x y d o : MAX_LEVELS c Dim2D t <= usize_bits c ->
  x < 2 ^ usize_bits c -> y < 2 ^ usize_bits c -> d <= MAX_LEVELS c Dim2D t ->
  (d <> 0 \/ MAX_LEVELS c Dim2D t < usize_bits c \/ overflow_checks c = false) ->
  exists s l, static_from_grid_index_2d c t x y d o = Ret (Ok s) /\ canon c Dim2D (KStatic t) s l
    /\ path_to2 o d x y l.
Proof.
  intros HW Hx Hy Hd Hc. destruct (max_levels_2d c t) as (M1 & M2 & M3). pose proof (pow2_usize_ge c). pose proof (usize_le64 c).
  unfold static_from_grid_index_2d. cbv zeta.
  change (BITS c t / 2) with (MAX_LEVELS c Dim2D t).
  set (M := MAX_LEVELS c Dim2D t) in *. destruct (N.ltb_spec M d); [lia|].
  rewrite sub_ok by lia. rewrite bind_ret.
  rewrite (num_get_bits_ok c USize x) by (cbn [BITS]; lia || exact Hx). rewrite bind_ret.
  rewrite N.sub_0_r.
  assert (B0 : forall v, bits_of v 0 d = v mod 2 ^ d) by (intro v; unfold bits_of; rewrite N.div_1_r; reflexivity).
  rewrite B0. destruct (shift_to_max c x d M Hd HW Hc) as [Ex Lx]. rewrite Ex, bind_ret.
  rewrite (num_get_bits_ok c USize y) by (cbn [BITS]; lia || exact Hy). rewrite bind_ret.
  rewrite N.sub_0_r, B0. destruct (shift_to_max c y d M Hd HW Hc) as [Ey Ly]. rewrite Ey, bind_ret.
  set (xb := N.shiftl (x mod 2 ^ d) (M - d)) in *. set (yb := N.shiftl (y mod 2 ^ d) (M - d)) in *.
  destruct (lower_higher o xb yb) as [lo hi] eqn:LH.
  assert (Zx : forall i, i < M - d -> N.testbit xb i = false) by (intros i Hi; apply N.shiftl_spec_low; exact Hi).
  assert (Zy : forall i, i < M - d -> N.testbit yb i = false) by (intros i Hi; apply N.shiftl_spec_low; exact Hi).
  assert (Hlo : lo < 2 ^ M /\ hi < 2 ^ M /\ forall i, i < M - d -> N.testbit lo i = false /\ N.testbit hi i = false).
  { destruct o; cbn in LH; injection LH as <- <-; auto. }
  destruct Hlo as (Hlo & Hhi & Z). clear Zx Zy. assert (PM : 2 ^ M <= 2 ^ usize_bits c) by (apply pow2_le_mono; exact HW).
  rewrite add_ok by lia. rewrite bind_ret. rewrite add_ok by lia. rewrite bind_ret. rewrite sub_ok by lia. rewrite bind_ret.
  replace ((M + 3) / 4) with (M / 4) by lia. set (cs := M / 4 - (d + 3) / 4).
  assert (Hcs : 4 * cs <= M - d) by lia. assert (Hcs2 : cs <= M / 4) by lia.
  match goal with |- context [foldM ?f (rev (range cs (M / 4))) 0] =>
    destruct (foldM_rev_range_inv (fun k v => v < 2 ^ BITS c t /\ forall i,
       N.testbit v (2 * i) = (4 * k <=? i) && N.testbit lo i /\ N.testbit v (2 * i + 1) = (4 * k <=? i) && N.testbit hi i)
      f cs (M / 4) 0) as (v & E & Hv & HI) end.
  - exact Hcs2.
  - split; [apply pow2_pos|]. intro i. rewrite !testbit_0. destruct (N.leb_spec (4 * (M / 4)) i); [|auto].
    rewrite (testbit_high lo M), (testbit_high hi M) by (assumption || lia). auto.
  - intros k v Hk [Hv HI].
    destruct (grid_chunk_2d_ok c lo hi k) as (ch & E & Hch & Ich); [lia|lia|lia|]. rewrite E, bind_ret.
    rewrite mul_ok by lia. rewrite bind_ret. rewrite add_ok by lia. rewrite bind_ret.
    destruct (put_chunk_2d c t v lo hi ch k Hv Hch) as (E2 & Hv2 & HI2); [lia|exact Ich|].
    replace (k * 8) with (8 * k) by lia. rewrite E2.
    eexists. split; [reflexivity|]. split; [exact Hv2|]. intro i. destruct (HI2 i) as [-> ->]. destruct (HI i) as [-> ->].
    destruct (N.leb_spec (4 * k) i), (N.ltb_spec i (4 * k + 4)), (N.leb_spec (4 * (k + 1)) i);
      cbn [andb]; try lia; auto.
  - rewrite E, bind_ret. rewrite (cast_small 8) by (change (2 ^ 8) with 256; lia). exists (MkStatic v d).
    destruct (raw_exists c Dim2D (KStatic t) (MkStatic v d) d dim2_ok Hv) as (l & Hl & Hraw).
    { cbn [width dim Dim2D]. lia. }
    assert (I : interleaved lo hi v).
    { intro i. destruct (HI i) as [-> ->]. destruct (N.leb_spec (4 * cs) i); [auto|].
      destruct (Z i) as [-> ->]; [lia|auto]. }
    exists l. split; [reflexivity|]. split.
    + unfold canon. rewrite Hl. destruct Hraw as [R1 R2 R3 R4 R5]. constructor; auto. cbn [width num sx_bits min_width] in *.
      unfold rest. cbn [dim Dim2D]. rewrite Hl. apply N.bits_inj; intro i. rewrite testbit_mod, testbit_0.
      destruct (N.ltb_spec i (BITS c t - 2 * d)); [|reflexivity]. cbn [andb].
      destruct (I (i / 2)) as [E1 E2]. destruct (Z (i / 2)) as [Z1 Z2]; [lia|].
      assert (i = 2 * (i / 2) \/ i = 2 * (i / 2) + 1) as [Q|Q] by lia; rewrite Q; congruence.
    + apply (word_path2 o (BITS c t) v l x y d (M - d)).
      * exact (raw_holds _ _ _ _ _ _ _ _ Hraw).
      * exact Hl.
      * lia.
      * intro i. exact (proj1 (lower_higher_bits o _ _ lo hi LH v I i)).
      * intro i. exact (proj2 (lower_higher_bits o _ _ lo hi LH v I i)).
Qed.
Lemma static_from_grid_2d_err c t x y d o : MAX_LEVELS c Dim2D t < d ->
  static_from_grid_index_2d c t x y d o = Ret (Err (DepthLimitedExceeded (MAX_LEVELS c Dim2D t))).
Proof.
  intros H. unfold static_from_grid_index_2d. cbv zeta. change (BITS c t / 2) with (MAX_LEVELS c Dim2D t).
  destruct (N.ltb_spec (MAX_LEVELS c Dim2D t) d); [reflexivity|lia].
Qed.
(* depth 0 and an index type with usize::BITS levels *)
Lemma static_from_grid_2d_panic c t x y o : usize_bits c <= MAX_LEVELS c Dim2D t -> overflow_checks c = true ->
  x < 2 ^ usize_bits c ->
  static_from_grid_index_2d c t x y 0 o = Panic.
Proof.
  intros H HO Hx. unfold static_from_grid_index_2d. cbv zeta. change (BITS c t / 2) with (MAX_LEVELS c Dim2D t).
  destruct (N.ltb_spec (MAX_LEVELS c Dim2D t) 0); [lia|]. rewrite sub_ok by lia. rewrite bind_ret.
  rewrite (num_get_bits_ok c USize x) by (cbn [BITS]; lia || exact Hx). rewrite bind_ret.
  unfold shl. rewrite HO. destruct (N.ltb_spec (MAX_LEVELS c Dim2D t - 0) (usize_bits c)); [lia|reflexivity].
Qed.

(* ---------- dynamic ---------- *)
Lemma nth_error_map_rev_range {B} (f : N -> B) n k : k < n ->
  nth_error (map f (rev (range 0 n))) (N.to_nat k) = Some (f (n - 1 - k)).
Proof.
  intros Hk. apply map_nth_error.
  assert (G : forall n k, k < n -> nth_error (rev (range 0 n)) (N.to_nat k) = Some (n - 1 - k)).
  { clear. induction n as [|n IH] using N.peano_ind; intros k Hk; [lia|]. rewrite <- N.add_1_r in *.
    rewrite range_snoc, rev_app_distr by lia. cbn [rev app].
    destruct (N.eq_dec k 0) as [->|Hk0]; [cbn; f_equal; lia|].
    replace (N.to_nat k) with (S (N.to_nat (k - 1))) by lia. cbn [nth_error]. rewrite IH by lia. f_equal. lia. }
  apply G; exact Hk.
Qed.

Lemma dynamic_grid_byte_2d_ok c lo hi d k : lo < 2 ^ usize_bits c -> hi < 2 ^ usize_bits c -> d <= usize_bits c -> 4 * k < d ->
  exists b, dynamic_grid_byte_2d c lo hi d k = Ret b /\ b < 256 /\
    forall i, i < 4 -> let e := d - 4 * k in
      N.testbit b (2 * i) = (4 <=? e + i) && N.testbit lo (e + i - 4) /\ N.testbit b (2 * i + 1) = (4 <=? e + i) && N.testbit hi (e + i - 4).
Proof.
  intros Hl Hh Hd Hk. pose proof (pow2_usize_ge c). pose proof (usize_le64 c). unfold dynamic_grid_byte_2d. cbv zeta.
  rewrite mul_ok by lia. rewrite bind_ret. rewrite sub_ok by lia. rewrite bind_ret.
  replace (k * 4) with (4 * k) by lia. set (e := d - 4 * k). assert (He : 0 < e <= usize_bits c) by lia.
  set (st := e - 4). 
  rewrite (num_get_bits_ok c USize lo) by (cbn [BITS]; lia || exact Hl). rewrite bind_ret.
  rewrite (num_get_bits_ok c USize hi) by (cbn [BITS]; lia || exact Hh). rewrite bind_ret.
  rewrite sub_ok by lia. rewrite bind_ret. rewrite mul_ok by lia. rewrite bind_ret. rewrite sub_ok by lia. rewrite bind_ret.
  assert (Ln : forall v, bits_of v st (e - st) < 16).
  { intro v. eapply N.lt_le_trans; [apply bits_of_lt|]. change 16 with (2 ^ 4). apply pow2_le_mono. lia. }
  destruct (chunk_2d_bits (bits_of lo st (e - st)) (bits_of hi st (e - st)) (Ln _) (Ln _)) as [Lc I].
  set (ch := N.lor (add_zero_before_every_bit_u8 (cast 8 (bits_of lo st (e - st))))
                   (add_zero_behind_every_bit_u8 (cast 8 (bits_of hi st (e - st))))) in *.
  assert (Lc2 : ch < 2 ^ (2 * (e - st))).
  { apply lt_pow2_testbit. intros i Hi. destruct (I (i / 2)) as [E O].
    assert (i = 2 * (i / 2) \/ i = 2 * (i / 2) + 1) as [Q|Q] by lia; rewrite Q; rewrite ?E, ?O, testbit_bits_of;
      destruct (N.ltb_spec (i / 2) (e - st)); lia || reflexivity. }
  rewrite num_set_bits_ok; cbn [BITS]; try lia.
  2: { replace (8 - (8 - 2 * (e - st))) with (2 * (e - st)) by lia. exact Lc2. }
  eexists. split; [reflexivity|]. split; [change 256 with (2 ^ 8); apply put_lt; [apply pow2_pos|lia]|].
  intros i Hi. rewrite !testbit_put, !testbit_0.
  replace (8 - (8 - 2 * (e - st))) with (2 * (e - st)) by lia.
  destruct (I (i - (4 - (e - st)))) as [E O].
  destruct (N.leb_spec 4 (e + i)) as [A|A]; cbn [andb].
  - destruct (N.leb_spec (8 - 2 * (e - st)) (2 * i)); [|lia]. destruct (N.leb_spec (8 - 2 * (e - st)) (2 * i + 1)); [|lia].
    destruct (N.ltb_spec (2 * i) (8 - 2 * (e - st) + 2 * (e - st))); [|lia].
    destruct (N.ltb_spec (2 * i + 1) (8 - 2 * (e - st) + 2 * (e - st))); [|lia]. cbn [andb].
    replace (2 * i - (8 - 2 * (e - st))) with (2 * (i - (4 - (e - st)))) by lia.
    replace (2 * i + 1 - (8 - 2 * (e - st))) with (2 * (i - (4 - (e - st))) + 1) by lia.
    rewrite E, O, !testbit_bits_of. destruct (N.ltb_spec (i - (4 - (e - st))) (e - st)); [|lia]. cbn [andb].
    replace (i - (4 - (e - st)) + st) with (e + i - 4) by lia. auto.
  - destruct (N.leb_spec (8 - 2 * (e - st)) (2 * i)); [lia|]. destruct (N.leb_spec (8 - 2 * (e - st)) (2 * i + 1)); [lia|]. auto.
Qed.

Lemma dynamic_from_grid_2d_ok c x y d o : d <= usize_bits c / 2 ->
  x < 2 ^ usize_bits c -> y < 2 ^ usize_bits c ->
  exists s l, dynamic_from_grid_index_2d c x y d o = Ret s /\ canon c Dim2D KDynamic s l /\ path_to2 o d x y l.
Proof.
  intros Hd Hx Hy. pose proof (pow2_usize_ge c). pose proof (usize_le64 c).
  unfold dynamic_from_grid_index_2d. cbv zeta. destruct (N.ltb_spec (usize_bits c / 2) d); [lia|].
  rewrite (num_get_bits_ok c USize x) by (cbn [BITS]; lia || exact Hx). rewrite bind_ret.
  rewrite (num_get_bits_ok c USize y) by (cbn [BITS]; lia || exact Hy). rewrite bind_ret.
  rewrite N.sub_0_r.
  assert (B0 : forall v, bits_of v 0 d = v mod 2 ^ d) by (intro v; unfold bits_of; rewrite N.div_1_r; reflexivity).
  rewrite !B0. destruct (lower_higher o (x mod 2 ^ d) (y mod 2 ^ d)) as [lo hi] eqn:LH.
  assert (Hlo : lo < 2 ^ d /\ hi < 2 ^ d).
  { destruct o; cbn in LH; injection LH as <- <-; split; apply N.mod_lt, pow2_ne0. }
  destruct Hlo as [Hlo Hhi]. assert (PM : 2 ^ d <= 2 ^ usize_bits c) by (apply pow2_le_mono; lia).
  rewrite add_ok by lia. rewrite bind_ret. set (nc := (d + 3) / 4).
  set (g := fun k => match dynamic_grid_byte_2d c lo hi d k with Ret b => b | _ => 0 end).
  assert (G : forall k, k < nc -> dynamic_grid_byte_2d c lo hi d k = Ret (g k) /\ g k < 256 /\
    forall i, i < 4 -> let e := d - 4 * k in
      N.testbit (g k) (2 * i) = (4 <=? e + i) && N.testbit lo (e + i - 4) /\ N.testbit (g k) (2 * i + 1) = (4 <=? e + i) && N.testbit hi (e + i - 4)).
  { intros k Hk. destruct (dynamic_grid_byte_2d_ok c lo hi d k) as (b & E & Hb & Hi); [lia|lia|lia|lia|].
    unfold g. rewrite E. auto. }
  rewrite (mapM_ok _ _ g) by (intros k Hk; apply in_rev, in_range in Hk; apply G; lia). rewrite bind_ret.
  set (bs := map g (rev (range 0 nc))).
  assert (Lb : len bs = nc).
  { unfold bs, len. rewrite map_length. fold (len (rev (range 0 nc))). rewrite len_rev, len_range. lia. }
  assert (OK : bytes_ok bs).
  { apply Forall_forall. intros b Hb. apply in_map_iff in Hb. destruct Hb as (k & <- & Hk). apply in_rev, in_range in Hk. apply G. lia. }
  assert (I : forall i, N.testbit (bytes_value bs) (2 * i) = (4 * nc - d <=? i) && N.testbit lo (i - (4 * nc - d))
     /\ N.testbit (bytes_value bs) (2 * i + 1) = (4 * nc - d <=? i) && N.testbit hi (i - (4 * nc - d))).
  { intro i. rewrite !testbit_bytes_value by exact OK.
    replace ((2 * i + 1) / 8) with (i / 4) by lia. replace (2 * i / 8) with (i / 4) by lia.
    replace ((2 * i + 1) mod 8) with (2 * (i mod 4) + 1) by lia. replace (2 * i mod 8) with (2 * (i mod 4)) by lia.
    destruct (N.lt_ge_cases (i / 4) nc) as [Hi|Hi].
    - unfold bs. rewrite nth_error_map_rev_range by exact Hi. destruct (G (nc - 1 - i / 4)) as (_ & _ & Gi); [lia|].
      destruct (Gi (i mod 4)) as [-> ->]; [lia|].
      replace (d - 4 * (nc - 1 - i / 4) + i mod 4 - 4) with (i - (4 * nc - d)) by lia.
      destruct (N.leb_spec 4 (d - 4 * (nc - 1 - i / 4) + i mod 4)), (N.leb_spec (4 * nc - d) i); try lia; auto.
    - replace (nth_error bs (N.to_nat (i / 4))) with (@None N) by (symmetry; apply nth_error_None; unfold len in Lb; lia).
      rewrite (testbit_high lo d), (testbit_high hi d) by (assumption || lia). rewrite !andb_false_r. auto. }
  exists (MkDynamic bs d).
  destruct (raw_exists c Dim2D KDynamic (MkDynamic bs d) d dim2_ok) as (l & Hl & Hraw).
  { cbn [sane dy_bits]. split; [exact OK|]. rewrite Lb. lia. }
  { cbn [width dim Dim2D dy_bits]. rewrite Lb. lia. }
  assert (Wd : width c KDynamic (MkDynamic bs d) = 8 * nc) by (cbn [width dy_bits]; rewrite Lb; reflexivity).
  rewrite Wd in Hraw.
  exists l. split; [reflexivity|]. split.
  - unfold canon. rewrite Hl. cbn [min_width dim Dim2D]. replace (8 * ((2 * d + 7) / 8)) with (8 * nc) by lia.
    destruct Hraw as [R1 R2 R3 R4 R5]. constructor; auto. cbn [num dy_bits] in *.
    unfold rest. cbn [dim Dim2D]. rewrite Hl. apply N.bits_inj; intro i. rewrite testbit_mod, testbit_0.
    destruct (N.ltb_spec i (8 * nc - 2 * d)); [|reflexivity]. cbn [andb].
    destruct (I (i / 2)) as [E1 E2]. destruct (N.leb_spec (4 * nc - d) (i / 2)); [lia|]. cbn [andb] in E1, E2.
    assert (i = 2 * (i / 2) \/ i = 2 * (i / 2) + 1) as [Q|Q] by lia; rewrite Q; assumption.
  - assert (S : interleaved (N.shiftl lo (4 * nc - d)) (N.shiftl hi (4 * nc - d)) (bytes_value bs)).
    { intro i. rewrite !testbit_shiftl. apply I. }
    assert (LH' : lower_higher o (N.shiftl (x mod 2 ^ d) (4 * nc - d)) (N.shiftl (y mod 2 ^ d) (4 * nc - d))
              = (N.shiftl lo (4 * nc - d), N.shiftl hi (4 * nc - d))).
    { destruct o; cbn in LH |- *; injection LH as <- <-; reflexivity. }
    apply (word_path2 o (8 * nc) (bytes_value bs) l x y d (4 * nc - d)).
    + exact (raw_holds _ _ _ _ _ _ _ _ Hraw).
    + exact Hl.
    + lia.
    + intro i. exact (proj1 (lower_higher_bits o _ _ _ _ LH' _ S i)).
    + intro i. exact (proj2 (lower_higher_bits o _ _ _ _ LH' _ S i)).
Qed.
Lemma dynamic_from_grid_2d_panic c x y d o : usize_bits c / 2 < d -> dynamic_from_grid_index_2d c x y d o = Panic.
Proof.
  intros H. unfold dynamic_from_grid_index_2d. cbv zeta. destruct (N.ltb_spec (usize_bits c / 2) d); [reflexivity|lia].
Qed.
