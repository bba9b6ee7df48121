(* FactsUserGrid.v - lemmas behind PropUserGrid.v: grid indices and dynamic conversions over user-defined types of bits (C69) *)
From Coq Require Import ZifyBool ZifyNat ZifyN.
From Verif Require Import Base ModelNumber ModelDim ModelStorage Model2D Model3D ModelBits ModelUser ModelUserGrid Spec SpecUser SpecUserBits SpecUserGrid
  BitProofs NumberProofs VecProofs CellProofs StorageProofs ConvProofs GridProofs Grid2DProofs Grid3DProofs FactsBits FactsWide FactsUser FactsUserBits.

(* ---------- writing chunks ---------- *)
Lemma chunk_bits_2d v lo hi ch k : interleaved (bits_of lo (4 * k) 4) (bits_of hi (4 * k) 4) ch ->
  forall i, N.testbit (put v (8 * k) 8 ch) (2 * i) = (if (4 * k <=? i) && (i <? 4 * k + 4) then N.testbit lo i else N.testbit v (2 * i))
     /\ N.testbit (put v (8 * k) 8 ch) (2 * i + 1) = (if (4 * k <=? i) && (i <? 4 * k + 4) then N.testbit hi i else N.testbit v (2 * i + 1)).
Proof.
  intros HI i. rewrite !testbit_put. destruct (HI (i - 4 * k)) as [E O].
  destruct (N.leb_spec (4 * k) i) as [A|A].
  - destruct (N.leb_spec (8 * k) (2 * i)); [|lia]. destruct (N.leb_spec (8 * k) (2 * i + 1)); [|lia].
    replace (2 * i - 8 * k) with (2 * (i - 4 * k)) by lia. replace (2 * i + 1 - 8 * k) with (2 * (i - 4 * k) + 1) by lia.
    rewrite E, O, !testbit_bits_of. replace (i - 4 * k + 4 * k) with i by lia.
    destruct (N.ltb_spec i (4 * k + 4)), (N.ltb_spec (2 * i) (8 * k + 8)), (N.ltb_spec (2 * i + 1) (8 * k + 8)),
      (N.ltb_spec (i - 4 * k) 4); cbn [andb]; try lia; auto.
  - destruct (N.leb_spec (8 * k) (2 * i)); [lia|]. destruct (N.leb_spec (8 * k) (2 * i + 1)); [lia|]. auto.
Qed.
Lemma user_put {T} c (B : FixedType T) inv val v s e x n : fixed_type_laws c B inv val -> inv v -> inv x -> val x = n -> s < e -> e <= ft_BITS B ->
  n < 2 ^ (e - s) -> exists v', bo_set_bits (ft_bits B) v s e x = Ret v' /\ inv v' /\ val v' = put (val v) s (e - s) n.
Proof.
  intros LB V X E Hs He Hn. destruct (law_set _ _ _ _ LB v s e x V X Hs He) as (r & R & I & Q); [rewrite E; exact Hn|].
  exists r. split; [exact R|]. split; [exact I|]. rewrite <- E. apply bits_replaced_put. exact Q.
Qed.
Lemma user_chunk_2d {T} c (B : FixedType T) inv val v ch k : fixed_type_laws c B inv val -> inv v -> ch < 256 -> 8 * k + 8 <= ft_BITS B ->
  exists v', bo_set_bits (ft_bits B) v (8 * k) (8 * k + 8) (bo_from_u8 (ft_bits B) ch) = Ret v' /\ inv v' /\ val v' = put (val v) (8 * k) 8 ch.
Proof.
  intros LB V Hch Hk. destruct (law_from_u8 _ _ _ _ LB ch Hch) as [Ix Ex].
  destruct (user_put c B inv val v (8 * k) (8 * k + 8) _ ch LB V Ix Ex) as (v' & E & I & Q); [lia|exact Hk| |].
  - replace (8 * k + 8 - 8 * k) with 8 by lia. exact Hch.
  - exists v'. split; [exact E|]. split; [exact I|]. rewrite Q. f_equal. lia.
Qed.

(* ---------- 2D ---------- *)
Lemma keeps_zero {T} c D (B : FixedType T) inv val v n : dim_ok D -> fixed_type_laws c B inv val -> inv v -> val v = 0 -> n <= ft_BITS B / dim D ->
  keeps D B inv val 0 v (repeat (cell_zero D) (N.to_nat n)).
Proof.
  intros HD L Hv Hz Hn. destruct (holds_0 D (ft_BITS B) n HD) as [H0 H1].
  { pose proof (N.div_mod' (ft_BITS B) (dim D)). assert (dim D * n <= dim D * (ft_BITS B / dim D)) by (apply N.mul_le_mono_l; lia). lia. }
  split; [exact Hv|]. rewrite Hz. split; [exact H0|]. rewrite len_repeat, N2Nat.id. exact H1.
Qed.
Lemma user_levels_2d {T} (B : FixedType T) : ft_BITS B mod 8 = 0 -> user_MAX Dim2D B * 2 = ft_BITS B /\ user_MAX Dim2D B mod 4 = 0.
Proof. intro H. unfold user_MAX. change (dim Dim2D) with 2. lia. Qed.
Lemma user_levels_odd {T} (B : FixedType T) : ft_BITS B mod 8 <= 1 -> user_MAX Dim2D B * 2 + ft_BITS B mod 8 = ft_BITS B /\ user_MAX Dim2D B mod 4 = 0.
Proof. intro H. unfold user_MAX. change (dim Dim2D) with 2. lia. Qed.
Lemma keeps_word {T} c D (B : FixedType T) inv val v n : dim_ok D -> fixed_type_laws c B inv val -> inv v -> n <= user_MAX D B ->
  exists l, len l = n /\ holds (ft_BITS B) (val v) l /\ keeps D B inv val (rest D (ft_BITS B) (val v) n) v l.
Proof.
  intros HD LB V Hn. destruct (keeps_exists c D B inv val v n HD LB V Hn) as (l & Hl & K). exists l. split; [exact Hl|]. split; [apply K|exact K].
Qed.
Lemma user_fixed_2d_bits {T} c (B : FixedType T) inv val x y o : fixed_type_laws c B inv val -> ft_BITS B mod 8 <= 1 -> user_MAX Dim2D B <= usize_bits c ->
  x < 2 ^ usize_bits c -> y < 2 ^ usize_bits c ->
  exists v lo hi, user_fixed_from_grid_2d c B x y o = Ret v /\ inv v
    /\ lower_higher o (x mod 2 ^ user_MAX Dim2D B) (y mod 2 ^ user_MAX Dim2D B) = (lo, hi) /\ interleaved lo hi (val v).
Proof.
  intros LB H8 HW Hx Hy. destruct (user_levels_odd B H8) as (M1 & M2). pose proof (pow2_usize_ge c). pose proof (usize_le64 c).
  unfold user_fixed_from_grid_2d. cbv zeta. destruct (N.ltb_spec (usize_bits c) (user_MAX Dim2D B)); [lia|].
  assert (M3 : user_MAX Dim2D B * 2 <= ft_BITS B) by (clear - M1; lia).
  set (M := user_MAX Dim2D B) in *. clear M1.
  rewrite (num_get_bits_ok c USize x) by (cbn [BITS]; lia || exact Hx). rewrite bind_ret.
  rewrite (num_get_bits_ok c USize y) by (cbn [BITS]; lia || exact Hy). rewrite bind_ret.
  rewrite N.sub_0_r.
  assert (B0 : forall v, bits_of v 0 M = v mod 2 ^ M) by (intro v; unfold bits_of; rewrite N.div_1_r; reflexivity).
  rewrite !B0. destruct (lower_higher o (x mod 2 ^ M) (y mod 2 ^ M)) as [lo hi] eqn:LH.
  assert (Hlo : lo < 2 ^ M /\ hi < 2 ^ M).
  { destruct o; cbn in LH; injection LH as <- <-; split; apply N.mod_lt, pow2_ne0. }
  destruct Hlo as [Hlo Hhi]. assert (PM : 2 ^ M <= 2 ^ usize_bits c) by (apply pow2_le_mono; exact HW).
  rewrite add_ok by lia. rewrite bind_ret. replace ((M + 3) / 4) with (M / 4) by (clear - M2; lia).
  assert (H4 : 4 * (M / 4) = M) by (clear - M2; lia). clear H8 M2.
  destruct (law_default _ _ _ _ LB) as [Id Ed].
  match goal with |- context [foldM ?f (range 0 (M / 4)) (ft_default B)] =>
    destruct (foldM_range_inv (fun k v => inv v /\ forall i,
       N.testbit (val v) (2 * i) = (i <? 4 * k) && N.testbit lo i /\ N.testbit (val v) (2 * i + 1) = (i <? 4 * k) && N.testbit hi i)
      f 0 (M / 4) (ft_default B)) as (v & E & Hv & HI) end.
  - lia.
  - split; [exact Id|]. rewrite Ed. intro i. rewrite !testbit_0. destruct (N.ltb_spec i (4 * 0)); [lia|]. auto.
  - intros k v Hk [Hv HI].
    destruct (grid_chunk_2d_ok c lo hi k) as (ch & E & Hch & Ich); [lia|lia|lia|]. rewrite E, bind_ret.
    rewrite mul_ok by lia. rewrite bind_ret. rewrite add_ok by lia. rewrite bind_ret. rewrite mul_ok by lia. rewrite bind_ret.
    destruct (user_chunk_2d c B inv val v ch k LB Hv Hch) as (v' & E2 & Hv2 & Q); [lia|].
    replace (k * 8) with (8 * k) by lia. replace ((k + 1) * 8) with (8 * k + 8) by lia. rewrite E2.
    eexists. split; [reflexivity|]. split; [exact Hv2|]. intro i. rewrite Q. destruct (chunk_bits_2d (val v) lo hi ch k Ich i) as [-> ->]. destruct (HI i) as [-> ->].
    destruct (N.leb_spec (4 * k) i), (N.ltb_spec i (4 * k + 4)), (N.ltb_spec i (4 * k)), (N.ltb_spec i (4 * (k + 1)));
      cbn [andb]; try lia; auto.
  - rewrite E. rewrite H4 in HI. exists v, lo, hi. split; [reflexivity|]. split; [exact Hv|]. split; [reflexivity|].
    intro j. destruct (HI j) as [-> ->]. destruct (N.ltb_spec j M); [auto|].
    rewrite (testbit_high lo M), (testbit_high hi M) by (assumption || lia). auto.
Qed.
Lemma user_fixed_2d {T} c (B : FixedType T) inv val x y o : fixed_type_laws c B inv val -> ft_BITS B mod 8 = 0 -> user_MAX Dim2D B <= usize_bits c ->
  x < 2 ^ usize_bits c -> y < 2 ^ usize_bits c ->
  exists v l, user_fixed_from_grid_2d c B x y o = Ret v /\ inv v /\ shows (user_fixed_ops c Dim2D B) v l /\ path_to2 o (user_MAX Dim2D B) x y l.
Proof.
  intros LB H8 HW Hx Hy. destruct (user_levels_2d B H8) as (M1 & M2).
  destruct (user_fixed_2d_bits c B inv val x y o) as (v & lo & hi & E & Hv & LH & I); try assumption; [rewrite H8; discriminate|].
  assert (EM : user_MAX Dim2D B = ft_BITS B / dim Dim2D) by reflexivity.
  set (M := user_MAX Dim2D B) in *.
  destruct (keeps_word c Dim2D B inv val v M dim2_ok LB Hv) as (l & Hl & Hh & K); [unfold M; lia|].
  exists v, l. split; [exact E|]. split; [exact Hv|]. split.
  - apply (fixed_shows c Dim2D B inv val _ v l dim2_ok LB K). rewrite Hl. exact EM.
  - apply (word_path2 o (ft_BITS B) (val v) l x y M 0 Hh Hl); [lia| |].
    + intro i. rewrite N.shiftl_0_r. exact (proj1 (lower_higher_bits o _ _ lo hi LH (val v) I i)).
    + intro i. rewrite N.shiftl_0_r. exact (proj2 (lower_higher_bits o _ _ lo hi LH (val v) I i)).
Qed.

(* ---------- 2D, static ---------- *)
(* x.get_bits(0..d) << n, and what is left of it *)
Definition first_bits (c : cfg) (x d n : N) : outcome N := let! x0 := num_get_bits c USize x 0 d in shl c (usize_bits c) x0 n.
Definition moved (c : cfg) (d n u : N) : N := cast (usize_bits c) (N.shiftl (u mod 2 ^ d) n).
Lemma first_bits_ok c x d n : x < 2 ^ usize_bits c -> d <= usize_bits c -> n < usize_bits c -> first_bits c x d n = Ret (moved c d n x).
Proof.
  intros Hx Hd Hn. unfold first_bits. rewrite (num_get_bits_ok c USize x) by (cbn [BITS]; lia || exact Hx). rewrite bind_ret, N.sub_0_r.
  unfold shl, moved. destruct (N.ltb_spec n (usize_bits c)); [|lia]. unfold bits_of. rewrite N.div_1_r. reflexivity.
Qed.
Lemma moved_lt c d n u : moved c d n u < 2 ^ usize_bits c /\ moved c d n u < 2 ^ (d + n).
Proof.
  split; [apply N.mod_lt, pow2_ne0|]. unfold moved, cast. eapply N.le_lt_trans; [apply N.mod_le, pow2_ne0|]. rewrite N.shiftl_mul_pow2, N.pow_add_r.
  apply N.mul_lt_mono_pos_r; [apply pow2_pos|]. apply N.mod_lt, pow2_ne0.
Qed.
Lemma moved_high c d n u i : d <= usize_bits c -> N.testbit (moved c d n u) (i + n) = (i <? d) && N.testbit (u mod 2 ^ (usize_bits c - n)) i.
Proof.
  intros Hd. unfold moved, cast. rewrite !testbit_mod, N.shiftl_spec_high', testbit_mod by lia. replace (i + n - n) with i by lia.
  destruct (N.ltb_spec (i + n) (usize_bits c)), (N.ltb_spec i (usize_bits c - n)), (N.ltb_spec i d); cbn [andb]; try reflexivity; lia.
Qed.
Lemma moved_low c d n u i : i < n -> N.testbit (moved c d n u) i = false.
Proof. intros Hi. unfold moved, cast. rewrite testbit_mod. rewrite N.shiftl_spec_low by exact Hi. apply andb_false_r. Qed.
Lemma first_bits_panics c x d n : overflow_checks c = true -> x < 2 ^ usize_bits c -> usize_bits c < d \/ usize_bits c <= n -> first_bits c x d n = Panic.
Proof.
  intros HO Hx H. unfold first_bits. destruct (N.le_gt_cases d (usize_bits c)) as [A|A].
  - rewrite (num_get_bits_ok c USize x) by (cbn [BITS]; lia || exact Hx). rewrite bind_ret.
    unfold shl. rewrite HO. destruct (N.ltb_spec n (usize_bits c)); [lia|reflexivity].
  - rewrite num_get_bits_panic; [reflexivity|exact HO|]. cbn [BITS]. rewrite range_len_ok by lia. lia.
Qed.
Lemma first_bits_release c x d n : overflow_checks c = false -> x < 2 ^ usize_bits c -> d <= 2 ^ N.min 32 (usize_bits c) ->
  exists v, first_bits c x d n = Ret v /\ v < 2 ^ usize_bits c /\ (usize_bits c < d -> v = 0).
Proof.
  intros HO Hx Hd. unfold first_bits. destruct (N.le_gt_cases d (usize_bits c)) as [L|L].
  - rewrite (num_get_bits_ok c USize x) by (cbn [BITS]; lia || exact Hx). rewrite bind_ret. unfold shl. rewrite HO.
    destruct (n <? usize_bits c); eexists; (split; [reflexivity|]); (split; [apply N.mod_lt, pow2_ne0|lia]).
  - rewrite num_get_bits_long; [|exact HO|cbn [BITS]; rewrite range_len_ok by lia; lia|rewrite range_len_ok by lia; rewrite N.sub_0_r; exact Hd].
    rewrite bind_ret. exists 0. split; [|split; [apply pow2_pos|reflexivity]]. unfold shl. rewrite HO, !N.shiftl_0_l.
    rewrite cast_small by apply pow2_pos. destruct (n <? usize_bits c); reflexivity.
Qed.
Lemma usize_of_8 c : 8 * (usize_bits c / 8) = usize_bits c.
Proof. destruct (usize_bits_cases c) as [E|[E|E]]; rewrite E; reflexivity. Qed.

Lemma user_grid_chunk_2d c lo hi k : lo < 2 ^ usize_bits c -> hi < 2 ^ usize_bits c -> 4 * k + 4 < 2 ^ usize_bits c -> 4 * k < 2 ^ 32 ->
  exists ch, grid_chunk_2d c lo hi k = Ret ch /\ ch < 256 /\ interleaved (bits_of lo (4 * k) 4) (bits_of hi (4 * k) 4) ch.
Proof.
  intros Hl Hh Hk H32. pose proof (usize_ge16 c). unfold grid_chunk_2d. cbv zeta.
  rewrite mul_ok by lia. rewrite bind_ret. rewrite add_ok by lia. rewrite bind_ret.
  rewrite (num_get_bits_gen c USize lo) by (cbn [BITS]; lia || exact Hl). rewrite bind_ret.
  rewrite (num_get_bits_gen c USize hi) by (cbn [BITS]; lia || exact Hh). rewrite bind_ret.
  eexists. split; [reflexivity|]. replace (k * 4 + 4 - k * 4) with 4 by lia. replace (k * 4) with (4 * k) by lia.
  apply chunk_2d_bits; change 16 with (2 ^ 4); apply bits_of_lt.
Qed.
(* what follows the reading of the coordinates *)
Lemma user_static_2d_tail {T} c (B : FixedType T) inv val x y d o xb yb : fixed_type_laws c B inv val -> ft_BITS B mod 8 <= 1 -> ft_BITS B <= 2 ^ 32 ->
  d <= user_MAX Dim2D B -> first_bits c x d (user_MAX Dim2D B - d) = Ret xb -> first_bits c y d (user_MAX Dim2D B - d) = Ret yb ->
  xb < 2 ^ usize_bits c -> yb < 2 ^ usize_bits c -> xb < 2 ^ user_MAX Dim2D B -> yb < 2 ^ user_MAX Dim2D B ->
  exists v lo hi, user_static_from_grid_2d c B x y d o = Ret (Ok (MkUserStatic v (cast 8 d))) /\ inv v /\ lower_higher o xb yb = (lo, hi)
    /\ forall i, N.testbit (val v) (2 * i) = (4 * (user_MAX Dim2D B / 4 - (d + 3) / 4) <=? i) && N.testbit lo i
          /\ N.testbit (val v) (2 * i + 1) = (4 * (user_MAX Dim2D B / 4 - (d + 3) / 4) <=? i) && N.testbit hi i.
Proof.
  intros LB H8 H32 Hd Ex Ey Bx By Bx2 By2. destruct (user_levels_odd B H8) as (M0 & M2). assert (M1 : user_MAX Dim2D B * 2 <= ft_BITS B) by (clear - M0; lia). pose proof (usize_big c) as HP.
  pose proof (law_usize _ _ _ _ LB) as HU.
  unfold user_static_from_grid_2d. cbv zeta. change (ft_BITS B / 2) with (user_MAX Dim2D B).
  set (M := user_MAX Dim2D B) in *.
  destruct (N.ltb_spec M d); [lia|]. rewrite sub_ok by exact Hd. rewrite bind_ret.
  unfold first_bits in Ex, Ey. rewrite <- bind_assoc, Ex, bind_ret. rewrite <- bind_assoc, Ey, bind_ret.
  destruct (lower_higher o xb yb) as [lo hi] eqn:LH.
  assert (HL : lo < 2 ^ usize_bits c /\ hi < 2 ^ usize_bits c /\ lo < 2 ^ M /\ hi < 2 ^ M).
  { destruct o; cbn in LH; injection LH as <- <-; auto. }
  destruct HL as (Hlo & Hhi & Hlo2 & Hhi2).
  assert (M8 : M + 8 <= 2 ^ usize_bits c).
  { clear - M1 HU HP. lia. }
  clear M0 H8.
  rewrite add_ok by lia. rewrite bind_ret. rewrite add_ok by lia. rewrite bind_ret. rewrite sub_ok by (clear - Hd M2; lia). rewrite bind_ret.
  replace ((M + 3) / 4) with (M / 4) by (clear - M2; lia). set (cs := M / 4 - (d + 3) / 4).
  assert (H4 : 4 * (M / 4) = M) by (clear - M2; lia). assert (Hcs2 : cs <= M / 4) by (clear; unfold cs; lia).
  destruct (law_default _ _ _ _ LB) as [Id Ed].
  match goal with |- context [foldM ?f (rev (range cs (M / 4))) (ft_default B)] =>
    destruct (foldM_rev_range_inv (fun k v => inv v /\ forall i,
       N.testbit (val v) (2 * i) = (4 * k <=? i) && N.testbit lo i /\ N.testbit (val v) (2 * i + 1) = (4 * k <=? i) && N.testbit hi i)
      f cs (M / 4) (ft_default B)) as (v & E & Hv & HI) end.
  - exact Hcs2.
  - split; [exact Id|]. rewrite Ed. intro i. rewrite !testbit_0, H4. destruct (N.leb_spec M i); [|auto].
    rewrite (testbit_high lo M), (testbit_high hi M) by assumption. auto.
  - intros k v Hk [Hv HI]. clearbody cs. generalize dependent (M / 4). intros m4 H4 Hcs2 Hk.
    destruct (user_grid_chunk_2d c lo hi k) as (ch & E & Hch & Ich); [assumption|assumption|clear - H4 Hk M8; lia|clear - H4 Hk M1 H32; lia|]. rewrite E, bind_ret.
    rewrite mul_ok by (clear - H4 Hk M1 HU; lia). rewrite bind_ret. rewrite add_ok by (clear - H4 Hk M1 HU; lia). rewrite bind_ret.
    destruct (user_chunk_2d c B inv val v ch k LB Hv Hch) as (v' & E2 & Hv2 & Q); [clear - H4 Hk M1; lia|].
    replace (k * 8) with (8 * k) by (clear; lia). rewrite E2.
    eexists. split; [reflexivity|]. split; [exact Hv2|]. intro i. rewrite Q. destruct (chunk_bits_2d (val v) lo hi ch k Ich i) as [-> ->]. destruct (HI i) as [-> ->].
    destruct (N.leb_spec (4 * k) i), (N.ltb_spec i (4 * k + 4)), (N.leb_spec (4 * (k + 1)) i);
      cbn [andb]; try (clear - H0 H1 H2; lia); auto.
  - rewrite E, bind_ret. exists v, lo, hi. auto.
Qed.
Lemma user_static_2d_lost {T} c (B : FixedType T) inv val x y d o : fixed_type_laws c B inv val -> ft_BITS B mod 8 <= 1 -> ft_BITS B <= 2 ^ 32 ->
  x < 2 ^ usize_bits c -> y < 2 ^ usize_bits c -> d <= user_MAX Dim2D B ->
  let W := usize_bits c in let n := user_MAX Dim2D B - d in (d <=? W) && (n <? W) = false ->
  if overflow_checks c then user_static_from_grid_2d c B x y d o = Panic
  else exists s, user_static_from_grid_2d c B x y d o = Ret (Ok s) /\ user_static_valid Dim2D B inv s
         /\ shows (user_static_ops c Dim2D B) s (repeat Q0 (N.to_nat (d mod 256))) /\ val (us_bits s) = 0.
Proof.
  intros LB H8 H32 Hx Hy Hd W n Q. destruct (user_levels_odd B H8) as (M0 & M2). assert (M1 : user_MAX Dim2D B * 2 <= ft_BITS B) by (clear - M0; lia).
  pose proof (usize_big c) as HP. pose proof (usize_le64 c) as H64. pose proof (usize_of_8 c) as W8. fold W in HP, H64, W8, Hx, Hy.
  assert (EM : user_MAX Dim2D B = ft_BITS B / dim Dim2D) by reflexivity. clear M0.
  apply andb_false_iff in Q. rewrite N.leb_gt, N.ltb_ge in Q. destruct (overflow_checks c) eqn:HO.
  + unfold user_static_from_grid_2d. cbv zeta. change (ft_BITS B / 2) with (user_MAX Dim2D B). destruct (N.ltb_spec (user_MAX Dim2D B) d); [lia|].
    rewrite sub_ok by exact Hd. rewrite bind_ret. rewrite <- bind_assoc. pose proof (first_bits_panics c x d n HO Hx Q) as P. unfold first_bits in P. fold n. rewrite P. reflexivity.
  + pose proof (law_usize _ _ _ _ LB) as HU.
    assert (D32 : d <= 2 ^ N.min 32 (usize_bits c)).
    { fold W. destruct (N.min_spec 32 W) as [[_ ->]|[_ ->]]; [clear - M1 H32 Hd; lia|]. clear - M1 HU Hd. fold W in HU. lia. }
    destruct (first_bits_release c x d n HO Hx D32) as (xb & Ex & Bx & Zx). destruct (first_bits_release c y d n HO Hy D32) as (yb & Ey & By & Zy).
    fold W in Bx, By, Zx, Zy.
    assert (PM : 2 ^ W <= 2 ^ user_MAX Dim2D B) by (apply pow2_le_mono; unfold n in Q; clear - Q Hd; lia).
    destruct (user_static_2d_tail c B inv val x y d o xb yb) as (v & lo & hi & E & Hv & LH & HI); try assumption; [clear - PM By Bx; lia|clear - PM By Bx; lia|].
    assert (V0 : val v = 0).
    { set (M := user_MAX Dim2D B) in *.
      assert (HL : (lo < 2 ^ W /\ hi < 2 ^ W) /\ (W < d -> lo = 0 /\ hi = 0)) by (destruct o; cbn in LH; injection LH as <- <-; auto).
      assert (C : forall i, 4 * (M / 4 - (d + 3) / 4) <= i -> N.testbit lo i = false /\ N.testbit hi i = false).
      { intros i Hi. destruct HL as [[Hlo Hhi] HZ]. destruct (N.le_gt_cases d W) as [L|L].
        - assert (W <= i) by (clear - Q L Hi M2 Hd W8; lia). split; apply (testbit_high _ W); assumption.
        - destruct (HZ L) as [-> ->]. rewrite testbit_0. auto. }
      apply N.bits_inj. intro i. rewrite testbit_0. destruct (HI (i / 2)) as [E1 E2].
      assert (i = 2 * (i / 2) \/ i = 2 * (i / 2) + 1) as [G|G] by (clear; lia); rewrite G; [rewrite E1|rewrite E2];
        destruct (N.leb_spec (4 * (M / 4 - (d + 3) / 4)) (i / 2)) as [F|F]; try reflexivity; cbn [andb]; apply C; exact F. }
    exists (MkUserStatic v (cast 8 d)). split; [exact E|].
    assert (R : d mod 256 <= d) by (apply N.mod_le; discriminate).
    split; [|split; [|exact V0]].
    * split; [exact Hv|]. cbn [us_depth]. unfold cast. change (2 ^ 8) with 256. split; [apply N.mod_lt; discriminate|]. rewrite <- EM. lia.
    * apply (static_shows c Dim2D B inv val 0 _ (repeat Q0 (N.to_nat (d mod 256))) dim2_ok LB).
      -- cbn [us_bits]. apply (keeps_zero c Dim2D B inv val v (d mod 256) dim2_ok LB Hv V0). rewrite <- EM. lia.
      -- cbn [us_depth]. rewrite len_repeat, N2Nat.id. reflexivity.
Qed.
Lemma user_static_2d {T} c (B : FixedType T) inv val x y d o : fixed_type_laws c B inv val -> ft_BITS B mod 8 = 0 -> ft_BITS B <= 2 ^ 32 ->
  x < 2 ^ usize_bits c -> y < 2 ^ usize_bits c -> d <= user_MAX Dim2D B ->
  let W := usize_bits c in let n := user_MAX Dim2D B - d in
  if (d <=? W) && (n <? W)
  then exists s l, user_static_from_grid_2d c B x y d o = Ret (Ok s) /\ user_static_valid Dim2D B inv s
         /\ shows (user_static_ops c Dim2D B) s l /\ path_to2 o d (x mod 2 ^ (W - n)) (y mod 2 ^ (W - n)) l /\ rest Dim2D (ft_BITS B) (val (us_bits s)) d = 0
  else if overflow_checks c then user_static_from_grid_2d c B x y d o = Panic
  else exists s, user_static_from_grid_2d c B x y d o = Ret (Ok s) /\ user_static_valid Dim2D B inv s
         /\ shows (user_static_ops c Dim2D B) s (repeat Q0 (N.to_nat (d mod 256))) /\ val (us_bits s) = 0.
Proof.
  intros LB H8 H32 Hx Hy Hd W n. destruct (user_levels_2d B H8) as (M1 & M2). pose proof (usize_big c) as HP. pose proof (usize_le64 c) as H64.
  pose proof (usize_of_8 c) as W8. fold W in HP, H64, W8, Hx, Hy.
  assert (EM : user_MAX Dim2D B = ft_BITS B / dim Dim2D) by reflexivity.
  destruct ((d <=? W) && (n <? W)) eqn:Q.
  - apply andb_prop in Q. destruct Q as [Q1 Q2]. apply N.leb_le in Q1. apply N.ltb_lt in Q2.
    destruct (moved_lt c d n x) as [Lx Lx2]. destruct (moved_lt c d n y) as [Ly Ly2].
    assert (DN : d + n = user_MAX Dim2D B) by (unfold n; clear - Hd; lia). rewrite DN in Lx2, Ly2.
    destruct (user_static_2d_tail c B inv val x y d o (moved c d n x) (moved c d n y)) as (v & lo & hi & E & Hv & LH & HI); try assumption.
    { rewrite H8. discriminate. } { apply first_bits_ok; assumption. } { apply first_bits_ok; assumption. }
    rewrite (cast_small 8) in E by (change (2 ^ 8) with 256; lia).
    set (M := user_MAX Dim2D B) in *. set (cs := M / 4 - (d + 3) / 4) in *.
    assert (Hcs : 4 * cs <= n) by (clear - Hd M2 cs n; lia). 
    destruct (keeps_word c Dim2D B inv val v d dim2_ok LB Hv) as (l & Hl & Hh & K); [exact Hd|].
    assert (Z : forall i, i < n -> N.testbit lo i = false /\ N.testbit hi i = false).
    { intros i Hi. pose proof (moved_low c d n x i Hi). pose proof (moved_low c d n y i Hi). destruct o; cbn in LH; injection LH as <- <-; auto. }
    assert (I : interleaved lo hi (val v)).
    { intro i. destruct (HI i) as [-> ->]. destruct (N.leb_spec (4 * cs) i); [auto|].
      destruct (Z i) as [-> ->]; [lia|auto]. }
    assert (SH : forall u i, N.testbit (moved c d n u) i = N.testbit (N.shiftl ((u mod 2 ^ (W - n)) mod 2 ^ d) n) i).
    { intros u i. destruct (N.lt_ge_cases i n) as [L|L].
      - rewrite moved_low by exact L. rewrite N.shiftl_spec_low by exact L. reflexivity.
      - replace i with (i - n + n) by (clear - L; lia). rewrite moved_high by exact Q1. rewrite N.shiftl_spec_high' by (clear; lia).
        replace (i - n + n - n) with (i - n) by (clear; lia). symmetry. apply testbit_mod. }
    exists (MkUserStatic v d), l. split; [exact E|]. split; [|split; [|split]].
    + split; [exact Hv|]. cbn [us_depth]. rewrite <- EM. fold M. lia.
    + apply (static_shows c Dim2D B inv val _ (MkUserStatic v d) l dim2_ok LB K). symmetry. exact Hl.
    + apply (word_path2 o (ft_BITS B) (val v) l _ _ d n Hh Hl); [clear - M1 DN; lia| |].
      * intro i. rewrite <- SH. exact (proj1 (lower_higher_bits o _ _ lo hi LH (val v) I i)).
      * intro i. rewrite <- SH. exact (proj2 (lower_higher_bits o _ _ lo hi LH (val v) I i)).
    + cbn [us_bits]. unfold rest. change (dim Dim2D) with 2. apply N.bits_inj; intro i. rewrite testbit_mod, testbit_0.
      destruct (N.ltb_spec i (ft_BITS B - 2 * d)) as [Hi|Hi]; [|reflexivity]. cbn [andb].
      destruct (I (i / 2)) as [E1 E2]. destruct (Z (i / 2)) as [Z1 Z2]; [clear - Hi M1 DN; lia|].
      assert (i = 2 * (i / 2) \/ i = 2 * (i / 2) + 1) as [G|G] by (clear; lia); rewrite G; congruence.
  - pose proof (user_static_2d_lost c B inv val x y d o LB) as K. cbv zeta in K. apply K; try assumption. rewrite H8. discriminate.
Qed.

(* ---------- 3D ---------- *)
Lemma user_8_bits {T} c (B : FixedType T) inv val : fixed_type_laws c B inv val -> 8 <= ft_BITS B.
Proof.
  intros LB. destruct (law_from_u8 _ _ _ _ LB 255 eq_refl) as [I V]. pose proof (law_range _ _ _ _ LB _ I) as R. rewrite V in R.
  destruct (N.le_gt_cases 8 (ft_BITS B)) as [A|A]; [exact A|]. pose proof (N.pow_le_mono_r 2 (ft_BITS B) 7 ltac:(discriminate) ltac:(lia)) as P.
  change (2 ^ 7) with 128 in P. lia.
Qed.
Lemma user_chunk_3d {T} c (B : FixedType T) inv val M left m k o x y z v ch u : fixed_type_laws c B inv val ->
  ft_BITS B = left + 3 * M -> m * k < M -> 0 < m -> left < 3 ->
  x < 2 ^ M -> y < 2 ^ M -> z < 2 ^ M -> inv v ->
  inter3 o (bits_of x (m * k) m) (bits_of y (m * k) m) (bits_of z (m * k) m) ch ->
  (ch < 2 ^ (3 * m) -> ch < 2 ^ ft_BITS B -> inv u /\ val u = ch) ->
  let s := left + 3 * (m * k) in let e := N.min (s + 3 * m) (ft_BITS B) in
  exists v', bo_set_bits (ft_bits B) v s e u = Ret v' /\ inv v'
    /\ (forall j, j < left -> N.testbit (val v') j = N.testbit (val v) j)
    /\ (forall i q, q < 3 -> N.testbit (val v') (left + (3 * i + q))
         = if (m * k <=? i) && (i <? m * k + m) then N.testbit (sel o x y z q) i else N.testbit (val v) (left + (3 * i + q))).
Proof.
  intros LB HB Hk Hm Hleft Hx Hy Hz Hv I HU s e.
  set (n := N.min m (M - m * k)).
  assert (Hes : e - s = 3 * n) by (unfold e, s, n; lia).
  assert (Hbn : forall u, u < 2 ^ M -> bits_of u (m * k) m < 2 ^ n).
  { intros u0 Hu. apply lt_pow2_testbit. intros i Hi. rewrite testbit_bits_of. unfold n in Hi.
    destruct (N.ltb_spec i m); [cbn [andb]|reflexivity]. apply (testbit_high u0 M); [exact Hu|lia]. }
  assert (Hch : ch < 2 ^ (3 * n)) by (apply (inter3_lt o _ _ _ ch n I); apply Hbn; assumption).
  assert (HchB : ch < 2 ^ ft_BITS B).
  { eapply N.lt_le_trans; [exact Hch|]. apply pow2_le_mono. unfold n. lia. }
  destruct HU as [Iu Eu]; [|exact HchB|].
  { eapply N.lt_le_trans; [exact Hch|]. apply pow2_le_mono. unfold n. lia. }
  destruct (user_put c B inv val v s e u ch LB Hv Iu Eu) as (v' & E & Iv & Q); [unfold e, s; lia|unfold e; lia|rewrite Hes; exact Hch|].
  rewrite Hes in Q. pose proof (law_range _ _ _ _ LB v Hv) as Lv.
  exists v'. split; [exact E|]. split; [exact Iv|]. rewrite Q. split.
  - intros j Hj. rewrite testbit_put. destruct (N.leb_spec s j); [unfold s in *; lia|reflexivity].
  - intros i q Hq. rewrite testbit_put.
    destruct (N.leb_spec (m * k) i) as [A|A].
    + destruct (N.leb_spec s (left + (3 * i + q))); [|unfold s in *; lia].
      replace (left + (3 * i + q) - s) with (3 * (i - m * k) + q) by (unfold s; lia).
      rewrite I by exact Hq. rewrite (sel_map (fun u => bits_of u (m * k) m)), testbit_bits_of.
      replace (i - m * k + m * k) with i by lia.
      destruct (N.ltb_spec i (m * k + m)) as [C|C]; cbn [andb].
      * destruct (N.ltb_spec (i - m * k) m); [|lia]. cbn [andb].
        destruct (N.ltb_spec (left + (3 * i + q)) (s + 3 * n)) as [F|F]; [reflexivity|].
        assert (Hi : M <= i) by (unfold s, n in F; lia).
        rewrite (testbit_high (val v) (ft_BITS B)) by (assumption || lia).
        rewrite (testbit_high (sel o x y z q) M); [reflexivity| |exact Hi]. apply (sel_ind (fun a => a < 2 ^ M)); assumption.
      * destruct (N.ltb_spec (left + (3 * i + q)) (s + 3 * n)) as [F|F]; [unfold s, n in F; lia|reflexivity].
    + cbn [andb]. destruct (N.leb_spec s (left + (3 * i + q))); [unfold s in *; lia|reflexivity].
Qed.
Lemma user_levels_3d {T} (B : FixedType T) : ft_BITS B = ft_BITS B mod 3 + 3 * user_MAX Dim3D B /\ ft_BITS B mod 3 < 3.
Proof. unfold user_MAX. change (dim Dim3D) with 3. lia. Qed.

Lemma user_fixed_3d {T} c (U : UserType T) inv val x y z o : from_laws c U inv val -> 32 <= usize_bits c -> user_MAX Dim3D (ut_type U) < usize_bits c ->
  exists v l, user_fixed_from_grid_3d c U x y z o = Ret v /\ inv v /\ shows (user_fixed_ops c Dim3D (ut_type U)) v l
    /\ path_to3 o (user_MAX Dim3D (ut_type U)) x y z l /\ rest Dim3D (ft_BITS (ut_type U)) (val v) (user_MAX Dim3D (ut_type U)) = 0.
Proof.
  intros LU H32 HW. pose proof (law_fixed _ _ _ _ LU) as LB. destruct (user_levels_3d (ut_type U)) as (M1 & M2).
  pose proof (pow2_usize_ge c). pose proof (usize_le64 c).
  unfold user_fixed_from_grid_3d, user_BITMASK. cbv zeta. set (B := ut_type U) in *.
  assert (EM : user_MAX Dim3D B = ft_BITS B / dim Dim3D) by reflexivity.
  set (M := user_MAX Dim3D B) in *. cbn [dim Dim3D]. set (left := ft_BITS B mod 3) in *.
  destruct (N.ltb_spec (usize_bits c) M); [lia|]. destruct (N.ltb_spec M (usize_bits c)); [|lia]. rewrite bind_ret.
  rewrite !land_ones_mod. set (xb := x mod 2 ^ M). set (yb := y mod 2 ^ M). set (zb := z mod 2 ^ M).
  assert (Hx : xb < 2 ^ M) by (apply N.mod_lt, pow2_ne0). assert (Hy : yb < 2 ^ M) by (apply N.mod_lt, pow2_ne0).
  assert (Hz : zb < 2 ^ M) by (apply N.mod_lt, pow2_ne0).
  assert (PM : 2 ^ M <= 2 ^ usize_bits c) by (apply pow2_le_mono; lia).
  assert (Tx : forall q i, i < M -> N.testbit (sel o xb yb zb q) i = N.testbit (sel o x y z q) i).
  { intros q i Hi. unfold xb, yb, zb. rewrite (sel_map (fun u => u mod 2 ^ M)).
    rewrite testbit_mod. destruct (N.ltb_spec i M); [reflexivity|lia]. }
  clearbody xb yb zb. clearbody left M.
  assert (UW : usize_bits c = 32 \/ usize_bits c = 64) by (clear - H32; destruct (usize_bits_cases c) as [E|[E|E]]; lia).
  assert (PW : 4294967296 <= 2 ^ usize_bits c) by (clear - UW; destruct UW as [-> | ->]; vm_compute; discriminate).
  rewrite add_ok by lia. rewrite bind_ret. set (nc := (M + 20) / 21). assert (Hnc : M <= 21 * nc /\ 21 * nc < M + 21) by (clear - nc; unfold nc; lia).
  clearbody nc. destruct (law_default _ _ _ _ LB) as [Id Ed].
  match goal with |- context [foldM ?f (range 0 nc) (ft_default B)] =>
    destruct (foldM_range_inv (fun k v => inv v /\ (forall j, j < left -> N.testbit (val v) j = false) /\ forall i q, q < 3 ->
       N.testbit (val v) (left + (3 * i + q)) = (i <? 21 * k) && N.testbit (sel o xb yb zb q) i)
      f 0 nc (ft_default B)) as (v & E & Hv & HL & HI) end.
  - lia.
  - split; [exact Id|]. rewrite Ed. split; [intros; apply testbit_0|]. intros i q Hq. rewrite testbit_0. destruct (N.ltb_spec i (21 * 0)); [lia|]. reflexivity.
  - intros k v Hk (Hv & HL & HI).
    rewrite mul_ok by lia. rewrite bind_ret. rewrite add_ok by lia. rewrite bind_ret.
    rewrite (num_get_bits_gen c USize xb) by (cbn [BITS]; lia). rewrite bind_ret.
    rewrite (num_get_bits_gen c USize yb) by (cbn [BITS]; lia). rewrite bind_ret.
    rewrite (num_get_bits_gen c USize zb) by (cbn [BITS]; lia). rewrite bind_ret.
    replace (k * 21 + 21 - k * 21) with 21 by lia. replace (k * 21) with (21 * k) by lia.
    destruct (grid_chunk_3d_u64_ok c o (bits_of xb (21 * k) 21) (bits_of yb (21 * k) 21) (bits_of zb (21 * k) 21)) as (ch & E & I);
      try apply bits_of_lt.
    rewrite E, bind_ret. rewrite mul_ok by lia. rewrite bind_ret. rewrite add_ok by lia. rewrite bind_ret. rewrite add_ok by lia. rewrite bind_ret.
    destruct (user_chunk_3d c B inv val M left 21 k o xb yb zb v ch (ut_from_u64 U ch)) as (v' & E' & Hv' & HL' & HI'); try assumption; try lia.
    { intros A A'. apply (law_from_u64 _ _ _ _ LU); [|exact A']. eapply N.lt_trans; [exact A|reflexivity]. }
    cbv zeta in E'. replace (k * 63 + left) with (left + 3 * (21 * k)) by lia. change (3 * 21) with 63 in E'. rewrite E'.
    exists v'. split; [reflexivity|]. split; [exact Hv'|]. split; [intros j Hj; rewrite HL' by exact Hj; apply HL; exact Hj|].
    intros i q Hq. rewrite HI' by exact Hq. rewrite HI by exact Hq.
    destruct (N.leb_spec (21 * k) i), (N.ltb_spec i (21 * k + 21)), (N.ltb_spec i (21 * k)), (N.ltb_spec i (21 * (k + 1)));
      cbn [andb]; try lia; reflexivity.
  - rewrite E. 
    destruct (keeps_word c Dim3D B inv val v M dim3_ok LB Hv) as (l & Hl & Hh & K); [rewrite EM; change (user_MAX Dim3D B) with (ft_BITS B / dim Dim3D); lia|].
    assert (HI2 : forall i q, q < 3 -> N.testbit (val v) (left + (3 * i + q)) = N.testbit (sel o xb yb zb q) i).
    { intros i q Hq. rewrite HI by exact Hq. destruct (N.ltb_spec i (21 * nc)); [reflexivity|].
      rewrite (testbit_high (sel o xb yb zb q) M); [reflexivity| |lia]. apply (sel_ind (fun a => a < 2 ^ M)); assumption. }
    exists v, l. split; [reflexivity|]. split; [exact Hv|]. split; [|split].
    + apply (fixed_shows c Dim3D B inv val _ v l dim3_ok LB K). rewrite Hl. exact EM.
    + apply (word_path3 o (ft_BITS B) (val v) l x y z M 0 left Hh Hl); [lia|].
      intros i q Hq Hi. rewrite N.add_0_r, HI2 by exact Hq. apply Tx. exact Hi.
    + apply (rest_zero3 _ _ left M); auto; [lia|]. intros i q Hq Hi. lia.
Qed.

(* with 16-bit usize the 21-bit chunks are longer than usize *)
Lemma user_fixed_3d_short {T} c (U : UserType T) inv val x y z o : from_laws c U inv val -> usize_bits c = 16 -> user_MAX Dim3D (ut_type U) < usize_bits c ->
  if overflow_checks c then user_fixed_from_grid_3d c U x y z o = Panic
  else exists v, user_fixed_from_grid_3d c U x y z o = Ret v /\ inv v /\ val v = 0
         /\ shows (user_fixed_ops c Dim3D (ut_type U)) v (repeat O0 (N.to_nat (user_MAX Dim3D (ut_type U)))).
Proof.
  intros LU HW HM. pose proof (law_fixed _ _ _ _ LU) as LB. destruct (user_levels_3d (ut_type U)) as (M1 & M2).
  pose proof (user_8_bits c (ut_type U) inv val LB) as H8.
  unfold user_fixed_from_grid_3d, user_BITMASK. cbv zeta. set (B := ut_type U) in *.
  assert (EM : user_MAX Dim3D B = ft_BITS B / dim Dim3D) by reflexivity.
  set (M := user_MAX Dim3D B) in *. cbn [dim Dim3D]. set (left := ft_BITS B mod 3) in *.
  assert (H2 : 2 <= M) by (clear - M1 M2 H8; lia). clearbody left.
  destruct (N.ltb_spec (usize_bits c) M); [lia|]. destruct (N.ltb_spec M (usize_bits c)); [|lia]. rewrite bind_ret.
  rewrite add_ok by (rewrite HW in *; change (2 ^ 16) with 65536; lia). rewrite bind_ret.
  replace (range 0 ((M + 20) / 21)) with [0] by (replace ((M + 20) / 21) with 1 by (rewrite HW in *; clear - H2 H0; lia); reflexivity).
  cbn [foldM]. rewrite mul_ok by (rewrite HW; reflexivity). rewrite bind_ret. rewrite add_ok by (rewrite HW; reflexivity). rewrite bind_ret.
  change (0 * 21) with 0. change (0 + 21) with 21.
  destruct (overflow_checks c) eqn:HO.
  - rewrite num_get_bits_panic; [reflexivity|exact HO|]. cbn [BITS]. rewrite HW. reflexivity.
  - assert (Z : forall v, num_get_bits c USize v 0 21 = Ret 0).
    { intro v. apply num_get_bits_long; [exact HO|cbn [BITS]; rewrite HW; reflexivity|]. rewrite HW. vm_compute. discriminate. }
    rewrite !Z, !bind_ret.
    assert (G : grid_chunk_3d_u64 c (cast 32 0) (cast 32 0) (cast 32 0) (get_bit_shifts_for_xyz o) = Ret 0).
    { unfold grid_chunk_3d_u64. change (cast 32 0) with 0. destruct o; cbn [get_bit_shifts_for_xyz]; unfold shl; reflexivity. }
    rewrite G, bind_ret. rewrite mul_ok by (rewrite HW; reflexivity). rewrite bind_ret. change (0 * 63) with 0.
    rewrite add_ok by (rewrite HW; change (2 ^ 16) with 65536; clear - M2; lia).
    rewrite bind_ret. rewrite add_ok by (rewrite HW; change (2 ^ 16) with 65536; clear - M2; lia). rewrite bind_ret.
    destruct (law_default _ _ _ _ LB) as [Id Ed].
    destruct (user_chunk_3d c B inv val M left 21 0 o 0 0 0 (ft_default B) 0 (ut_from_u64 U 0)) as (v & E & Hv & HL & HI); try assumption; try apply pow2_pos; try lia.
    { intros i q Hq. rewrite (sel_ind (fun a => a = bits_of 0 (21 * 0) 21) o) by reflexivity. unfold bits_of. rewrite N.div_0_l, N.mod_0_l by apply pow2_ne0. rewrite !testbit_0. reflexivity. }
    { intros _ A. apply (law_from_u64 _ _ _ _ LU); [reflexivity|exact A]. }
    cbv zeta in E. change (3 * (21 * 0)) with 0 in E. change (3 * 21) with 63 in E. rewrite N.add_0_r in E. rewrite N.add_0_l, E, bind_ret.
    assert (V0 : val v = 0).
    { apply (groups_zero _ left).
      - intros j Hj. rewrite HL by exact Hj. rewrite Ed. apply testbit_0.
      - intros i q Hq. rewrite HI by exact Hq. rewrite Ed, testbit_0. rewrite (sel_ind (fun a => a = 0) o 0 0 0 q) by reflexivity.
        rewrite ?testbit_0. match goal with |- (if ?b then _ else _) = _ => destruct b; reflexivity end. }
    exists v. split; [reflexivity|]. split; [exact Hv|]. split; [exact V0|].
    apply (fixed_shows c Dim3D B inv val 0 v _ dim3_ok LB).
    + apply (keeps_zero c Dim3D B inv val v M dim3_ok LB Hv V0). rewrite <- EM. lia.
    + rewrite len_repeat, N2Nat.id. exact EM.
Qed.
(* what follows the reading of the coordinates *)
Lemma user_static_3d_tail {T} c (U : UserType T) inv val x y z d o xb yb zb : from_laws c U inv val -> ft_BITS (ut_type U) + 24 <= 2 ^ N.min 32 (usize_bits c) ->
  let M := user_MAX Dim3D (ut_type U) in let left := ft_BITS (ut_type U) mod 3 in
  d <= M -> first_bits c x d (M - d) = Ret xb -> first_bits c y d (M - d) = Ret yb -> first_bits c z d (M - d) = Ret zb ->
  xb < 2 ^ usize_bits c -> yb < 2 ^ usize_bits c -> zb < 2 ^ usize_bits c -> xb < 2 ^ M -> yb < 2 ^ M -> zb < 2 ^ M ->
  exists v, user_static_from_grid_3d c U x y z d o = Ret (Ok (MkUserStatic v (cast 8 d))) /\ inv v
    /\ (forall j, j < left -> N.testbit (val v) j = false)
    /\ forall i q, q < 3 -> N.testbit (val v) (left + (3 * i + q)) = (8 * ((M + 7) / 8 - (d + 7) / 8) <=? i) && N.testbit (sel o xb yb zb q) i.
Proof.
  intros LU HB M left Hd Ex Ey Ez Bx By Bz Bx2 By2 Bz2. pose proof (law_fixed _ _ _ _ LU) as LB. destruct (user_levels_3d (ut_type U)) as (M1 & M2).
  assert (HB1 : ft_BITS (ut_type U) + 24 <= 2 ^ usize_bits c).
  { eapply N.le_trans; [exact HB|]. apply pow2_le_mono. apply N.le_min_r. }
  assert (HB2 : ft_BITS (ut_type U) + 24 <= 2 ^ 32).
  { eapply N.le_trans; [exact HB|]. apply pow2_le_mono. apply N.le_min_l. }
  clear HB. pose proof (usize_ge16 c) as H16.
  unfold user_static_from_grid_3d. cbv zeta. cbn [dim Dim3D]. set (B := ut_type U) in *. fold M in M1. fold M. fold left. fold left in M1, M2. clearbody M left.
  destruct (N.ltb_spec M d); [lia|]. rewrite sub_ok by exact Hd. rewrite bind_ret.
  unfold first_bits in Ex, Ey, Ez. rewrite <- bind_assoc, Ex, bind_ret. rewrite <- bind_assoc, Ey, bind_ret. rewrite <- bind_assoc, Ez, bind_ret.
  rewrite add_ok by lia. rewrite bind_ret. rewrite add_ok by lia. rewrite bind_ret. rewrite sub_ok by (clear - Hd; lia). rewrite bind_ret.
  set (mc := (M + 7) / 8) in *. set (cs := mc - (d + 7) / 8).
  assert (Mc : M <= 8 * mc /\ 8 * mc < M + 8) by (unfold mc; clear; lia). destruct Mc as (Mc2 & Mc3).
  assert (Hcs : cs <= mc) by (unfold cs; clear; lia). clearbody cs mc.
  destruct (law_default _ _ _ _ LB) as [Id Ed].
  match goal with |- context [foldM ?f (rev (range cs mc)) (ft_default B)] =>
    destruct (foldM_rev_range_inv (fun k v => inv v /\ (forall j, j < left -> N.testbit (val v) j = false) /\ forall i q, q < 3 ->
       N.testbit (val v) (left + (3 * i + q)) = (8 * k <=? i) && N.testbit (sel o xb yb zb q) i)
      f cs mc (ft_default B)) as (v & E & Hv & HL & HI) end.
  - exact Hcs.
  - split; [exact Id|]. rewrite Ed. split; [intros; apply testbit_0|]. intros i q Hq. rewrite testbit_0.
    destruct (N.leb_spec (8 * mc) i); [|reflexivity].
    rewrite (testbit_high (sel o xb yb zb q) M); [reflexivity| |lia]. apply (sel_ind (fun a => a < 2 ^ M)); assumption.
  - intros k v Hk (Hv & HL & HI).
    rewrite mul_ok by lia. rewrite bind_ret. rewrite add_ok by lia. rewrite bind_ret.
    assert (G : forall u, u < 2 ^ usize_bits c -> num_get_bits c USize u (k * 8) (k * 8 + 8) = Ret (bits_of u (8 * k) 8)).
    { intros u Hu. rewrite num_get_bits_gen; cbn [BITS]; try exact Hu; try lia.
      replace (k * 8 + 8 - k * 8) with 8 by lia. replace (k * 8) with (8 * k) by lia. reflexivity. }
    rewrite !G, !bind_ret by assumption.
    destruct (grid_chunk_3d_u32_ok c o (bits_of xb (8 * k) 8) (bits_of yb (8 * k) 8) (bits_of zb (8 * k) 8)) as (ch & E & I);
      try apply bits_of_lt.
    rewrite E, bind_ret. rewrite mul_ok by lia. rewrite bind_ret. rewrite add_ok by lia. rewrite bind_ret. rewrite add_ok by lia. rewrite bind_ret.
    destruct (user_chunk_3d c B inv val M left 8 k o xb yb zb v ch (ut_from_u32 U ch)) as (v' & E' & Hv' & HL' & HI'); try assumption; try lia.
    { intros A A'. apply (law_from_u32 _ _ _ _ LU); [|exact A']. eapply N.lt_trans; [exact A|reflexivity]. }
    cbv zeta in E'. replace (k * 24 + left) with (left + 3 * (8 * k)) by lia. change (3 * 8) with 24 in E'. rewrite E'.
    exists v'. split; [reflexivity|]. split; [exact Hv'|]. split; [intros j Hj; rewrite HL' by exact Hj; apply HL; exact Hj|].
    intros i q Hq. rewrite HI' by exact Hq. rewrite HI by exact Hq.
    destruct (N.leb_spec (8 * k) i), (N.ltb_spec i (8 * k + 8)), (N.leb_spec (8 * (k + 1)) i);
      cbn [andb]; try lia; reflexivity.
  - rewrite E, bind_ret. exists v. auto.
Qed.
Lemma user_static_3d {T} c (U : UserType T) inv val x y z d o : from_laws c U inv val -> ft_BITS (ut_type U) + 24 <= 2 ^ N.min 32 (usize_bits c) ->
  x < 2 ^ usize_bits c -> y < 2 ^ usize_bits c -> z < 2 ^ usize_bits c -> d <= user_MAX Dim3D (ut_type U) ->
  let W := usize_bits c in let M := user_MAX Dim3D (ut_type U) in let kept v := clear_low (dropped M d) (v mod 2 ^ (W - (M - d))) in
  if (d <=? W) && (M - d <? W)
  then exists s l, user_static_from_grid_3d c U x y z d o = Ret (Ok s) /\ user_static_valid Dim3D (ut_type U) inv s
         /\ shows (user_static_ops c Dim3D (ut_type U)) s l /\ path_to3 o d (kept x) (kept y) (kept z) l
         /\ rest Dim3D (ft_BITS (ut_type U)) (val (us_bits s)) d = 0
  else if overflow_checks c then user_static_from_grid_3d c U x y z d o = Panic
  else exists s, user_static_from_grid_3d c U x y z d o = Ret (Ok s) /\ user_static_valid Dim3D (ut_type U) inv s
         /\ shows (user_static_ops c Dim3D (ut_type U)) s (repeat O0 (N.to_nat (d mod 256))) /\ val (us_bits s) = 0.
Proof.
  intros LU HB Hx Hy Hz Hd W M kept. pose proof (law_fixed _ _ _ _ LU) as LB. destruct (user_levels_3d (ut_type U)) as (M1 & M2).
  pose proof (usize_le64 c) as H64. pose proof (usize_of_8 c) as W8. fold W in H64, W8, Hx, Hy, Hz. fold M in Hd, M1.
  set (B := ut_type U) in *. assert (EM : M = ft_BITS B / dim Dim3D) by reflexivity.
  destruct ((d <=? W) && (M - d <? W)) eqn:Q.
  - apply andb_prop in Q. destruct Q as [Q1 Q2]. apply N.leb_le in Q1. apply N.ltb_lt in Q2.
    pose proof (moved_lt c d (M - d)) as ML. replace (d + (M - d)) with M in ML by (clear - Hd; lia).
    destruct (user_static_3d_tail c U inv val x y z d o (moved c d (M - d) x) (moved c d (M - d) y) (moved c d (M - d) z)) as (v & E & Hv & HL & HI);
      try assumption; try apply first_bits_ok; try assumption; try apply ML.
    rewrite (cast_small 8) in E by (change (2 ^ 8) with 256; lia). fold B in HL, HI.
    change (user_MAX Dim3D B) with M in HI. set (cs := (M + 7) / 8 - (d + 7) / 8) in *.
    destruct (keeps_word c Dim3D B inv val v d dim3_ok LB Hv) as (l & Hl & Hh & K); [exact Hd|].
    exists (MkUserStatic v d), l. split; [exact E|]. split; [|split; [|split]].
    + split; [exact Hv|]. cbn [us_depth]. rewrite <- EM. lia.
    + apply (static_shows c Dim3D B inv val _ (MkUserStatic v d) l dim3_ok LB K). symmetry. exact Hl.
    + apply (word_path3 o (ft_BITS B) (val v) l _ _ _ d (M - d) (ft_BITS B mod 3) Hh Hl); [clear - M1 Hd; lia|].
      intros i q Hq Hi. rewrite HI by exact Hq. rewrite (sel_map (moved c d (M - d))), (sel_map kept).
      rewrite moved_high by exact Q1. destruct (N.ltb_spec i d); [|lia]. cbn [andb].
      unfold kept. rewrite testbit_clear_low. f_equal. unfold dropped. fold cs.
      destruct (N.leb_spec (8 * cs) (i + (M - d))), (N.leb_spec (8 * cs - (M - d)) i); lia || reflexivity.
    + cbn [us_bits]. apply (rest_zero3 _ _ (ft_BITS B mod 3) M); auto.
      intros i q Hq Hi. rewrite HI by exact Hq. rewrite (sel_map (moved c d (M - d))). rewrite moved_low by exact Hi. apply andb_false_r.
  - apply andb_false_iff in Q. rewrite N.leb_gt, N.ltb_ge in Q. destruct (overflow_checks c) eqn:HO.
    + unfold user_static_from_grid_3d. cbv zeta. fold B. change (user_MAX Dim3D B) with M. destruct (N.ltb_spec M d); [lia|].
      rewrite sub_ok by exact Hd. rewrite bind_ret. rewrite <- bind_assoc. pose proof (first_bits_panics c x d (M - d) HO Hx Q) as P. unfold first_bits in P. rewrite P. reflexivity.
    + assert (D32 : d <= 2 ^ N.min 32 (usize_bits c)) by (clear - M1 HB Hd; lia).
      destruct (first_bits_release c x d (M - d) HO Hx D32) as (xb & Ex & Bx & Zx). destruct (first_bits_release c y d (M - d) HO Hy D32) as (yb & Ey & By & Zy).
      destruct (first_bits_release c z d (M - d) HO Hz D32) as (zb & Ez & Bz & Zz).
      fold W in Bx, By, Bz, Zx, Zy, Zz.
      assert (PM : 2 ^ W <= 2 ^ M) by (apply pow2_le_mono; clear - Q Hd; lia).
      destruct (user_static_3d_tail c U inv val x y z d o xb yb zb) as (v & E & Hv & HL & HI); try assumption;
        try (change (user_MAX Dim3D (ut_type U)) with M; lia).
      fold B in HL, HI. change (user_MAX Dim3D B) with M in HI.
      assert (V0 : val v = 0).
      { apply (groups_zero _ (ft_BITS B mod 3)); [exact HL|]. intros i q Hq. rewrite HI by exact Hq.
        destruct (N.leb_spec (8 * ((M + 7) / 8 - (d + 7) / 8)) i) as [F|F]; [|reflexivity]. cbn [andb].
        destruct (N.le_gt_cases d W) as [L|L].
        - apply (testbit_high _ W); [apply (sel_ind (fun a => a < 2 ^ W)); assumption|]. clear - Q L F Hd W8. lia.
        - rewrite (sel_ind (fun a => a = 0) o xb yb zb q) by auto. apply testbit_0. }
      exists (MkUserStatic v (cast 8 d)). split; [exact E|].
      assert (R : d mod 256 <= d) by (apply N.mod_le; discriminate).
      split; [|split; [|exact V0]].
      * split; [exact Hv|]. cbn [us_depth]. unfold cast. change (2 ^ 8) with 256. split; [apply N.mod_lt; discriminate|]. rewrite <- EM. lia.
      * apply (static_shows c Dim3D B inv val 0 _ (repeat O0 (N.to_nat (d mod 256))) dim3_ok LB).
        -- cbn [us_bits]. apply (keeps_zero c Dim3D B inv val v (d mod 256) dim3_ok LB Hv V0). rewrite <- EM. lia.
        -- cbn [us_depth]. rewrite len_repeat, N2Nat.id. reflexivity.
Qed.
(* coordinates reduced modulo more than d bits lead to the same cells *)
Lemma path_more2 o d n x y l : d <= n -> path_to2 o d (x mod 2 ^ n) (y mod 2 ^ n) l -> path_to2 o d x y l.
Proof.
  intros Hn [L P]. split; [exact L|]. rewrite P. f_equal; apply N.bits_inj; intro i; rewrite !testbit_mod;
    destruct (N.ltb_spec i d), (N.ltb_spec i n); try reflexivity; lia.
Qed.

(* ---------- C69 ---------- *)
Lemma c69_every_width_lemma : forall c n, 8 <= n -> n < 2 ^ usize_bits c ->
  from_laws c (wide_user c n) (fun v => v < 2 ^ n) (fun v => v) /\ (n mod 8 = 0 -> byte_laws c (wide_user c n) (fun v => v < 2 ^ n) (fun v => v)).
Proof.
  intros c n H8 Hn. split.
  - constructor; cbn [wide_user ut_type ut_from_u32 ut_from_u64].
    + apply c68_every_width_lemma; assumption.
    + intros m _ Hm. cbn [wide_type ft_BITS] in Hm. rewrite N.mod_small by exact Hm. auto.
    + intros m _ Hm. cbn [wide_type ft_BITS] in Hm. rewrite N.mod_small by exact Hm. auto.
  - intros M8. assert (F : 8 * (n / 8) = n) by (clear - M8; lia).
    constructor; cbn [wide_user ut_type ut_as_u8_slice ut_from_u8_slice wide_type ft_BITS].
    + exact M8.
    + intros v Hv. unfold to_bytes.
      replace (match target_endian c with LittleEndian => _ | BigEndian => _ end) with (to_le_bytes (N.to_nat (n / 8)) v)
        by (destruct (target_endian c); [symmetry; apply rev_involutive|reflexivity]).
      split; [apply bytes_ok_to_le|]. split; [rewrite len_to_le_bytes; lia|]. apply bytes_value_to_le. rewrite N2Nat.id, F. exact Hv.
    + intros bytes e Hb. cbv zeta. set (used := firstn _ _).
      assert (Bu : bytes_ok used).
      { apply Forall_forall. intros x I. unfold used in I. assert (In x (bytes ++ repeat 0 (N.to_nat (n / 8 - len bytes)))) as J.
        { rewrite <- (firstn_skipn (N.to_nat (n / 8)) (bytes ++ _)). apply in_or_app. left. exact I. }
        apply in_app_or in J. destruct J as [J|J]; [exact (proj1 (Forall_forall _ _) Hb x J)|]. apply repeat_spec in J. subst x. reflexivity. }
      assert (Lu : len used = n / 8).
      { unfold used. rewrite len_firstn; [reflexivity|]. rewrite len_app, len_repeat. lia. }
      split; [|reflexivity]. replace n with (8 * len used) by lia.
      destruct e; [|apply bytes_value_lt; exact Bu]. replace (len used) with (len (rev used)) by (unfold len; rewrite rev_length; reflexivity).
      apply bytes_value_lt. apply bytes_ok_rev. exact Bu.
Qed.
Lemma c69_integers_lemma : forall c t, from_laws c (num_user c t) (fun v => v < 2 ^ BITS c t) (fun v => v) /\ byte_laws c (num_user c t) (fun v => v < 2 ^ BITS c t) (fun v => v).
Proof.
  intros c t. split.
  - constructor; cbn [num_user ut_type ut_from_u32 ut_from_u64].
    + apply c68_integers_lemma.
    + intros m _ Hm. cbn [num_type ft_BITS] in Hm. unfold num_from, cast. rewrite N.mod_small by exact Hm. auto.
    + intros m _ Hm. cbn [num_type ft_BITS] in Hm. unfold num_from, cast. rewrite N.mod_small by exact Hm. auto.
  - pose proof (num_size_8 c t) as S8. assert (F : BITS c t / 8 = num_size c t) by lia.
    constructor; cbn [num_user ut_type ut_as_u8_slice ut_from_u8_slice num_type ft_BITS].
    + clear - S8. lia.
    + intros v Hv. rewrite F. unfold num_as_u8_slice, to_bytes.
      replace (match target_endian c with LittleEndian => _ | BigEndian => _ end) with (to_le_bytes (N.to_nat (num_size c t)) v)
        by (destruct (target_endian c); [symmetry; apply rev_involutive|reflexivity]).
      split; [apply bytes_ok_to_le|]. split; [rewrite len_to_le_bytes; lia|]. apply bytes_value_to_le. rewrite N2Nat.id, S8. exact Hv.
    + intros bytes e Hb. cbv zeta. rewrite F. rewrite num_from_u8_slice_spec by exact Hb.
      change (firstn (N.to_nat (num_size c t)) (bytes ++ repeat 0 (N.to_nat (num_size c t - len bytes)))) with (padded (num_size c t) bytes).
      assert (Bp : bytes_ok (padded (num_size c t) bytes) /\ len (padded (num_size c t) bytes) = num_size c t).
      { split.
        - apply Forall_forall. intros x I. unfold padded in I. assert (In x (bytes ++ zeros (num_size c t - len bytes))) as J.
          { rewrite <- (firstn_skipn (N.to_nat (num_size c t)) (bytes ++ _)). apply in_or_app. left. exact I. }
          apply in_app_or in J. destruct J as [J|J]; [exact (proj1 (Forall_forall _ _) Hb x J)|]. apply repeat_spec in J. subst x. reflexivity.
        - unfold padded. rewrite len_firstn; [reflexivity|]. rewrite len_app. unfold zeros. rewrite len_repeat. lia. }
      destruct Bp as [Bp Lp]. split.
      * rewrite <- S8. replace (2 ^ (8 * num_size c t)) with (2 ^ (8 * len (padded (num_size c t) bytes))) by (rewrite Lp; reflexivity). apply from_bytes_lt. exact Bp.
      * unfold from_bytes, from_be_bytes. destruct e; apply from_le_bytes_value.
Qed.
Lemma c69_fixed_grid_2d_lemma : forall T c (B : FixedType T) inv val x y o, fixed_type_laws c B inv val -> ft_BITS B mod 8 = 0 ->
  x < 2 ^ usize_bits c -> y < 2 ^ usize_bits c ->
  if ft_BITS B / 2 <=? usize_bits c
  then exists v l, user_fixed_from_grid_2d c B x y o = Ret v /\ inv v /\ shows (user_fixed_ops c Dim2D B) v l /\ path_to2 o (ft_BITS B / 2) x y l
  else user_fixed_from_grid_2d c B x y o = Panic.
Proof.
  intros T c B inv val x y o LB H8 Hx Hy. destruct (N.leb_spec (ft_BITS B / 2) (usize_bits c)) as [H|H].
  - apply (user_fixed_2d c B inv val); assumption.
  - unfold user_fixed_from_grid_2d. cbv zeta. change (user_MAX Dim2D B) with (ft_BITS B / 2). destruct (N.ltb_spec (usize_bits c) (ft_BITS B / 2)); [reflexivity|lia].
Qed.
Lemma c69_static_grid_2d_lemma : forall T c (B : FixedType T) inv val x y d o, fixed_type_laws c B inv val -> ft_BITS B mod 8 = 0 -> ft_BITS B <= 2 ^ 32 ->
  x < 2 ^ usize_bits c -> y < 2 ^ usize_bits c ->
  let W := usize_bits c in let M := ft_BITS B / 2 in let kept v := v mod 2 ^ (W - (M - d)) in
  if M <? d then user_static_from_grid_2d c B x y d o = Ret (Err (DepthLimitedExceeded M))
  else if (d <=? W) && (M - d <? W)
  then exists s l, user_static_from_grid_2d c B x y d o = Ret (Ok s) /\ user_static_valid Dim2D B inv s
         /\ shows (user_static_ops c Dim2D B) s l /\ path_to2 o d (kept x) (kept y) l /\ (M <= W -> path_to2 o d x y l)
  else if overflow_checks c then user_static_from_grid_2d c B x y d o = Panic
  else exists s, user_static_from_grid_2d c B x y d o = Ret (Ok s) /\ user_static_valid Dim2D B inv s
         /\ shows (user_static_ops c Dim2D B) s (repeat Q0 (N.to_nat (d mod 256))).
Proof.
  intros T c B inv val x y d o LB H8 H32 Hx Hy W M kept. destruct (N.ltb_spec M d) as [H|H].
  - unfold user_static_from_grid_2d. cbv zeta. fold M. destruct (N.ltb_spec M d); [reflexivity|lia].
  - pose proof (user_static_2d c B inv val x y d o LB H8 H32 Hx Hy H) as K. cbv zeta in K. change (user_MAX Dim2D B) with M in K. fold W in K.
    destruct ((d <=? W) && (M - d <? W)).
    + destruct K as (s & l & E & V & S & P & _). exists s, l. split; [exact E|]. split; [exact V|]. split; [exact S|]. split; [exact P|].
      intro HW. apply (path_more2 o d (W - (M - d))); [clear - H HW; lia|exact P].
    + destruct (overflow_checks c); [exact K|]. destruct K as (s & E & V & S & _). exists s. auto.
Qed.
Lemma c69_fixed_grid_3d_lemma : forall T c (U : UserType T) inv val x y z o, from_laws c U inv val ->
  let M := ft_BITS (ut_type U) / 3 in
  if usize_bits c <=? M then user_fixed_from_grid_3d c U x y z o = Panic
  else if 32 <=? usize_bits c
  then exists v l, user_fixed_from_grid_3d c U x y z o = Ret v /\ inv v /\ shows (user_fixed_ops c Dim3D (ut_type U)) v l /\ path_to3 o M x y z l
  else if overflow_checks c then user_fixed_from_grid_3d c U x y z o = Panic
  else exists v, user_fixed_from_grid_3d c U x y z o = Ret v /\ inv v /\ shows (user_fixed_ops c Dim3D (ut_type U)) v (repeat O0 (N.to_nat M)).
Proof.
  intros T c U inv val x y z o LU M. destruct (N.leb_spec (usize_bits c) M) as [H|H].
  - unfold user_fixed_from_grid_3d, user_BITMASK. cbv zeta. change (user_MAX Dim3D (ut_type U)) with M.
    destruct (N.ltb_spec (usize_bits c) M); [reflexivity|]. destruct (N.ltb_spec M (usize_bits c)); [lia|reflexivity].
  - destruct (N.leb_spec 32 (usize_bits c)) as [H32|H32].
    + destruct (user_fixed_3d c U inv val x y z o LU H32 H) as (v & l & E & I & S & P & _). exists v, l. auto.
    + assert (H16 : usize_bits c = 16) by (destruct (usize_bits_cases c) as [E|[E|E]]; rewrite E in *; lia).
      pose proof (user_fixed_3d_short c U inv val x y z o LU H16 H) as K. destruct (overflow_checks c); [exact K|].
      destruct K as (v & E & I & _ & S). exists v. auto.
Qed.
Lemma c69_static_grid_3d_lemma : forall T c (U : UserType T) inv val x y z d o, from_laws c U inv val -> ft_BITS (ut_type U) + 24 <= 2 ^ N.min 32 (usize_bits c) ->
  x < 2 ^ usize_bits c -> y < 2 ^ usize_bits c -> z < 2 ^ usize_bits c ->
  let W := usize_bits c in let M := ft_BITS (ut_type U) / 3 in
  let lost := 8 * ((M + 7) / 8 - (d + 7) / 8) - (M - d) in let kept v := v mod 2 ^ (W - (M - d)) / 2 ^ lost * 2 ^ lost in
  if M <? d then user_static_from_grid_3d c U x y z d o = Ret (Err (DepthLimitedExceeded M))
  else if (d <=? W) && (M - d <? W)
  then exists s l, user_static_from_grid_3d c U x y z d o = Ret (Ok s) /\ user_static_valid Dim3D (ut_type U) inv s
         /\ shows (user_static_ops c Dim3D (ut_type U)) s l /\ path_to3 o d (kept x) (kept y) (kept z) l
  else if overflow_checks c then user_static_from_grid_3d c U x y z d o = Panic
  else exists s, user_static_from_grid_3d c U x y z d o = Ret (Ok s) /\ user_static_valid Dim3D (ut_type U) inv s
         /\ shows (user_static_ops c Dim3D (ut_type U)) s (repeat O0 (N.to_nat (d mod 256))).
Proof.
  intros T c U inv val x y z d o LU HB Hx Hy Hz W M lost kept. destruct (N.ltb_spec M d) as [H|H].
  - unfold user_static_from_grid_3d. cbv zeta. change (user_MAX Dim3D (ut_type U)) with M. destruct (N.ltb_spec M d); [reflexivity|lia].
  - pose proof (user_static_3d c U inv val x y z d o LU HB Hx Hy Hz H) as K. cbv zeta in K. change (user_MAX Dim3D (ut_type U)) with M in K. fold W in K.
    destruct ((d <=? W) && (M - d <? W)).
    + destruct K as (s & l & E & V & S & P & _). exists s, l. auto.
    + destruct (overflow_checks c); [exact K|]. destruct K as (s & E & V & S & _). exists s. auto.
Qed.
Lemma c69_grid_2d_cells_refuted_lemma : ~ (forall T c (B : FixedType T) inv val x y o v l, fixed_type_laws c B inv val -> ft_BITS B / 2 <= usize_bits c ->
  x < 2 ^ usize_bits c -> y < 2 ^ usize_bits c -> user_fixed_from_grid_2d c B x y o = Ret v -> shows (user_fixed_ops c Dim2D B) v l ->
  path_to2 o (ft_BITS B / 2) x y l).
Proof.
  intros H. pose (c := Cfg true PW64 LittleEndian).
  specialize (H N c (wide_type 9) (fun v => v < 2 ^ 9) (fun v => v) 1 0 XY 1 [Q0; Q0; Q0; Q0] (proj1 (c68_every_width_lemma c 9 ltac:(discriminate) eq_refl))
    ltac:(vm_compute; discriminate) eq_refl eq_refl eq_refl).
  assert (S : shows (user_fixed_ops c Dim2D (wide_type 9)) 1 [Q0; Q0; Q0; Q0]).
  { apply levels_shows; [reflexivity|]. intros i x Hi. pose proof (nth_error_len _ _ _ Hi) as Hl. change (len [Q0; Q0; Q0; Q0]) with 4 in Hl.
    assert (i = 0 \/ i = 1 \/ i = 2 \/ i = 3) as [->|[->|[->| ->]]] by lia; injection Hi as <-; reflexivity. }
  specialize (H S). destruct H as (_ & P). vm_compute in P. discriminate.
Qed.
Lemma c69_grid_2d_range_refuted_lemma : ~ (forall T c (B : FixedType T) inv val x y o, fixed_type_laws c B inv val -> ft_BITS B / 2 <= usize_bits c ->
  x < 2 ^ usize_bits c -> y < 2 ^ usize_bits c -> user_fixed_from_grid_2d c B x y o <> UB).
Proof.
  intros H. pose (c := Cfg true PW64 LittleEndian).
  apply (H N c (wide_type 12) (fun v => v < 2 ^ 12) (fun v => v) 0 0 XY (proj1 (c68_every_width_lemma c 12 ltac:(discriminate) eq_refl))
    ltac:(vm_compute; discriminate) eq_refl eq_refl). vm_compute. reflexivity.
Qed.

(* conversions from and to dynamic indices *)
Lemma c69_fixed_to_dynamic_lemma : forall T c D L (U : UserType T) inv val v l, is_dim D L -> fixed_type_laws c (ut_type U) inv val -> byte_laws c U inv val ->
  inv v -> shows (user_fixed_ops c D (ut_type U)) v l ->
  valid c D KDynamic (user_dynamic_from_fixed c D U v) /\ shows (dynamic_ops c D) (user_dynamic_from_fixed c D U v) l.
Proof.
  intros T c D L U inv val v l HL LB LY Hv Hs. pose proof (is_dim_ok D L HL) as HD.
  destruct (fixed_shows_keeps c D (ut_type U) inv val v l HD LB Hv Hs) as [El (_ & Hh & _)].
  destruct (law_as_u8_slice _ _ _ _ LY v Hv) as (B & Lb & Vb). pose proof (law_whole_bytes _ _ _ _ LY) as H8.
  pose proof (law_usize _ _ _ _ LB) as HU.
  unfold user_dynamic_from_fixed. cbv zeta. set (bytes := match target_endian c with LittleEndian => _ | BigEndian => _ end) in *. clearbody bytes.
  assert (W : 8 * len bytes = ft_BITS (ut_type U)) by (clear - Lb H8; lia).
  assert (F : 8 * len bytes + 8 <= 2 ^ usize_bits c).
  { rewrite W. destruct (usize_bits_cases c) as [E|[E|E]]; rewrite E in *; clear - HU H8; [change (2 ^ 16) with 65536 in *|change (2 ^ 32) with 4294967296 in *|change (2 ^ 64) with 18446744073709551616 in *]; lia. }
  assert (R : repr c D KDynamic (MkDynamic bytes (user_MAX D (ut_type U))) l).
  { constructor; cbn [num width sane ops dynamic_ops st_depth dy_bits dy_depth].
    - split; [exact B|exact F].
    - rewrite W, Vb. exact Hh.
    - symmetry. exact El.
    - reflexivity.
    - reflexivity. }
  split; [eapply repr_valid; eassumption|apply (repr_shows c D KDynamic); assumption].
Qed.
Lemma c69_static_to_dynamic_lemma : forall T c D L (B : FixedType T) inv val s l, is_dim D L -> fixed_type_laws c B inv val ->
  user_static_valid D B inv s -> shows (user_static_ops c D B) s l ->
  exists s', user_dynamic_from_static c D L B s = Ret s' /\ valid c D KDynamic s' /\ shows (dynamic_ops c D) s' (map (stored c D KDynamic) l).
Proof.
  intros T c D L B inv val s l HL LB V S. pose proof (is_dim_ok D L HL) as HD. pose proof (usize_big c) as U.
  destruct (static_shows_keeps c D B inv val s l HD LB V S) as [El _]. destruct V as (_ & H256 & _). rewrite El in H256.
  unfold user_dynamic_from_static. destruct (c67_cells_lemma D _ c (user_static_ops c D B) s l S) as [E _]; [lia|]. rewrite E, bind_ret.
  pose proof (canon_dynamic_default c D L HL) as Hd0.
  destruct (dynamic_descendant_w c D L dynamic_default [] l HL) as (s' & E' & R' & _).
  - cbn [dynamic_default dy_bits]. change (len (@nil N)) with 0. change (len (@nil (cell D))) with 0.
    destruct (nbytes_fit D (0 + len l)). pose proof (dim_le D HD). assert (dim D * len l <= 3 * len l) by (apply N.mul_le_mono_r; exact H1).
    change (nbytes D 0) with ((dim D * 0 + 7) / 8). rewrite N.mul_0_r. change ((0 + 7) / 8) with 0. cbn [N.add] in *. lia.
  - eapply canon_repr; exact Hd0.
  - exists s'. cbn [app] in R'. split; [cbn [descendant dynamic_vops vo_descendant]; rewrite E'; reflexivity|].
    split; [eapply repr_valid; eassumption|apply (repr_shows c D KDynamic); assumption].
Qed.
Lemma c69_dynamic_to_static_lemma : forall T c D L (B : FixedType T) inv val s l, is_dim D L -> fixed_type_laws c B inv val ->
  valid c D KDynamic s -> shows (dynamic_ops c D) s l ->
  if len l <=? ft_BITS B / dim D
  then exists s', user_static_from_dynamic c D B s = Ret (Ok s') /\ user_static_valid D B inv s'
         /\ shows (user_static_ops c D B) s' (firstn (N.to_nat (len l mod 256)) l)
  else user_static_from_dynamic c D B s = Ret (Err (DepthLimitedExceeded (ft_BITS B / dim D))).
Proof.
  intros T c D L B inv val s l HL LB V S. pose proof (is_dim_ok D L HL) as HD. pose proof (proj1 S) as Hd. cbn [st_depth dynamic_ops] in Hd.
  unfold user_static_from_dynamic. rewrite Hd. unfold user_MAX. rewrite N.ltb_antisym.
  destruct (N.leb_spec (len l) (ft_BITS B / dim D)) as [H|H]; cbn [negb]; [|reflexivity].
  destruct (foldM_range_inv (fun i s1 => keeps_at D B inv val 0 0 s1 (firstn (N.to_nat i) l ++ repeat (cell_zero D) (N.to_nat (len l - i))))
    (fun r level => let! x := st_get (dynamic_ops c D) s level in st_set (user_static_ops c D B) r level x)
    0 (len l) (user_static_default B)) as (s' & E & K).
  - lia.
  - change (N.to_nat 0) with O. cbn [firstn app]. rewrite N.sub_0_r. split; [reflexivity|]. apply (keeps_default c D B inv val (len l) HD LB H).
  - intros i s1 Hi K. destruct (nth_error_N_lt l i) as [x Hx]; [lia|]. rewrite (shows_get _ _ _ _ _ S Hx), bind_ret.
    destruct (static_sets c D B inv val 0 0 HD LB s1 _ i x K) as (s2 & E2 & K2).
    + rewrite len_app, len_firstn, len_repeat by lia. lia.
    + exists s2. split; [exact E2|]. revert K2.
      replace (N.to_nat (len l - i)) with (Datatypes.S (N.to_nat (len l - (i + 1)))) by lia. cbn [repeat].
      replace (N.to_nat i) with (List.length (firstn (N.to_nat i) l)) at 2 by (rewrite firstn_length; unfold len in *; lia).
      rewrite update_app_last.
      apply nth_error_split in Hx. destruct Hx as (p & z & -> & Hp).
      replace (N.to_nat (i + 1)) with (List.length (p ++ [x])) by (rewrite app_length; cbn [List.length]; lia).
      rewrite <- Hp. rewrite firstn_app, firstn_all, Nat.sub_diag. cbn [firstn]. rewrite app_nil_r.
      change (x :: z) with ([x] ++ z). rewrite (app_assoc p [x] z), (firstn_app _ (p ++ [x]) z), firstn_all, Nat.sub_diag. cbn [firstn].
      rewrite app_nil_r. intros K2. rewrite <- (app_assoc p [x]). exact K2.
  - rewrite E, bind_ret. rewrite N.sub_diag, to_nat_len, firstn_all in K. cbn [N.to_nat repeat] in K. rewrite app_nil_r in K. destruct K as [_ K].
    assert (M : len l mod 256 <= len l) by (apply N.mod_le; discriminate).
    eexists. split; [reflexivity|]. split.
    + split; [exact (proj1 K)|]. cbn [us_depth]. unfold cast. split; [apply N.mod_lt; discriminate|]. change (2 ^ 8) with 256. lia.
    + eapply shows_first; [exact HD|exact LB|exact K|exact M].
Qed.
Lemma c69_dynamic_to_fixed_lemma : forall T c D L (U : UserType T) inv val s l, is_dim D L -> fixed_type_laws c (ut_type U) inv val -> byte_laws c U inv val ->
  valid c D KDynamic s -> shows (dynamic_ops c D) s l ->
  let nb := ft_BITS (ut_type U) / 8 in
  if len l <=? ft_BITS (ut_type U) / dim D
  then exists v, user_fixed_from_dynamic c D U s = Ok v /\ inv v
         /\ (forall k, k < nb -> val v / 2 ^ (8 * k) mod 256
               = nth (N.to_nat (match target_endian c with LittleEndian => k | BigEndian => nb - 1 - k end)) (dy_bits s) 0)
         /\ (target_endian c = LittleEndian -> len (dy_bits s) = nb -> exists r, shows (user_fixed_ops c D (ut_type U)) v (l ++ r))
  else user_fixed_from_dynamic c D U s = Err (DepthLimitedExceeded (ft_BITS (ut_type U) / dim D)).
Proof.
  intros T c D L U inv val s l HL LB LY V S nb. pose proof (is_dim_ok D L HL) as HD. pose proof (proj1 S) as Hd. cbn [st_depth dynamic_ops] in Hd.
  unfold user_fixed_from_dynamic. rewrite Hd. unfold user_MAX. rewrite N.ltb_antisym.
  destruct (N.leb_spec (len l) (ft_BITS (ut_type U) / dim D)) as [H|H]; cbn [negb]; [|reflexivity].
  destruct (law_from_u8_slice _ _ _ _ LY (dy_bits s) (target_endian c) (proj1 V)) as (I & E). fold nb in E.
  exists (ut_from_u8_slice U (dy_bits s) (target_endian c)). split; [reflexivity|]. split; [exact I|].
  set (v := ut_from_u8_slice U (dy_bits s) (target_endian c)) in *. clearbody v.
  set (used := firstn (N.to_nat nb) (dy_bits s ++ repeat 0 (N.to_nat (nb - len (dy_bits s))))) in *.
  assert (Bu : bytes_ok used).
  { apply Forall_forall. intros x J. unfold used in J. assert (In x (dy_bits s ++ repeat 0 (N.to_nat (nb - len (dy_bits s))))) as K.
    { rewrite <- (firstn_skipn (N.to_nat nb) (dy_bits s ++ _)). apply in_or_app. left. exact J. }
    apply in_app_or in K. destruct K as [K|K]; [exact (proj1 (Forall_forall _ _) (proj1 V) x K)|]. apply repeat_spec in K. subst x. reflexivity. }
  assert (Lu : len used = nb) by (unfold used; rewrite len_firstn; [reflexivity|]; rewrite len_app, len_repeat; lia).
  assert (Nu : forall k, k < nb -> nth (N.to_nat k) used 0 = nth (N.to_nat k) (dy_bits s) 0).
  { intros k Hk. rewrite <- (app_nth1 used (skipn (N.to_nat nb) (dy_bits s ++ repeat 0 (N.to_nat (nb - len (dy_bits s))))) 0) by (unfold len in Lu; lia).
    unfold used. rewrite firstn_skipn.
    destruct (N.ltb_spec k (len (dy_bits s))) as [A|A]; [apply app_nth1; unfold len in A; lia|].
    rewrite app_nth2 by (unfold len in A; lia). rewrite nth_repeat. symmetry. apply nth_overflow. unfold len in A; lia. }
  split.
  - intros k Hk. rewrite E. destruct (target_endian c).
    + rewrite byte_of_list by (apply bytes_ok_rev; exact Bu). rewrite rev_nth by (unfold len in Lu; lia). rewrite <- Nu by lia. f_equal. unfold len in Lu. lia.
    + rewrite byte_of_list by exact Bu. apply Nu. exact Hk.
  - intros HE Hn. rewrite HE in E. assert (used = dy_bits s) as Q.
    { unfold used. rewrite Hn, N.sub_diag. cbn [N.to_nat repeat]. rewrite app_nil_r. apply firstn_all2. unfold len in Hn. lia. }
    rewrite Q in E. pose proof (valid_shows c D KDynamic s l HD V S) as R. destruct (raw_holds _ _ _ _ _ _ _ _ R) as (R1 & R2 & R3). cbn [num width] in R1, R2, R3.
    pose proof (law_whole_bytes _ _ _ _ LY) as H8. assert (W : 8 * len (dy_bits s) = ft_BITS (ut_type U)) by (rewrite Hn; unfold nb; clear - H8; lia).
    rewrite W in *. rewrite <- E in *.
    destruct (keeps_exists c D (ut_type U) inv val v (ft_BITS (ut_type U) / dim D) HD LB I (N.le_refl _)) as (l' & El & K).
    exists (skipn (N.to_nat (len l)) l'). assert (firstn (N.to_nat (len l)) l' = l) as F.
    { destruct K as (_ & Hh & _). rewrite <- (firstn_skipn (N.to_nat (len l)) l') in Hh. apply (holds_prefix HD) in Hh.
      eapply (holds_unique HD); [exact Hh|split; [exact R1|split; [exact R2|exact R3]]|]. rewrite len_firstn by lia. reflexivity. }
    rewrite <- F at 1. rewrite firstn_skipn. eapply fixed_shows; eassumption.
Qed.

(* ---------- for the integers of the crate these definitions are those of Model2D.v, Model3D.v and ModelStorage.v ---------- *)
Lemma carry_if {A B} (f : A -> B) (b : bool) x y : carry f (if b then x else y) = if b then carry f x else carry f y.
Proof. destruct b; reflexivity. Qed.
Lemma carry_bind {A B C} (f : B -> C) (o : outcome A) k : carry f (bind o k) = bind o (fun x => carry f (k x)).
Proof. destruct o; reflexivity. Qed.
Ltac step_integers := match goal with |- context [carry _ (bind ?x _)] => rewrite carry_bind; destruct x; cbn [bind]; [|reflexivity|reflexivity] end.
Lemma integers_fixed_grid_2d c t x y o : fixed_from_grid_index_2d c t x y o = carry MkFixed (user_fixed_from_grid_2d c (num_type c t) x y o).
Proof.
  unfold fixed_from_grid_index_2d, user_fixed_from_grid_2d. cbv zeta. rewrite carry_if. change (user_MAX Dim2D (num_type c t)) with (MAX_LEVELS c Dim2D t).
  destruct (usize_bits c <? MAX_LEVELS c Dim2D t); [reflexivity|]. do 2 step_integers. destruct (lower_higher o _ _). step_integers. reflexivity.
Qed.
Lemma integers_static_grid_2d c t x y d o : static_from_grid_index_2d c t x y d o = carry (carry_ok to_static) (user_static_from_grid_2d c (num_type c t) x y d o).
Proof.
  unfold static_from_grid_index_2d, user_static_from_grid_2d. cbv zeta. rewrite carry_if. change (user_MAX Dim2D (num_type c t)) with (MAX_LEVELS c Dim2D t).
  change (ft_BITS (num_type c t)) with (BITS c t). destruct (BITS c t / 2 <? d); [reflexivity|]. do 5 step_integers. destruct (lower_higher o _ _).
  do 3 step_integers. rewrite carry_bind. reflexivity.
Qed.
Lemma integers_fixed_grid_3d c t x y z o : fixed_from_grid_index_3d c t x y z o = carry MkFixed (user_fixed_from_grid_3d c (num_user c t) x y z o).
Proof.
  unfold fixed_from_grid_index_3d, user_fixed_from_grid_3d, MAX_LEVELS_BITMASK, user_BITMASK. cbv zeta. cbn [num_user ut_type].
  change (user_MAX Dim3D (num_type c t)) with (MAX_LEVELS c Dim3D t). destruct (usize_bits c <? MAX_LEVELS c Dim3D t); [reflexivity|].
  rewrite carry_bind. destruct (if MAX_LEVELS c Dim3D t <? usize_bits c then _ else _); cbn [bind]; [|reflexivity|reflexivity]. step_integers. reflexivity.
Qed.
Lemma integers_static_grid_3d c t x y z d o : static_from_grid_index_3d c t x y z d o = carry (carry_ok to_static) (user_static_from_grid_3d c (num_user c t) x y z d o).
Proof.
  unfold static_from_grid_index_3d, user_static_from_grid_3d. cbv zeta. cbn [num_user ut_type]. rewrite carry_if. change (user_MAX Dim3D (num_type c t)) with (MAX_LEVELS c Dim3D t).
  destruct (MAX_LEVELS c Dim3D t <? d); [reflexivity|]. do 10 step_integers. rewrite carry_bind. reflexivity.
Qed.
Lemma integers_dynamic_from_fixed c D t s : dynamic_from_fixed c D t s = user_dynamic_from_fixed c D (num_user c t) (fx_bits s).
Proof. reflexivity. Qed.
Lemma integers_fixed_from_dynamic c D t s : fixed_from_dynamic c D t s = carry_ok MkFixed (user_fixed_from_dynamic c D (num_user c t) s).
Proof. unfold fixed_from_dynamic, user_fixed_from_dynamic. cbn [num_user ut_type]. change (user_MAX D (num_type c t)) with (MAX_LEVELS c D t). destruct (MAX_LEVELS c D t <? dy_depth s); reflexivity. Qed.
Lemma integers_static_from_dynamic c D t s : static_from_dynamic c D t s = carry (carry_ok to_static) (user_static_from_dynamic c D (num_type c t) s).
Proof.
  unfold static_from_dynamic, user_static_from_dynamic. rewrite carry_if. change (user_MAX D (num_type c t)) with (MAX_LEVELS c D t).
  destruct (MAX_LEVELS c D t <? dy_depth s); [reflexivity|]. change static_default with (to_static (user_static_default (num_type c t))).
  rewrite (carry_foldM to_static (fun r level => let! x := st_get (dynamic_ops c D) s level in st_set (user_static_ops c D (num_type c t)) r level x)).
  - unfold carry. destruct (foldM _ _ _); reflexivity.
  - intros r i. destruct (st_get (dynamic_ops c D) s i); cbn [bind]; [apply integers_static_step|reflexivity|reflexivity].
Qed.
