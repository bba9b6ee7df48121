(* FactsUserOdd.v - lemmas behind PropUserOdd.v: 2D grid indices over types whose bits do not fill whole bytes, hashing (C68, C69) *)
From Coq Require Import ZifyBool ZifyNat ZifyN.
From Verif Require Import Base ModelNumber ModelDim ModelStorage Model2D ModelBits ModelUser ModelUserGrid Spec SpecUser SpecUserBits SpecUserGrid
  BitProofs NumberProofs VecProofs CellProofs StorageProofs ConvProofs GridProofs Grid2DProofs FactsBits FactsWide FactsUser FactsUserBits FactsUserGrid.

Lemma odd_path o w v (l : list quadrant) x y d n xb yb lo hi : holds (D:=Dim2D) w v l -> len l = d -> w = 2 * (d + n) + 1 ->
  lower_higher o xb yb = (lo, hi) -> interleaved lo hi v ->
  (forall i, N.testbit xb (i + n) = (i <? d) && N.testbit x i) -> (forall i, N.testbit yb (i + n) = (i <? d) && N.testbit y i) ->
  path_to2 o d (fst (one_too_low o d x y)) (snd (one_too_low o d x y)) l.
Proof.
  intros H Hl Hw LH I Hx Hy.
  assert (E : forall u ub, (forall i, N.testbit ub (i + n) = (i <? d) && N.testbit u i) ->
    forall i, N.testbit ub (i + 1 + n) = N.testbit (u mod 2 ^ d / 2) i).
  { intros u ub Hu i. rewrite Hu. change 2 with (2 ^ 1) at 2. rewrite testbit_div_pow2, testbit_mod. reflexivity. }
  rewrite <- Hl at 1. apply (holds_path2 o w v l _ _ H); intros i Hi.
  - destruct o; cbn [lower_higher] in LH; injection LH as <- <-; cbn [one_too_low fst snd qx_bit].
    + replace (w - 2 * len l + 2 * i + 0) with (2 * (i + n) + 1) by lia. rewrite (proj2 (I (i + n))), Hy. destruct (N.ltb_spec i d); [reflexivity|lia].
    + replace (w - 2 * len l + 2 * i + 1) with (2 * (i + 1 + n)) by lia. rewrite (proj1 (I (i + 1 + n))). apply E. exact Hy.
  - destruct o; cbn [lower_higher] in LH; injection LH as <- <-; cbn [one_too_low fst snd qy_bit].
    + replace (w - 2 * len l + 2 * i + 1) with (2 * (i + 1 + n)) by lia. rewrite (proj1 (I (i + 1 + n))). apply E. exact Hx.
    + replace (w - 2 * len l + 2 * i + 0) with (2 * (i + n) + 1) by lia. rewrite (proj2 (I (i + n))), Hx. destruct (N.ltb_spec i d); [reflexivity|lia].
Qed.
Lemma c69_fixed_grid_2d_odd_lemma : forall T c (B : FixedType T) inv val x y o, fixed_type_laws c B inv val -> ft_BITS B mod 8 = 1 ->
  x < 2 ^ usize_bits c -> y < 2 ^ usize_bits c ->
  let M := ft_BITS B / 2 in
  if M <=? usize_bits c
  then exists v l, user_fixed_from_grid_2d c B x y o = Ret v /\ inv v /\ shows (user_fixed_ops c Dim2D B) v l
         /\ path_to2 o M (fst (one_too_low o M x y)) (snd (one_too_low o M x y)) l
  else user_fixed_from_grid_2d c B x y o = Panic.
Proof.
  intros T c B inv val x y o LB H8 Hx Hy M. destruct (N.leb_spec M (usize_bits c)) as [H|H].
  - destruct (user_levels_odd B) as (M1 & M2); [rewrite H8; discriminate|].
    destruct (user_fixed_2d_bits c B inv val x y o) as (v & lo & hi & E & Hv & LH & I); try assumption; [rewrite H8; discriminate|].
    change (user_MAX Dim2D B) with M in *.
    destruct (keeps_word c Dim2D B inv val v M dim2_ok LB Hv) as (l & Hl & Hh & K); [reflexivity|].
    exists v, l. split; [exact E|]. split; [exact Hv|]. split.
    + apply (fixed_shows c Dim2D B inv val _ v l dim2_ok LB K). rewrite Hl. reflexivity.
    + apply (odd_path o (ft_BITS B) (val v) l x y M 0 (x mod 2 ^ M) (y mod 2 ^ M) lo hi Hh Hl); [lia|exact LH|exact I| |];
        intro i; rewrite N.add_0_r; apply testbit_mod.
  - unfold user_fixed_from_grid_2d. cbv zeta. change (user_MAX Dim2D B) with M. destruct (N.ltb_spec (usize_bits c) M); [reflexivity|lia].
Qed.
Lemma c69_static_grid_2d_odd_lemma : forall T c (B : FixedType T) inv val x y d o, fixed_type_laws c B inv val -> ft_BITS B mod 8 = 1 -> ft_BITS B <= 2 ^ 32 ->
  x < 2 ^ usize_bits c -> y < 2 ^ usize_bits c ->
  let W := usize_bits c in let M := ft_BITS B / 2 in let kept v := v mod 2 ^ (W - (M - d)) in let p := one_too_low o d (kept x) (kept y) in
  if M <? d then user_static_from_grid_2d c B x y d o = Ret (Err (DepthLimitedExceeded M))
  else if (d <=? W) && (M - d <? W)
  then exists s l, user_static_from_grid_2d c B x y d o = Ret (Ok s) /\ user_static_valid Dim2D B inv s
         /\ shows (user_static_ops c Dim2D B) s l /\ path_to2 o d (fst p) (snd p) l
  else if overflow_checks c then user_static_from_grid_2d c B x y d o = Panic
  else exists s, user_static_from_grid_2d c B x y d o = Ret (Ok s) /\ user_static_valid Dim2D B inv s
         /\ shows (user_static_ops c Dim2D B) s (repeat Q0 (N.to_nat (d mod 256))).
Proof.
  intros T c B inv val x y d o LB H8 H32 Hx Hy W M kept p. destruct (N.ltb_spec M d) as [H|Hd].
  - unfold user_static_from_grid_2d. cbv zeta. fold M. destruct (N.ltb_spec M d); [reflexivity|lia].
  - assert (H1 : ft_BITS B mod 8 <= 1) by (rewrite H8; discriminate). destruct (user_levels_odd B H1) as (M1 & M2). rewrite H8 in M1. change (user_MAX Dim2D B) with M in M1, M2.
    pose proof (usize_le64 c) as H64. fold W in H64.
    destruct ((d <=? W) && (M - d <? W)) eqn:Q.
    + apply andb_prop in Q. destruct Q as [Q1 Q2]. apply N.leb_le in Q1. apply N.ltb_lt in Q2. set (n := M - d) in *.
      destruct (moved_lt c d n x) as [Lx Lx2]. destruct (moved_lt c d n y) as [Ly Ly2].
      assert (DN : d + n = M) by (unfold n; clear - Hd; lia). rewrite DN in Lx2, Ly2.
      destruct (user_static_2d_tail c B inv val x y d o (moved c d n x) (moved c d n y)) as (v & lo & hi & E & Hv & LH & HI); try assumption.
      { apply first_bits_ok; assumption. } { apply first_bits_ok; assumption. }
      rewrite (cast_small 8) in E by (change (2 ^ 8) with 256; lia).
      change (user_MAX Dim2D B) with M in HI. set (cs := M / 4 - (d + 3) / 4) in *.
      assert (Hcs : 4 * cs <= n) by (clear - Hd M2 cs n; lia).
      assert (I : interleaved lo hi (val v)).
      { intro i. destruct (HI i) as [-> ->]. destruct (N.leb_spec (4 * cs) i); [auto|].
        assert (Z : N.testbit lo i = false /\ N.testbit hi i = false); [|destruct Z as [-> ->]; auto].
        assert (Hi : i < n) by lia. pose proof (moved_low c d n x i Hi). pose proof (moved_low c d n y i Hi). destruct o; cbn in LH; injection LH as <- <-; auto. }
      destruct (keeps_word c Dim2D B inv val v d dim2_ok LB Hv) as (l & Hl & Hh & K); [exact Hd|].
      exists (MkUserStatic v d), l. split; [exact E|]. split; [|split].
      * split; [exact Hv|]. cbn [us_depth]. change (ft_BITS B / dim Dim2D) with M. lia.
      * apply (static_shows c Dim2D B inv val _ (MkUserStatic v d) l dim2_ok LB K). symmetry. exact Hl.
      * apply (odd_path o (ft_BITS B) (val v) l (kept x) (kept y) d n (moved c d n x) (moved c d n y) lo hi Hh Hl); [clear - M1 DN; lia|exact LH|exact I| |];
          intro i; apply moved_high; exact Q1.
    + pose proof (user_static_2d_lost c B inv val x y d o LB H1 H32 Hx Hy Hd) as K. cbv zeta in K. specialize (K Q).
      destruct (overflow_checks c); [exact K|]. destruct K as (s & E & V & S & _). exists s. auto.
Qed.

(* ---------- two or more bits behind the last whole byte ---------- *)
Lemma user_levels_more {T} (B : FixedType T) : 2 <= ft_BITS B mod 8 ->
  (user_MAX Dim2D B + 3) / 4 = ft_BITS B / 8 + 1 /\ 8 * (ft_BITS B / 8) < ft_BITS B < 8 * (ft_BITS B / 8) + 8 /\ 4 * (ft_BITS B / 8) < user_MAX Dim2D B.
Proof. intro H. unfold user_MAX. change (dim Dim2D) with 2. lia. Qed.
Lemma user_fixed_2d_outside {T} c (B : FixedType T) inv val x y o : fixed_type_laws c B inv val -> 2 <= ft_BITS B mod 8 -> user_MAX Dim2D B <= usize_bits c ->
  x < 2 ^ usize_bits c -> y < 2 ^ usize_bits c ->
  exists v u, inv v /\ inv u /\ user_fixed_from_grid_2d c B x y o = bo_set_bits (ft_bits B) v (8 * (ft_BITS B / 8)) (8 * (ft_BITS B / 8) + 8) u.
Proof.
  intros LB H8 HW Hx Hy. destruct (user_levels_more B H8) as (M1 & M2 & M3). pose proof (pow2_usize_ge c). pose proof (usize_le64 c). pose proof (usize_of_8 c) as W8.
  unfold user_fixed_from_grid_2d. cbv zeta. destruct (N.ltb_spec (usize_bits c) (user_MAX Dim2D B)); [lia|].
  set (M := user_MAX Dim2D B) in *. set (q := ft_BITS B / 8) in *.
  rewrite (num_get_bits_ok c USize x) by (cbn [BITS]; lia || exact Hx). rewrite bind_ret.
  rewrite (num_get_bits_ok c USize y) by (cbn [BITS]; lia || exact Hy). rewrite bind_ret.
  rewrite N.sub_0_r.
  destruct (lower_higher o (bits_of x 0 M) (bits_of y 0 M)) as [lo hi] eqn:LH.
  assert (Hlo : lo < 2 ^ M /\ hi < 2 ^ M) by (destruct o; cbn in LH; injection LH as <- <-; split; apply bits_of_lt).
  destruct Hlo as [Hlo Hhi]. assert (PM : 2 ^ M <= 2 ^ usize_bits c) by (apply pow2_le_mono; exact HW).
  rewrite add_ok by lia. rewrite bind_ret. rewrite M1.
  assert (Hq : 4 * q + 4 <= usize_bits c) by (clear - W8 M3 HW; lia). clearbody M q.
  destruct (law_default _ _ _ _ LB) as [Id _].
  rewrite range_snoc by lia. rewrite foldM_app.
  match goal with |- context [foldM ?f (range 0 q) (ft_default B)] =>
    destruct (foldM_range_inv (fun _ v => inv v) f 0 q (ft_default B)) as (v & E & Hv) end.
  - lia.
  - exact Id.
  - intros k v Hk Hv.
    destruct (grid_chunk_2d_ok c lo hi k) as (ch & E & Hch & _); [lia|lia|lia|]. rewrite E, bind_ret.
    rewrite mul_ok by lia. rewrite bind_ret. rewrite add_ok by lia. rewrite bind_ret. rewrite mul_ok by lia. rewrite bind_ret.
    destruct (user_chunk_2d c B inv val v ch k LB Hv Hch) as (v' & E2 & Hv2 & _); [lia|].
    replace (k * 8) with (8 * k) by lia. replace ((k + 1) * 8) with (8 * k + 8) by lia. rewrite E2. eauto.
  - rewrite E, bind_ret. cbn [foldM].
    destruct (grid_chunk_2d_ok c lo hi q) as (ch & E2 & Hch & _); [lia|lia|lia|]. rewrite E2, bind_ret.
    rewrite mul_ok by lia. rewrite bind_ret. rewrite add_ok by lia. rewrite bind_ret. rewrite mul_ok by lia. rewrite bind_ret.
    replace (q * 8) with (8 * q) by lia. replace ((q + 1) * 8) with (8 * q + 8) by lia.
    exists v, (bo_from_u8 (ft_bits B) ch). split; [exact Hv|]. split; [apply (law_from_u8 _ _ _ _ LB ch Hch)|].
    destruct (bo_set_bits (ft_bits B) v (8 * q) (8 * q + 8) (bo_from_u8 (ft_bits B) ch)); reflexivity.
Qed.
Lemma c69_fixed_grid_2d_outside_lemma : forall T c (B : FixedType T) inv val x y o, fixed_type_laws c B inv val -> 2 <= ft_BITS B mod 8 ->
  x < 2 ^ usize_bits c -> y < 2 ^ usize_bits c ->
  if ft_BITS B / 2 <=? usize_bits c
  then exists v s e u, inv v /\ inv u /\ s <= ft_BITS B < e /\ user_fixed_from_grid_2d c B x y o = bo_set_bits (ft_bits B) v s e u
  else user_fixed_from_grid_2d c B x y o = Panic.
Proof.
  intros T c B inv val x y o LB H8 Hx Hy. destruct (N.leb_spec (ft_BITS B / 2) (usize_bits c)) as [H|H].
  - destruct (user_fixed_2d_outside c B inv val x y o LB H8 H Hx Hy) as (v & u & Hv & Hu & E). destruct (user_levels_more B H8) as (_ & M2 & _).
    exists v, (8 * (ft_BITS B / 8)), (8 * (ft_BITS B / 8) + 8), u. split; [exact Hv|]. split; [exact Hu|]. split; [clear - M2; lia|exact E].
  - unfold user_fixed_from_grid_2d. cbv zeta. change (user_MAX Dim2D B) with (ft_BITS B / 2). destruct (N.ltb_spec (usize_bits c) (ft_BITS B / 2)); [reflexivity|lia].
Qed.
Lemma first_bits_cases c x d n : x < 2 ^ usize_bits c -> d <= 2 ^ N.min 32 (usize_bits c) ->
  if overflow_checks c && negb ((d <=? usize_bits c) && (n <? usize_bits c)) then first_bits c x d n = Panic
  else exists v, first_bits c x d n = Ret v /\ v < 2 ^ usize_bits c.
Proof.
  intros Hx Hd. destruct (overflow_checks c) eqn:HO; cbn [andb].
  - destruct ((d <=? usize_bits c) && (n <? usize_bits c)) eqn:Q; cbn [negb].
    + apply andb_prop in Q. destruct Q as [Q1 Q2]. apply N.leb_le in Q1. apply N.ltb_lt in Q2.
      exists (moved c d n x). split; [apply first_bits_ok; assumption|apply moved_lt].
    + apply andb_false_iff in Q. rewrite N.leb_gt, N.ltb_ge in Q. apply first_bits_panics; assumption.
  - destruct (first_bits_release c x d n HO Hx Hd) as (v & E & V & _). eauto.
Qed.
Lemma c69_static_grid_2d_outside_lemma : forall T c (B : FixedType T) inv val x y d o, fixed_type_laws c B inv val -> 2 <= ft_BITS B mod 8 ->
  ft_BITS B + 8 <= 2 ^ N.min 32 (usize_bits c) -> x < 2 ^ usize_bits c -> y < 2 ^ usize_bits c ->
  let W := usize_bits c in let M := ft_BITS B / 2 in
  if M <? d then user_static_from_grid_2d c B x y d o = Ret (Err (DepthLimitedExceeded M))
  else if overflow_checks c && negb ((d <=? W) && (M - d <? W)) then user_static_from_grid_2d c B x y d o = Panic
  else if d =? 0 then exists s, user_static_from_grid_2d c B x y d o = Ret (Ok s) /\ user_static_valid Dim2D B inv s /\ shows (user_static_ops c Dim2D B) s []
  else exists v s e u, inv v /\ inv u /\ s <= ft_BITS B < e
         /\ (bo_set_bits (ft_bits B) v s e u = Panic -> user_static_from_grid_2d c B x y d o = Panic)
         /\ (bo_set_bits (ft_bits B) v s e u = UB -> user_static_from_grid_2d c B x y d o = UB).
Proof.
  intros T c B inv val x y d o LB H8 HB Hx Hy W M. destruct (N.ltb_spec M d) as [H|Hd].
  - unfold user_static_from_grid_2d. cbv zeta. fold M. destruct (N.ltb_spec M d); [reflexivity|lia].
  - destruct (user_levels_more B H8) as (M1 & M2 & M3). change (user_MAX Dim2D B) with M in M1, M3. set (q := ft_BITS B / 8) in *.
    assert (P : 2 ^ N.min 32 (usize_bits c) <= 2 ^ 32 /\ 2 ^ N.min 32 (usize_bits c) <= 2 ^ usize_bits c) by (split; apply pow2_le_mono; lia).
    assert (MB : 2 * M <= ft_BITS B) by (unfold M; clear; lia).
    assert (D32 : d <= 2 ^ N.min 32 (usize_bits c)) by (clear - Hd MB HB; lia).
    pose proof (first_bits_cases c x d (M - d) Hx D32) as Cx. pose proof (first_bits_cases c y d (M - d) Hy D32) as Cy. fold W in Cx, Cy.
    assert (F : user_static_from_grid_2d c B x y d o = let! xb := first_bits c x d (M - d) in let! yb := first_bits c y d (M - d) in
      let '(lo, hi) := lower_higher o xb yb in
      let! bits := foldM (fun bits k => let! ch := grid_chunk_2d c lo hi k in let! s := mul c W k 8 in let! e := add c W s 8 in
         bo_set_bits (ft_bits B) bits s e (bo_from_u8 (ft_bits B) ch)) (rev (range (q + 1 - (d + 3) / 4) (q + 1))) (ft_default B) in
      Ret (Ok (MkUserStatic bits (cast 8 d)))).
    { unfold user_static_from_grid_2d. cbv zeta. change (user_MAX Dim2D B) with M. fold M W. destruct (N.ltb_spec M d); [lia|].
      rewrite sub_ok by exact Hd. rewrite bind_ret. unfold first_bits. rewrite bind_assoc. fold W.
      destruct (num_get_bits c USize x 0 d) as [x0| |]; [|reflexivity|reflexivity]. rewrite !bind_ret.
      destruct (shl c W x0 (M - d)) as [xb| |]; [|reflexivity|reflexivity]. rewrite !bind_ret. rewrite bind_assoc.
      destruct (num_get_bits c USize y 0 d) as [y0| |]; [|reflexivity|reflexivity]. rewrite !bind_ret.
      destruct (shl c W y0 (M - d)) as [yb| |]; [|reflexivity|reflexivity]. rewrite !bind_ret.
      destruct (lower_higher o xb yb) as [lo hi]. rewrite add_ok by (fold W in P, HB; clear - Hd MB HB P; lia). rewrite bind_ret.
      rewrite add_ok by (fold W in P, HB; clear - Hd MB HB P; lia). rewrite bind_ret. rewrite M1.
      rewrite sub_ok; [rewrite bind_ret; reflexivity|]. rewrite <- M1. clear - Hd. apply N.div_le_mono; lia. }
    destruct (overflow_checks c && negb ((d <=? W) && (M - d <? W))).
    + rewrite F, Cx. reflexivity.
    + destruct Cx as (xb & Ex & Bx). destruct Cy as (yb & Ey & By). rewrite Ex, Ey, !bind_ret in F.
      destruct (lower_higher o xb yb) as [lo hi] eqn:LH.
      assert (HL : lo < 2 ^ usize_bits c /\ hi < 2 ^ usize_bits c) by (destruct o; cbn in LH; injection LH as <- <-; auto). destruct HL as [Hlo Hhi].
      destruct (law_default _ _ _ _ LB) as [Id Vd]. destruct (N.eqb_spec d 0) as [D0|D0].
      * subst d. rewrite range_nil in F by (clear; lia). cbn [rev foldM] in F. rewrite bind_ret in F. eexists. split; [exact F|]. split; [split; [exact Id|split; [reflexivity|apply N.le_0_l]]|].
        apply (static_shows c Dim2D B inv val 0 _ [] dim2_ok LB); [|reflexivity]. apply (keeps_zero c Dim2D B inv val (ft_default B) 0 dim2_ok LB Id Vd). apply N.le_0_l.
      * assert (D4 : 1 <= (d + 3) / 4) by (clear - D0; lia).
        rewrite range_snoc in F by (clear - D4; lia). rewrite rev_app_distr in F. cbn [rev app foldM] in F.
        destruct (user_grid_chunk_2d c lo hi q) as (ch & E2 & Hch & _); [assumption|assumption|clear - MB M2 M3 HB P; lia|clear - MB M3 HB P; lia|].
        rewrite E2, bind_ret in F. rewrite mul_ok in F by (fold W in P, HB; clear - M2 HB P; lia). rewrite bind_ret in F.
        rewrite add_ok in F by (fold W in P, HB; clear - M2 HB P; lia). rewrite bind_ret in F.
        exists (ft_default B), (q * 8), (q * 8 + 8), (bo_from_u8 (ft_bits B) ch). split; [exact Id|]. split; [apply (law_from_u8 _ _ _ _ LB ch Hch)|].
        split; [clear - M2; lia|]. rewrite F. split; intros ->; reflexivity.
Qed.

(* ---------- hashing ---------- *)
Lemma c68_hash_lemma : forall T c D L (B : FixedType T) inv val hash, is_dim D L -> fixed_type_laws c B inv val ->
  (forall v w, inv v -> inv w -> ft_eq B v w = true -> hash v = hash w) ->
  (forall v w, inv v -> inv w -> user_fixed_eq B v w = true -> user_fixed_hash hash v = user_fixed_hash hash w)
  /\ (forall a b, user_static_valid D B inv a -> user_static_valid D B inv b -> user_static_eq B a b = true -> user_static_hash hash a = user_static_hash hash b)
  /\ ((forall v w, inv v -> inv w -> hash v = hash w -> ft_eq B v w = true) ->
      forall a b, user_static_valid D B inv a -> user_static_valid D B inv b -> user_static_hash hash a = user_static_hash hash b -> user_static_eq B a b = true).
Proof.
  intros T c D L B inv val hash HDL LB HH. split; [exact HH|]. split.
  - intros a b (Ia & _) (Ib & _) E. unfold user_static_eq in E. apply andb_prop in E. destruct E as [E1 E2]. apply N.eqb_eq in E2.
    unfold user_static_hash. rewrite E2, (HH _ _ Ia Ib E1). reflexivity.
  - intros HI a b (Ia & _) (Ib & _) E. unfold user_static_hash in E. apply app_inj_tail in E. destruct E as [E1 E2].
    unfold user_static_eq. rewrite (HI _ _ Ia Ib E1), E2, N.eqb_refl. reflexivity.
Qed.
(* for the integers of the crate, which feed themselves, these are the definitions of ModelStorage.v *)
Lemma integers_hash b s : fixed_hash (MkFixed b) = user_fixed_hash (fun v => [v]) b /\ static_hash (to_static s) = user_static_hash (fun v => [v]) s.
Proof. split; reflexivity. Qed.
