(* FactsUserDims.v - proofs of the theorems stated in PropUserDims.v *)
From Verif Require Import Base ModelNumber ModelDim ModelStorage Spec SpecUser BitProofs NumberProofs VecProofs VecSetProofs SafetyProofs FactsBits FactsUser.

Lemma usize_bytes c x : Forall (fun b => b < 256) (num_as_u8_slice c USize x) /\ len (num_as_u8_slice c USize x) = usize_bits c / 8.
Proof.
  unfold num_as_u8_slice. split; [apply bytes_ok_to_bytes|]. rewrite len_to_bytes, N2Nat.id. reflexivity.
Qed.
Lemma dyn_set c D vec i x : 1 <= dim D -> dim D * (i + 1) <= 8 * len vec -> 8 * len vec + 8 <= 2 ^ usize_bits c ->
  dynamic_set_cell c D vec i x
  = set_vec_u8_bits c vec (8 * len vec - dim D * (i + 1)) (8 * len vec - dim D * i) (num_as_u8_slice c USize (cell_index D x)).
Proof.
  intros Hd Hi Hl. unfold dynamic_set_cell. cbv zeta. unfold vec_size. rewrite mul_ok by lia. rewrite bind_ret. rewrite (N.mul_comm (len vec) 8).
  rewrite (positions c (8 * len vec) (dim D) i (fun s e => vec_set_bits_from_usize c vec s e (cell_index D x))) by (try assumption; lia). reflexivity.
Qed.
Lemma c66_dynamic_every_target_lemma : forall c D vec i x, 1 <= dim D -> dim D <= usize_bits c ->
  Forall (fun b => b < 256) vec -> dim D * (i + 1) <= 8 * len vec -> 8 * len vec + 8 <= 2 ^ usize_bits c ->
  let pos := 8 * len vec - dim D * (i + 1) in
  let bytes := to_bytes (target_endian c) (N.to_nat (usize_bits c / 8)) (cell_index D x) in
  exists vec' n, dynamic_set_cell c D vec i x = Ret vec' /\ Forall (fun b => b < 256) vec' /\ len vec' = len vec
    /\ n < 2 ^ dim D /\ (forall m, m < dim D -> N.testbit n m = source_bit (target_endian c) bytes pos m)
    /\ bits_replaced (bytes_value vec) pos (dim D) n (bytes_value vec')
    /\ dynamic_get_cell c D vec' i = unwrap (cell_try_from D n)
    /\ forall j, j <> i -> dim D * (j + 1) <= 8 * len vec -> dynamic_get_cell c D vec' j = dynamic_get_cell c D vec j.
Proof.
  intros c D vec i x Hd HW Hv Hi Hl pos bytes.
  rewrite (dyn_set c D vec i x Hd Hi Hl). change (num_as_u8_slice c USize (cell_index D x)) with bytes.
  destruct (usize_bytes c (cell_index D x)) as [Bb Lb]. change (num_as_u8_slice c USize (cell_index D x)) with bytes in Bb, Lb.
  assert (Ee : 8 * len vec - dim D * i = pos + dim D) by (unfold pos; lia). rewrite Ee. fold pos.
  assert (Hp : pos + dim D <= 8 * len vec) by (unfold pos; lia).
  pose (n := number_of (source_bit (target_endian c) bytes pos) (N.to_nat (dim D))).
  assert (Hs : last_source_byte pos (pos + dim D) < len bytes).
  { rewrite Lb. unfold last_source_byte. clearbody pos. assert (W8 : usize_bits c = 8 * (usize_bits c / 8)) by (unfold usize_bits; destruct (pointer c); reflexivity).
    clear - Hd HW W8. apply N.div_lt_upper_bound; [discriminate|]. rewrite <- W8. revert HW. generalize (usize_bits c). clear W8. intros W HW.
    pose proof (N.div_mod (pos + dim D + 7) 8). pose proof (N.mod_lt (pos + dim D + 7) 8). lia. }
  destruct (set_vec_u8_bits_source c vec pos (pos + dim D) bytes Bb Hs Hv ltac:(lia) Hp Hl) as (vec' & S & Fv & Lv & R).
  exists vec', n. split; [exact S|]. split; [exact Fv|]. split; [exact Lv|].
  assert (Hn : n < 2 ^ dim D). { apply lt_pow2_testbit. intros k Hk. unfold n. rewrite testbit_number_of, N2Nat.id.
    destruct (N.ltb_spec k (dim D)); [lia|reflexivity]. }
  assert (Hb : forall m, m < dim D -> N.testbit n m = source_bit (target_endian c) bytes pos m).
  { intros m Hm. unfold n. rewrite testbit_number_of, N2Nat.id. destruct (N.ltb_spec m (dim D)); [reflexivity|lia]. }
  split; [exact Hn|]. split; [exact Hb|].
  assert (B : bits_replaced (bytes_value vec) pos (dim D) n (bytes_value vec')).
  { intro k. rewrite R. destruct (N.leb_spec pos k), (N.ltb_spec k (pos + dim D)); cbn [andb]; try reflexivity. symmetry. apply Hb. lia. }
  split; [exact B|]. split.
  - rewrite dyn_get by (rewrite ?Lv; assumption). rewrite Lv. fold pos. rewrite (replaced_itself _ _ _ _ _ B). rewrite N.mod_small by exact Hn. reflexivity.
  - intros j Hne Hj. rewrite !dyn_get by (rewrite ?Lv; assumption). rewrite Lv. rewrite (replaced_field _ _ _ _ _ _ (dim D) B); [reflexivity|].
    unfold pos. apply other_level; assumption || congruence.
Qed.
Lemma c66_dynamic_wide_dimension_lemma : forall c D vec i x, usize_bits c + 8 <= dim D ->
  Forall (fun b => b < 256) vec -> dim D * (i + 1) <= 8 * len vec -> 8 * len vec + 8 <= 2 ^ usize_bits c ->
  dynamic_set_cell c D vec i x = UB.
Proof.
  intros c D vec i x Hd Hv Hi Hl. assert (W : 16 <= usize_bits c) by (unfold usize_bits; destruct (pointer c); discriminate).
  rewrite (dyn_set c D vec i x) by (try assumption; lia).
  destruct (usize_bytes c (cell_index D x)) as [Bb Lb]. set (bytes := num_as_u8_slice c USize (cell_index D x)) in *. clearbody bytes.
  assert (Ee : 8 * len vec - dim D * i = 8 * len vec - dim D * (i + 1) + dim D) by lia. rewrite Ee.
  set (pos := 8 * len vec - dim D * (i + 1)). assert (Hp : pos + dim D <= 8 * len vec) by (unfold pos; lia). clearbody pos.
  rewrite (set_vec_u8_bits_short c vec pos (pos + dim D) bytes Bb); try assumption; try lia.
  - assert (L0 : len bytes <> 0) by (rewrite Lb; unfold usize_bits; destruct (pointer c); discriminate).
    destruct (N.eqb_spec (len bytes) 0); [contradiction|]. reflexivity.
  - rewrite Lb. unfold last_source_byte. apply N.div_le_mono; [discriminate|]. clear - Hd W.
    pose proof (N.div_mod (pos + dim D + 7) 8). pose proof (N.mod_lt (pos + dim D + 7) 8). lia.
Qed.
Lemma le_byte_zero n : forall v i, v < 2 ^ (8 * N.of_nat i) -> nth i (to_le_bytes n v) 0 = 0.
Proof.
  induction n as [|n IH]; intros v i Hv; cbn [to_le_bytes]; [destruct i; reflexivity|].
  destruct i as [|i]; cbn [nth].
  - change (2 ^ (8 * N.of_nat 0)) with 1 in Hv. replace v with 0 by lia. reflexivity.
  - apply IH. apply N.div_lt_upper_bound; [discriminate|]. replace (8 * N.of_nat (S i)) with (8 + 8 * N.of_nat i) in Hv by lia.
    rewrite N.pow_add_r in Hv. exact Hv.
Qed.
Lemma be_byte_zero n v d k : v < 2 ^ d -> d + 8 * (k + 1) <= 8 * N.of_nat n -> nth (N.to_nat k) (to_bytes BigEndian n v) 0 = 0.
Proof.
  intros Hv Hk. cbn [to_bytes]. rewrite rev_nth by (rewrite to_le_bytes_length; lia). rewrite to_le_bytes_length.
  apply le_byte_zero. eapply N.lt_le_trans; [exact Hv|]. apply pow2_le_mono. lia.
Qed.
Lemma c66_dynamic_big_endian_lemma : forall c D vec i x, dimension_laws D -> target_endian c = BigEndian -> 2 * dim D + 16 <= usize_bits c ->
  Forall (fun b => b < 256) vec -> dim D * (i + 1) <= 8 * len vec -> 8 * len vec + 8 <= 2 ^ usize_bits c ->
  exists vec', dynamic_set_cell c D vec i x = Ret vec' /\ Forall (fun b => b < 256) vec' /\ len vec' = len vec
    /\ bits_replaced (bytes_value vec) (8 * len vec - dim D * (i + 1)) (dim D) 0 (bytes_value vec')
    /\ dynamic_get_cell c D vec' i = unwrap (cell_try_from D 0)
    /\ forall j, j <> i -> dim D * (j + 1) <= 8 * len vec -> dynamic_get_cell c D vec' j = dynamic_get_cell c D vec j.
Proof.
  intros c D vec i x (Hd & Hx & _) HE HW Hv Hi Hl.
  destruct (c66_dynamic_every_target_lemma c D vec i x Hd ltac:(lia) Hv Hi Hl) as (vec' & n & S & Fv & Lv & Hn & Hb & R & G & O).
  assert (Z : n = 0).
  { apply N.bits_inj; intro m. rewrite N.bits_0. destruct (N.lt_ge_cases m (dim D)) as [L|L]; [|apply (testbit_high n (dim D)); assumption].
    rewrite (Hb m L). rewrite HE. set (pos := 8 * len vec - dim D * (i + 1)). clearbody pos.
    assert (W8 : usize_bits c = 8 * (usize_bits c / 8)) by (unfold usize_bits; destruct (pointer c); reflexivity).
    set (w := usize_bits c / 8) in *. clearbody w. rewrite W8 in HW.
    unfold source_bit. cbv zeta. set (k := chunk_start pos m / 8). assert (Hk : 8 * k <= m).
    { unfold k, chunk_start. clear. pose proof (N.div_mod (pos + m) 8). pose proof (N.mod_lt (pos + m) 8).
      pose proof (N.mul_div_le (8 * ((pos + m) / 8) - pos) 8). lia. }
    clearbody k. rewrite len_to_bytes, N2Nat.id. specialize (Hx x).
    rewrite !(be_byte_zero (N.to_nat w) _ (dim D)) by (try exact Hx; rewrite N2Nat.id; lia).
    rewrite !N.bits_0. destruct (k + 1 =? w), (m - 8 * k <? 8); reflexivity. }
  subst n. exists vec'. tauto.
Qed.
Lemma set_bits_beyond c v s e x : overflow_checks c = true -> s <= e -> e - s <= usize_bits c -> usize_bits c <= s -> s < 2 ^ usize_bits c ->
  num_set_bits c USize v s e x = Panic.
Proof.
  intros HO Hse Hn Hs HW. unfold num_set_bits. cbn [BITS]. cbv zeta. rewrite sub_ok by (unfold range_len; destruct (N.ltb_spec s e); lia). rewrite bind_ret.
  rewrite (cast_small (usize_bits c) s HW). unfold shl at 1. destruct (N.ltb_spec s (usize_bits c)); [lia|]. rewrite HO. reflexivity.
Qed.
Lemma get_bits_as_usize_beyond c vec s e : overflow_checks c = true -> Forall (fun b => b < 256) vec -> s <= e ->
  usize_bits c + s <= 8 * ((e + 7) / 8 - 1) -> e <= 8 * len vec -> 8 * len vec + 8 <= 2 ^ usize_bits c ->
  vec_get_bits_as_usize c vec s e = Panic.
Proof.
  intros HO Hvec Hse Hb He HW. pose proof (usize_ge16 c) as H16.
  assert (G : forall n i ret, i + N.of_nat n + 1 = (e + 7) / 8 -> s / 8 <= i ->
    foldM (vec_get_bits_as_usize_step c vec e) (nrange i (S n)) (ret, N.max s (8 * i), N.max s (8 * i) - s) = Panic).
  { induction n as [|n IH]; intros i ret Hi Hsi.
    - cbn [nrange foldM]. unfold vec_get_bits_as_usize_step. rewrite add_ok by lia. rewrite bind_ret. rewrite mul_ok by lia. rewrite bind_ret.
      set (en := N.min ((i + 1) * 8) e). assert (Hen : en = e) by (unfold en; lia). clearbody en. subst en.
      assert (Hm : N.max s (8 * i) = 8 * i) by lia. rewrite Hm.
      assert (Hi8 : 8 * i <= e /\ e - 8 * i <= 8) by lia.
      rewrite sub_ok by lia. rewrite bind_ret. cbv zeta. replace (8 * i mod 8) with 0 by (symmetry; rewrite N.mul_comm; apply N.mod_mul; discriminate).
      rewrite add_ok by lia. rewrite bind_ret.
      destruct (nth_error_N_lt vec i) as [b Eb]; [lia|]. rewrite (vec_get_ok _ _ _ Eb), bind_ret. pose proof (bytes_ok_nth _ _ _ Hvec Eb) as Hb'.
      rewrite num_get_bits_ok by (cbn [BITS]; try change (2 ^ 8) with 256; lia). rewrite bind_ret. rewrite add_ok by lia. rewrite bind_ret.
      rewrite set_bits_beyond; [reflexivity|exact HO|lia|lia|lia|lia].
    - cbn [nrange foldM]. change (i + 1 :: nrange (i + 1 + 1) n) with (nrange (i + 1) (S n)).
      unfold vec_get_bits_as_usize_step at 1. rewrite add_ok by lia. rewrite bind_ret. rewrite mul_ok by lia. rewrite bind_ret.
      set (en := N.min ((i + 1) * 8) e). assert (Hen : en = 8 * (i + 1)) by (unfold en; lia). clearbody en. subst en.
      set (ss := N.max s (8 * i)). assert (Hss : s <= ss /\ 8 * i <= ss /\ ss < 8 * (i + 1)) by (unfold ss; lia). clearbody ss.
      rewrite sub_ok by lia. rewrite bind_ret. cbv zeta. rewrite add_ok by lia. rewrite bind_ret.
      destruct (nth_error_N_lt vec i) as [b Eb]; [lia|]. rewrite (vec_get_ok _ _ _ Eb), bind_ret. pose proof (bytes_ok_nth _ _ _ Hvec Eb) as Hb'.
      rewrite num_get_bits_ok by (cbn [BITS]; try change (2 ^ 8) with 256; lia). rewrite bind_ret. rewrite add_ok by lia. rewrite bind_ret.
      match goal with |- context [num_set_bits c USize ?a ?b ?d ?f] => pose proof (safe_num_set_bits c USize a b d f) as SB; destruct (num_set_bits c USize a b d f) as [r| |] end;
        [|reflexivity|exfalso; apply SB; reflexivity].
      rewrite !bind_ret.
      specialize (IH (i + 1) r ltac:(lia) ltac:(lia)). replace (N.max s (8 * (i + 1))) with (8 * (i + 1)) in IH by lia.
      replace (ss - s + (8 * (i + 1) - ss)) with (8 * (i + 1) - s) by lia. exact IH. }
  unfold vec_get_bits_as_usize. cbv zeta. rewrite add_ok by lia. rewrite bind_ret. unfold range.
  assert (K : exists n, N.to_nat ((e + 7) / 8 - s / 8) = S n) by (exists (N.to_nat ((e + 7) / 8 - s / 8 - 1)); lia).
  destruct K as [n K]. rewrite K. specialize (G n (s / 8) 0 ltac:(lia) ltac:(lia)).
  replace (N.max s (8 * (s / 8))) with s in G by lia. rewrite N.sub_diag in G. rewrite G. reflexivity.
Qed.
Lemma c66_dynamic_wide_read_lemma : forall c D vec i, overflow_checks c = true -> usize_bits c + 8 <= dim D ->
  Forall (fun b => b < 256) vec -> dim D * (i + 1) <= 8 * len vec -> 8 * len vec + 8 <= 2 ^ usize_bits c ->
  dynamic_get_cell c D vec i = Panic.
Proof.
  intros c D vec i HO Hd Hv Hi Hl. pose proof (usize_ge16 c) as W.
  unfold dynamic_get_cell. cbv zeta. unfold vec_size. rewrite mul_ok by lia. rewrite bind_ret. rewrite (N.mul_comm (len vec) 8).
  rewrite (positions c (8 * len vec) (dim D) i (fun s e => let! n := vec_get_bits_as_usize c vec s e in unwrap (cell_try_from D n))) by (try assumption; lia).
  assert (Ee : 8 * len vec - dim D * i = 8 * len vec - dim D * (i + 1) + dim D) by lia. rewrite Ee.
  set (pos := 8 * len vec - dim D * (i + 1)). assert (Hp : pos + dim D <= 8 * len vec) by (unfold pos; lia). clearbody pos.
  rewrite get_bits_as_usize_beyond; [reflexivity|assumption|assumption|lia| |assumption|assumption].
  clear - Hd W. pose proof (N.div_mod (pos + dim D + 7) 8). pose proof (N.mod_lt (pos + dim D + 7) 8). lia.
Qed.
