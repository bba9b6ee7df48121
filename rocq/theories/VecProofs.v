(* VecProofs.v - the Bits operations of src/number.rs on byte vectors *)
From Verif Require Import Base ModelNumber Spec BitProofs NumberProofs.

(* ---------- bit fields ---------- *)
Lemma put_0 v s x : put v s 0 x = v.
Proof.
  apply N.bits_inj; intro i. rewrite testbit_put.
  destruct (N.leb_spec s i), (N.ltb_spec i (s + 0)); cbn [andb]; lia || reflexivity.
Qed.
Lemma put_extend v s a n x : put (put v s a x) (s + a) n (bits_of x a n) = put v s (a + n) x.
Proof.
  apply N.bits_inj; intro i. rewrite !testbit_put, testbit_bits_of.
  destruct (N.leb_spec (s + a) i), (N.ltb_spec i (s + a + n)), (N.leb_spec s i), (N.ltb_spec i (s + a)),
    (N.ltb_spec i (s + (a + n))); cbn [andb]; try lia; try reflexivity.
  destruct (N.ltb_spec (i - (s + a)) n); [|lia]. cbn [andb]. f_equal; lia.
Qed.
Lemma bits_of_0 v s : bits_of v s 0 = 0.
Proof. unfold bits_of. change (2 ^ 0) with 1. apply N.mod_1_r. Qed.
Lemma bits_of_zero s n : bits_of 0 s n = 0.
Proof. apply N.bits_inj; intro i. rewrite testbit_bits_of, !testbit_0. apply andb_false_r. Qed.
Lemma bits_of_extend v s a n : put (bits_of v s a) a n (bits_of v (s + a) n) = bits_of v s (a + n).
Proof.
  apply N.bits_inj; intro i. rewrite testbit_put, !testbit_bits_of.
  destruct (N.leb_spec a i), (N.ltb_spec i (a + n)), (N.ltb_spec i a), (N.ltb_spec (i - a) n); cbn [andb]; try lia;
    try reflexivity.
  f_equal; lia.
Qed.

Lemma bytes_ok_put b s n x : b < 256 -> s + n <= 8 -> put b s n x < 256.
Proof. change 256 with (2 ^ 8). intros; apply put_lt; assumption. Qed.

Lemma bytes_value_update l i b s n x :
  bytes_ok l -> nth_error l (N.to_nat i) = Some b -> s + n <= 8 ->
  bytes_value (update l (N.to_nat i) (put b s n x)) = put (bytes_value l) (8 * i + s) n x.
Proof.
  intros Hl Hb Hs. pose proof (bytes_ok_nth _ _ _ Hl Hb) as Hb'.
  pose proof (nth_error_len _ _ _ Hb) as Hlt.
  assert (Hu : bytes_ok (update l (N.to_nat i) (put b s n x))).
  { apply Forall_update; [exact Hl|]. apply bytes_ok_put; assumption. }
  apply N.bits_inj; intro k. rewrite testbit_put, !testbit_bytes_value by assumption.
  rewrite nth_error_update. destruct (Nat.eqb_spec (N.to_nat i) (N.to_nat (k / 8))) as [E|E].
  - destruct (Nat.ltb_spec (N.to_nat i) (List.length l)) as [_|H]; [|unfold len in Hlt; lia]. cbn [andb].
    rewrite <- E, Hb. rewrite testbit_put.
    destruct (N.leb_spec s (k mod 8)), (N.ltb_spec (k mod 8) (s + n)), (N.leb_spec (8 * i + s) k),
      (N.ltb_spec k (8 * i + s + n)); cbn [andb]; try lia; try reflexivity.
    f_equal; lia.
  - cbn [andb]. destruct (N.leb_spec (8 * i + s) k), (N.ltb_spec k (8 * i + s + n)); cbn [andb]; try reflexivity. lia.
Qed.

Lemma bits_of_bytes_value l i b s n :
  bytes_ok l -> nth_error l (N.to_nat i) = Some b -> s + n <= 8 ->
  bits_of (bytes_value l) (8 * i + s) n = bits_of b s n.
Proof.
  intros Hl Hb Hs. apply N.bits_inj; intro k. rewrite !testbit_bits_of, testbit_bytes_value by assumption.
  destruct (N.ltb_spec k n); [|reflexivity]. cbn [andb].
  replace (N.to_nat ((k + (8 * i + s)) / 8)) with (N.to_nat i) by lia. rewrite Hb. f_equal; lia.
Qed.

(* ---------- writing ---------- *)
(* the value assembled by one iteration of set_vec_u8_bits from bits p .. p+n of the new value, lines 286-299 *)
Definition read_new (c : cfg) (nv : list N) (p n : N) : outcome N :=
  let W := usize_bits c in
  let! last := sub c W (len nv) 1 in
  if p / 8 =? last then
    let! e := add c W (p mod 8) n in
    let! byte := vec_get nv (p / 8) in
    num_get_bits c U8 byte (p mod 8) e
  else
    let! two_bytes := read_u16 c nv (p / 8) in
    let! base := mul c W (p / 8) 8 in
    let! s := sub c W p base in
    let! base2 := mul c W (p / 8) 8 in
    let! e := sub c W (p + n) base2 in
    let! v := num_get_bits c U16 two_bytes s e in
    Ret (cast 8 v).
(* the new value is read as the number x, for the first m bits *)
Definition reads_as (c : cfg) (nv : list N) (m x : N) : Prop :=
  forall p n, p + n <= m -> n <= 8 -> (0 < n \/ p = 0) -> read_new c nv p n = Ret (bits_of x p n).

Lemma reads_as_le c nv m :
  target_endian c = LittleEndian -> bytes_ok nv -> 0 < len nv -> m <= 8 * len nv -> m < 2 ^ usize_bits c ->
  reads_as c nv m (bytes_value nv).
Proof.
  intros HE Hnv Hlen Hm HmW p n Hpn Hn Hn0. unfold read_new. cbn zeta.
  pose proof (pow2_usize_ge c).
  rewrite sub_ok by lia. rewrite bind_ret.
  destruct (N.eqb_spec (p / 8) (len nv - 1)) as [E|E].
  - rewrite add_ok by lia. rewrite bind_ret.
    destruct (nth_error_N_lt nv (p / 8)) as [b Hb]; [lia|].
    rewrite (vec_get_ok _ _ _ Hb), bind_ret. pose proof (bytes_ok_nth _ _ _ Hnv Hb) as Hb'.
    rewrite num_get_bits_ok by (cbn [BITS]; try change (2 ^ 8) with 256; lia).
    rewrite <- (bits_of_bytes_value nv (p / 8) b) by (assumption || lia).
    do 2 f_equal; lia.
  - unfold read_u16.
    destruct (nth_error_N_lt nv (p / 8)) as [a Ha]; [lia|].
    destruct (nth_error_N_lt nv (p / 8 + 1)) as [b Hb]; [lia|].
    rewrite Ha, Hb, HE, bind_ret. cbn [from_bytes].
    pose proof (bytes_ok_nth _ _ _ Hnv Ha). pose proof (bytes_ok_nth _ _ _ Hnv Hb).
    repeat mstep.
    assert (Hv : from_le_bytes [a; b] < 2 ^ BITS c U16) by (cbn [from_le_bytes BITS]; change (2 ^ 16) with 65536; lia).
    rewrite num_get_bits_ok by (try exact Hv; cbn [BITS]; lia).
    rewrite bind_ret. f_equal.
    assert (Hab : bytes_ok [a; b]) by (repeat constructor; assumption).
    rewrite cast_small.
    2:{ eapply N.lt_le_trans; [apply bits_of_lt|]. apply pow2_le_mono. lia. }
    rewrite from_le_bytes_value. apply N.bits_inj; intro k.
    rewrite !testbit_bits_of, !testbit_bytes_value by assumption.
    replace (p + n - p / 8 * 8 - (p - p / 8 * 8)) with n by lia.
    destruct (N.ltb_spec k n); [|reflexivity]. cbn [andb].
    destruct (N.lt_ge_cases (k + (p - p / 8 * 8)) 8).
    * replace (N.to_nat ((k + (p - p / 8 * 8)) / 8)) with O by lia.
      replace (N.to_nat ((k + p) / 8)) with (N.to_nat (p / 8)) by lia. rewrite Ha. cbn [nth_error].
      f_equal; lia.
    * replace (N.to_nat ((k + (p - p / 8 * 8)) / 8)) with 1%nat by lia.
      replace (N.to_nat ((k + p) / 8)) with (N.to_nat (p / 8 + 1)) by lia. rewrite Hb. cbn [nth_error].
      f_equal; lia.
Qed.

(* one iteration: the bits read from the new value replace the bits of byte i that lie in the range *)
Lemma set_vec_step_base c s e nv y vec i :
  let ss := N.max s (8 * i) in
  let en := N.min (8 * (i + 1)) e in
  read_new c nv (ss - s) (en - ss) = Ret y -> y < 2 ^ (en - ss) ->
  bytes_ok vec -> s <= e -> e <= 8 * len vec -> 8 * len vec < 2 ^ usize_bits c ->
  s / 8 <= i -> i < (e + 7) / 8 ->
  exists vec',
    set_vec_u8_bits_step c e nv (vec, ss, ss - s) i = Ret (vec', en, en - s)
    /\ bytes_ok vec' /\ len vec' = len vec /\ bytes_value vec' = put (bytes_value vec) ss (en - ss) y.
Proof.
  intros ss en R' Hy Hvec Hse He HW Hi1 Hi2.
  assert (Hss : s <= ss /\ 8 * i <= ss /\ ss <= en /\ (ss < en \/ ss = s) /\ ss < 8 * (i + 1) /\ en <= e /\ en <= 8 * (i + 1)
                /\ (i < len vec)) by lia.
  clearbody ss. unfold set_vec_u8_bits_step.
  rewrite add_ok by lia. rewrite bind_ret. rewrite mul_ok by lia. rewrite bind_ret.
  replace (N.min ((i + 1) * 8) e) with en by lia. clearbody en.
  rewrite (sub_ok _ _ en ss) by lia. rewrite bind_ret.
  rewrite (add_ok _ _ (ss - s) (en - ss)) by lia. rewrite bind_ret.
  unfold read_new in R'. cbn zeta in R'. apply bind_inv in R'. destruct R' as (last & Elast & R').
  rewrite Elast, bind_ret. cbn zeta. rewrite R'. rewrite bind_ret.
  destruct (nth_error_N_lt vec i) as [old Hold]; [lia|].
  rewrite (vec_get_ok _ _ _ Hold), bind_ret. pose proof (bytes_ok_nth _ _ _ Hvec Hold) as Hold'.
  rewrite mul_ok by lia. rewrite bind_ret. rewrite (sub_ok _ _ ss) by lia. rewrite bind_ret.
  rewrite (sub_ok _ _ en) by lia. rewrite bind_ret.
  rewrite num_set_bits_ok; cbn [BITS]; try change (2 ^ 8) with 256; try lia.
  2:{ replace (en - i * 8 - (ss - i * 8)) with (en - ss) by lia. exact Hy. }
  rewrite bind_ret, vec_set_ok by lia. rewrite bind_ret. rewrite ?add_ok by lia. rewrite ?bind_ret.
  replace (ss - s + (en - ss)) with (en - s) by lia.
  replace (en - i * 8 - (ss - i * 8)) with (en - ss) by lia.
  eexists. split; [reflexivity|]. split; [|split].
  - apply Forall_update; [exact Hvec|]. apply bytes_ok_put; lia.
  - apply len_update.
  - rewrite bytes_value_update by (assumption || lia). f_equal; lia.
Qed.

Lemma set_vec_step_ok c v0 s e nv x vec i :
  let ss := N.max s (8 * i) in
  let en := N.min (8 * (i + 1)) e in
  read_new c nv (ss - s) (en - ss) = Ret (bits_of x (ss - s) (en - ss)) ->
  bytes_ok vec -> s <= e -> e <= 8 * len vec -> 8 * len vec < 2 ^ usize_bits c ->
  s / 8 <= i -> i < (e + 7) / 8 ->
  bytes_value vec = put v0 s (ss - s) x ->
  exists vec',
    set_vec_u8_bits_step c e nv (vec, ss, ss - s) i = Ret (vec', en, en - s)
    /\ bytes_ok vec' /\ len vec' = len vec /\ bytes_value vec' = put v0 s (en - s) x.
Proof.
  intros ss en Hr Hvec Hse He HW Hi1 Hi2 Hval.
  destruct (set_vec_step_base c s e nv (bits_of x (ss - s) (en - ss)) vec i) as (vec' & E & A & B & C); try assumption.
  { apply bits_of_lt. }
  exists vec'. split; [exact E|]. split; [exact A|]. split; [exact B|]. fold ss en in C. rewrite C, Hval.
  assert (Hss : s <= ss /\ ss <= en) by lia. clearbody ss en. clear - Hss.
  pose proof (put_extend v0 s (ss - s) (en - ss) x) as H. replace (s + (ss - s)) with ss in H by lia.
  rewrite H. f_equal; lia.
Qed.

(* the chunks of the range s..e are read as the number x *)
Definition reads_chunks (c : cfg) (nv : list N) (s e x : N) : Prop :=
  forall i, s / 8 <= i < (e + 7) / 8 ->
    let ss := N.max s (8 * i) in
    let en := N.min (8 * (i + 1)) e in
    read_new c nv (ss - s) (en - ss) = Ret (bits_of x (ss - s) (en - ss)).
Lemma reads_as_chunks c nv s e x : s <= e -> reads_as c nv (e - s) x -> reads_chunks c nv s e x.
Proof. intros Hse H i Hi ss en. apply H; lia. Qed.

Lemma set_vec_u8_bits_chunks c vec s e nv x :
  reads_chunks c nv s e x ->
  bytes_ok vec -> s <= e -> e <= 8 * len vec -> 8 * len vec + 8 <= 2 ^ usize_bits c ->
  exists vec', set_vec_u8_bits c vec s e nv = Ret vec' /\ bytes_ok vec' /\ len vec' = len vec
    /\ bytes_value vec' = put (bytes_value vec) s (e - s) x.
Proof.
  intros Hr Hvec Hse He HW. unfold set_vec_u8_bits. cbn zeta.
  rewrite add_ok by lia. rewrite bind_ret.
  destruct (foldM_range_inv (fun i st => exists vec1 ss, st = (vec1, ss, ss - s) /\ bytes_ok vec1 /\ len vec1 = len vec
       /\ bytes_value vec1 = put (bytes_value vec) s (ss - s) x
       /\ ss = (if i =? (e + 7) / 8 then e else N.max s (8 * i)))
     (set_vec_u8_bits_step c e nv) (s / 8) ((e + 7) / 8) (vec, s, 0)) as (st & E & vec1 & ss & -> & H1 & H2 & H3 & H4).
  - lia.
  - exists vec, s. rewrite N.sub_diag, put_0. repeat split; auto.
    destruct (N.eqb_spec (s / 8) ((e + 7) / 8)); lia.
  - intros i st Hi (vec1 & ss & -> & H1 & H2 & H3 & H4).
    destruct (N.eqb_spec i ((e + 7) / 8)); [lia|]. subst ss.
    destruct (set_vec_step_ok c (bytes_value vec) s e nv x vec1 i) as (vec2 & E2 & A & B & C); try assumption; try lia.
    { apply Hr. exact Hi. }
    exists (vec2, N.min (8 * (i + 1)) e, N.min (8 * (i + 1)) e - s). split; [exact E2|].
    exists vec2, (N.min (8 * (i + 1)) e). repeat split; auto; try lia.
    destruct (N.eqb_spec (i + 1) ((e + 7) / 8)); lia.
  - rewrite N.eqb_refl in H4. subst ss. rewrite E, bind_ret. exists vec1. auto.
Qed.

Lemma set_vec_u8_bits_gen c vec s e nv x :
  reads_as c nv (e - s) x ->
  bytes_ok vec -> s <= e -> e <= 8 * len vec -> 8 * len vec + 8 <= 2 ^ usize_bits c ->
  exists vec', set_vec_u8_bits c vec s e nv = Ret vec' /\ bytes_ok vec' /\ len vec' = len vec
    /\ bytes_value vec' = put (bytes_value vec) s (e - s) x.
Proof. intros Hr. intros. apply set_vec_u8_bits_chunks; try assumption. apply reads_as_chunks; assumption. Qed.

Lemma set_vec_u8_bits_le c vec s e nv :
  target_endian c = LittleEndian -> bytes_ok nv -> 0 < len nv -> e - s <= 8 * len nv ->
  bytes_ok vec -> s <= e -> e <= 8 * len vec -> 8 * len vec + 8 <= 2 ^ usize_bits c ->
  exists vec', set_vec_u8_bits c vec s e nv = Ret vec' /\ bytes_ok vec' /\ len vec' = len vec
    /\ bytes_value vec' = put (bytes_value vec) s (e - s) (bytes_value nv).
Proof.
  intros. apply set_vec_u8_bits_gen; try assumption. apply reads_as_le; try assumption. lia.
Qed.

Lemma bytes_value_as_u8_slice c t v : v < 2 ^ BITS c t -> target_endian c = LittleEndian ->
  bytes_value (num_as_u8_slice c t v) = v.
Proof.
  intros Hv HE. unfold num_as_u8_slice. rewrite HE. cbn [to_bytes]. apply bytes_value_to_le.
  rewrite N2Nat.id, num_size_8. exact Hv.
Qed.
Lemma len_as_u8_slice c t v : len (num_as_u8_slice c t v) = num_size c t.
Proof. unfold num_as_u8_slice. rewrite len_to_bytes. lia. Qed.
Lemma num_size_pos c t : 0 < num_size c t.
Proof. pose proof (num_size_8 c t). pose proof (BITS_ge c t). lia. Qed.

Lemma vec_set_bits_from_usize_le c vec s e x :
  target_endian c = LittleEndian -> x < 2 ^ usize_bits c -> e - s <= usize_bits c ->
  bytes_ok vec -> s <= e -> e <= 8 * len vec -> 8 * len vec + 8 <= 2 ^ usize_bits c ->
  exists vec', vec_set_bits_from_usize c vec s e x = Ret vec' /\ bytes_ok vec' /\ len vec' = len vec
    /\ bytes_value vec' = put (bytes_value vec) s (e - s) x.
Proof.
  intros HE Hx Hn Hvec Hse He HW. unfold vec_set_bits_from_usize.
  pose proof (num_size_8 c USize) as H8. cbn [BITS] in H8.
  destruct (set_vec_u8_bits_le c vec s e (num_as_u8_slice c USize x)) as (v' & A & B & C & D); try assumption.
  - apply bytes_ok_to_bytes.
  - rewrite len_as_u8_slice. apply num_size_pos.
  - rewrite len_as_u8_slice. lia.
  - rewrite bytes_value_as_u8_slice in D by assumption. eauto.
Qed.

(* ---------- reading as usize ---------- *)
Lemma vec_get_bits_as_usize_ok c vec s e :
  bytes_ok vec -> s <= e -> e - s <= usize_bits c -> e <= 8 * len vec -> 8 * len vec + 8 <= 2 ^ usize_bits c ->
  vec_get_bits_as_usize c vec s e = Ret (bits_of (bytes_value vec) s (e - s)).
Proof.
  intros Hvec Hse Hn He HW. unfold vec_get_bits_as_usize. cbn zeta.
  rewrite add_ok by lia. rewrite bind_ret. pose proof (usize_ge16 c) as HW16.
  destruct (foldM_range_inv (fun i st => exists ss, st = (bits_of (bytes_value vec) s (ss - s), ss, ss - s)
       /\ ss = (if i =? (e + 7) / 8 then e else N.max s (8 * i)))
     (vec_get_bits_as_usize_step c vec e) (s / 8) ((e + 7) / 8) (0, s, 0)) as (st & E & ss & -> & H4).
  - lia.
  - exists s. rewrite N.sub_diag, bits_of_0. split; [reflexivity|].
    destruct (N.eqb_spec (s / 8) ((e + 7) / 8)); lia.
  - intros i st Hi (ss & -> & H4).
    destruct (N.eqb_spec i ((e + 7) / 8)); [lia|].
    set (en := N.min (8 * (i + 1)) e).
    assert (Hss : s <= ss /\ 8 * i <= ss /\ ss <= en /\ (ss < en \/ ss = s) /\ ss < 8 * (i + 1) /\ en <= e /\ en <= 8 * (i + 1)
                /\ (i < len vec)) by lia.
    exists (bits_of (bytes_value vec) s (en - s), en, en - s). split.
    + unfold vec_get_bits_as_usize_step. rewrite add_ok by lia. rewrite bind_ret. rewrite mul_ok by lia. rewrite bind_ret.
      replace (N.min ((i + 1) * 8) e) with en by lia. clearbody en.
      rewrite sub_ok by lia. rewrite bind_ret. cbn zeta. rewrite add_ok by lia. rewrite bind_ret.
      destruct (nth_error_N_lt vec i) as [b Hb]; [lia|].
      rewrite (vec_get_ok _ _ _ Hb), bind_ret. pose proof (bytes_ok_nth _ _ _ Hvec Hb) as Hb'.
      rewrite num_get_bits_ok by (cbn [BITS]; try change (2 ^ 8) with 256; lia). rewrite bind_ret.
      rewrite add_ok by lia. rewrite bind_ret.
      rewrite <- (bits_of_bytes_value vec i b) by (assumption || lia).
      replace (ss mod 8 + (en - ss) - ss mod 8) with (en - ss) by lia.
      replace (8 * i + ss mod 8) with (s + (ss - s)) by lia.
      rewrite cast_small.
      2:{ eapply N.lt_le_trans; [apply bits_of_lt|]. apply pow2_le_mono. lia. }
      rewrite num_set_bits_ok; cbn [BITS]; try lia.
      * rewrite bind_ret, bind_ret. replace (ss - s + (en - ss) - (ss - s)) with (en - ss) by lia.
        rewrite bits_of_extend. replace (ss - s + (en - ss)) with (en - s) by lia. reflexivity.
      * eapply N.lt_le_trans; [apply bits_of_lt|]. apply pow2_le_mono. lia.
      * replace (ss - s + (en - ss) - (ss - s)) with (en - ss) by lia. apply bits_of_lt.
    + exists en. split; [reflexivity|]. destruct (N.eqb_spec (i + 1) ((e + 7) / 8)); lia.
  - rewrite N.eqb_refl in H4. subst ss. rewrite E. reflexivity.
Qed.
