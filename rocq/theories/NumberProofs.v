(* NumberProofs.v - the Bits operations of src/number.rs on unsigned integers *)
From Verif Require Import Base ModelNumber Spec BitProofs.

Lemma range_len_ok s e : s <= e -> range_len s e = e - s.
Proof. unfold range_len. destruct (N.ltb_spec s e); lia. Qed.

Lemma mask_ok c t n : n <= BITS c t ->
  unwrap_or_0 (checked_shr (BITS c t) (lnot (BITS c t) 0) (cast 32 (BITS c t - n))) = N.ones n.
Proof.
  intros H. pose proof (BITS_le c t) as Hw.
  rewrite cast_small by (eapply N.le_lt_trans with 128; [lia|reflexivity]).
  unfold checked_shr. destruct (N.ltb_spec (BITS c t - n) (BITS c t)); cbn [unwrap_or_0].
  - apply N.bits_inj; intro i. rewrite testbit_shiftr, testbit_lnot, testbit_ones, testbit_0 by apply pow2_pos.
    destruct (N.ltb_spec (i + (BITS c t - n)) (BITS c t)), (N.ltb_spec i n); cbn [andb negb]; lia || reflexivity.
  - replace n with 0 by lia. reflexivity.
Qed.

(* also for ranges that reach beyond the width, as long as their length fits *)
Lemma num_get_bits_gen c t v s e :
  v < 2 ^ BITS c t -> s <= e -> e - s <= BITS c t -> s < 2 ^ BITS c t -> s < 2 ^ 32 ->
  num_get_bits c t v s e = Ret (bits_of v s (e - s)).
Proof.
  intros Hv Hse Hlen Hs Hs32. unfold num_get_bits. cbn zeta.
  rewrite range_len_ok by lia. rewrite sub_ok by lia. rewrite bind_ret.
  rewrite mask_ok by lia. rewrite (cast_small (BITS c t) s) by lia. rewrite (cast_small 32 s) by lia.
  f_equal. apply N.bits_inj; intro i. tb. unfold checked_shr.
  destruct (N.ltb_spec s (BITS c t)); cbn [unwrap_or_0]; tb.
  - apply andb_comm.
  - rewrite (testbit_high v (BITS c t)) by lia. rewrite !andb_false_r. reflexivity.
Qed.

Lemma num_get_bits_ok c t v s e :
  v < 2 ^ BITS c t -> s <= e -> e <= BITS c t -> num_get_bits c t v s e = Ret (bits_of v s (e - s)).
Proof.
  intros Hv Hse He. pose proof (BITS_le c t). apply num_get_bits_gen; try lia.
  eapply N.le_lt_trans; [|apply lt_pow2]. lia.
Qed.

(* exact result of set_bits, also for new values that do not fit *)
Lemma num_set_bits_gen c t v s e x :
  s <= e -> e <= BITS c t -> s < BITS c t ->
  num_set_bits c t v s e x
  = Ret (N.lor (N.land v (lnot (BITS c t) (N.shiftl (N.ones (e - s)) s))) (cast (BITS c t) (N.shiftl x s))).
Proof.
  intros Hse He Hs. unfold num_set_bits. cbn zeta.
  rewrite range_len_ok by lia. rewrite sub_ok by lia. rewrite bind_ret.
  rewrite mask_ok by lia. rewrite (cast_small (BITS c t) s) by (eapply N.lt_trans; [exact Hs|apply lt_pow2]).
  rewrite !shl_ok by lia. rewrite !bind_ret. rewrite (cast_small (BITS c t) (N.shiftl (N.ones (e - s)) s)); [reflexivity|].
  apply lt_pow2_testbit; intros i Hi. tb.
  destruct (N.leb_spec s i), (N.ltb_spec (i - s) (e - s)); cbn [andb]; lia || reflexivity.
Qed.

Lemma ones_shiftl_lt n s w : s + n <= w -> N.shiftl (N.ones n) s < 2 ^ w.
Proof.
  intros H. apply lt_pow2_testbit; intros i Hi. tb.
  destruct (N.leb_spec s i), (N.ltb_spec (i - s) n); cbn [andb]; lia || reflexivity.
Qed.

Lemma num_set_bits_ok c t v s e x :
  v < 2 ^ BITS c t -> s <= e -> e <= BITS c t -> s < BITS c t -> x < 2 ^ (e - s) ->
  num_set_bits c t v s e x = Ret (put v s (e - s) x).
Proof.
  intros Hv Hse He Hs Hx. rewrite num_set_bits_gen by assumption. f_equal.
  apply N.bits_inj; intro i. rewrite testbit_put. rewrite N.lor_spec, N.land_spec.
  rewrite testbit_lnot by (apply ones_shiftl_lt; lia). tb.
  destruct (N.leb_spec s i), (N.ltb_spec i (s + (e - s))), (N.ltb_spec (i - s) (e - s)), (N.ltb_spec i (BITS c t));
    cbn [andb orb negb]; try lia; rewrite ?andb_true_r, ?andb_false_r, ?orb_false_r; try reflexivity;
    try (rewrite (testbit_high v (BITS c t)) by lia; reflexivity);
    try (rewrite (testbit_high x (e - s)) by lia; rewrite ?orb_false_r; try reflexivity;
         rewrite (testbit_high v (BITS c t)) by lia; reflexivity).
Qed.

(* ---------- bytes ---------- *)
Definition bytes_ok (l : list N) : Prop := Forall (fun b => b < 256) l.

Lemma from_le_bytes_value l : from_le_bytes l = bytes_value l.
Proof. induction l as [|b l IH]; cbn; [reflexivity|]. rewrite IH; reflexivity. Qed.

Lemma testbit_bytes_value l i : bytes_ok l ->
  N.testbit (bytes_value l) i
  = match nth_error l (N.to_nat (i / 8)) with Some b => N.testbit b (i mod 8) | None => false end.
Proof.
  intros H. revert i. induction H as [|b l Hb Hl IH]; intro i; cbn [bytes_value].
  - rewrite testbit_0. destruct (N.to_nat (i / 8)); reflexivity.
  - change 256 with (2 ^ 8) in *.
    assert (E : N.testbit (b + 2 ^ 8 * bytes_value l) i
                = if i <? 8 then N.testbit b i else N.testbit (bytes_value l) (i - 8)).
    { destruct (N.ltb_spec i 8).
      - rewrite <- (N.mod_pow2_bits_low _ 8 i) by lia.
        rewrite N.add_comm, N.mul_comm, N.add_comm, N.mod_add by apply pow2_ne0.
        rewrite N.mod_small by assumption. reflexivity.
      - replace i with ((i - 8) + 8) at 1 by lia. rewrite <- N.div_pow2_bits.
        rewrite N.mul_comm, N.div_add by apply pow2_ne0. rewrite N.div_small by assumption. reflexivity. }
    rewrite E. destruct (N.ltb_spec i 8).
    + replace (N.to_nat (i / 8)) with O by lia. cbn [nth_error]. f_equal. lia.
    + replace (N.to_nat (i / 8)) with (S (N.to_nat ((i - 8) / 8))) by lia. cbn [nth_error].
      rewrite IH. destruct (nth_error l (N.to_nat ((i - 8) / 8))); [|reflexivity].
      f_equal. lia.
Qed.

Lemma bytes_value_lt l : bytes_ok l -> bytes_value l < 2 ^ (8 * len l).
Proof.
  intros H. apply lt_pow2_testbit; intros i Hi. rewrite testbit_bytes_value by assumption.
  destruct (nth_error l (N.to_nat (i / 8))) eqn:E; [|reflexivity].
  apply nth_error_len in E. lia.
Qed.

Lemma bytes_ok_nth l i b : bytes_ok l -> nth_error l i = Some b -> b < 256.
Proof. intros H E. apply nth_error_In in E. unfold bytes_ok in H. rewrite Forall_forall in H. auto. Qed.

Lemma bytes_ok_app a b : bytes_ok a -> bytes_ok b -> bytes_ok (a ++ b).
Proof. intros; apply Forall_app; split; assumption. Qed.
Lemma bytes_ok_zeros n : bytes_ok (zeros n).
Proof. apply Forall_forall; intros x Hx. apply repeat_spec in Hx; subst; lia. Qed.
Lemma bytes_ok_rev l : bytes_ok l -> bytes_ok (rev l).
Proof. apply Forall_rev. Qed.
Lemma bytes_ok_skipn n l : bytes_ok l -> bytes_ok (skipn n l).
Proof.
  intros H. rewrite <- (firstn_skipn n l) in H. apply Forall_app in H; apply H.
Qed.
Lemma bytes_ok_firstn n l : bytes_ok l -> bytes_ok (firstn n l).
Proof.
  intros H. rewrite <- (firstn_skipn n l) in H. apply Forall_app in H; apply H.
Qed.

Lemma bytes_value_app a b : bytes_value (a ++ b) = bytes_value a + 2 ^ (8 * len a) * bytes_value b.
Proof.
  induction a as [|x a IH]; cbn [app bytes_value].
  - change (2 ^ (8 * len (@nil N))) with 1. lia.
  - rewrite IH, len_cons. replace (8 * (len a + 1)) with (8 + 8 * len a) by lia.
    rewrite N.pow_add_r. change (2 ^ 8) with 256. lia.
Qed.
Lemma bytes_value_zeros n : bytes_value (zeros n) = 0.
Proof.
  unfold zeros. induction (N.to_nat n) as [|k IH]; cbn [repeat bytes_value]; [reflexivity|]. rewrite IH. reflexivity.
Qed.

Lemma to_le_bytes_length n v : List.length (to_le_bytes n v) = n.
Proof. revert v; induction n; intro v; cbn; auto. Qed.
Lemma len_to_le_bytes n v : len (to_le_bytes n v) = N.of_nat n.
Proof. unfold len. rewrite to_le_bytes_length. reflexivity. Qed.
Lemma bytes_ok_to_le n v : bytes_ok (to_le_bytes n v).
Proof. revert v; induction n; intro v; cbn; constructor; [apply N.mod_lt; lia|apply IHn]. Qed.
Lemma bytes_value_to_le n v : v < 2 ^ (8 * N.of_nat n) -> bytes_value (to_le_bytes n v) = v.
Proof.
  revert v; induction n as [|n IH]; intros v Hv; cbn [to_le_bytes bytes_value].
  - change (2 ^ (8 * N.of_nat 0)) with 1 in Hv. lia.
  - rewrite IH.
    + lia.
    + replace (8 * N.of_nat (S n)) with (8 + 8 * N.of_nat n) in Hv by lia.
      rewrite N.pow_add_r in Hv. change (2 ^ 8) with 256 in Hv. nia.
Qed.
Lemma to_le_bytes_inj l : bytes_ok l -> to_le_bytes (List.length l) (bytes_value l) = l.
Proof.
  intros H; induction H as [|b l Hb Hl IH]; cbn [List.length to_le_bytes bytes_value]; [reflexivity|].
  replace ((b + 256 * bytes_value l) mod 256) with b by lia.
  replace ((b + 256 * bytes_value l) / 256) with (bytes_value l) by lia. f_equal. exact IH.
Qed.
Lemma bytes_value_inj a b : bytes_ok a -> bytes_ok b -> len a = len b -> bytes_value a = bytes_value b -> a = b.
Proof.
  intros Ha Hb Hl Hv. rewrite <- (to_le_bytes_inj a Ha), <- (to_le_bytes_inj b Hb), Hv.
  f_equal. unfold len in Hl. lia.
Qed.

Lemma len_to_bytes e n v : len (to_bytes e n v) = N.of_nat n.
Proof. destruct e; cbn [to_bytes]; rewrite ?len_rev, len_to_le_bytes; reflexivity. Qed.
Lemma bytes_ok_to_bytes e n v : bytes_ok (to_bytes e n v).
Proof. destruct e; cbn [to_bytes]; [apply bytes_ok_rev|]; apply bytes_ok_to_le. Qed.
Lemma from_to_bytes e n v : v < 2 ^ (8 * N.of_nat n) -> from_bytes e (to_bytes e n v) = v.
Proof.
  intros H. destruct e; cbn [from_bytes to_bytes]; unfold from_be_bytes; rewrite ?rev_involutive, from_le_bytes_value;
    apply bytes_value_to_le; assumption.
Qed.
Lemma from_bytes_lt e l : bytes_ok l -> from_bytes e l < 2 ^ (8 * len l).
Proof.
  intros H. destruct e; cbn [from_bytes]; unfold from_be_bytes; rewrite from_le_bytes_value.
  - rewrite <- (len_rev l). apply bytes_value_lt, bytes_ok_rev, H.
  - apply bytes_value_lt, H.
Qed.

Lemma num_size_8 c t : 8 * num_size c t = BITS c t.
Proof. unfold num_size. pose proof (BITS_mod8 c t). lia. Qed.

(* from_u8_slice, uniform description: zero padded at the end or cut off after n bytes *)
Definition padded (n : N) (l : list N) : list N := firstn (N.to_nat n) (l ++ zeros (n - len l)).
Lemma from_u8_slice_n_spec n l e : from_u8_slice_n n l e = from_bytes e (padded n l).
Proof.
  unfold from_u8_slice_n, padded. destruct (N.ltb_spec (len l) n) as [H|H].
  - f_equal. rewrite firstn_all2; [reflexivity|].
    rewrite app_length. pose proof (len_zeros (n - len l)). unfold len in *. lia.
  - f_equal. replace (n - len l) with 0 by lia. change (zeros 0) with (@nil N). rewrite app_nil_r. reflexivity.
Qed.
Lemma padded_len n l : len (padded n l) = n.
Proof.
  unfold padded, len. rewrite firstn_length, app_length.
  pose proof (len_zeros (n - len l)). unfold len in *. lia.
Qed.
Lemma padded_ok n l : bytes_ok l -> bytes_ok (padded n l).
Proof. intros H. apply bytes_ok_firstn, bytes_ok_app; [exact H|apply bytes_ok_zeros]. Qed.
Lemma num_from_u8_slice_spec c t l e : bytes_ok l ->
  num_from_u8_slice c t l e = from_bytes e (padded (num_size c t) l).
Proof.
  intros H.
  assert (U : forall n, num_size c t = n ->
     cast (8 * n) (from_u8_slice_n n l e) = from_bytes e (padded n l)).
  { intros n Hn. rewrite from_u8_slice_n_spec. apply cast_small.
    rewrite <- (padded_len n l) at 2. apply from_bytes_lt, padded_ok, H. }
  destruct t; cbn [num_from_u8_slice]; try apply from_u8_slice_n_spec.
  - change (num_size c U8) with 1. destruct l as [|b l]; cbn [u8_from_u8_slice].
    + destruct e; reflexivity.
    + unfold padded. change (N.to_nat 1) with 1%nat. cbn [app firstn].
      destruct e; cbn; lia.
  - unfold num_size in *. cbn [BITS] in *. unfold usize_bits in *.
    destruct (pointer c).
    + apply (U 2). reflexivity.
    + apply (U 4). reflexivity.
    + apply (U 8). reflexivity.
Qed.
