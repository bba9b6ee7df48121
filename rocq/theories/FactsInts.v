(* FactsInts.v - proofs of the theorems stated in PropInts.v *)
From Verif Require Import Base ModelNumber Spec BitProofs NumberProofs VecProofs.

(* ---------- C30 ---------- *)
Lemma c30_set_bits_from_usize_lemma : forall c t v s e x,
  v < 2 ^ BITS c t -> s <= e -> e <= BITS c t -> s < BITS c t -> x < 2 ^ (e - s) ->
  exists v', num_set_bits_from_usize c t v s e x = Ret v' /\ v' < 2 ^ BITS c t /\ bits_replaced v s (e - s) x v'
    /\ num_get_bits_as_usize c t v' s e = Ret (x mod 2 ^ usize_bits c).
Proof.
  intros c t v s e x Hv Hs He Hb Hx. unfold num_set_bits_from_usize, num_get_bits_as_usize.
  assert (X : x < 2 ^ BITS c t) by (eapply N.lt_le_trans; [exact Hx|apply N.pow_le_mono_r; lia]).
  unfold cast at 1. rewrite (N.mod_small x) by exact X. rewrite num_set_bits_ok by assumption. eexists. split; [reflexivity|].
  assert (B : put v s (e - s) x < 2 ^ BITS c t) by (apply put_lt; [exact Hv|lia]). split; [exact B|].
  split; [intro i; apply testbit_put|]. rewrite num_get_bits_ok by assumption. rewrite bind_ret.
  rewrite bits_of_put_same, N.mod_small by exact Hx. reflexivity.
Qed.
(* as_u8 .. as_usize keep the low bits, from_u8 .. from_usize too *)
Lemma c30_casts_lemma : forall c t v i,
  N.testbit (num_as c t v) i = (i <? BITS c t) && N.testbit v i
  /\ N.testbit (num_from c t v) i = (i <? BITS c t) && N.testbit v i.
Proof. intros c t v i. unfold num_as, num_from, cast. rewrite testbit_mod. auto. Qed.
Lemma c30_casts_round_trip_lemma : forall c t t' v, v < 2 ^ BITS c t ->
  num_from c t (num_as c t' v) = v mod 2 ^ BITS c t' /\ (BITS c t <= BITS c t' -> num_from c t (num_as c t' v) = v).
Proof.
  intros c t t' v Hv. unfold num_as, num_from, cast.
  assert (M : v mod 2 ^ BITS c t' < 2 ^ BITS c t).
  { eapply N.le_lt_trans; [|exact Hv]. apply N.mod_le. apply pow2_ne0. }
  rewrite (N.mod_small _ _ M). split; [reflexivity|]. intro H. apply N.mod_small.
  eapply N.lt_le_trans; [exact Hv|apply N.pow_le_mono_r; lia].
Qed.
Lemma c30_size_lemma : forall c t, 8 * num_size c t = BITS c t.
Proof. exact num_size_8. Qed.

(* ---------- C37 ---------- *)
Lemma from_bytes_value e l : from_bytes e l = bytes_value (match e with LittleEndian => l | BigEndian => rev l end).
Proof. unfold from_bytes, from_be_bytes. destruct e; apply from_le_bytes_value. Qed.
Lemma rev_update {A} (l : list A) i x : (i < List.length l)%nat -> rev (update l i x) = update (rev l) (List.length l - 1 - i) x.
Proof.
  intro H. destruct (nth_error l i) as [y|] eqn:E; [|apply nth_error_None in E; lia].
  destruct (nth_error_split l i E) as (a & r & -> & <-). rewrite update_app_last, !rev_app_distr. cbn [rev].
  rewrite <- !app_assoc. cbn [app]. rewrite app_length. cbn [List.length].
  replace (List.length a + S (List.length r) - 1 - List.length a)%nat with (List.length (rev r)) by (rewrite rev_length; lia).
  rewrite update_app_last. reflexivity.
Qed.
Lemma bytes_value_write l i b : bytes_ok l -> i < len l -> b < 256 ->
  bits_replaced (bytes_value l) (8 * i) 8 b (bytes_value (update l (N.to_nat i) b)).
Proof.
  intros Hl Hi Hb.
  destruct (nth_error l (N.to_nat i)) as [a|] eqn:E; [|apply nth_error_None in E; unfold len in Hi; lia].
  pose proof (bytes_ok_nth _ _ _ Hl E) as Ha.
  assert (Q : put a 0 8 b = b).
  { apply N.bits_inj. intro j. rewrite testbit_put. destruct (N.leb_spec 0 j); [|lia]. cbn [andb]. rewrite N.sub_0_r.
    destruct (N.ltb_spec j (0 + 8)); [reflexivity|]. rewrite (testbit_high a 8), (testbit_high b 8) by (assumption || lia). reflexivity. }
  rewrite <- Q. rewrite bytes_value_update by (assumption || lia). rewrite Q. intro j. rewrite testbit_put, N.add_0_r. reflexivity.
Qed.
Lemma c37_slice_write_lemma : forall c t v i b, v < 2 ^ BITS c t -> b < 256 ->
  let n := BITS c t / 8 in
  if i <? n
  then exists v', num_slice_write c t v i b = Ret v' /\ v' < 2 ^ BITS c t
         /\ bits_replaced v (8 * match target_endian c with LittleEndian => i | BigEndian => n - 1 - i end) 8 b v'
         /\ num_as_u8_slice c t v' = update (num_as_u8_slice c t v) (N.to_nat i) b
  else num_slice_write c t v i b = Panic.
Proof.
  intros c t v i b Hv Hb n. unfold num_slice_write, vec_set. rewrite len_as_u8_slice. change (num_size c t) with n.
  destruct (N.ltb_spec i n) as [Hi|Hi]; [|reflexivity]. rewrite bind_ret.
  set (l := num_as_u8_slice c t v). assert (Bl : bytes_ok l) by apply bytes_ok_to_bytes.
  assert (Ll : len l = n) by apply len_as_u8_slice.
  assert (Vl : from_bytes (target_endian c) l = v).
  { unfold l, num_as_u8_slice. apply from_to_bytes. rewrite N2Nat.id, num_size_8. exact Hv. }
  assert (Bu : bytes_ok (update l (N.to_nat i) b)) by (apply Forall_update; assumption).
  assert (Lu : len (update l (N.to_nat i) b) = n) by (rewrite len_update; exact Ll).
  eexists. split; [reflexivity|].
  assert (V' : from_bytes (target_endian c) (update l (N.to_nat i) b) < 2 ^ BITS c t).
  { pose proof (from_bytes_lt (target_endian c) _ Bu) as Q. rewrite Lu in Q. pose proof (num_size_8 c t) as Z.
    change (num_size c t) with n in Z. rewrite Z in Q. exact Q. }
  split; [exact V'|]. split.
  - rewrite <- Vl, !from_bytes_value. destruct (target_endian c).
    + rewrite rev_update by (unfold len in Ll; lia).
      replace (List.length l - 1 - N.to_nat i)%nat with (N.to_nat (n - 1 - i)) by (unfold len in Ll; lia).
      apply bytes_value_write; [apply bytes_ok_rev; exact Bl|rewrite len_rev; lia|exact Hb].
    + apply bytes_value_write; [exact Bl|lia|exact Hb].
  - unfold num_as_u8_slice at 1.
    assert (Lu' : List.length (update l (N.to_nat i) b) = N.to_nat (num_size c t)).
    { unfold len in Lu. change (num_size c t) with n. lia. }
    destruct (target_endian c); cbn [to_bytes from_bytes]; unfold from_be_bytes; rewrite from_le_bytes_value.
    + rewrite <- Lu', <- rev_length. rewrite to_le_bytes_inj by (apply bytes_ok_rev; exact Bu). apply rev_involutive.
    + rewrite <- Lu'. apply to_le_bytes_inj. exact Bu.
Qed.
Lemma c37_vec_slice_write_lemma : forall vec i b, Forall (fun x => x < 256) vec -> b < 256 ->
  vec_as_u8_slice vec = vec
  /\ if i <? len vec
     then exists vec', vec_slice_write vec i b = Ret vec' /\ len vec' = len vec /\ Forall (fun x => x < 256) vec'
            /\ bits_replaced (bytes_value vec) (8 * i) 8 b (bytes_value vec')
     else vec_slice_write vec i b = Panic.
Proof.
  intros vec i b Hv Hb. split; [reflexivity|]. unfold vec_slice_write, vec_set. destruct (N.ltb_spec i (len vec)) as [Hi|Hi]; [|reflexivity].
  eexists. split; [reflexivity|]. split; [apply len_update|]. split; [apply Forall_update; assumption|]. apply bytes_value_write; assumption.
Qed.

(* ---------- C54 ---------- *)
Lemma cast_cast w w' x : cast w (cast w' x) = x mod 2 ^ N.min w w'.
Proof.
  unfold cast. apply N.bits_inj. intro i. rewrite !testbit_mod.
  destruct (N.ltb_spec i w), (N.ltb_spec i w'), (N.ltb_spec i (N.min w w')); cbn [andb]; (reflexivity || lia).
Qed.
Lemma c54_get_bits_every_range_lemma : forall c t v s e, v < 2 ^ BITS c t -> range_len s e <= BITS c t ->
  num_get_bits c t v s e = Ret (v / 2 ^ (s mod 2 ^ N.min 32 (BITS c t)) mod 2 ^ range_len s e).
Proof.
  intros c t v s e Hv Hl. unfold num_get_bits. cbv zeta. rewrite sub_ok by exact Hl. rewrite bind_ret, mask_ok by exact Hl.
  rewrite cast_cast. set (s' := s mod _). f_equal. change (v / 2 ^ s' mod 2 ^ range_len s e) with (bits_of v s' (range_len s e)).
  apply N.bits_inj; intro i. tb. unfold checked_shr.
  destruct (N.ltb_spec s' (BITS c t)); cbn [unwrap_or_0]; tb.
  - apply andb_comm.
  - rewrite (testbit_high v (BITS c t)) by (assumption || lia). rewrite !andb_false_r. reflexivity.
Qed.
Lemma c54_get_bits_too_long_lemma : forall c t v s e, overflow_checks c = true ->
  (num_get_bits c t v s e = Panic <-> BITS c t < range_len s e).
Proof.
  intros c t v s e HO. unfold num_get_bits, sub. cbv zeta. rewrite HO. destruct (N.leb_spec (range_len s e) (BITS c t)).
  - rewrite bind_ret. split; [discriminate|lia].
  - split; [intros _; assumption|reflexivity].
Qed.
Lemma c54_get_bits_beyond_end_partial_lemma : forall c t v s e, v < 2 ^ BITS c t -> range_len s e <= BITS c t ->
  BITS c t <= s -> s < 2 ^ BITS c t -> s < 2 ^ 32 -> num_get_bits c t v s e = Ret 0.
Proof.
  intros c t v s e Hv Hl Hs H1 H2. rewrite c54_get_bits_every_range_lemma by assumption. f_equal.
  assert (M : s < 2 ^ N.min 32 (BITS c t)) by (destruct (N.min_spec 32 (BITS c t)) as [[_ ->]|[_ ->]]; assumption).
  rewrite (N.mod_small _ _ M). rewrite (N.div_small v); [apply N.mod_0_l, pow2_ne0|].
  eapply N.lt_le_trans; [exact Hv|apply N.pow_le_mono_r; lia].
Qed.
Lemma c54_get_bits_beyond_end_refuted_lemma :
  ~ (forall c t v s e, v < 2 ^ BITS c t -> s < 2 ^ usize_bits c -> e < 2 ^ usize_bits c -> range_len s e <= BITS c t ->
     BITS c t <= s -> num_get_bits c t v s e = Ret 0).
Proof.
  intro H. specialize (H (Cfg true PW64 LittleEndian) U8 0xAB 256 264 eq_refl eq_refl eq_refl).
  vm_compute in H. specialize (H ltac:(discriminate) ltac:(discriminate)). discriminate H.
Qed.
Lemma c54_set_bits_every_range_lemma : forall c t v s e x, v < 2 ^ BITS c t -> range_len s e <= BITS c t ->
  let w := BITS c t in
  let s0 := s mod 2 ^ w in
  if overflow_checks c && (w <=? s0) then num_set_bits c t v s e x = Panic
  else exists v', num_set_bits c t v s e x = Ret v' /\ v' < 2 ^ w /\ forall i, i < w ->
    let s1 := s0 mod w in
    N.testbit v' i = if i <? s1 then N.testbit v i
                     else if i <? s1 + range_len s e then N.testbit x (i - s1)
                     else N.testbit v i || N.testbit x (i - s1).
Proof.
  intros c t v s e x Hv Hl w s0. unfold num_set_bits. cbv zeta. rewrite sub_ok by exact Hl. rewrite bind_ret, mask_ok by exact Hl.
  fold w. change (cast w s) with s0. unfold shl. assert (W0 : w <> 0) by (unfold w; destruct (BITS_cases c t) as [E|[E|[E|[E|E]]]]; rewrite E; discriminate).
  assert (K : forall s1, s1 < w -> exists v', Ret (N.lor (N.land v (lnot w (cast w (N.shiftl (N.ones (range_len s e)) s1)))) (cast w (N.shiftl x s1))) = Ret v'
    /\ v' < 2 ^ w /\ forall i, i < w -> N.testbit v' i = if i <? s1 then N.testbit v i
                     else if i <? s1 + range_len s e then N.testbit x (i - s1)
                     else N.testbit v i || N.testbit x (i - s1)).
  { intros s1 Hs1. eexists. split; [reflexivity|]. split.
    - apply lt_pow2_testbit. intros i Hi. rewrite N.lor_spec, N.land_spec. unfold cast at 2. rewrite testbit_mod.
      rewrite (testbit_high v w) by assumption. destruct (N.ltb_spec i w); [lia|]. reflexivity.
    - intros i Hi. rewrite N.lor_spec, N.land_spec, testbit_lnot by (unfold cast; apply N.mod_lt, pow2_ne0).
      unfold cast. rewrite !testbit_mod. destruct (N.ltb_spec i w); [|lia]. cbn [andb]. rewrite !testbit_shiftl, testbit_ones.
      destruct (N.ltb_spec i s1) as [H1|H1].
      + destruct (N.leb_spec s1 i); [lia|]. cbn [andb negb]. rewrite andb_true_r, orb_false_r. reflexivity.
      + destruct (N.leb_spec s1 i); [|lia]. cbn [andb]. destruct (N.ltb_spec (i - s1) (range_len s e)), (N.ltb_spec i (s1 + range_len s e)); try lia;
          cbn [negb]; rewrite ?andb_false_r, ?andb_true_r; reflexivity. }
  destruct (N.ltb_spec s0 w) as [H|H].
  - destruct (N.leb_spec w s0); [lia|]. rewrite andb_false_r, !bind_ret. rewrite (N.mod_small s0 w) by exact H. apply K. exact H.
  - destruct (N.leb_spec w s0); [|lia]. rewrite andb_true_r. destruct (overflow_checks c); [reflexivity|]. rewrite !bind_ret.
    apply K. apply N.mod_lt. exact W0.
Qed.
Lemma c54_set_bits_too_long_lemma : forall c t v s e x, overflow_checks c = true ->
  BITS c t < range_len s e -> num_set_bits c t v s e x = Panic.
Proof.
  intros c t v s e x HO H. unfold num_set_bits, sub. cbv zeta. rewrite HO. destruct (N.leb_spec (range_len s e) (BITS c t)); [lia|reflexivity].
Qed.
