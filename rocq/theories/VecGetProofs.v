(* VecGetProofs.v - what Vec<u8>::get_bits returns, exactly (src/number.rs lines 312-345). *)
From Verif Require Import Base ModelNumber Spec BitProofs NumberProofs VecProofs.

Definition tab (k : N) (f : N -> N) : list N := map f (range 0 k).

Lemma len_tab k f : len (tab k f) = k.
Proof. unfold tab. unfold len. rewrite map_length. fold (len (range 0 k)). rewrite len_range. lia. Qed.

Lemma nth_error_tab k f i : nth_error (tab k f) (N.to_nat i) = if i <? k then Some (f i) else None.
Proof.
  unfold tab. destruct (N.ltb_spec i k) as [H|H].
  - rewrite nth_error_map, nth_error_range by lia. cbn. do 2 f_equal. lia.
  - apply nth_error_None. rewrite map_length. pose proof (len_range 0 k). unfold len in *. lia.
Qed.

Lemma nth_error_ext_N {A} (l l' : list A) : (forall i, nth_error l (N.to_nat i) = nth_error l' (N.to_nat i)) -> l = l'.
Proof. intro H. apply nth_error_ext. intro i. specialize (H (N.of_nat i)). rewrite Nat2N.id in H. exact H. Qed.

Lemma nth_error_firstn_lt {A} (l : list A) n i : (i < n)%nat -> nth_error (firstn n l) i = nth_error l i.
Proof.
  revert n l. induction i as [|i IH]; intros [|n] [|x l] H; try lia; try reflexivity. cbn. apply IH. lia.
Qed.

Lemma nth_error_skipn_add {A} (l : list A) n i : nth_error (skipn n l) i = nth_error l (n + i).
Proof.
  revert l. induction n as [|n IH]; intros l; [reflexivity|]. destruct l as [|x l]; [destruct i; reflexivity|].
  cbn. apply IH.
Qed.

Lemma tab_ext k f g : (forall j, j < k -> f j = g j) -> tab k f = tab k g.
Proof.
  intro H. apply nth_error_ext_N. intro i. rewrite !nth_error_tab.
  destruct (N.ltb_spec i k); [rewrite H by assumption|]; reflexivity.
Qed.

Lemma update_tab k f i x : i < k -> update (tab k f) (N.to_nat i) x = tab k (fun j => if j =? i then x else f j).
Proof.
  intro H. apply nth_error_ext_N. intro j. rewrite nth_error_update, !nth_error_tab.
  pose proof (len_tab k f) as L. unfold len in L.
  destruct (Nat.eqb_spec (N.to_nat i) (N.to_nat j)) as [E|E].
  - assert (j = i) by lia. subst. rewrite N.eqb_refl.
    replace (Nat.ltb (N.to_nat i) (List.length (tab k f))) with true by (symmetry; apply Nat.ltb_lt; lia).
    cbn. destruct (N.ltb_spec i k); [reflexivity|lia].
  - cbn. destruct (N.eqb_spec j i) as [->|]; [congruence|]. reflexivity.
Qed.

Lemma removelast_tab k f : removelast (tab (k + 1) f) = tab k f.
Proof. unfold tab. rewrite range_snoc by lia. rewrite map_app. apply removelast_last. Qed.

(* the bytes of a number *)
Lemma bytes_tab l : bytes_ok l -> l = tab (len l) (fun j => bits_of (bytes_value l) (8 * j) 8).
Proof.
  intro H. apply nth_error_ext_N. intro i. rewrite nth_error_tab.
  destruct (N.ltb_spec i (len l)) as [Hi|Hi].
  - destruct (nth_error_N_lt l i Hi) as [b Hb]. rewrite Hb. f_equal.
    replace (8 * i) with (8 * i + 0) by lia. rewrite (bits_of_bytes_value l i b 0 8) by (assumption || lia).
    pose proof (bytes_ok_nth _ _ _ H Hb). apply N.bits_inj; intro j. rewrite testbit_bits_of.
    replace (j + 0) with j by lia. destruct (N.ltb_spec j 8); [reflexivity|].
    apply (testbit_high b 8); [exact H0|assumption].
  - apply nth_error_None. unfold len in Hi. lia.
Qed.

Lemma tab_bytes_ok k V s : bytes_ok (tab k (fun j => bits_of V (s + 8 * j) 8)).
Proof. apply Forall_forall. intros b Hb. apply in_map_iff in Hb. destruct Hb as (j & <- & _). apply bits_of_lt. Qed.

Lemma to_le_tab k v : to_le_bytes (N.to_nat k) v = tab k (fun j => bits_of v (8 * j) 8).
Proof.
  assert (H : forall n, to_le_bytes n v = tab (N.of_nat n) (fun j => bits_of v (8 * j) 8)).
  { clear k. intro n. revert v. induction n as [|n IH]; intro v; [reflexivity|].
    cbn [to_le_bytes]. rewrite IH. apply nth_error_ext_N. intro i. rewrite nth_error_tab.
    destruct (N.eq_dec i 0) as [->|Hi].
    - cbn [N.to_nat nth_error]. rewrite (proj2 (N.ltb_lt 0 _)) by lia. f_equal.
      unfold bits_of. change (2 ^ (8 * 0)) with 1. rewrite N.div_1_r. reflexivity.
    - replace (N.to_nat i) with (S (N.to_nat (i - 1))) by lia. cbn [nth_error]. rewrite nth_error_tab.
      replace (i - 1 <? N.of_nat n) with (i <? N.of_nat (S n)).
      2:{ apply Bool.eq_true_iff_eq. rewrite !N.ltb_lt. lia. }
      destruct (i <? N.of_nat (S n)); [|reflexivity]. f_equal.
      change 256 with (2 ^ 8). unfold bits_of. rewrite N.div_div by apply pow2_ne0.
      rewrite <- N.pow_add_r. do 3 f_equal. lia. }
  specialize (H (N.to_nat k)). rewrite N2Nat.id in H. exact H.
Qed.

Definition got (V s k q : N) (i j : N) : N :=
  if j + 1 <? i then bits_of V (s + 8 * j) 8
  else if j + 1 =? i then bits_of V (s + 8 * j) ((if j + 1 =? k then q else 8) - s mod 8)
  else bits_of V (8 * (s / 8 + j)) 8.

Lemma vec_get_bits_step_ok c V s e k i :
  e + 7 < 2 ^ usize_bits c -> s <= e -> k = (e + 7) / 8 - s / 8 -> i < k ->
  vec_get_bits_step c e (s mod 8) ((e + 7) / 8) (tab k (got V s k (e - 8 * ((e + 7) / 8 - 1)) i)) i
  = Ret (tab k (got V s k (e - 8 * ((e + 7) / 8 - 1)) (i + 1))).
Proof.
  intros HW Hse Hk Hi. pose proof (pow2_usize_ge c) as HW0.
  set (sh := s mod 8). set (eb := (e + 7) / 8) in *. set (q := e - 8 * (eb - 1)).
  assert (Hsh : sh < 8 /\ s = 8 * (s / 8) + sh) by (clear -sh; lia).
  assert (Heb : 8 * eb < 2 ^ usize_bits c /\ e <= 8 * eb /\ 8 * eb < e + 8) by (clear -HW eb; lia).
  assert (Hq : q <= 8 /\ 0 < q /\ 8 * eb - e = 8 - q) by (clear -q Heb Hi Hk; lia).
  remember (s / 8) as sb eqn:Esb.
  unfold vec_get_bits_step. cbn zeta.
  (* the carry into the previous byte *)
  set (first := if (0 <? i) && (0 <? sh) then _ else _).
  assert (E1 : first = Ret (tab k (fun j => if j + 1 <? i + 1 then bits_of V (s + 8 * j) 8 else bits_of V (8 * (sb + j)) 8))).
  { subst first. destruct (N.ltb_spec 0 i) as [Hi0|Hi0]; destruct (N.ltb_spec 0 sh) as [Hs0|Hs0]; cbn [andb].
    - rewrite (vec_get_ok _ _ (bits_of V (8 * (sb + i)) 8)).
      2:{ rewrite nth_error_tab, (proj2 (N.ltb_lt _ _) Hi). unfold got; rewrite <- Esb.
          destruct (N.ltb_spec (i + 1) i); [lia|]. destruct (N.eqb_spec (i + 1) i); [lia|reflexivity]. }
      rewrite bind_ret. rewrite num_get_bits_ok; [|apply bits_of_lt|lia|cbn [BITS]; lia]. rewrite bind_ret.
      rewrite sub_ok by lia. rewrite bind_ret.
      rewrite (vec_get_ok _ _ (bits_of V (s + 8 * (i - 1)) (8 - sh))).
      2:{ rewrite nth_error_tab, (proj2 (N.ltb_lt (i - 1) k)) by lia. unfold got; rewrite <- Esb.
          destruct (N.ltb_spec (i - 1 + 1) i); [lia|]. destruct (N.eqb_spec (i - 1 + 1) i); [|lia].
          destruct (N.eqb_spec (i - 1 + 1) k); [lia|reflexivity]. }
      rewrite bind_ret. rewrite sub_ok by lia. rewrite bind_ret.
      rewrite num_set_bits_ok; [|eapply N.lt_le_trans; [apply bits_of_lt|apply pow2_le_mono; cbn [BITS]; lia]
        |lia|cbn [BITS]; lia|cbn [BITS]; lia
        |replace (8 - (8 - sh)) with (sh - 0) by lia; apply bits_of_lt].
      rewrite bind_ret. rewrite vec_set_ok by (rewrite len_tab; lia). rewrite update_tab by lia. f_equal.
      apply tab_ext. intros j Hj. destruct (N.eqb_spec j (i - 1)) as [->|Hne].
      + rewrite (proj2 (N.ltb_lt (i - 1 + 1) (i + 1))) by lia.
        replace (bits_of (bits_of V (8 * (sb + i)) 8) 0 (sh - 0)) with (bits_of V (s + 8 * (i - 1) + (8 - sh)) sh).
        * replace (8 - (8 - sh)) with sh by lia. rewrite bits_of_extend. f_equal; lia.
        * apply N.bits_inj; intro b. rewrite !testbit_bits_of. rewrite !N.sub_0_r.
          destruct (N.ltb_spec b sh) as [Hb|Hb]; [|reflexivity]. cbn [andb]. rewrite (proj2 (N.ltb_lt (b + 0) 8)) by lia.
          cbn [andb]. f_equal. lia.
      + unfold got; rewrite <- Esb. destruct (N.ltb_spec (j + 1) i); destruct (N.ltb_spec (j + 1) (i + 1)); try lia;
          destruct (N.eqb_spec (j + 1) i); try lia; reflexivity.
    - assert (sh = 0) by lia. f_equal. apply tab_ext. intros j Hj. unfold got; rewrite <- Esb. change (s mod 8) with sh.
      destruct (N.ltb_spec (j + 1) i); destruct (N.ltb_spec (j + 1) (i + 1)); try lia; try reflexivity;
        destruct (N.eqb_spec (j + 1) i); try lia; try reflexivity.
      destruct (N.eqb_spec (j + 1) k); [lia|]. f_equal. lia.
    - f_equal. apply tab_ext. intros j Hj. unfold got; rewrite <- Esb.
      destruct (N.ltb_spec (j + 1) i); destruct (N.ltb_spec (j + 1) (i + 1)); try lia.
      destruct (N.eqb_spec (j + 1) i); try lia; reflexivity.
    - f_equal. apply tab_ext. intros j Hj. unfold got; rewrite <- Esb.
      destruct (N.ltb_spec (j + 1) i); destruct (N.ltb_spec (j + 1) (i + 1)); try lia.
      destruct (N.eqb_spec (j + 1) i); try lia; reflexivity. }
  rewrite E1, bind_ret. clear E1 first.
  rewrite len_tab, sub_ok by lia. rewrite bind_ret.
  set (h := fun j => if j + 1 <? i + 1 then _ else _).
  assert (Hh : h i = bits_of V (8 * (sb + i)) 8).
  { subst h. cbn beta. destruct (N.ltb_spec (i + 1) (i + 1)); [lia|reflexivity]. }
  set (second := if i =? k - 1 then _ else _).
  assert (E2 : second = Ret (tab k (fun j => if j =? i then bits_of V (8 * (sb + i)) (if i + 1 =? k then q else 8) else h j))).
  { subst second. destruct (N.eqb_spec i (k - 1)) as [El|El]; destruct (N.eqb_spec (i + 1) k) as [El'|El']; try lia.
    - rewrite mul_ok by lia. rewrite bind_ret. rewrite sub_ok by lia. rewrite bind_ret.
      rewrite shr_ok by lia. rewrite bind_ret.
      rewrite (vec_get_ok _ _ (h i)) by (rewrite nth_error_tab, (proj2 (N.ltb_lt _ _) Hi); reflexivity).
      rewrite bind_ret. rewrite vec_set_ok by (rewrite len_tab; lia). rewrite update_tab by lia. f_equal.
      apply tab_ext. intros j Hj. destruct (N.eqb_spec j i); [|reflexivity]. rewrite Hh.
      replace (eb * 8 - e) with (8 - q) by lia.
      apply N.bits_inj; intro b. rewrite N.land_spec, testbit_shiftr, !testbit_bits_of.
      change 255 with (N.ones 8). rewrite testbit_ones.
      destruct (N.ltb_spec b 8); destruct (N.ltb_spec (b + (8 - q)) 8); destruct (N.ltb_spec b q); try lia; cbn [andb];
        rewrite ?andb_true_r, ?andb_false_r; reflexivity.
    - f_equal. apply tab_ext. intros j Hj. destruct (N.eqb_spec j i) as [->|]; [rewrite Hh|]; reflexivity. }
  rewrite E2, bind_ret. clear E2 second.
  rewrite (vec_get_ok _ _ (bits_of V (8 * (sb + i)) (if i + 1 =? k then q else 8))).
  2:{ rewrite nth_error_tab, (proj2 (N.ltb_lt _ _) Hi), N.eqb_refl. reflexivity. }
  rewrite bind_ret, shr_ok by lia. rewrite bind_ret, vec_set_ok by (rewrite len_tab; lia). rewrite update_tab by lia.
  f_equal. apply tab_ext. intros j Hj. unfold got; rewrite <- Esb. change (s mod 8) with sh. destruct (N.eqb_spec j i) as [->|Hne].
  - destruct (N.ltb_spec (i + 1) (i + 1)); [lia|]. rewrite N.eqb_refl.
    apply N.bits_inj; intro b. rewrite testbit_shiftr, !testbit_bits_of.
    destruct (N.eqb_spec (i + 1) k).
    + destruct (N.ltb_spec (b + sh) q); destruct (N.ltb_spec b (q - sh)); try lia; cbn [andb]; try reflexivity; f_equal; lia.
    + destruct (N.ltb_spec (b + sh) 8); destruct (N.ltb_spec b (8 - sh)); try lia; cbn [andb]; try reflexivity; f_equal; lia.
  - subst h. cbn beta. destruct (N.ltb_spec (j + 1) (i + 1)); [reflexivity|].
    destruct (N.eqb_spec (j + 1) (i + 1)); [lia|reflexivity].
Qed.

(* the number of bits that come back: those of the range, or - when the range ends in a byte before the bit where it
   starts - all bits of the last byte returned *)
Definition returned_bits (s e : N) : N :=
  if e - 8 * ((e + 7) / 8 - 1) <? s mod 8 then 8 * ((e - s + 7) / 8) else e - s.

Lemma vec_get_bits_ok c v s e :
  bytes_ok v -> s <= e -> e <= 8 * len v -> 8 * len v + 8 <= 2 ^ usize_bits c ->
  vec_get_bits c v s e
  = Ret (to_le_bytes (N.to_nat ((e - s + 7) / 8)) (bits_of (bytes_value v) s (returned_bits s e))).
Proof.
  intros Hv Hse He HW. set (V := bytes_value v).
  set (eb := (e + 7) / 8). set (nb := (e - s + 7) / 8).
  assert (Heb : e <= 8 * eb /\ 8 * eb < e + 8 /\ e + 7 = 8 * eb + (e + 7) mod 8) by (clear -eb; lia).
  assert (Hnb : e - s <= 8 * nb /\ 8 * nb < e - s + 8) by (clear -nb; lia).
  assert (Hsb : s = 8 * (s / 8) + s mod 8 /\ s mod 8 < 8) by (clear; lia).
  set (k := eb - s / 8). set (q := e - 8 * (eb - 1)).
  unfold vec_get_bits. cbn zeta. rewrite range_len_ok by assumption.
  rewrite add_ok by lia. rewrite bind_ret. rewrite add_ok by lia. rewrite bind_ret. fold eb nb.
  unfold vec_slice. rewrite (proj2 (N.leb_le (s / 8) eb)) by (clear -Heb Hsb Hse; lia).
  rewrite (proj2 (N.leb_le eb (len v))) by (clear -Heb He; lia). cbn [andb]. rewrite bind_ret.
  replace (firstn (N.to_nat (eb - s / 8)) (skipn (N.to_nat (s / 8)) v)) with (tab k (got V s k q 0)).
  2:{ apply nth_error_ext_N. intro i. rewrite nth_error_tab. fold k.
      destruct (N.ltb_spec i k) as [Hi|Hi].
      - rewrite nth_error_firstn_lt by lia. rewrite nth_error_skipn_add.
        replace (N.to_nat (s / 8) + N.to_nat i)%nat with (N.to_nat (s / 8 + i)) by lia.
        rewrite (bytes_tab v Hv) at 1. rewrite nth_error_tab.
        rewrite (proj2 (N.ltb_lt (s / 8 + i) (len v))) by (clear -Hi k Heb He Hsb; lia). f_equal.
        unfold got. destruct (N.ltb_spec (i + 1) 0); [lia|]. destruct (N.eqb_spec (i + 1) 0); [lia|reflexivity].
      - symmetry. apply nth_error_None. rewrite firstn_length. lia. }
  rewrite len_tab.
  destruct (foldM_range_inv (fun i b => b = tab k (got V s k q i)) (vec_get_bits_step c e (s mod 8) eb) 0 k
              (tab k (got V s k q 0)) ltac:(lia) eq_refl) as (b & -> & ->).
  { intros i b Hi ->. eexists. split; [|reflexivity]. apply vec_get_bits_step_ok; [lia|assumption|reflexivity|lia]. }
  rewrite bind_ret, sub_ok by (clear -Heb Hsb Hse; lia). rewrite bind_ret. fold k.
  unfold returned_bits. fold eb q nb. rewrite to_le_tab.
  assert (Hlast : k = 0 -> nb = 0) by (clear -Heb Hsb Hnb Hse k; lia).
  assert (Hpop : 0 < k -> q = e - 8 * (eb - 1) /\ 0 < q /\ q <= 8 /\ (s mod 8 < q -> nb = k) /\ (q <= s mod 8 -> k = nb + 1)).
  { clear -Heb Hsb Hnb Hse k q. intro. lia. }
  clearbody nb. clearbody q. clearbody k. clear Heb.
  destruct (N.ltb_spec nb k) as [Hp|Hp].
  - destruct (Hpop ltac:(lia)) as (Eq & Hq0 & Hq8 & Hp1 & Hp2). assert (k = nb + 1) by lia. subst k.
    rewrite removelast_tab. f_equal. apply tab_ext. intros j Hj. unfold got.
    rewrite (proj2 (N.ltb_lt (j + 1) (nb + 1))) by lia.
    apply N.bits_inj; intro b. rewrite !testbit_bits_of.
    destruct (N.ltb_spec b 8); [|reflexivity]. cbn [andb].
    assert (E : (if q <? s mod 8 then 8 * nb else e - s) = 8 * nb).
    { destruct (N.ltb_spec q (s mod 8)); [reflexivity|]. assert (q = s mod 8) by lia.
      enough (e = s + 8 * nb) by lia. rewrite H1 in Eq. lia. }
    rewrite E, (proj2 (N.ltb_lt (b + 8 * j) (8 * nb))) by lia. cbn [andb]. f_equal. lia.
  - destruct (N.eq_dec k 0) as [->|Hk]; [rewrite (Hlast eq_refl); reflexivity|].
    destruct (Hpop ltac:(lia)) as (Eq & Hq0 & Hq8 & Hp1 & Hp2).
    destruct (N.ltb_spec q (s mod 8)) as [Hqs|Hqs]; [lia|].
    assert (s mod 8 < q) by lia. assert (nb = k) by lia. subst nb.
    f_equal. apply tab_ext. intros j Hj. unfold got.
    assert (Ee : e = s + 8 * (k - 1) + (q - s mod 8)) by lia.
    apply N.bits_inj; intro b. destruct (N.ltb_spec (j + 1) k) as [Hjk|Hjk].
    + rewrite !testbit_bits_of. destruct (N.ltb_spec b 8); [|reflexivity]. cbn [andb].
      rewrite (proj2 (N.ltb_lt (b + 8 * j) (e - s))) by lia. cbn [andb]. f_equal; lia.
    + assert (j + 1 = k) by lia. destruct (N.eqb_spec (j + 1) k); [|lia].
      rewrite !testbit_bits_of. destruct (N.ltb_spec b 8); destruct (N.ltb_spec b (q - s mod 8)); destruct (N.ltb_spec (b + 8 * j) (e - s)); try lia; cbn [andb];
        try reflexivity; f_equal; lia.
Qed.
