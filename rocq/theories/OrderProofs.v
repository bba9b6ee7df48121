(* OrderProofs.v - cmp, == and Hash as functions of the paths *)
From Verif Require Import Base ModelNumber ModelDim ModelStorage Spec BitProofs NumberProofs VecProofs CellProofs StorageProofs.

(* ---------- path_cmp is a total order ---------- *)
Section Path.
  Context {D : Dimension} (HD : dim_ok D).
  Local Notation idx := (cell_index D).
  Local Notation pc := (@path_cmp D).

  Lemma path_cmp_refl a : pc a a = Eq.
  Proof. induction a as [|x a IH]; cbn; [reflexivity|]. rewrite N.compare_refl. exact IH. Qed.
  Lemma path_cmp_eq a b : pc a b = Eq <-> a = b.
  Proof.
    split; [|intros ->; apply path_cmp_refl]. revert b; induction a as [|x a IH]; intros [|y b]; cbn; try discriminate; auto.
    destruct (N.compare_spec (idx x) (idx y)); try discriminate.
    intros H'. f_equal; [apply (idx_inj D); assumption|apply IH; exact H'].
  Qed.
  Lemma path_cmp_antisym a b : pc b a = CompOpp (pc a b).
  Proof.
    revert b; induction a as [|x a IH]; intros [|y b]; cbn; auto.
    rewrite (N.compare_antisym (idx x) (idx y)). destruct (N.compare (idx x) (idx y)); cbn; auto.
  Qed.
  Lemma path_cmp_trans a b e r : pc a b = r -> pc b e = r -> pc a e = r.
  Proof.
    revert b e r; induction a as [|x a IH]; intros [|y b] [|z e] r; cbn; try congruence.
    intros A B. destruct (N.compare_spec (idx x) (idx y)) as [Q|Q|Q].
    - rewrite Q. destruct (N.compare_spec (idx y) (idx z)); [|congruence|congruence]. eapply IH; eassumption.
    - destruct (N.compare_spec (idx y) (idx z)) as [Q'|Q'|Q'].
      + rewrite <- Q'. apply N.compare_lt_iff in Q. rewrite Q. congruence.
      + assert (Q2 : idx x < idx z) by lia. apply N.compare_lt_iff in Q2. rewrite Q2. congruence.
      + congruence.
    - destruct (N.compare_spec (idx y) (idx z)) as [Q'|Q'|Q'].
      + rewrite <- Q'. apply N.compare_gt_iff in Q. rewrite Q. congruence.
      + congruence.
      + assert (Q2 : idx z < idx x) by lia. apply N.compare_gt_iff in Q2. rewrite Q2. congruence.
  Qed.
  Lemma path_cmp_prefix a r : r <> [] -> pc a (a ++ r) = Lt.
  Proof.
    intros Hr. induction a as [|x a IH]; cbn; [destruct r; congruence|]. rewrite N.compare_refl. exact IH.
  Qed.
  (* comparing with a longer path *)
  Lemma path_cmp_longer a b r : len a = len b -> r <> [] ->
    pc a (b ++ r) = match pc a b with Eq => Lt | q => q end.
  Proof.
    intros Hl Hr. revert b Hl; induction a as [|x a IH]; intros [|y b] Hl; cbn.
    - destruct r; congruence.
    - rewrite len_cons in Hl. unfold len in Hl; cbn in Hl; lia.
    - rewrite len_cons in Hl. unfold len in Hl; cbn in Hl; lia.
    - rewrite !len_cons in Hl. rewrite IH by lia. destruct (N.compare (idx x) (idx y)); reflexivity.
  Qed.

  Lemma enc_cons x l : enc (x :: l) = idx x * 2 ^ (dim D * len l) + enc l.
  Proof. change (x :: l) with ([x] ++ l). rewrite enc_app. f_equal. unfold enc. cbn [fold_left]. lia. Qed.

  Lemma compare_digits a b p q m : p < m -> q < m ->
    N.compare (a * m + p) (b * m + q) = match N.compare a b with Eq => N.compare p q | r => r end.
  Proof.
    intros Hp Hq. destruct (N.compare_spec a b) as [->|H|H].
    - destruct (N.compare_spec p q) as [->|G|G].
      + apply N.compare_refl.
      + apply N.compare_lt_iff. lia.
      + apply N.compare_gt_iff. lia.
    - apply N.compare_lt_iff. nia.
    - apply N.compare_gt_iff. nia.
  Qed.

  Lemma compare_enc a b : len a = len b -> N.compare (enc a) (enc b) = pc a b.
  Proof.
    revert b; induction a as [|x a IH]; intros [|y b] Hl; cbn [path_cmp].
    - reflexivity.
    - rewrite len_cons in Hl. unfold len in Hl; cbn in Hl; lia.
    - rewrite len_cons in Hl. unfold len in Hl; cbn in Hl; lia.
    - rewrite !len_cons in Hl. assert (Hl' : len a = len b) by lia. rewrite !enc_cons, Hl'.
      rewrite compare_digits; [|rewrite <- Hl'; apply (enc_lt HD)|apply (enc_lt HD)]. rewrite IH by exact Hl'. reflexivity.
  Qed.
End Path.

(* ---------- cmp ---------- *)
Lemma fixed_cmp_raw c D t a b la lb : dim_ok D ->
  repr c D (KFixed t) a la -> repr c D (KFixed t) b lb ->
  fixed_cmp a b = match path_cmp la lb with
                  | Eq => N.compare (rest D (BITS c t) (fx_bits a) (len la)) (rest D (BITS c t) (fx_bits b) (len lb))
                  | r => r end.
Proof.
  intros HD Ha Hb.
  assert (Hl : len la = len lb).
  { rewrite <- (raw_depth _ _ _ _ _ _ _ _ Ha), <- (raw_depth _ _ _ _ _ _ _ _ Hb). reflexivity. }
  pose proof (holds_value _ _ _ (raw_holds _ _ _ _ _ _ _ _ Ha)) as Ea.
  pose proof (holds_value _ _ _ (raw_holds _ _ _ _ _ _ _ _ Hb)) as Eb. cbn in Ea, Eb.
  unfold fixed_cmp. rewrite Ea, Eb at 1. rewrite <- Hl.
  rewrite compare_digits by (apply N.mod_lt, pow2_ne0). rewrite (compare_enc HD) by exact Hl. reflexivity.
Qed.

Lemma static_prefix_bits c D t s l m : dim_ok D -> repr c D (KStatic t) s l -> m <= len l ->
  num_get_bits c t (sx_bits s) (BITS c t - m * dim D) (BITS c t) = Ret (enc (firstn (N.to_nat m) l)).
Proof.
  intros HD H Hm. pose proof (raw_holds _ _ _ _ _ _ _ _ H) as Hh. cbn in Hh.
  rewrite <- (firstn_skipn (N.to_nat m) l) in Hh. apply (holds_prefix HD) in Hh.
  destruct Hh as (Hv & Hl & He). rewrite len_firstn in * by exact Hm.
  rewrite num_get_bits_ok by (assumption || lia). f_equal. unfold bits_of. rewrite <- He.
  replace (BITS c t - (BITS c t - m * dim D)) with (m * dim D) by lia.
  replace (BITS c t - m * dim D) with (BITS c t - dim D * m) by lia.
  apply N.mod_small. apply N.div_lt_upper_bound; [apply pow2_ne0|]. rewrite <- N.pow_add_r.
  replace (BITS c t - dim D * m + m * dim D) with (BITS c t) by lia. exact Hv.
Qed.

Lemma static_cmp_ok c D t a b la lb : dim_ok D ->
  repr c D (KStatic t) a la -> repr c D (KStatic t) b lb ->
  static_cmp c D t a b = Ret (path_cmp la lb).
Proof.
  intros HD Ha Hb. pose proof (pow2_usize_ge c). pose proof (BITS_le c t).
  pose proof (raw_depth _ _ _ _ _ _ _ _ Ha) as Da. pose proof (raw_depth _ _ _ _ _ _ _ _ Hb) as Db.
  pose proof (raw_holds _ _ _ _ _ _ _ _ Ha) as (_ & La & _). pose proof (raw_holds _ _ _ _ _ _ _ _ Hb) as (_ & Lb & _).
  cbn in Da, Db, La, Lb. unfold static_cmp. rewrite Da, Db. cbn zeta.
  rewrite mul_ok by lia. rewrite bind_ret. rewrite sub_ok by lia. rewrite bind_ret.
  rewrite mul_ok by lia. rewrite bind_ret. rewrite sub_ok by lia. rewrite bind_ret.
  destruct (N.compare_spec (len la) (len lb)) as [E|E|E].
  - rewrite (static_prefix_bits c D t a la) by (assumption || lia). rewrite bind_ret.
    rewrite (static_prefix_bits c D t b lb) by (assumption || lia). rewrite bind_ret.
    rewrite !to_nat_len, !firstn_all. rewrite (compare_enc HD) by exact E. reflexivity.
  - rewrite (static_prefix_bits c D t a la) by (assumption || lia). rewrite bind_ret.
    rewrite (static_prefix_bits c D t b lb) by (assumption || lia). rewrite bind_ret.
    rewrite to_nat_len, firstn_all.
    rewrite <- (firstn_skipn (N.to_nat (len la)) lb) at 2.
    rewrite path_cmp_longer.
    + rewrite <- (compare_enc HD) by (rewrite len_firstn; lia). rewrite to_nat_len. f_equal.
      rewrite N.ltb_compare. rewrite N.compare_antisym.
      destruct (N.compare (enc la) (enc (firstn (List.length la) lb))); reflexivity.
    + rewrite len_firstn; lia.
    + intros F. assert (len (skipn (N.to_nat (len la)) lb) = 0) by (rewrite F; reflexivity). rewrite len_skipn in *. lia.
  - rewrite (static_prefix_bits c D t a la) by (assumption || lia). rewrite bind_ret.
    rewrite (static_prefix_bits c D t b lb) by (assumption || lia). rewrite bind_ret.
    rewrite to_nat_len, firstn_all.
    rewrite <- (firstn_skipn (N.to_nat (len lb)) la) at 2.
    rewrite path_cmp_antisym, path_cmp_longer.
    + rewrite <- (compare_enc HD) by (rewrite len_firstn; lia). rewrite to_nat_len. f_equal.
      rewrite N.leb_compare.
      destruct (N.compare (enc lb) (enc (firstn (List.length lb) la))); reflexivity.
    + rewrite len_firstn; lia.
    + intros F. assert (len (skipn (N.to_nat (len lb)) la) = 0) by (rewrite F; reflexivity). rewrite len_skipn in *. lia.
Qed.

Lemma dynamic_cmp_ok c D a b la lb : dim_ok D ->
  repr c D KDynamic a la -> repr c D KDynamic b lb -> dynamic_cmp c D a b = Ret (path_cmp la lb).
Proof.
  intros HD Ha Hb.
  pose proof (raw_depth _ _ _ _ _ _ _ _ Ha) as Da. pose proof (raw_depth _ _ _ _ _ _ _ _ Hb) as Db. cbn in Da, Db.
  assert (G : forall s l i, repr c D KDynamic s l -> dy_depth s = len l ->
              get_cell_at_level_or_none c D s i = Ret (nth_error l (N.to_nat i))).
  { intros s l i H Ds. unfold get_cell_at_level_or_none. rewrite Ds. destruct (N.leb_spec (len l) i).
    - f_equal. symmetry. apply nth_error_None. unfold len in *; lia.
    - destruct (nth_error_N_lt l i) as [x Hx]; [lia|].
      pose proof (raw_get _ _ _ _ _ _ _ _ _ _ HD H Hx) as E. cbn in E. rewrite E, Hx. reflexivity. }
  unfold dynamic_cmp. rewrite Da, Db.
  assert (L : forall n i, n = N.to_nat (N.max (len la) (len lb) - i) -> i <= N.max (len la) (len lb) ->
     dynamic_cmp_loop c D a b (nrange i n) = Ret (path_cmp (skipn (N.to_nat i) la) (skipn (N.to_nat i) lb))).
  { induction n as [|n IH]; intros i Hn Hi; cbn [nrange dynamic_cmp_loop].
    - rewrite !skipn_all2 by (unfold len in *; lia). reflexivity.
    - rewrite (G a la i Ha Da), (G b lb i Hb Db). rewrite !bind_ret.
      assert (SK : forall l : list (cell D), skipn (N.to_nat i) l = match nth_error l (N.to_nat i) with
                  Some x => x :: skipn (N.to_nat (i + 1)) l | None => [] end).
      { intro l. destruct (nth_error l (N.to_nat i)) as [x|] eqn:E.
        - apply nth_error_split in E. destruct E as (p & z & -> & Hp).
          replace (N.to_nat (i + 1)) with (List.length (p ++ [x])) by (rewrite app_length; cbn [List.length]; lia).
          rewrite <- Hp, skipn_length_app. f_equal. change (x :: z) with ([x] ++ z). rewrite app_assoc.
          symmetry. apply skipn_length_app.
        - apply skipn_all2. apply nth_error_None in E. exact E. }
      rewrite (SK la), (SK lb).
      specialize (IH (i + 1) ltac:(lia) ltac:(lia)).
      destruct (nth_error la (N.to_nat i)) as [x|] eqn:Ex, (nth_error lb (N.to_nat i)) as [y|] eqn:Ey;
        cbn [option_cell_cmp path_cmp]; try reflexivity.
      + rewrite (cmp_ok D HD). destruct (N.compare (cell_index D x) (cell_index D y)); [exact IH|reflexivity|reflexivity].
      + exfalso. apply nth_error_None in Ex, Ey. unfold len in *; lia. }
  unfold range. rewrite (L _ 0) by lia. reflexivity.
Qed.

Lemma idx_cmp_repr c D k a b la lb : dim_ok D -> repr c D k a la -> repr c D k b lb ->
  path_cmp la lb <> Eq -> idx_cmp c D k a b = Ret (path_cmp la lb).
Proof.
  intros HD Ha Hb Hne. destruct k as [t|t|]; cbn [idx_cmp].
  - rewrite (fixed_cmp_raw c D t a b la lb) by assumption. destruct (path_cmp la lb); [congruence|reflexivity|reflexivity].
  - apply static_cmp_ok; assumption.
  - apply dynamic_cmp_ok; assumption.
Qed.
Lemma idx_cmp_canon c D k a b la lb : dim_ok D -> canon c D k a la -> canon c D k b lb ->
  idx_cmp c D k a b = Ret (path_cmp la lb).
Proof.
  intros HD Ha Hb. destruct k as [t|t|]; cbn [idx_cmp].
  - rewrite (fixed_cmp_raw c D t a b la lb) by (assumption || (eapply canon_repr; eassumption)).
    pose proof (raw_rest _ _ _ _ _ _ _ _ Ha) as Ra. pose proof (raw_rest _ _ _ _ _ _ _ _ Hb) as Rb. cbn in Ra, Rb.
    rewrite Ra, Rb, N.compare_refl. destruct (path_cmp la lb); reflexivity.
  - apply static_cmp_ok; try assumption; eapply canon_repr; eassumption.
  - apply dynamic_cmp_ok; try assumption; eapply canon_repr; eassumption.
Qed.

(* ---------- == and hash ---------- *)
Lemma bytes_eq_iff a b : bytes_eq a b = true <-> a = b.
Proof.
  revert b; induction a as [|x a IH]; intros [|y b]; cbn; try (split; congruence).
  rewrite andb_true_iff, N.eqb_eq, IH. split; [intros [-> ->]; reflexivity|intros [= -> ->]; auto].
Qed.
Lemma idx_eq_iff k a b : idx_eq k a b = true <-> a = b.
Proof.
  destruct k; cbn; unfold fixed_eq, static_eq, dynamic_eq.
  - destruct a, b; cbn. rewrite N.eqb_eq. split; congruence.
  - destruct a, b; cbn. rewrite andb_true_iff, !N.eqb_eq. split; [intros [-> ->]; reflexivity|intros [= -> ->]; auto].
  - destruct a, b; cbn. rewrite andb_true_iff, N.eqb_eq, bytes_eq_iff.
    split; [intros [-> ->]; reflexivity|intros [= -> ->]; auto].
Qed.
Lemma idx_hash_inj k a b : idx_hash k a = idx_hash k b <-> a = b.
Proof.
  split; [|intros ->; reflexivity].
  destruct k; cbn; unfold fixed_hash, static_hash, dynamic_hash; destruct a, b; cbn; try congruence.
  intros [= H1 H2]. apply app_inj_tail in H2. destruct H2; congruence.
Qed.
Lemma idx_eq_canon c D k a b la lb : dim_ok D -> canon c D k a la -> canon c D k b lb ->
  (idx_eq k a b = true <-> la = lb).
Proof.
  intros HD Ha Hb. rewrite idx_eq_iff. split.
  - intros <-. eapply shows_unique; apply (repr_shows c D k); try assumption; eapply canon_repr; eassumption.
  - intros <-. eapply canon_unique; eassumption.
Qed.
