(* FactsRest.v - proofs of the theorems stated in PropRest.v *)
From Verif Require Import Base ModelNumber ModelDim ModelStorage Model2D Model3D Spec History BitProofs NumberProofs VecProofs CellProofs
  StorageProofs OrderProofs FactsInts FactsLimits FactsWide.

(* ---------- C54 ---------- *)
Lemma mask_release c t n : BITS c t < n -> n < 2 ^ usize_bits c ->
  let m := if n mod 2 ^ 32 <=? BITS c t then n mod 2 ^ 32 else 0 in
  unwrap_or_0 (checked_shr (BITS c t) (lnot (BITS c t) 0) (cast 32 (cast (usize_bits c) (2 ^ usize_bits c + BITS c t - n)))) = N.ones m.
Proof.
  intros Hn Hl m. pose proof (BITS_le c t) as Hb. pose proof (mask_ok c t) as M.
  set (q := cast 32 (cast (usize_bits c) (2 ^ usize_bits c + BITS c t - n))).
  assert (Q : if n mod 2 ^ 32 <=? BITS c t then q = cast 32 (BITS c t - n mod 2 ^ 32) else BITS c t <= q).
  { subst q m. clear M. set (w := BITS c t) in *. clearbody w. unfold cast.
    destruct (usize_bits_cases c) as [E|[E|E]]; rewrite E in *; clear E; destruct (N.leb_spec (n mod 2 ^ 32) w); cbn in *; lia. }
  subst m. destruct (N.leb_spec (n mod 2 ^ 32) (BITS c t)).
  - rewrite Q. apply M. assumption.
  - unfold checked_shr. destruct (N.ltb_spec q (BITS c t)); [lia|reflexivity].
Qed.
Lemma c54_lengths_release_lemma : forall c t v s e x, overflow_checks c = false -> s < 2 ^ usize_bits c -> e < 2 ^ usize_bits c ->
  let n := range_len s e mod 2 ^ 32 in
  let m := if n <=? BITS c t then n else 0 in
  num_get_bits c t v s e = num_get_bits c t v s (s + m) /\ num_set_bits c t v s e x = num_set_bits c t v s (s + m) x.
Proof.
  intros c t v s e x HO Hs He n m.
  assert (Ll : range_len s e < 2 ^ usize_bits c).
  { unfold range_len. destruct (s <? e); [lia|apply pow2_pos]. }
  assert (R : range_len s (s + m) = m).
  { unfold range_len. destruct (N.ltb_spec s (s + m)); lia. }
  assert (Hm : m <= BITS c t) by (subst m; destruct (N.leb_spec n (BITS c t)); lia).
  unfold num_get_bits, num_set_bits. cbv zeta. rewrite R. rewrite (sub_ok c _ (BITS c t) m) by exact Hm. rewrite !bind_ret.
  rewrite (mask_ok c t m) by exact Hm. unfold sub. rewrite HO.
  destruct (N.leb_spec (range_len s e) (BITS c t)) as [H|H]; rewrite !bind_ret.
  - rewrite mask_ok by exact H. assert (E : m = range_len s e).
    { subst m n. pose proof (BITS_le c t). rewrite N.mod_small by (eapply N.le_lt_trans with 128; [lia|reflexivity]).
      destruct (N.leb_spec (range_len s e) (BITS c t)); [reflexivity|lia]. }
    rewrite E. auto.
  - pose proof (mask_release c t (range_len s e) H Ll) as E. cbv zeta in E. rewrite E. auto.
Qed.
Lemma c54_get_bits_release_lemma : forall c t v s e, overflow_checks c = false -> v < 2 ^ BITS c t -> s < 2 ^ usize_bits c -> e < 2 ^ usize_bits c ->
  let n := range_len s e mod 2 ^ 32 in
  num_get_bits c t v s e
  = Ret (if n <=? BITS c t then v / 2 ^ (s mod 2 ^ N.min 32 (BITS c t)) mod 2 ^ n else 0).
Proof.
  intros c t v s e HO Hv Hs He n. pose proof (proj1 (c54_lengths_release_lemma c t v s e 0 HO Hs He)) as E. cbv zeta in E. fold n in E. rewrite E.
  assert (R : forall m, range_len s (s + m) = m) by (intro m; unfold range_len; destruct (N.ltb_spec s (s + m)); lia).
  destruct (N.leb_spec n (BITS c t)).
  - rewrite c54_get_bits_every_range_lemma by (rewrite ?R; assumption). rewrite R. reflexivity.
  - rewrite c54_get_bits_every_range_lemma by (rewrite ?R; (assumption || lia)). rewrite R. rewrite N.pow_0_r, N.mod_1_r. reflexivity.
Qed.

(* ---------- C43 ---------- *)
Lemma static_cmp_release c t b d b' d' : overflow_checks c = false -> d < 2 ^ 8 -> d' < 2 ^ 8 ->
  let M := BITS c t / 3 in
  static_cmp c Dim3D t (static_from_raw_index b d) (static_from_raw_index b' d')
  = if M <? N.min d d' then Ret (N.compare d d')
    else let! r := static_cmp c Dim3D t (static_from_raw_index b (N.min d d')) (static_from_raw_index b' (N.min d d')) in
         Ret (match N.compare d d' with Lt => match r with Gt => Gt | _ => Lt end | Eq => r | Gt => match r with Lt => Lt | _ => Gt end end).
Proof.
  intros HO Hd Hd' M. unfold static_cmp. cbv zeta. cbn [static_from_raw_index sx_bits sx_depth dim Dim3D].
  assert (W : 2 ^ 16 <= 2 ^ usize_bits c) by (apply N.pow_le_mono_r; [discriminate|]; unfold usize_bits; destruct (pointer c); discriminate).
  change (2 ^ 16) with 65536 in W. change (2 ^ 8) with 256 in Hd, Hd'. pose proof (BITS_le c t) as HB.
  rewrite !(mul_ok c (usize_bits c)) by lia. rewrite !bind_ret.
  assert (HM : forall x, M < x <-> BITS c t < x * 3).
  { intro x. subst M. clear. set (w := BITS c t). clearbody w. lia. }
  assert (S : forall x, x < 256 -> exists st, sub c (usize_bits c) (BITS c t) (x * 3) = Ret st
            /\ (x <= M -> st = BITS c t - x * 3) /\ (M < x -> forall v, num_get_bits c t v st (BITS c t) = Ret 0)).
  { intros x Hx. unfold sub. rewrite HO. destruct (N.leb_spec (x * 3) (BITS c t)) as [H|H].
    - eexists. split; [reflexivity|]. split; [reflexivity|]. intro Q. apply HM in Q. lia.
    - eexists. split; [reflexivity|]. split; [intro Q; apply HM in H; lia|]. intros _ v.
      assert (R : range_len (cast (usize_bits c) (2 ^ usize_bits c + BITS c t - x * 3)) (BITS c t) = 0).
      { unfold cast. rewrite N.mod_small by lia. unfold range_len. destruct (N.ltb_spec (2 ^ usize_bits c + BITS c t - x * 3) (BITS c t)); lia. }
      unfold num_get_bits. cbv zeta. rewrite R. rewrite sub_ok by lia. rewrite bind_ret. rewrite mask_ok by lia. rewrite N.land_0_r. reflexivity. }
  destruct (S d ltac:(lia)) as (s1 & E1 & A1 & Z1). destruct (S d' ltac:(lia)) as (s2 & E2 & A2 & Z2). rewrite E1, !bind_ret.
  rewrite ?(mul_ok c (usize_bits c)) by lia. rewrite ?bind_ret. rewrite E2, !bind_ret.
  clear S. destruct (N.ltb_spec M (N.min d d')) as [Hm|Hm].
  - specialize (Z1 ltac:(lia)). specialize (Z2 ltac:(lia)). rewrite !Z1, !Z2. cbn [bind].
    destruct (N.compare d d'); reflexivity.
  - destruct (N.compare_spec d d') as [H|H|H].
    + subst d'. rewrite N.min_id. rewrite ?(mul_ok c (usize_bits c)) by lia. rewrite ?bind_ret. rewrite E1, !bind_ret. rewrite ?(mul_ok c (usize_bits c)) by lia. rewrite ?bind_ret. rewrite ?E1, ?bind_ret. rewrite N.compare_refl. rewrite E1 in E2. injection E2 as <-.
      destruct (num_get_bits c t b s1 (BITS c t)); cbn [bind]; try reflexivity.
      destruct (num_get_bits c t b' s1 (BITS c t)); cbn [bind]; try reflexivity.
    + rewrite N.min_l by lia. rewrite ?(mul_ok c (usize_bits c)) by lia. rewrite ?bind_ret. rewrite E1, !bind_ret. rewrite ?(mul_ok c (usize_bits c)) by lia. rewrite ?bind_ret. rewrite ?E1, ?bind_ret. rewrite N.compare_refl.
      destruct (num_get_bits c t b s1 (BITS c t)) as [p| |]; cbn [bind]; try reflexivity.
      destruct (num_get_bits c t b' s1 (BITS c t)) as [q| |]; cbn [bind]; try reflexivity.
      f_equal. destruct (N.ltb_spec q p), (N.compare_spec p q); (reflexivity || lia).
    + rewrite N.min_r by lia. rewrite ?(mul_ok c (usize_bits c)) by lia. rewrite ?bind_ret. rewrite E2, !bind_ret. rewrite ?(mul_ok c (usize_bits c)) by lia. rewrite ?bind_ret. rewrite ?E2, ?bind_ret. rewrite N.compare_refl.
      destruct (num_get_bits c t b s2 (BITS c t)) as [p| |]; cbn [bind]; try reflexivity.
      destruct (num_get_bits c t b' s2 (BITS c t)) as [q| |]; cbn [bind]; try reflexivity.
      f_equal. destruct (N.leb_spec q p), (N.compare_spec p q); (reflexivity || lia).
Qed.
Lemma c43_too_deep_cmp_release_lemma : forall c t b d b' d', overflow_checks c = false -> d < 2 ^ 8 -> d' < 2 ^ 8 ->
  b < 2 ^ BITS c t -> b' < 2 ^ BITS c t ->
  let r := static_cmp c Dim3D t (static_from_raw_index b d) (static_from_raw_index b' d') in
  if BITS c t / 3 <? N.min d d' then r = Ret (N.compare d d')
  else exists l l', len l = N.min d d' /\ len l' = N.min d d'
    /\ shows (static_ops c Dim3D t) (static_from_raw_index b (N.min d d')) l
    /\ shows (static_ops c Dim3D t) (static_from_raw_index b' (N.min d d')) l'
    /\ r = Ret (match path_cmp l l' with Eq => N.compare d d' | x => x end).
Proof.
  intros c t b d b' d' HO Hd Hd' Hb Hb' r. subst r. rewrite static_cmp_release by assumption. cbv zeta.
  destruct (N.ltb_spec (BITS c t / 3) (N.min d d')) as [H|H]; [reflexivity|].
  destruct (c43_raw_cmp_returns_lemma c t b (N.min d d') b' (N.min d d') Hb H Hb' H) as (l & l' & Hl & Hl' & E).
  exists l, l'. split; [|split; [|split; [exact Hl|split; [exact Hl'|]]]].
  - destruct Hl as [Hl _]. symmetry. exact Hl.
  - destruct Hl' as [Hl' _]. symmetry. exact Hl'.
  - rewrite E, bind_ret. f_equal. destruct (N.compare d d') eqn:C; destruct (path_cmp l l') eqn:P; try reflexivity.
Qed.
