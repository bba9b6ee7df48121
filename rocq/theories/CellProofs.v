(* CellProofs.v - cells inside the bit string of a storage *)
From Verif Require Import Base ModelNumber ModelDim ModelStorage Spec BitProofs NumberProofs VecProofs.

(* ---------- the two dimensions ---------- *)
Record dim_ok (D : Dimension) : Prop := {
  dim_ge : 1 <= dim D;
  dim_le : dim D <= 3;
  idx_lt : forall x, cell_index D x < 2 ^ dim D;
  try_ok : forall n x, cell_try_from D n = Ok x <-> cell_index D x = n;
  try_total : forall n, n < 2 ^ dim D -> exists x, cell_try_from D n = Ok x;
  cmp_ok : forall x y, cell_cmp D x y = N.compare (cell_index D x) (cell_index D y);
  zero_idx : cell_index D (cell_zero D) = 0
}.

Lemma quadrant_try_ok n x : quadrant_try_from n = Ok x <-> quadrant_index x = n.
Proof.
  split.
  - destruct n as [|[[p|p|]|[p|p|]|]]; cbn; intros H; try discriminate; injection H as <-; reflexivity.
  - intros <-. destruct x; reflexivity.
Qed.
Lemma octant_try_ok n x : octant_try_from n = Ok x <-> octant_index x = n.
Proof.
  split.
  - destruct n as [|[[[p|p|]|[p|p|]|]|[[p|p|]|[p|p|]|]|]]; cbn; intros H; try discriminate; injection H as <-; reflexivity.
  - intros <-. destruct x; reflexivity.
Qed.

Lemma dim2_ok : dim_ok Dim2D.
Proof.
  constructor; cbn.
  - lia.
  - lia.
  - intros []; reflexivity.
  - apply quadrant_try_ok.
  - intros n Hn. change (2 ^ 2) with 4 in Hn.
    assert (H : n = 0 \/ n = 1 \/ n = 2 \/ n = 3) by lia.
    destruct H as [-> | [-> | [-> | ->]]]; eexists; reflexivity.
  - intros [] []; reflexivity.
  - reflexivity.
Qed.
Lemma dim3_ok : dim_ok Dim3D.
Proof.
  constructor; cbn.
  - lia.
  - lia.
  - intros []; reflexivity.
  - apply octant_try_ok.
  - intros n Hn. change (2 ^ 3) with 8 in Hn.
    assert (H : n = 0 \/ n = 1 \/ n = 2 \/ n = 3 \/ n = 4 \/ n = 5 \/ n = 6 \/ n = 7) by lia.
    destruct H as [-> | [-> | [-> | [-> | [-> | [-> | [-> | ->]]]]]]]; eexists; reflexivity.
  - intros [] []; reflexivity.
  - reflexivity.
Qed.
Lemma is_dim_ok D L : is_dim D L -> dim_ok D.
Proof. intros []; [apply dim2_ok|apply dim3_ok]. Qed.

Lemma idx_inj D x y : dim_ok D -> cell_index D x = cell_index D y -> x = y.
Proof.
  intros HD H. pose proof (proj2 (try_ok D HD (cell_index D y) x) H) as A.
  pose proof (proj2 (try_ok D HD (cell_index D y) y) eq_refl) as B. congruence.
Qed.
Lemma idx_lt8 D x : dim_ok D -> cell_index D x < 8.
Proof.
  intros HD. eapply N.lt_le_trans; [apply (idx_lt D HD)|]. change 8 with (2 ^ 3). apply pow2_le_mono, (dim_le D HD).
Qed.

(* ---------- encoding of a path as a number ---------- *)
Section Enc.
  Context {D : Dimension} (HD : dim_ok D).
  Local Notation d := (dim D).
  Local Notation idx := (cell_index D).

  Definition enc (l : list (cell D)) : N := fold_left (fun a x => 2 ^ d * a + idx x) l 0.

  Lemma enc_snoc l x : enc (l ++ [x]) = 2 ^ d * enc l + idx x.
  Proof. unfold enc. rewrite fold_left_app. reflexivity. Qed.

  Lemma enc_lt l : enc l < 2 ^ (d * len l).
  Proof.
    induction l as [|x l IH] using rev_ind.
    - cbn. change (len (@nil (cell D))) with 0. rewrite N.mul_0_r. reflexivity.
    - rewrite enc_snoc, len_app. change (len [x]) with 1.
      replace (d * (len l + 1)) with (d + d * len l) by lia. rewrite N.pow_add_r.
      pose proof (idx_lt D HD x). nia.
  Qed.

  Lemma enc_app a b : enc (a ++ b) = enc a * 2 ^ (d * len b) + enc b.
  Proof.
    induction b as [|x b IH] using rev_ind.
    - change (len (@nil (cell D))) with 0. rewrite N.mul_0_r, app_nil_r. cbn. change (2 ^ 0) with 1. lia.
    - rewrite app_assoc, !enc_snoc, IH, len_app. change (len [x]) with 1.
      replace (d * (len b + 1)) with (d + d * len b) by lia. rewrite N.pow_add_r. nia.
  Qed.

  Lemma enc_inj a b : len a = len b -> enc a = enc b -> a = b.
  Proof.
    revert b; induction a as [|x a IH] using rev_ind; intros b Hl He.
    - symmetry. apply len_0_nil. rewrite <- Hl. reflexivity.
    - destruct b as [|y b _] using rev_ind.
      + rewrite len_app in Hl. change (len [x]) with 1 in Hl. change (len (@nil (cell D))) with 0 in Hl. lia.
      + rewrite !len_app in Hl. change (len [x]) with 1 in Hl. change (len [y]) with 1 in Hl.
        rewrite !enc_snoc in He.
        pose proof (idx_lt D HD x). pose proof (idx_lt D HD y).
        destruct (N.div_mod_unique (2 ^ d) (enc a) (enc b) (idx x) (idx y)) as [E1 E2]; try assumption.
        f_equal; [apply IH; [lia|exact E1]|]. f_equal. apply (idx_inj D); assumption.
  Qed.

  Lemma enc_zeros n : enc (repeat (cell_zero D) n) = 0.
  Proof.
    induction n as [|n IH]; [reflexivity|]. cbn [repeat]. rewrite repeat_cons, enc_snoc, IH, (zero_idx D HD). lia.
  Qed.

  (* the w-bit number v starts (from the most significant end) with the cells l *)
  Definition holds (w v : N) (l : list (cell D)) : Prop :=
    v < 2 ^ w /\ d * len l <= w /\ v / 2 ^ (w - d * len l) = enc l.
  Definition field (w k : N) : N := w - (k + 1) * d.

  Lemma holds_nil w v : v < 2 ^ w -> holds w v [].
  Proof.
    intros H. split; [exact H|]. change (len (@nil (cell D))) with 0. rewrite N.mul_0_r, N.sub_0_r. split; [lia|].
    apply N.div_small; exact H.
  Qed.

  Lemma holds_snoc w v l x :
    holds w v (l ++ [x]) <-> holds w v l /\ (len l + 1) * d <= w /\ bits_of v (field w (len l)) d = idx x.
  Proof.
    unfold holds, field. rewrite len_app. change (len [x]) with 1. rewrite enc_snoc. unfold bits_of.
    assert (LE : (len l + 1) * d <= w -> d * len l <= w) by lia.
    pose proof (idx_lt D HD x) as Hx.
    assert (K : (len l + 1) * d <= w ->
                v / 2 ^ (w - d * len l) = v / 2 ^ (w - (len l + 1) * d) / 2 ^ d).
    { intros H. rewrite N.div_div by apply pow2_ne0. rewrite <- N.pow_add_r. do 2 f_equal. clear - H. lia. }
    replace (d * (len l + 1)) with ((len l + 1) * d) by lia.
    set (q := v / 2 ^ (w - (len l + 1) * d)) in *.
    assert (DM : q = 2 ^ d * (q / 2 ^ d) + q mod 2 ^ d) by (apply N.div_mod, pow2_ne0).
    assert (ML : q mod 2 ^ d < 2 ^ d) by apply N.mod_lt, pow2_ne0.
    split.
    - intros (H1 & H2 & H3). rewrite (K H2). rewrite H3 in DM at 1.
      destruct (N.div_mod_unique (2 ^ d) (enc l) (q / 2 ^ d) (idx x) (q mod 2 ^ d)) as [E1 E2]; try assumption.
      repeat split; auto.
    - intros ((H1 & H2 & H3) & H4 & H5). rewrite (K H4) in H3. rewrite <- H3, <- H5. repeat split; assumption.
  Qed.

  Lemma holds_prefix w v a b : holds w v (a ++ b) -> holds w v a.
  Proof.
    induction b as [|x b IH] using rev_ind.
    - rewrite app_nil_r; auto.
    - rewrite app_assoc, holds_snoc. intros [H _]; auto.
  Qed.

  Lemma holds_get w v l k x : holds w v l -> nth_error l (N.to_nat k) = Some x ->
    (k + 1) * d <= w /\ bits_of v (field w k) d = idx x.
  Proof.
    intros H Hk. apply nth_error_split in Hk. destruct Hk as (a & b & -> & Hl).
    change (x :: b) with ([x] ++ b) in H. rewrite app_assoc in H. apply holds_prefix in H.
    apply holds_snoc in H. destruct H as (_ & H1 & H2).
    replace (len a) with k in * by (unfold len; lia). auto.
  Qed.

  Lemma holds_intro w v l :
    v < 2 ^ w -> d * len l <= w ->
    (forall k x, nth_error l (N.to_nat k) = Some x -> bits_of v (field w k) d = idx x) -> holds w v l.
  Proof.
    intros Hv. induction l as [|x l IH] using rev_ind; intros Hl Hk.
    - apply holds_nil; exact Hv.
    - rewrite len_app in Hl. change (len [x]) with 1 in Hl. apply holds_snoc. split; [|split].
      + apply IH; [lia|]. intros k y Hy. apply Hk. rewrite nth_error_app1; [exact Hy|].
        apply nth_error_len in Hy. unfold len in Hy. lia.
      + lia.
      + apply Hk. rewrite nth_error_app2 by (unfold len; lia).
        replace (N.to_nat (len l) - List.length l)%nat with O by (unfold len; lia). reflexivity.
  Qed.

  Lemma holds_exists w v n : v < 2 ^ w -> d * n <= w -> exists l, len l = n /\ holds w v l.
  Proof.
    intros Hv. remember (N.to_nat n) as m eqn:Hm. revert n Hm.
    induction m as [|m IH]; intros n Hm Hn.
    - exists []. split; [change (len (@nil (cell D))) with 0; lia|apply holds_nil; exact Hv].
    - destruct (IH (n - 1)) as (l & Hl & H); [lia|nia|].
      destruct (try_total D HD (bits_of v (field w (len l)) d)) as [x Hx]; [apply bits_of_lt|].
      apply (try_ok D HD) in Hx. exists (l ++ [x]). rewrite len_app. change (len [x]) with 1. split; [lia|].
      apply holds_snoc. split; [exact H|]. split; [nia|congruence].
  Qed.

  Lemma holds_unique w v l l' : holds w v l -> holds w v l' -> len l = len l' -> l = l'.
  Proof.
    intros (_ & _ & H) (_ & _ & H') E. apply enc_inj; [exact E|]. rewrite <- H, <- H', E. reflexivity.
  Qed.

  Lemma field_disjoint w j k : (j + 1) * d <= w -> (k + 1) * d <= w -> j <> k ->
    field w j + d <= field w k \/ field w k + d <= field w j.
  Proof.
    intros Hj Hk H. unfold field.
    assert (j < k \/ k < j) as [A|A] by lia.
    - right. assert ((j + 1) * d <= k * d) by (apply N.mul_le_mono_r; lia). lia.
    - left. assert ((k + 1) * d <= j * d) by (apply N.mul_le_mono_r; lia). lia.
  Qed.

  Lemma holds_put w v l k x : holds w v l -> k < len l ->
    holds w (put v (field w k) d (idx x)) (update l (N.to_nat k) x).
  Proof.
    intros H Hk. pose proof H as (Hv & Hl & _).
    assert (Hkd : forall j, j < len l -> (j + 1) * d <= w).
    { intros j Hj. transitivity (len l * d); [apply N.mul_le_mono_r; lia|lia]. }
    pose proof (Hkd k Hk) as Hkw. pose proof (dim_ge D HD) as Hd.
    apply holds_intro.
    - apply put_lt; [exact Hv|]. unfold field. nia.
    - rewrite len_update; exact Hl.
    - intros j y Hj. rewrite nth_error_update in Hj.
      destruct (Nat.eqb_spec (N.to_nat k) (N.to_nat j)) as [E|E].
      + replace j with k by lia. destruct (Nat.ltb_spec (N.to_nat k) (List.length l)); [|unfold len in Hk; lia].
        cbn [andb] in Hj. injection Hj as <-. rewrite bits_of_put_same. apply N.mod_small, (idx_lt D HD).
      + cbn [andb] in Hj. destruct (holds_get _ _ _ _ _ H Hj) as [Hjw Hjb].
        rewrite bits_of_put_other; [exact Hjb|].
        destruct (field_disjoint w j k Hjw Hkw) as [A|A]; [lia|left; exact A|right; exact A].
  Qed.

  (* a level beyond the path: the path is unchanged *)
  Lemma holds_put_beyond w v l k x : holds w v l -> len l <= k -> (k + 1) * d <= w ->
    holds w (put v (field w k) d (idx x)) l.
  Proof.
    intros H Hk Hkw. pose proof H as (Hv & Hl & _). pose proof (dim_ge D HD) as Hd.
    apply holds_intro.
    - apply put_lt; [exact Hv|]. unfold field. nia.
    - exact Hl.
    - intros j y Hj. destruct (holds_get _ _ _ _ _ H Hj) as [Hjw Hjb].
      apply nth_error_len in Hj.
      rewrite bits_of_put_other; [exact Hjb|].
      destruct (field_disjoint w j k Hjw Hkw) as [A|A]; [lia|left; exact A|right; exact A].
  Qed.

  (* the bits below the path *)
  Definition rest (w v n : N) : N := v mod 2 ^ (w - d * n).
  Lemma rest_put w v n k x : k < n -> d * n <= w -> rest w (put v (field w k) d x) n = rest w v n.
  Proof.
    intros Hk Hn. unfold rest. apply mod_put_low. unfold field.
    assert ((k + 1) * d <= n * d) by (apply N.mul_le_mono_r; lia). lia.
  Qed.

  (* the path and the rest determine the number *)
  Lemma holds_value w v l : holds w v l -> v = enc l * 2 ^ (w - d * len l) + rest w v (len l).
  Proof.
    intros (_ & _ & H). unfold rest. rewrite <- H, N.mul_comm. apply N.div_mod, pow2_ne0.
  Qed.
  Lemma holds_rest_zero_zeros w v l n : holds w v l -> rest w v (len l) = 0 -> d * (len l + n) <= w ->
    holds w v (l ++ repeat (cell_zero D) (N.to_nat n)) /\ rest w v (len l + n) = 0.
  Proof.
    intros H Hr Hn. pose proof (holds_value _ _ _ H) as E. rewrite Hr, N.add_0_r in E.
    assert (P : 2 ^ (w - d * len l) = 2 ^ (d * n) * 2 ^ (w - d * (len l + n))).
    { rewrite <- N.pow_add_r. f_equal. lia. }
    destruct H as (Hv & Hl & _).
    assert (Ln : len (repeat (cell_zero D) (N.to_nat n)) = n) by (unfold len; rewrite repeat_length; lia).
    unfold holds, rest. rewrite len_app, Ln, enc_app, enc_zeros, Ln, N.add_0_r.
    rewrite P in E. rewrite N.mul_assoc in E. rewrite E at 2 3.
    repeat split; try assumption.
    - apply N.div_mul, pow2_ne0.
    - apply N.mod_mul, pow2_ne0.
  Qed.
  Lemma holds_zero_tail w v a n : holds w v (a ++ repeat (cell_zero D) n) -> rest w v (len a + N.of_nat n) = 0 ->
    rest w v (len a) = 0.
  Proof.
    intros H Hr. pose proof (holds_value _ _ _ H) as E.
    rewrite len_app in E. replace (len (repeat (cell_zero D) n)) with (N.of_nat n) in E
      by (unfold len; rewrite repeat_length; reflexivity).
    rewrite Hr, N.add_0_r, enc_app, enc_zeros, N.add_0_r in E.
    replace (len (repeat (cell_zero D) n)) with (N.of_nat n) in E
      by (unfold len; rewrite repeat_length; reflexivity).
    destruct H as (_ & Hl & _). rewrite len_app in Hl.
    replace (len (repeat (cell_zero D) n)) with (N.of_nat n) in Hl
      by (unfold len; rewrite repeat_length; reflexivity).
    unfold rest. rewrite E. rewrite <- N.mul_assoc, <- N.pow_add_r.
    replace (d * N.of_nat n + (w - d * (len a + N.of_nat n))) with (w - d * len a) by lia.
    apply N.mod_mul, pow2_ne0.
  Qed.
End Enc.
Arguments holds {D} w v l.
Arguments field : clear implicits.
Arguments rest : clear implicits.

(* ---------- storages as numbers ---------- *)
Definition num (k : kind) : storage k -> N :=
  match k with
  | KFixed t => fx_bits
  | KStatic t => sx_bits
  | KDynamic => fun s => bytes_value (dy_bits s)
  end.
Definition width (c : cfg) (k : kind) : storage k -> N :=
  match k with
  | KFixed t => fun _ => BITS c t
  | KStatic t => fun _ => BITS c t
  | KDynamic => fun s => 8 * len (dy_bits s)
  end.
Definition sane (c : cfg) (k : kind) : storage k -> Prop :=
  match k with
  | KFixed t => fun s => fx_bits s < 2 ^ BITS c t
  | KStatic t => fun s => sx_bits s < 2 ^ BITS c t
  | KDynamic => fun s => bytes_ok (dy_bits s) /\ 8 * len (dy_bits s) + 8 <= 2 ^ usize_bits c
  end.

Lemma sane_num c k s : sane c k s -> num k s < 2 ^ width c k s.
Proof. destruct k; cbn; auto. intros [H _]. apply bytes_value_lt, H. Qed.
Lemma sane_width c k s : sane c k s -> width c k s + 8 <= 2 ^ usize_bits c.
Proof.
  pose proof (pow2_usize_ge c).
  destruct k as [t|t|]; cbn.
  - pose proof (BITS_le c t); lia.
  - pose proof (BITS_le c t); lia.
  - intros [_ H']; exact H'.
Qed.

Lemma fixed_get_num c D t v k : dim_ok D -> v < 2 ^ BITS c t -> (k + 1) * dim D <= BITS c t ->
  fixed_get_cell c D t v k = unwrap (cell_try_from D (bits_of v (field D (BITS c t) k) (dim D))).
Proof.
  intros HD Hv Hk. pose proof (pow2_usize_ge c). pose proof (BITS_le c t).
  pose proof (dim_ge D HD). pose proof (dim_le D HD).
  unfold fixed_get_cell. cbn zeta. unfold field.
  assert (k + 1 <= (k + 1) * dim D) by nia.
  rewrite add_ok by lia. rewrite bind_ret. rewrite mul_ok by lia. rewrite bind_ret.
  rewrite sub_ok by lia. rewrite bind_ret. rewrite add_ok by lia. rewrite bind_ret.
  rewrite num_get_bits_ok by (assumption || lia). rewrite bind_ret.
  replace (BITS c t - (k + 1) * dim D + dim D - (BITS c t - (k + 1) * dim D)) with (dim D) by lia.
  f_equal. f_equal. unfold num_as. cbn [BITS].
  pose proof (bits_of_lt v (BITS c t - (k + 1) * dim D) (dim D)) as Hb.
  assert (2 ^ dim D <= 2 ^ 3) by (apply pow2_le_mono; lia). change (2 ^ 3) with 8 in *.
  rewrite (cast_small 8) by (change (2 ^ 8) with 256; lia). apply cast_small. lia.
Qed.

Lemma fixed_set_num c D t v k x : dim_ok D -> v < 2 ^ BITS c t -> (k + 1) * dim D <= BITS c t ->
  fixed_set_cell c D t v k x = Ret (put v (field D (BITS c t) k) (dim D) (cell_index D x)).
Proof.
  intros HD Hv Hk. pose proof (pow2_usize_ge c). pose proof (BITS_le c t). pose proof (BITS_ge c t).
  pose proof (dim_ge D HD). pose proof (dim_le D HD).
  unfold fixed_set_cell. cbn zeta. unfold field.
  assert (k + 1 <= (k + 1) * dim D) by nia.
  rewrite add_ok by lia. rewrite bind_ret. rewrite mul_ok by lia. rewrite bind_ret.
  rewrite sub_ok by lia. rewrite bind_ret. rewrite add_ok by lia. rewrite bind_ret.
  pose proof (idx_lt8 D x HD) as Hx. unfold num_from.
  assert (256 <= 2 ^ BITS c t) by (change 256 with (2 ^ 8); apply pow2_le_mono; lia).
  rewrite (cast_small 8) by (change (2 ^ 8) with 256; lia). rewrite cast_small by lia.
  rewrite num_set_bits_ok; try assumption; try lia.
  - f_equal. f_equal. lia.
  - replace (BITS c t - (k + 1) * dim D + dim D - (BITS c t - (k + 1) * dim D)) with (dim D) by lia.
    apply (idx_lt D HD).
Qed.

Lemma dynamic_get_num c D l k : dim_ok D -> bytes_ok l -> 8 * len l + 8 <= 2 ^ usize_bits c ->
  (k + 1) * dim D <= 8 * len l ->
  dynamic_get_cell c D l k = unwrap (cell_try_from D (bits_of (bytes_value l) (field D (8 * len l) k) (dim D))).
Proof.
  intros HD Hl HW Hk. pose proof (usize_ge16 c).
  pose proof (dim_ge D HD). pose proof (dim_le D HD).
  unfold dynamic_get_cell, vec_size. cbn zeta. unfold field.
  assert (k + 1 <= (k + 1) * dim D) by nia.
  rewrite mul_ok by lia. rewrite bind_ret.
  rewrite add_ok by lia. rewrite bind_ret. rewrite mul_ok by lia. rewrite bind_ret.
  rewrite sub_ok by lia. rewrite bind_ret. rewrite add_ok by lia. rewrite bind_ret.
  rewrite vec_get_bits_as_usize_ok by (assumption || lia). rewrite bind_ret.
  do 3 f_equal; lia.
Qed.

Lemma dynamic_set_num c D l k x : dim_ok D -> target_endian c = LittleEndian ->
  bytes_ok l -> 8 * len l + 8 <= 2 ^ usize_bits c -> (k + 1) * dim D <= 8 * len l ->
  exists l', dynamic_set_cell c D l k x = Ret l' /\ bytes_ok l' /\ len l' = len l
    /\ bytes_value l' = put (bytes_value l) (field D (8 * len l) k) (dim D) (cell_index D x).
Proof.
  intros HD HE Hl HW Hk. pose proof (usize_ge16 c). pose proof (pow2_usize_ge c).
  pose proof (dim_ge D HD). pose proof (dim_le D HD). pose proof (idx_lt8 D x HD) as Hx.
  unfold dynamic_set_cell, vec_size. cbn zeta. unfold field.
  assert (k + 1 <= (k + 1) * dim D) by nia.
  rewrite mul_ok by lia. rewrite bind_ret.
  rewrite add_ok by lia. rewrite bind_ret. rewrite mul_ok by lia. rewrite bind_ret.
  rewrite sub_ok by lia. rewrite bind_ret. rewrite add_ok by lia. rewrite bind_ret.
  destruct (vec_set_bits_from_usize_le c l (len l * 8 - (k + 1) * dim D) (len l * 8 - (k + 1) * dim D + dim D)
              (cell_index D x)) as (l' & A & B & C & E); try assumption; try lia.
  exists l'. repeat split; try assumption. rewrite E. f_equal; lia.
Qed.

(* big-endian targets: src/number.rs lines 446-449, 266-307 *)
Lemma to_le_small n x : x < 256 -> to_le_bytes (S n) x = x :: repeat 0 n.
Proof.
  intro H. cbn [to_le_bytes]. rewrite N.mod_small, N.div_small by exact H. f_equal.
  induction n as [|n IH]; [reflexivity|]. cbn. f_equal. exact IH.
Qed.

Lemma be_bytes c x : target_endian c = BigEndian -> x < 256 ->
  num_as_u8_slice c USize x
  = match pointer c with PW16 => [0; x] | PW32 => [0; 0; 0; x] | PW64 => [0; 0; 0; 0; 0; 0; 0; x] end.
Proof.
  intros HE Hx. unfold num_as_u8_slice, num_size, BITS, usize_bits. rewrite HE. cbn [to_bytes].
  destruct (pointer c).
  - change (N.to_nat (16 / 8)) with 2%nat. rewrite to_le_small by exact Hx. reflexivity.
  - change (N.to_nat (32 / 8)) with 4%nat. rewrite to_le_small by exact Hx. reflexivity.
  - change (N.to_nat (64 / 8)) with 8%nat. rewrite to_le_small by exact Hx. reflexivity.
Qed.

Lemma reads_as_be c x m : target_endian c = BigEndian -> x < 256 -> m <= 8 ->
  reads_as c (num_as_u8_slice c USize x) m (if usize_bits c =? 16 then x else 0).
Proof.
  intros HE Hx Hm p n Hpn Hn Hn0.
  rewrite be_bytes by assumption. unfold read_new. cbn zeta.
  assert (Hp : p < 8) by lia. pose proof (pow2_usize_ge c) as HW.
  replace (p / 8) with 0 by (clear -Hp; lia).
  set (b := match pointer c with PW16 => x | _ => 0 end).
  set (nv := match pointer c with PW16 => _ | PW32 => _ | PW64 => _ end).
  assert (Hlen : 2 <= len nv /\ len nv <= 8) by (subst nv; destruct (pointer c); cbv; split; discriminate).
  assert (Hread : read_u16 c nv 0 = Ret b).
  { unfold read_u16. rewrite HE. subst nv b. destruct (pointer c).
    - transitivity (Ret (x + 256 * (0 + 256 * 0))); [reflexivity|f_equal; lia].
    - reflexivity.
    - reflexivity. }
  rewrite sub_ok by lia. rewrite bind_ret.
  destruct (N.eqb_spec 0 (len nv - 1)); [lia|].
  rewrite Hread, bind_ret.
  rewrite mul_ok by lia. rewrite bind_ret. rewrite sub_ok by lia. rewrite bind_ret.
  rewrite bind_ret. rewrite sub_ok by lia. rewrite bind_ret.
  assert (Hb : b < 256) by (subst b; destruct (pointer c); lia).
  rewrite num_get_bits_ok; cbn [BITS]; try lia.
  rewrite bind_ret. f_equal.
  replace (if usize_bits c =? 16 then x else 0) with b.
  2:{ subst b. unfold usize_bits. destruct (pointer c); reflexivity. }
  rewrite cast_small.
  2:{ eapply N.lt_le_trans; [apply bits_of_lt|]. apply pow2_le_mono. lia. }
  f_equal; lia.
Qed.

Lemma dynamic_set_be c D l k x : dim_ok D -> target_endian c = BigEndian ->
  bytes_ok l -> 8 * len l + 8 <= 2 ^ usize_bits c -> (k + 1) * dim D <= 8 * len l ->
  exists l', dynamic_set_cell c D l k x = Ret l' /\ bytes_ok l' /\ len l' = len l
    /\ bytes_value l' = put (bytes_value l) (field D (8 * len l) k) (dim D) (cell_index D (stored c D KDynamic x)).
Proof.
  intros HD HE Hl HW Hk. pose proof (usize_ge16 c). pose proof (pow2_usize_ge c).
  pose proof (dim_ge D HD). pose proof (dim_le D HD). pose proof (idx_lt8 D x HD) as Hx.
  unfold dynamic_set_cell, vec_size. cbn zeta. unfold field.
  assert (k + 1 <= (k + 1) * dim D) by nia.
  rewrite mul_ok by lia. rewrite bind_ret.
  rewrite add_ok by lia. rewrite bind_ret. rewrite mul_ok by lia. rewrite bind_ret.
  rewrite sub_ok by lia. rewrite bind_ret. rewrite add_ok by lia. rewrite bind_ret.
  unfold vec_set_bits_from_usize.
  destruct (set_vec_u8_bits_gen c l (len l * 8 - (k + 1) * dim D) (len l * 8 - (k + 1) * dim D + dim D)
              (num_as_u8_slice c USize (cell_index D x)) (if usize_bits c =? 16 then cell_index D x else 0))
    as (l' & A & B & C & E); try assumption; try lia.
  { apply reads_as_be; [assumption|lia|lia]. }
  exists l'. repeat split; try assumption. rewrite E. unfold stored. rewrite HE.
  destruct (usize_bits c =? 16); [|rewrite (zero_idx D HD)]; f_equal; lia.
Qed.

Lemma stored_writable c D k (x : cell D) : writable c k -> stored c D k x = x.
Proof.
  unfold stored, writable. destruct k; try reflexivity. destruct (target_endian c); [|reflexivity].
  intros [H|H]; [discriminate|]. rewrite H. reflexivity.
Qed.
Lemma map_stored c D k (l : list (cell D)) : writable c k -> map (stored c D k) l = l.
Proof. intro H. induction l as [|x l IH]; [reflexivity|]. cbn [map]. rewrite IH, stored_writable by exact H. reflexivity. Qed.
Lemma dynamic_set c D l k x : dim_ok D ->
  bytes_ok l -> 8 * len l + 8 <= 2 ^ usize_bits c -> (k + 1) * dim D <= 8 * len l ->
  exists l', dynamic_set_cell c D l k x = Ret l' /\ bytes_ok l' /\ len l' = len l
    /\ bytes_value l' = put (bytes_value l) (field D (8 * len l) k) (dim D) (cell_index D (stored c D KDynamic x)).
Proof.
  intros HD Hl HW Hk. destruct (target_endian c) eqn:HE; [apply dynamic_set_be; assumption|].
  rewrite (stored_writable c D KDynamic x (or_introl HE)). apply dynamic_set_num; assumption.
Qed.

Definition with_num (c : cfg) (k : kind) (s s' : storage k) (d v : N) (D : Dimension) : Prop :=
  sane c k s' /\ width c k s' = width c k s /\ num k s' = v /\ st_depth (ops c D k) s' = d.

Lemma get_num c D k s i : dim_ok D -> sane c k s -> (i + 1) * dim D <= width c k s ->
  st_get (ops c D k) s i = unwrap (cell_try_from D (bits_of (num k s) (field D (width c k s) i) (dim D))).
Proof.
  intros HD. destruct k as [t|t|]; cbn.
  - intros; apply fixed_get_num; assumption.
  - intros; apply (fixed_get_num c D t); assumption.
  - intros [H1 H2] H; apply dynamic_get_num; assumption.
Qed.
Lemma set_num c D k s i x : dim_ok D -> sane c k s -> (i + 1) * dim D <= width c k s ->
  exists s', st_set (ops c D k) s i x = Ret s'
    /\ with_num c k s s' (st_depth (ops c D k) s) (put (num k s) (field D (width c k s) i) (dim D) (cell_index D (stored c D k x))) D.
Proof.
  intros HD Hs Hi. pose proof (sane_num c k s Hs) as Hv.
  assert (Hput : put (num k s) (field D (width c k s) i) (dim D) (cell_index D (stored c D k x)) < 2 ^ width c k s).
  { apply put_lt; [exact Hv|]. unfold field. pose proof (dim_ge D HD). nia. }
  destruct k as [t|t|]; cbn in *.
  - rewrite fixed_set_num by assumption. cbn [bind]. eexists; split; [reflexivity|]. repeat split; assumption.
  - change (static_set_cell c D t) with (fixed_set_cell c D t).
    rewrite fixed_set_num by assumption. cbn [bind]. eexists; split; [reflexivity|]. repeat split; assumption.
  - destruct Hs as [H1 H2]. destruct (dynamic_set c D (dy_bits s) i x) as (l' & A & B & C & E); try assumption.
    rewrite A. cbn [bind]. eexists; split; [reflexivity|]. repeat split; cbn; try assumption; try congruence.
Qed.

(* ---------- storages as lists of cells ---------- *)
(* The raw contents of a storage: its bit string starts with the cells l; n is the depth field, w the width and r the
   number formed by the bits below l. *)
Record raw (c : cfg) (D : Dimension) (k : kind) (n w r : N) (s : storage k) (l : list (cell D)) : Prop := {
  raw_sane : sane c k s;
  raw_holds : holds w (num k s) l;
  raw_depth : st_depth (ops c D k) s = n;
  raw_width : width c k s = w;
  raw_rest : rest D w (num k s) (len l) = r
}.

Lemma raw_get c D k n w r s l i x : dim_ok D -> raw c D k n w r s l -> nth_error l (N.to_nat i) = Some x ->
  st_get (ops c D k) s i = Ret x.
Proof.
  intros HD [Hs Hh Hd Hw Hr] Hi. destruct (holds_get HD _ _ _ _ _ Hh Hi) as [A B].
  rewrite get_num by (try assumption; rewrite Hw; exact A). rewrite Hw, B.
  rewrite (proj2 (try_ok D HD _ x) eq_refl). reflexivity.
Qed.
Lemma raw_set_w c D k n w r s l i x : dim_ok D -> raw c D k n w r s l -> i < len l ->
  exists s', st_set (ops c D k) s i x = Ret s' /\ raw c D k n w r s' (update l (N.to_nat i) (stored c D k x)).
Proof.
  intros HD [Hs Hh Hd Hw Hr] Hi. pose proof Hh as (Hv & Hl & _).
  assert (Hi' : (i + 1) * dim D <= width c k s).
  { rewrite Hw. transitivity (len l * dim D); [apply N.mul_le_mono_r; lia|lia]. }
  destruct (set_num c D k s i x HD Hs Hi') as (s' & E & S1 & S2 & S3 & S4).
  exists s'. split; [exact E|]. rewrite Hw in *. constructor; try assumption.
  - rewrite S3. apply holds_put; assumption.
  - congruence.
  - rewrite S3, len_update, rest_put by assumption. exact Hr.
Qed.
Lemma raw_set c D k n w r s l i x : dim_ok D -> writable c k -> raw c D k n w r s l -> i < len l ->
  exists s', st_set (ops c D k) s i x = Ret s' /\ raw c D k n w r s' (update l (N.to_nat i) x).
Proof.
  intros HD HW H Hi. pose proof (raw_set_w c D k n w r s l i x HD H Hi) as Q. rewrite (stored_writable c D k x HW) in Q. exact Q.
Qed.
Lemma stored_zero c D k : stored c D k (cell_zero D) = cell_zero D.
Proof. unfold stored. destruct k, (target_endian c), (usize_bits c =? 16); reflexivity. Qed.
Lemma map_stored_zeros c D k n : map (stored c D k) (repeat (cell_zero D) n) = repeat (cell_zero D) n.
Proof. induction n as [|n IH]; [reflexivity|]. cbn [repeat map]. rewrite IH, stored_zero. reflexivity. Qed.
Lemma len_map {A B} (f : A -> B) l : len (map f l) = len l.
Proof. unfold len. rewrite map_length. reflexivity. Qed.

Lemma raw_exists c D k s m : dim_ok D -> sane c k s -> dim D * m <= width c k s ->
  exists l, len l = m /\ raw c D k (st_depth (ops c D k) s) (width c k s) (rest D (width c k s) (num k s) m) s l.
Proof.
  intros HD Hs Hm. destruct (holds_exists HD (width c k s) (num k s) m) as (l & Hl & H); [apply sane_num; exact Hs|exact Hm|].
  exists l. split; [exact Hl|]. constructor; auto. rewrite Hl. reflexivity.
Qed.
Lemma raw_prefix c D k n w r s a b : dim_ok D -> raw c D k n w r s (a ++ b) ->
  raw c D k n w (rest D w (num k s) (len a)) s a.
Proof.
  intros HD [Hs Hh Hd Hw Hr]. constructor; auto. eapply holds_prefix; eassumption.
Qed.
Lemma raw_unique c D k n w r s l n' w' r' l' : dim_ok D ->
  raw c D k n w r s l -> raw c D k n' w' r' s l' -> len l = len l' -> l = l'.
Proof.
  intros HD [? H ? E ?] [? H' ? E' ?] Hl.
  rewrite <- E in H. rewrite <- E' in H'. exact (holds_unique HD _ _ _ _ H H' Hl).
Qed.

(* ---------- indices as lists of cells ---------- *)
Definition min_width (D : Dimension) (k : kind) (c : cfg) (n : N) : N :=
  match k with KFixed t | KStatic t => BITS c t | KDynamic => 8 * ((dim D * n + 7) / 8) end.
(* the index s shows the cells l *)
Definition repr (c : cfg) (D : Dimension) (k : kind) (s : storage k) (l : list (cell D)) : Prop :=
  raw c D k (len l) (width c k s) (rest D (width c k s) (num k s) (len l)) s l.
(* canonical: all other bits are zero, no spare bytes *)
Definition canon (c : cfg) (D : Dimension) (k : kind) (s : storage k) (l : list (cell D)) : Prop :=
  raw c D k (len l) (min_width D k c (len l)) 0 s l.

Lemma raw_repr c D k w r s l : raw c D k (len l) w r s l -> repr c D k s l.
Proof. intros [A B C E F]. constructor; auto. rewrite E; exact B. Qed.
Lemma canon_repr c D k s l : canon c D k s l -> repr c D k s l.
Proof. apply raw_repr. Qed.

Lemma repr_shows c D k s l : dim_ok D -> repr c D k s l -> shows (ops c D k) s l.
Proof.
  intros HD H. split; [apply (raw_depth _ _ _ _ _ _ _ _ H)|].
  intro i. unfold get_cell_at_level. rewrite (raw_depth _ _ _ _ _ _ _ _ H).
  destruct (nth_error l (N.to_nat i)) as [x|] eqn:E.
  - pose proof (nth_error_len _ _ _ E). destruct (N.leb_spec (len l) i); [lia|]. eapply raw_get; eassumption.
  - apply nth_error_None in E. destruct (N.leb_spec (len l) i); [reflexivity|]. unfold len in *; lia.
Qed.
Lemma shows_unique {D S} (o : StorageOps D S) s l l' : shows o s l -> shows o s l' -> l = l'.
Proof.
  intros [_ H] [_ H']. apply nth_error_ext; intro i.
  specialize (H (N.of_nat i)). specialize (H' (N.of_nat i)). rewrite Nat2N.id in *. rewrite H in H'.
  destruct (nth_error l i), (nth_error l' i); congruence.
Qed.
Lemma valid_fits c D k s : dim_ok D -> valid c D k s -> sane c k s /\ dim D * st_depth (ops c D k) s <= width c k s.
Proof.
  intros HD. pose proof (dim_ge D HD). destruct k as [t|t|]; cbn.
  - intros H1. split; [exact H1|]. unfold MAX_LEVELS. apply N.mul_div_le. lia.
  - intros [H1 H2]. split; [exact H1|]. etransitivity; [apply N.mul_le_mono_l; exact H2|]. apply N.mul_div_le. lia.
  - intros (H1 & H2 & H3). repeat split; assumption.
Qed.
Lemma valid_repr c D k s : dim_ok D -> valid c D k s -> exists l, repr c D k s l.
Proof.
  intros HD Hv. destruct (valid_fits c D k s HD Hv) as [Hs Hd].
  destruct (raw_exists c D k s _ HD Hs Hd) as (l & Hl & H). exists l. unfold repr. rewrite Hl. exact H.
Qed.
Lemma valid_shows c D k s l : dim_ok D -> valid c D k s -> shows (ops c D k) s l -> repr c D k s l.
Proof.
  intros HD Hv Hs. destruct (valid_repr c D k s HD Hv) as [l' H].
  rewrite (shows_unique _ _ _ _ Hs (repr_shows _ _ _ _ _ HD H)). exact H.
Qed.
Lemma repr_valid c D k s l : dim_ok D -> repr c D k s l -> valid c D k s.
Proof.
  intros HD [Hs (H1 & H2 & _) Hd Hw Hr]. pose proof (dim_ge D HD). destruct k as [t|t|]; cbn in *.
  - exact Hs.
  - split; [exact Hs|]. rewrite Hd. apply N.div_le_lower_bound; lia.
  - destruct Hs as [A B]. rewrite Hd. auto.
Qed.

(* the canonical representation is unique *)
Lemma canon_num_unique c D k s s' l : dim_ok D -> canon c D k s l -> canon c D k s' l -> num k s = num k s'.
Proof.
  intros HD [? H ? ? R] [? H' ? ? R'].
  rewrite (holds_value _ _ _ H), (holds_value _ _ _ H'), R, R'. reflexivity.
Qed.
Lemma canon_unique c D k s s' l : dim_ok D -> canon c D k s l -> canon c D k s' l -> s = s'.
Proof.
  intros HD H H'. pose proof (canon_num_unique _ _ _ _ _ _ HD H H') as E.
  destruct H as [A1 A2 A3 A4 A5], H' as [B1 B2 B3 B4 B5].
  destruct k as [t|t|]; cbn in *.
  - destruct s, s'; cbn in *; congruence.
  - destruct s, s'; cbn in *; congruence.
  - destruct A1 as [A1 _], B1 as [B1 _]. destruct s as [b d], s' as [b' d']; cbn in *. f_equal; [|congruence].
    apply bytes_value_inj; try assumption. unfold min_width in *. lia.
Qed.
