(* FactsBits.v - proofs of the theorems stated in PropBits.v *)
From Verif Require Import Base ModelNumber ModelAlign ModelDim Spec BitProofs NumberProofs VecProofs VecSetProofs CellProofs StorageProofs GridProofs VecGetProofs NameProofs.

(* ---------- C28 ---------- *)
Lemma c28_quadrant_numbering_lemma : forall n,
  (n < 4 -> exists q, quadrant_try_from n = Ok q /\ quadrant_index q = n)
  /\ (4 <= n -> quadrant_try_from n = Err CellIndexOutOfRange).
Proof.
  intro n. split.
  - intro H. assert (K : n = 0 \/ n = 1 \/ n = 2 \/ n = 3) by lia.
    destruct K as [K|[K|[K|K]]]; rewrite K; eexists; split; reflexivity.
  - intro H. destruct n as [|[[p|p|]|[p|p|]|]]; try lia; reflexivity.
Qed.
Lemma c28_quadrant_index_lemma : forall q, quadrant_index q < 4 /\ quadrant_try_from (quadrant_index q) = Ok q.
Proof. intros []; split; reflexivity. Qed.
Lemma c28_octant_numbering_lemma : forall n,
  (n < 8 -> exists q, octant_try_from n = Ok q /\ octant_index q = n)
  /\ (8 <= n -> octant_try_from n = Err CellIndexOutOfRange).
Proof.
  intro n. split.
  - intro H. assert (K : n = 0 \/ n = 1 \/ n = 2 \/ n = 3 \/ n = 4 \/ n = 5 \/ n = 6 \/ n = 7) by lia.
    destruct K as [K|[K|[K|[K|[K|[K|[K|K]]]]]]]; rewrite K; eexists; split; reflexivity.
  - intro H. destruct n as [|[[[p|p|]|[p|p|]|]|[[p|p|]|[p|p|]|]|]]; try lia; reflexivity.
Qed.
Lemma c28_octant_index_lemma : forall q, octant_index q < 8 /\ octant_try_from (octant_index q) = Ok q.
Proof. intros []; split; reflexivity. Qed.
Lemma c28_cell_order_lemma : forall (a b : quadrant) (p q : octant),
  quadrant_cmp a b = N.compare (quadrant_index a) (quadrant_index b)
  /\ octant_cmp p q = N.compare (octant_index p) (octant_index q).
Proof. intros a b p q. split; [destruct a, b; reflexivity|destruct p, q; reflexivity]. Qed.

(* ---------- C29 ---------- *)
Lemma c29_quadrant_ordering_bijective_lemma : forall o x y, x < 2 -> y < 2 ->
  exists q, quadrant_to_index o q = (x, y) /\ forall q', quadrant_to_index o q' = (x, y) -> q' = q.
Proof.
  intros o x y Hx Hy. assert (Kx : x = 0 \/ x = 1) by lia. assert (Ky : y = 0 \/ y = 1) by lia.
  destruct o, Kx as [-> | ->], Ky as [-> | ->];
    first [exists Q0; split; [reflexivity|]; intros [] E; (reflexivity || discriminate E)
          |exists Q1; split; [reflexivity|]; intros [] E; (reflexivity || discriminate E)
          |exists Q2; split; [reflexivity|]; intros [] E; (reflexivity || discriminate E)
          |exists Q3; split; [reflexivity|]; intros [] E; (reflexivity || discriminate E)].
Qed.
Lemma c29_quadrant_ordering_documented_lemma : forall o q,
  quadrant_to_index o q = (quad_x o q, quad_y o q) /\ quad_x o q < 2 /\ quad_y o q < 2
  /\ (quadrant_to_index o Q0, quadrant_to_index o Q1, quadrant_to_index o Q2)
     = match o with XY => ((0, 0), (1, 0), (0, 1)) | YX => ((0, 0), (0, 1), (1, 0)) end.
Proof. intros [] []; repeat split; reflexivity. Qed.
Lemma c29_octant_ordering_bijective_lemma : forall o x y z, x < 2 -> y < 2 -> z < 2 ->
  exists q, octant_to_index o q = (x, y, z) /\ forall q', octant_to_index o q' = (x, y, z) -> q' = q.
Proof.
  intros o x y z Hx Hy Hz. assert (Kx : x = 0 \/ x = 1) by lia. assert (Ky : y = 0 \/ y = 1) by lia. assert (Kz : z = 0 \/ z = 1) by lia.
  destruct o, Kx as [-> | ->], Ky as [-> | ->], Kz as [-> | ->];
    first [exists O0; split; [reflexivity|]; intros [] E; (reflexivity || discriminate E)
          |exists O1; split; [reflexivity|]; intros [] E; (reflexivity || discriminate E)
          |exists O2; split; [reflexivity|]; intros [] E; (reflexivity || discriminate E)
          |exists O3; split; [reflexivity|]; intros [] E; (reflexivity || discriminate E)
          |exists O4; split; [reflexivity|]; intros [] E; (reflexivity || discriminate E)
          |exists O5; split; [reflexivity|]; intros [] E; (reflexivity || discriminate E)
          |exists O6; split; [reflexivity|]; intros [] E; (reflexivity || discriminate E)
          |exists O7; split; [reflexivity|]; intros [] E; (reflexivity || discriminate E)].
Qed.
Lemma c29_octant_ordering_documented_lemma : forall o q,
  octant_to_index o q = (oct_x o q, oct_y o q, oct_z o q) /\ oct_x o q < 2 /\ oct_y o q < 2 /\ oct_z o q < 2
  /\ octant_to_index o O0 = (0, 0, 0)
  /\ (octant_to_index o O1, octant_to_index o O2, octant_to_index o O4)
     = match o with
       | XYZ => ((1, 0, 0), (0, 1, 0), (0, 0, 1))
       | XZY => ((1, 0, 0), (0, 0, 1), (0, 1, 0))
       | YXZ => ((0, 1, 0), (1, 0, 0), (0, 0, 1))
       | YZX => ((0, 1, 0), (0, 0, 1), (1, 0, 0))
       | ZXY => ((0, 0, 1), (1, 0, 0), (0, 1, 0))
       | ZYX => ((0, 0, 1), (0, 1, 0), (1, 0, 0))
       end.
Proof. intros [] []; repeat split; reflexivity. Qed.
(* bit get_bit_shifts_for_xyz of the octant index is the coordinate *)
Lemma c29_bit_shifts_lemma : forall o q sx sy sz, get_bit_shifts_for_xyz o = (sx, sy, sz) ->
  octant_to_index o q = (octant_index q / 2 ^ sx mod 2, octant_index q / 2 ^ sy mod 2, octant_index q / 2 ^ sz mod 2)
  /\ (sx < 3 /\ sy < 3 /\ sz < 3) /\ sx <> sy /\ sy <> sz /\ sx <> sz.
Proof. intros o q sx sy sz E. destruct o; injection E as <- <- <-; (split; [destruct q; reflexivity|]); repeat split; discriminate. Qed.

(* ---------- C30 ---------- *)
Lemma c30_get_bits_lemma : forall c t v s e, v < 2 ^ BITS c t -> s <= e -> e <= BITS c t ->
  num_get_bits c t v s e = Ret (v / 2 ^ s mod 2 ^ (e - s)).
Proof. exact num_get_bits_ok. Qed.
Lemma c30_get_bits_as_usize_lemma : forall c t v s e, v < 2 ^ BITS c t -> s <= e -> e <= BITS c t ->
  num_get_bits_as_usize c t v s e = Ret (v / 2 ^ s mod 2 ^ (e - s) mod 2 ^ usize_bits c).
Proof. intros c t v s e Hv Hs He. unfold num_get_bits_as_usize. rewrite num_get_bits_ok by assumption. reflexivity. Qed.
Lemma c30_set_bits_lemma : forall c t v s e x,
  v < 2 ^ BITS c t -> s <= e -> e <= BITS c t -> s < BITS c t -> x < 2 ^ (e - s) ->
  exists v', num_set_bits c t v s e x = Ret v' /\ v' < 2 ^ BITS c t /\ bits_replaced v s (e - s) x v'
    /\ num_get_bits c t v' s e = Ret x.
Proof.
  intros c t v s e x Hv Hs He Hb Hx. rewrite num_set_bits_ok by assumption. eexists. split; [reflexivity|].
  assert (B : put v s (e - s) x < 2 ^ BITS c t) by (apply put_lt; [exact Hv|lia]). split; [exact B|].
  split; [intro i; apply testbit_put|]. rewrite num_get_bits_ok by assumption.
  rewrite bits_of_put_same, N.mod_small by exact Hx. reflexivity.
Qed.
(* a value that does not fit is not masked: its excess bits are or-ed onto the bits above the range *)
Lemma c30_set_bits_any_value_lemma : forall c t v s e x,
  v < 2 ^ BITS c t -> s <= e -> e <= BITS c t -> s < BITS c t ->
  exists v', num_set_bits c t v s e x = Ret v' /\ forall i, N.testbit v' i =
    if i <? s then N.testbit v i
    else if i <? e then N.testbit x (i - s)
    else (i <? BITS c t) && (N.testbit v i || N.testbit x (i - s)).
Proof.
  intros c t v s e x Hv Hs He Hb. rewrite num_set_bits_gen by assumption. eexists. split; [reflexivity|].
  intro i. unfold cast, lnot. rewrite N.lor_spec, N.land_spec, N.lxor_spec, testbit_mod, !testbit_shiftl, !testbit_ones.
  destruct (N.ltb_spec i s) as [H|H].
  - destruct (N.leb_spec s i); [lia|]. destruct (N.ltb_spec i (BITS c t)); [|lia]. cbn. rewrite andb_true_r, orb_false_r. reflexivity.
  - destruct (N.leb_spec s i); [|lia]. cbn [andb]. destruct (N.ltb_spec i e) as [H1|H1].
    + destruct (N.ltb_spec (i - s) (e - s)); [|lia]. destruct (N.ltb_spec i (BITS c t)); [|lia]. cbn. rewrite andb_false_r. reflexivity.
    + destruct (N.ltb_spec (i - s) (e - s)); [lia|]. destruct (N.ltb_spec i (BITS c t)) as [H9|H9]; cbn.
      * rewrite andb_true_r. reflexivity.
      * rewrite andb_false_r. reflexivity.
Qed.
(* the empty range at the very top is outside the shift range *)
Lemma c30_set_bits_at_top_lemma : forall c t v x, overflow_checks c = true ->
  num_set_bits c t v (BITS c t) (BITS c t) x = Panic.
Proof.
  intros c t v x HO. unfold num_set_bits. cbv zeta. rewrite range_len_ok by lia. rewrite N.sub_diag. rewrite sub_ok by lia. rewrite bind_ret.
  assert (E : cast (BITS c t) (BITS c t) = BITS c t) by (unfold cast; apply N.mod_small; apply N.pow_gt_lin_r; lia).
  rewrite E. unfold shl. rewrite N.ltb_irrefl, HO. reflexivity.
Qed.

(* ---------- C31 ---------- *)
Lemma c31_vec_set_bits_lemma : forall c vec s e value,
  target_endian c = LittleEndian -> Forall (fun b => b < 256) value -> 0 < len value -> e - s <= 8 * len value ->
  Forall (fun b => b < 256) vec -> s <= e -> e <= 8 * len vec -> 8 * len vec + 8 <= 2 ^ usize_bits c ->
  exists vec', vec_set_bits c vec s e value = Ret vec' /\ Forall (fun b => b < 256) vec' /\ len vec' = len vec
    /\ bits_replaced (bytes_value vec) s (e - s) (bytes_value value) (bytes_value vec').
Proof.
  intros c vec s e value HE Hv Hl Hn Hb Hs He Hw.
  destruct (set_vec_u8_bits_le c vec s e value HE Hv Hl Hn Hb Hs He Hw) as (vec' & E & B & L & P).
  exists vec'. split; [exact E|]. split; [exact B|]. split; [exact L|]. rewrite P. intro i. apply testbit_put.
Qed.
Lemma c31_vec_set_bits_from_usize_lemma : forall c vec s e x,
  target_endian c = LittleEndian -> x < 2 ^ usize_bits c -> e - s <= usize_bits c ->
  Forall (fun b => b < 256) vec -> s <= e -> e <= 8 * len vec -> 8 * len vec + 8 <= 2 ^ usize_bits c ->
  exists vec', vec_set_bits_from_usize c vec s e x = Ret vec' /\ Forall (fun b => b < 256) vec' /\ len vec' = len vec
    /\ bits_replaced (bytes_value vec) s (e - s) x (bytes_value vec')
    /\ vec_get_bits_as_usize c vec' s e = Ret (x mod 2 ^ (e - s)).
Proof.
  intros c vec s e x HE Hx Hn Hb Hs He Hw.
  destruct (vec_set_bits_from_usize_le c vec s e x HE Hx Hn Hb Hs He Hw) as (vec' & E & B & L & P).
  exists vec'. split; [exact E|]. split; [exact B|]. split; [exact L|]. split; [rewrite P; intro i; apply testbit_put|].
  rewrite vec_get_bits_as_usize_ok by (assumption || rewrite L; assumption). rewrite P, bits_of_put_same. reflexivity.
Qed.
Lemma c31_vec_set_bits_every_target_lemma : forall c vec s e value,
  Forall (fun b => b < 256) value -> last_source_byte s e < len value ->
  Forall (fun b => b < 256) vec -> s <= e -> e <= 8 * len vec -> 8 * len vec + 8 <= 2 ^ usize_bits c ->
  exists vec', vec_set_bits c vec s e value = Ret vec' /\ Forall (fun b => b < 256) vec' /\ len vec' = len vec
    /\ forall i, N.testbit (bytes_value vec') i
        = if (s <=? i) && (i <? e) then source_bit (target_endian c) value s (i - s) else N.testbit (bytes_value vec) i.
Proof. intros c vec s e value Hv Hl Hvec Hse He HW. exact (set_vec_u8_bits_source c vec s e value Hv Hl Hvec Hse He HW). Qed.
Lemma c31_vec_get_bits_as_usize_lemma : forall c vec s e,
  Forall (fun b => b < 256) vec -> s <= e -> e - s <= usize_bits c -> e <= 8 * len vec -> 8 * len vec + 8 <= 2 ^ usize_bits c ->
  vec_get_bits_as_usize c vec s e = Ret (bytes_value vec / 2 ^ s mod 2 ^ (e - s)).
Proof. exact vec_get_bits_as_usize_ok. Qed.
(* the little-endian bit string: byte i holds the bits 8i to 8i+7 *)
Lemma c31_bit_string_lemma : forall l i, Forall (fun b => b < 256) l ->
  N.testbit (bytes_value l) i = match nth_error l (N.to_nat (i / 8)) with Some b => N.testbit b (i mod 8) | None => false end.
Proof. exact testbit_bytes_value. Qed.

(* ---------- C32 ---------- *)
Lemma c32_vec_get_bits_returns_lemma : forall c v s e,
  Forall (fun b => b < 256) v -> s <= e -> e <= 8 * len v -> 8 * len v + 8 <= 2 ^ usize_bits c ->
  exists r, vec_get_bits c v s e = Ret r /\ Forall (fun b => b < 256) r /\ len r = (e - s + 7) / 8
    /\ bytes_value r = bytes_value v / 2 ^ s
         mod 2 ^ (if (0 <? e mod 8) && (e mod 8 <? s mod 8) then 8 * ((e - s + 7) / 8) else e - s).
Proof.
  intros c v s e Hv Hs He Hw. rewrite vec_get_bits_ok by assumption. eexists. split; [reflexivity|].
  split; [apply bytes_ok_to_le|]. split; [rewrite len_to_le_bytes, N2Nat.id; reflexivity|].
  assert (ER : returned_bits s e = if (0 <? e mod 8) && (e mod 8 <? s mod 8) then 8 * ((e - s + 7) / 8) else e - s).
  { unfold returned_bits. replace (e - 8 * ((e + 7) / 8 - 1) <? s mod 8) with ((0 <? e mod 8) && (e mod 8 <? s mod 8)); [reflexivity|].
    clear - Hs. destruct (N.ltb_spec (e - 8 * ((e + 7) / 8 - 1)) (s mod 8)), (N.ltb_spec 0 (e mod 8)), (N.ltb_spec (e mod 8) (s mod 8));
      cbn [andb]; try reflexivity; exfalso; lia. }
  rewrite <- ER. apply bytes_value_to_le. rewrite N2Nat.id. unfold bits_of.
  apply N.lt_le_trans with (2 ^ returned_bits s e); [apply N.mod_lt; apply pow2_ne0|]. apply pow2_le_mono.
  rewrite ER. clear. destruct ((0 <? e mod 8) && (e mod 8 <? s mod 8)); [apply N.le_refl|]. lia.
Qed.
Lemma c32_vec_get_bits_partial_lemma : forall c v s e,
  Forall (fun b => b < 256) v -> s <= e -> e <= 8 * len v -> 8 * len v + 8 <= 2 ^ usize_bits c ->
  e mod 8 = 0 \/ s mod 8 <= e mod 8 ->
  exists r, vec_get_bits c v s e = Ret r /\ Forall (fun b => b < 256) r /\ len r = (e - s + 7) / 8
    /\ bytes_value r = bytes_value v / 2 ^ s mod 2 ^ (e - s).
Proof.
  intros c v s e Hv Hs He Hw H. destruct (c32_vec_get_bits_returns_lemma c v s e Hv Hs He Hw) as (r & E & B & L & V).
  exists r. split; [exact E|]. split; [exact B|]. split; [exact L|]. rewrite V.
  destruct (N.ltb_spec 0 (e mod 8)), (N.ltb_spec (e mod 8) (s mod 8)); cbn [andb]; try reflexivity. exfalso. clear - H H0 H1. lia.
Qed.
Lemma c32_vec_get_bits_refuted_lemma :
  ~ (forall c v s e, Forall (fun b => b < 256) v -> s <= e -> e <= 8 * len v -> 8 * len v + 8 <= 2 ^ usize_bits c ->
     exists r, vec_get_bits c v s e = Ret r /\ bytes_value r = bytes_value v / 2 ^ s mod 2 ^ (e - s)).
Proof.
  intro H. destruct (H (Cfg true PW64 LittleEndian) [0; 0xFF] 4 9) as (r & E & V).
  - repeat constructor.
  - discriminate.
  - vm_compute. discriminate.
  - vm_compute. discriminate.
  - vm_compute in E. injection E as <-. vm_compute in V. discriminate.
Qed.

(* ---------- C33 ---------- *)
Lemma c33_zero_before_u8_partial_lemma : forall v, v < 16 -> forall i,
  N.testbit (add_zero_before_every_bit_u8 v) i = (i mod 2 =? 0) && N.testbit v (i / 2).
Proof.
  intros v Hv i. rewrite (N.div_mod i 2) at 1 by discriminate. apply spread_before_u8; [exact Hv|]. apply N.mod_lt. discriminate.
Qed.
Lemma c33_zero_behind_u8_partial_lemma : forall v, v < 16 -> forall i,
  N.testbit (add_zero_behind_every_bit_u8 v) i = (i mod 2 =? 1) && N.testbit v (i / 2).
Proof.
  intros v Hv i. rewrite (N.div_mod i 2) at 1 by discriminate. apply spread_behind_u8; [exact Hv|]. apply N.mod_lt. discriminate.
Qed.
Lemma c33_zero_before_u16_partial_lemma : forall v, v < 256 -> forall i,
  N.testbit (add_zero_before_every_bit_u16 v) i = (i mod 2 =? 0) && N.testbit v (i / 2).
Proof.
  intros v Hv i. rewrite (N.div_mod i 2) at 1 by discriminate. apply spread_before_u16; [exact Hv|]. apply N.mod_lt. discriminate.
Qed.
Lemma c33_two_zeroes_u8_lemma : forall v, v < 256 -> forall i,
  N.testbit (add_two_zeroes_before_every_bit_u8 v) i = (i mod 3 =? 0) && N.testbit v (i / 3).
Proof.
  intros v Hv i. rewrite (N.div_mod i 3) at 1 by discriminate. apply spread_two_u8; [exact Hv|]. apply N.mod_lt. discriminate.
Qed.
Lemma c33_two_zeroes_u32_lemma : forall v, v < 2 ^ 32 -> forall i,
  N.testbit (add_two_zeroes_before_every_bit_u32 v) i = (i mod 3 =? 0) && N.testbit (v mod 2 ^ 21) (i / 3).
Proof.
  intros v Hv i. rewrite (N.div_mod i 3) at 1 by discriminate. rewrite spread_two_u32 by (exact Hv || (apply N.mod_lt; discriminate)).
  rewrite testbit_mod, andb_assoc. reflexivity.
Qed.
(* the two upper bits 4 and 5 of an 8-bit argument get through to the bits 4 and 6 *)
Lemma c33_zero_before_u8_high_bits_lemma : forall v, v < 256 ->
  add_zero_before_every_bit_u8 v
  = N.lor (add_zero_before_every_bit_u8 (v mod 16)) (N.lor (v / 16 mod 2 * 16) (v / 32 mod 2 * 64)).
Proof. intros v Hv. apply N.eqb_eq. revert v Hv. apply forall_below. vm_compute. reflexivity. Qed.
Lemma c33_spreading_ignores_high_bits_refuted_lemma :
  ~ (forall v, v < 256 -> add_zero_before_every_bit_u8 v = add_zero_before_every_bit_u8 (v mod 16))
  /\ ~ (forall v, v < 256 -> add_zero_behind_every_bit_u8 v = add_zero_behind_every_bit_u8 (v mod 16))
  /\ ~ (forall v, v < 2 ^ 16 -> add_zero_before_every_bit_u16 v = add_zero_before_every_bit_u16 (v mod 256)).
Proof.
  split; [|split]; intro H.
  - specialize (H 16 eq_refl). vm_compute in H. discriminate.
  - specialize (H 16 eq_refl). vm_compute in H. discriminate.
  - specialize (H 256 eq_refl). vm_compute in H. discriminate.
Qed.

(* ---------- C34 ---------- *)
Lemma c34_align_zero_lemma : forall c t x, align_to c t x 0 = Ret x.
Proof. exact align_zero. Qed.
Lemma c34_align_to_partial_lemma : forall c t x a, x < 2 ^ BITS c t -> 0 < a -> x + a < 2 ^ BITS c t ->
  exists r, align_to c t x a = Ret r /\ r < 2 ^ BITS c t
    /\ (exists q, r = q * a) /\ x <= r /\ forall q, x <= q * a -> r <= q * a.
Proof.
  intros c t x a Hx Ha H. destruct (align_ok c t x a Hx Ha) as (r & E & R); [lia|]. exists r. split; [exact E|].
  destruct R as (Q & L & M). split; [|split; [exact Q|split; [exact L|exact M]]].
  assert (B : r <= x + a).
  { assert (x <= (x / a + 1) * a). { pose proof (N.div_mod x a ltac:(lia)). pose proof (N.mod_lt x a ltac:(lia)). nia. }
    specialize (M _ H0). assert (x / a * a <= x) by (pose proof (N.div_mod x a ltac:(lia)); nia). nia. }
  lia.
Qed.
(* near the top of the type the sum overflows: a panic with overflow checks *)
Lemma c34_align_to_overflow_lemma : forall c t x a, 0 < a -> 2 ^ BITS c t <= x + a -> overflow_checks c = true ->
  align_to c t x a = Panic.
Proof. exact align_panic. Qed.
(* and without them a wrong zero, except when the sum is exactly 2^BITS *)
Lemma c34_align_to_wraps_lemma : forall c t x a, x < 2 ^ BITS c t -> 0 < a -> a < 2 ^ BITS c t -> 2 ^ BITS c t < x + a ->
  overflow_checks c = false -> align_to c t x a = Ret 0.
Proof.
  intros c t x a Hx Ha Ha' H HO. unfold align_to. cbv zeta. destruct (N.eqb_spec a 0); [lia|].
  set (P := 2 ^ BITS c t) in *. assert (HP : P <> 0) by lia. unfold add, sub, mul, cast. rewrite HO. fold P.
  destruct (N.ltb_spec (x + a) P); [lia|]. rewrite bind_ret.
  assert (E1 : (x + a) mod P = x + a - P).
  { symmetry. apply (N.mod_unique (x + a) P 1); lia. }
  rewrite E1. destruct (N.leb_spec 1 (x + a - P)); [|lia]. rewrite bind_ret.
  rewrite (N.div_small (x + a - P - 1) a) by lia. rewrite N.mul_0_l. destruct (N.ltb_spec 0 P); [reflexivity|lia].
Qed.
Lemma c34_align_to_refuted_lemma :
  ~ (forall c t x a, x < 2 ^ BITS c t -> 0 < a -> (exists q, x <= q * a < 2 ^ BITS c t) ->
     exists r, align_to c t x a = Ret r /\ rounded_up x a r).
Proof.
  intro H. destruct (H (Cfg true PW64 LittleEndian) U8 248 8) as (r & E & _); [reflexivity|reflexivity|exists 31; vm_compute; split; [discriminate|reflexivity]|].
  vm_compute in E. discriminate.
Qed.

(* ---------- C37 ---------- *)
Lemma c37_from_u8_slice_lemma : forall c t bytes e, Forall (fun b => b < 256) bytes ->
  let n := BITS c t / 8 in
  let used := firstn (N.to_nat n) (bytes ++ repeat 0 (N.to_nat (n - len bytes))) in
  num_from_u8_slice c t bytes e = bytes_value (match e with LittleEndian => used | BigEndian => rev used end)
  /\ len used = n.
Proof.
  intros c t bytes e HB n used. rewrite num_from_u8_slice_spec by exact HB. split.
  - unfold from_bytes, from_be_bytes. destruct e; rewrite from_le_bytes_value; reflexivity.
  - apply padded_len.
Qed.
Lemma c37_slice_round_trip_lemma : forall c t v, v < 2 ^ BITS c t ->
  num_from_u8_slice c t (num_as_u8_slice c t v) (target_endian c) = v
  /\ len (num_as_u8_slice c t v) = BITS c t / 8.
Proof.
  intros c t v Hv. split; [|apply len_as_u8_slice].
  rewrite num_from_u8_slice_spec by apply bytes_ok_to_bytes. unfold padded. rewrite len_as_u8_slice, N.sub_diag.
  unfold zeros. cbn [N.to_nat repeat]. rewrite app_nil_r. rewrite <- (len_as_u8_slice c t v), to_nat_len, firstn_all.
  unfold num_as_u8_slice. apply from_to_bytes. rewrite N2Nat.id, num_size_8. exact Hv.
Qed.
(* reading the bytes of one type as a wider or narrower type on a little-endian target extends or truncates *)
Lemma c37_slice_between_types_lemma : forall c t t' v, v < 2 ^ BITS c t -> target_endian c = LittleEndian ->
  num_from_u8_slice c t' (num_as_u8_slice c t v) LittleEndian = v mod 2 ^ BITS c t'.
Proof.
  intros c t t' v Hv HE. rewrite num_from_u8_slice_spec by apply bytes_ok_to_bytes.
  unfold from_bytes. rewrite from_le_bytes_value. unfold padded.
  set (l := num_as_u8_slice c t v). assert (Bl : bytes_ok l) by apply bytes_ok_to_bytes.
  assert (Vl : bytes_value l = v) by (apply bytes_value_as_u8_slice; assumption).
  set (n := num_size c t'). assert (Hn : 8 * n = BITS c t') by apply num_size_8.
  assert (V2 : bytes_value (l ++ zeros (n - len l)) = v) by (rewrite bytes_value_app, bytes_value_zeros, Vl; lia).
  assert (B2 : bytes_ok (l ++ zeros (n - len l))) by (apply bytes_ok_app; [exact Bl|apply bytes_ok_zeros]).
  assert (L2 : n <= len (l ++ zeros (n - len l))) by (rewrite len_app, len_zeros; lia).
  set (l2 := l ++ zeros (n - len l)) in *. clearbody l2.
  rewrite <- V2, <- Hn. rewrite <- (firstn_skipn (N.to_nat n) l2) at 2. rewrite bytes_value_app.
  assert (EL : len (firstn (N.to_nat n) l2) = n) by (rewrite len_firstn by exact L2; reflexivity). rewrite EL.
  rewrite (N.mul_comm (2 ^ (8 * n))), N.mod_add by apply pow2_ne0. symmetry. apply N.mod_small.
  rewrite <- EL at 2. apply bytes_value_lt. apply bytes_ok_firstn. exact B2.
Qed.
(* Vec<u8>: the bytes are kept, in reversed order if they are not in native order *)
Lemma c37_vec_from_u8_slice_lemma : forall c bytes e, 
  (e = target_endian c -> vec_from_u8_slice c bytes e = bytes)
  /\ (e <> target_endian c -> vec_from_u8_slice c bytes e = rev bytes)
  /\ vec_from_u8_slice c (vec_from_u8_slice c bytes e) e = bytes
  /\ vec_size (vec_from_u8_slice c bytes e) = len bytes.
Proof.
  intros c bytes e. split; [intros ->; unfold vec_from_u8_slice; destruct (target_endian c); reflexivity|].
  split; [intro N; unfold vec_from_u8_slice; destruct e, (target_endian c); (reflexivity || contradiction)|].
  unfold vec_from_u8_slice, vec_size. destruct (endianness_eqb e (target_endian c)).
  - split; reflexivity.
  - split; [apply rev_involutive|unfold len; rewrite rev_length; reflexivity].
Qed.
(* Vec<u8> to integer and back: as_uN succeeds exactly on vectors of the right length (u8: non-empty ones) *)
Lemma c37_vec_as_lemma : forall c t l, t <> U8 ->
  vec_as c t l = if len l =? BITS c t / 8
                 then Ret (bytes_value (match target_endian c with LittleEndian => l | BigEndian => rev l end)) else Panic.
Proof.
  intros c t l Ht. unfold vec_as. change (num_size c t) with (BITS c t / 8).
  assert (E : from_bytes (target_endian c) l = bytes_value (match target_endian c with LittleEndian => l | BigEndian => rev l end)).
  { unfold from_bytes, from_be_bytes. destruct (target_endian c); apply from_le_bytes_value. }
  rewrite E. destruct t; try reflexivity. contradiction.
Qed.
Lemma c37_vec_from_as_lemma : forall c t v, v < 2 ^ BITS c t -> vec_as c t (vec_from c t v) = Ret v.
Proof.
  intros c t v Hv. unfold vec_from. assert (L : len (num_as_u8_slice c t v) = num_size c t) by apply len_as_u8_slice.
  assert (E : from_bytes (target_endian c) (num_as_u8_slice c t v) = v).
  { unfold num_as_u8_slice. apply from_to_bytes. rewrite N2Nat.id, num_size_8. exact Hv. }
  unfold vec_as. destruct t; try (rewrite L, N.eqb_refl, E; reflexivity).
  unfold vec_as_u8. destruct (num_as_u8_slice c U8 v) as [|b [|b' l]] eqn:EB.
  - discriminate L.
  - unfold vec_get. cbn. f_equal. rewrite <- E. destruct (target_endian c); cbn; lia.
  - change (num_size c U8) with 1 in L. rewrite !len_cons in L. lia.
Qed.
