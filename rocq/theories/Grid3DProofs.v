(* Grid3DProofs.v - from_grid_index of the three 3D storages *)
From Verif Require Import Base ModelNumber ModelDim ModelStorage Model2D Model3D Spec BitProofs NumberProofs VecProofs CellProofs StorageProofs ConvProofs GridProofs Grid2DProofs.

Local Notation zero_cells D n := (repeat (cell_zero D) (N.to_nat n)).

(* the coordinate whose bits are bit q of the octants *)
Definition sel (o : octant_ordering) (x y z q : N) : N := if q =? ox_bit o then x else if q =? oy_bit o then y else z.
Lemma sel_x o x y z : sel o x y z (ox_bit o) = x.
Proof. destruct o; reflexivity. Qed.
Lemma sel_y o x y z : sel o x y z (oy_bit o) = y.
Proof. destruct o; reflexivity. Qed.
Lemma sel_z o x y z : sel o x y z (oz_bit o) = z.
Proof. destruct o; reflexivity. Qed.
Lemma o_bits_lt o : ox_bit o < 3 /\ oy_bit o < 3 /\ oz_bit o < 3.
Proof. destruct o; cbn; lia. Qed.
Lemma sel_map (f : N -> N) o x y z q : sel o (f x) (f y) (f z) q = f (sel o x y z q).
Proof. unfold sel. destruct (q =? ox_bit o), (q =? oy_bit o); reflexivity. Qed.
Lemma sel_ind (P : N -> Prop) o x y z q : P x -> P y -> P z -> P (sel o x y z q).
Proof. unfold sel. destruct (q =? ox_bit o), (q =? oy_bit o); auto. Qed.
Lemma sel_cases o x y z q : q < 3 -> 
  (q = ox_bit o /\ sel o x y z q = x) \/ (q = oy_bit o /\ sel o x y z q = y) \/ (q = oz_bit o /\ sel o x y z q = z).
Proof. intros Hq. assert (q = 0 \/ q = 1 \/ q = 2) as [-> | [-> | ->]] by lia; destruct o; cbn; auto. Qed.

Definition inter3 (o : octant_ordering) (x y z v : N) : Prop :=
  forall i q, q < 3 -> N.testbit v (3 * i + q) = N.testbit (sel o x y z q) i.

Lemma split3 j : exists i q, j = 3 * i + q /\ q < 3.
Proof. exists (j / 3), (j mod 3). lia. Qed.
Lemma inter3_lt o x y z v m : inter3 o x y z v -> x < 2 ^ m -> y < 2 ^ m -> z < 2 ^ m -> v < 2 ^ (3 * m).
Proof.
  intros I Hx Hy Hz. apply lt_pow2_testbit. intros j Hj. destruct (split3 j) as (i & q & -> & Hq).
  rewrite I by exact Hq. apply (testbit_high _ m); [|lia]. apply (sel_ind (fun a => a < 2 ^ m)); assumption.
Qed.

(* ---------- one chunk ---------- *)
Lemma shifted_spread c w n sp x s i q : 3 * n <= w -> 3 <= w -> s < 3 -> q < 3 -> x < 2 ^ n ->
  (forall i p, p < 3 -> N.testbit (sp x) (3 * i + p) = (p =? 0) && N.testbit x i) ->
  exists v, shl c w (sp x) s = Ret v /\ N.testbit v (3 * i + q) = (q =? s) && N.testbit x i.
Proof.
  intros Hn Hw Hs Hq Hx Hsp. rewrite shl_ok by lia. eexists. split; [reflexivity|]. tb.
  destruct (N.leb_spec s (3 * i + q)) as [A|A].
  - destruct (N.leb_spec s q) as [B|B].
    + replace (3 * i + q - s) with (3 * i + (q - s)) by lia. rewrite Hsp by lia. cbn [andb].
      replace (q - s =? 0) with (q =? s) by (destruct (N.eqb_spec q s), (N.eqb_spec (q - s) 0); lia || reflexivity).
      destruct (N.ltb_spec (3 * i + q) w); [reflexivity|]. rewrite (testbit_high x n) by (assumption || lia).
      rewrite andb_false_r. reflexivity.
    + replace (3 * i + q - s) with (3 * (i - 1) + (3 + q - s)) by lia. rewrite Hsp by lia.
      destruct (N.eqb_spec (3 + q - s) 0); [lia|]. destruct (N.eqb_spec q s); [lia|]. cbn [andb]. apply andb_false_r.
  - destruct (N.eqb_spec q s); [lia|]. cbn [andb]. apply andb_false_r.
Qed.

Section Chunk.
  Variables (c : cfg) (w n : N) (sp : N -> N).
  Hypothesis Hn : 3 * n <= w.
  Hypothesis Hw : 3 <= w.
  Hypothesis Hsp : forall x i p, x < 2 ^ n -> p < 3 -> N.testbit (sp x) (3 * i + p) = (p =? 0) && N.testbit x i.
  Lemma chunk_generic o x y z : x < 2 ^ n -> y < 2 ^ n -> z < 2 ^ n ->
    exists ch, (let '(x_shift, y_shift, z_shift) := get_bit_shifts_for_xyz o in
      let! a := shl c w (sp x) x_shift in
      let! b := shl c w (sp y) y_shift in
      let! d := shl c w (sp z) z_shift in
      Ret (N.lor (N.lor a b) d)) = Ret ch /\ inter3 o x y z ch.
  Proof.
    intros Hx Hy Hz.
    assert (E : get_bit_shifts_for_xyz o = (ox_bit o, oy_bit o, oz_bit o)) by (destruct o; reflexivity).
    rewrite E. destruct (o_bits_lt o) as (B1 & B2 & B3).
    rewrite !shl_ok by lia. cbn [bind]. eexists. split; [reflexivity|].
    intros i q Hq. rewrite !N.lor_spec.
    assert (G : forall u s, u < 2 ^ n -> s < 3 -> N.testbit (cast w (N.shiftl (sp u) s)) (3 * i + q) = (q =? s) && N.testbit u i).
    { intros u s Hu Hs. destruct (shifted_spread c w n sp u s i q) as (v & Ev & Tv); auto.
      rewrite shl_ok in Ev by lia. injection Ev as <-. exact Tv. }
    rewrite !G by assumption.
    destruct (sel_cases o x y z q Hq) as [[-> ->]|[[-> ->]|[-> ->]]]; destruct o; cbn; rewrite ?orb_false_r; reflexivity.
  Qed.
End Chunk.

Lemma grid_chunk_3d_u64_ok c o x y z : x < 2 ^ 21 -> y < 2 ^ 21 -> z < 2 ^ 21 ->
  exists ch, grid_chunk_3d_u64 c (cast 32 x) (cast 32 y) (cast 32 z) (get_bit_shifts_for_xyz o) = Ret ch /\ inter3 o x y z ch.
Proof.
  intros Hx Hy Hz. assert (P : 2 ^ 21 < 2 ^ 32) by reflexivity. rewrite !cast_small by lia.
  apply (chunk_generic c 64 21); try lia; try assumption.
  intros v i p Hv Hp. rewrite spread_two_u32 by lia. destruct (N.ltb_spec i 21); [rewrite andb_true_r; reflexivity|].
  rewrite (testbit_high v 21) by (assumption || lia). rewrite !andb_false_r. reflexivity.
Qed.
Lemma grid_chunk_3d_u32_ok c o x y z : x < 2 ^ 8 -> y < 2 ^ 8 -> z < 2 ^ 8 ->
  exists ch, grid_chunk_3d_u32 c (cast 8 x) (cast 8 y) (cast 8 z) (get_bit_shifts_for_xyz o) = Ret ch /\ inter3 o x y z ch.
Proof.
  intros Hx Hy Hz. rewrite !cast_small by lia.
  apply (chunk_generic c 32 8); try lia; try assumption.
  intros v i p Hv Hp. apply spread_two_u8; assumption.
Qed.

(* writing the chunk with the bits m*k .. m*k+m of the coordinates *)
Lemma put_chunk_3d c t M left m k o x y z v ch : BITS c t = left + 3 * M -> m * k < M -> 0 < m -> left < 3 ->
  x < 2 ^ M -> y < 2 ^ M -> z < 2 ^ M -> v < 2 ^ BITS c t ->
  inter3 o (bits_of x (m * k) m) (bits_of y (m * k) m) (bits_of z (m * k) m) ch ->
  let s := left + 3 * (m * k) in let e := N.min (s + 3 * m) (BITS c t) in
  exists v', num_set_bits c t v s e (num_from c t ch) = Ret v' /\ v' < 2 ^ BITS c t
    /\ (forall j, j < left -> N.testbit v' j = N.testbit v j)
    /\ (forall i q, q < 3 -> N.testbit v' (left + (3 * i + q))
         = if (m * k <=? i) && (i <? m * k + m) then N.testbit (sel o x y z q) i else N.testbit v (left + (3 * i + q))).
Proof.
  intros HB Hk Hm Hleft Hx Hy Hz Hv I s e.
  set (n := N.min m (M - m * k)).
  assert (Hes : e - s = 3 * n) by (unfold e, s, n; lia).
  assert (Hbn : forall u, u < 2 ^ M -> bits_of u (m * k) m < 2 ^ n).
  { intros u Hu. apply lt_pow2_testbit. intros i Hi. rewrite testbit_bits_of. unfold n in Hi.
    destruct (N.ltb_spec i m); [cbn [andb]|reflexivity]. apply (testbit_high u M); [exact Hu|lia]. }
  assert (Hch : ch < 2 ^ (3 * n)) by (apply (inter3_lt o _ _ _ ch n I); apply Hbn; assumption).
  assert (HchB : ch < 2 ^ BITS c t).
  { eapply N.lt_le_trans; [exact Hch|]. apply pow2_le_mono. unfold n. lia. }
  exists (put v s (3 * n) ch). split; [|split; [|split]].
  - unfold num_from. rewrite cast_small by exact HchB. rewrite num_set_bits_ok.
    + rewrite Hes. reflexivity.
    + exact Hv.
    + unfold e, s. lia.
    + unfold e. lia.
    + unfold s. lia.
    + rewrite Hes. exact Hch.
  - apply put_lt; [exact Hv|]. unfold s, n. lia.
  - intros j Hj. rewrite testbit_put. destruct (N.leb_spec s j); [unfold s in *; lia|reflexivity].
  - intros i q Hq. rewrite testbit_put.
    destruct (N.leb_spec (m * k) i) as [A|A].
    + destruct (N.leb_spec s (left + (3 * i + q))); [|unfold s in *; lia].
      replace (left + (3 * i + q) - s) with (3 * (i - m * k) + q) by (unfold s; lia).
      rewrite I by exact Hq. rewrite (sel_map (fun u => bits_of u (m * k) m)), testbit_bits_of.
      replace (i - m * k + m * k) with i by lia.
      destruct (N.ltb_spec i (m * k + m)) as [B|B]; cbn [andb].
      * destruct (N.ltb_spec (i - m * k) m); [|lia]. cbn [andb].
        destruct (N.ltb_spec (left + (3 * i + q)) (s + 3 * n)) as [C|C]; [reflexivity|].
        assert (Hi : M <= i) by (unfold s, n in C; lia).
        rewrite (testbit_high v (BITS c t)) by (assumption || lia).
        rewrite (testbit_high (sel o x y z q) M); [reflexivity| |exact Hi]. apply (sel_ind (fun a => a < 2 ^ M)); assumption.
      * destruct (N.ltb_spec (left + (3 * i + q)) (s + 3 * n)) as [C|C]; [unfold s, n in C; lia|reflexivity].
    + cbn [andb]. destruct (N.leb_spec s (left + (3 * i + q))); [unfold s in *; lia|reflexivity].
Qed.

Lemma max_levels_3d c t : let M := MAX_LEVELS c Dim3D t in
  BITS c t = BITS c t mod 3 + 3 * M /\ BITS c t mod 3 < 3 /\ 1 <= M /\ M <= 42 /\ M <> usize_bits c.
Proof.
  cbv zeta. unfold MAX_LEVELS. cbn [dim Dim3D].
  destruct (BITS_cases c t) as [E|[E|[E|[E|E]]]]; rewrite E; destruct (usize_bits_cases c) as [F|[F|F]]; rewrite F; vm_compute; intuition congruence.
Qed.

Lemma max_levels_3d_chunks c t : let M := MAX_LEVELS c Dim3D t in M < usize_bits c ->
  8 * ((M + 7) / 8) <= usize_bits c /\ (32 <= usize_bits c -> M <= 21 \/ (M = 42 /\ usize_bits c = 64)).
Proof.
  cbv zeta. unfold MAX_LEVELS. cbn [dim Dim3D].
  destruct (BITS_cases c t) as [E|[E|[E|[E|E]]]]; rewrite E; destruct (usize_bits_cases c) as [F|[F|F]]; rewrite F; vm_compute; intuition congruence.
Qed.

(* a word whose bits are those of three shifted coordinates *)
Lemma word_path3 o w v (l : list octant) x y z d sh left : holds (D:=Dim3D) w v l -> len l = d -> w = left + 3 * (d + sh) ->
  (forall i q, q < 3 -> i < d -> N.testbit v (left + (3 * (i + sh) + q)) = N.testbit (sel o x y z q) i) ->
  path_to3 o d x y z l.
Proof.
  intros H Hl Hw HI. rewrite <- Hl. destruct (o_bits_lt o) as (B1 & B2 & B3).
  apply (holds_path3 o w v l x y z H); intros i Hi.
  - replace (w - 3 * len l + 3 * i + ox_bit o) with (left + (3 * (i + sh) + ox_bit o)) by lia. rewrite HI by lia. rewrite sel_x. reflexivity.
  - replace (w - 3 * len l + 3 * i + oy_bit o) with (left + (3 * (i + sh) + oy_bit o)) by lia. rewrite HI by lia. rewrite sel_y. reflexivity.
  - replace (w - 3 * len l + 3 * i + oz_bit o) with (left + (3 * (i + sh) + oz_bit o)) by lia. rewrite HI by lia. rewrite sel_z. reflexivity.
Qed.
Lemma rest_zero3 w v left M n : w = left + 3 * M -> n <= M ->
  (forall j, j < left -> N.testbit v j = false) ->
  (forall i q, q < 3 -> i < M - n -> N.testbit v (left + (3 * i + q)) = false) ->
  rest Dim3D w v n = 0.
Proof.
  intros Hw Hn Z1 Z2. unfold rest. cbn [dim Dim3D]. apply N.bits_inj; intro j. rewrite testbit_mod, testbit_0.
  destruct (N.ltb_spec j (w - 3 * n)); [|reflexivity]. cbn [andb].
  destruct (N.lt_ge_cases j left) as [A|A]; [apply Z1; exact A|].
  destruct (split3 (j - left)) as (i & q & E & Hq). replace j with (left + (3 * i + q)) by lia. apply Z2; [exact Hq|lia].
Qed.

Lemma land_ones_mod a n : N.land a (2 ^ n - 1) = a mod 2 ^ n.
Proof. rewrite <- N.land_ones. f_equal. rewrite N.ones_equiv. lia. Qed.

(* ---------- fixed depth ---------- *)
Lemma fixed_from_grid_3d_ok c t x y z o : 32 <= usize_bits c -> MAX_LEVELS c Dim3D t < usize_bits c ->
  exists s l, fixed_from_grid_index_3d c t x y z o = Ret s /\ canon c Dim3D (KFixed t) s l
    /\ path_to3 o (MAX_LEVELS c Dim3D t) x y z l.
Proof.
  intros H32 HW. destruct (max_levels_3d c t) as (M1 & M2 & M3 & M4 & _). pose proof (pow2_usize_ge c). pose proof (usize_le64 c).
  unfold fixed_from_grid_index_3d, MAX_LEVELS_BITMASK. cbv zeta.
  set (M := MAX_LEVELS c Dim3D t) in *. cbn [dim Dim3D]. set (left := BITS c t mod 3) in *.
  destruct (N.ltb_spec (usize_bits c) M); [lia|]. destruct (N.ltb_spec M (usize_bits c)); [|lia]. rewrite bind_ret.
  rewrite !land_ones_mod. set (xb := x mod 2 ^ M). set (yb := y mod 2 ^ M). set (zb := z mod 2 ^ M).
  assert (Hx : xb < 2 ^ M) by (apply N.mod_lt, pow2_ne0). assert (Hy : yb < 2 ^ M) by (apply N.mod_lt, pow2_ne0).
  assert (Hz : zb < 2 ^ M) by (apply N.mod_lt, pow2_ne0).
  assert (PM : 2 ^ M <= 2 ^ usize_bits c) by (apply pow2_le_mono; lia).
  assert (Tx : forall q i, i < M -> N.testbit (sel o xb yb zb q) i = N.testbit (sel o x y z q) i).
  { intros q i Hi. unfold xb, yb, zb. rewrite (sel_map (fun u => u mod 2 ^ M)).
    rewrite testbit_mod. destruct (N.ltb_spec i M); [reflexivity|lia]. }
  clearbody xb yb zb.
  assert (UW : usize_bits c = 32 \/ usize_bits c = 64) by (clear - H32; destruct (usize_bits_cases c) as [E|[E|E]]; lia).
  assert (MW : M <= 21 \/ (M = 42 /\ usize_bits c = 64)).
  { apply (max_levels_3d_chunks c t HW). exact H32. }
  assert (EM : MAX_LEVELS c Dim3D t = M) by reflexivity.
  clearbody left M.
  rewrite add_ok by lia. rewrite bind_ret. set (nc := (M + 20) / 21). assert (Hnc : M <= 21 * nc /\ 21 * nc < M + 21 /\ 21 * nc <= usize_bits c /\ nc <= 2) by (clear - MW UW nc H32; lia).
  clearbody nc.
  match goal with |- context [foldM ?f (range 0 nc) 0] =>
    destruct (foldM_range_inv (fun k v => v < 2 ^ BITS c t /\ (forall j, j < left -> N.testbit v j = false) /\ forall i q, q < 3 ->
       N.testbit v (left + (3 * i + q)) = (i <? 21 * k) && N.testbit (sel o xb yb zb q) i)
      f 0 nc 0) as (v & E & Hv & HL & HI) end.
  - lia.
  - split; [apply pow2_pos|]. split; [intros; apply testbit_0|]. intros i q Hq. rewrite testbit_0. destruct (N.ltb_spec i (21 * 0)); [lia|]. reflexivity.
  - intros k v Hk (Hv & HL & HI).
    rewrite mul_ok by lia. rewrite bind_ret. rewrite add_ok by lia. rewrite bind_ret.
    rewrite (num_get_bits_ok c USize xb) by (cbn [BITS]; lia). rewrite bind_ret.
    rewrite (num_get_bits_ok c USize yb) by (cbn [BITS]; lia). rewrite bind_ret.
    rewrite (num_get_bits_ok c USize zb) by (cbn [BITS]; lia). rewrite bind_ret.
    replace (k * 21 + 21 - k * 21) with 21 by lia. replace (k * 21) with (21 * k) by lia.
    destruct (grid_chunk_3d_u64_ok c o (bits_of xb (21 * k) 21) (bits_of yb (21 * k) 21) (bits_of zb (21 * k) 21)) as (ch & E & I);
      try apply bits_of_lt.
    rewrite E, bind_ret. rewrite mul_ok by lia. rewrite bind_ret. rewrite add_ok by lia. rewrite bind_ret. rewrite add_ok by lia. rewrite bind_ret.
    destruct (put_chunk_3d c t M left 21 k o xb yb zb v ch) as (v' & E' & Hv' & HL' & HI'); try assumption; try lia.
    cbv zeta in E'. replace (k * 63 + left) with (left + 3 * (21 * k)) by lia. change (3 * 21) with 63 in E'. rewrite E'.
    exists v'. split; [reflexivity|]. split; [exact Hv'|]. split; [intros j Hj; rewrite HL' by exact Hj; apply HL; exact Hj|].
    intros i q Hq. rewrite HI' by exact Hq. rewrite HI by exact Hq.
    destruct (N.leb_spec (21 * k) i), (N.ltb_spec i (21 * k + 21)), (N.ltb_spec i (21 * k)), (N.ltb_spec i (21 * (k + 1)));
      cbn [andb]; try lia; reflexivity.
  - rewrite E, bind_ret. exists (MkFixed v).
    destruct (raw_exists c Dim3D (KFixed t) (MkFixed v) M dim3_ok Hv) as (l & Hl & Hraw).
    { cbn [width dim Dim3D]. lia. }
    assert (HI2 : forall i q, q < 3 -> N.testbit v (left + (3 * i + q)) = N.testbit (sel o xb yb zb q) i).
    { intros i q Hq. rewrite HI by exact Hq. destruct (N.ltb_spec i (21 * nc)); [reflexivity|].
      rewrite (testbit_high (sel o xb yb zb q) M); [reflexivity| |lia]. apply (sel_ind (fun a => a < 2 ^ M)); assumption. }
    exists l. split; [reflexivity|]. split.
    + unfold canon. rewrite Hl. destruct Hraw as [R1 R2 R3 R4 R5]. constructor; auto. cbn [width num fx_bits min_width] in *.
      try rewrite Hl. apply (rest_zero3 _ _ left M); auto; [lia|]. intros i q Hq Hi. lia.
    + apply (word_path3 o (BITS c t) v l x y z M 0 left).
      * exact (raw_holds _ _ _ _ _ _ _ _ Hraw).
      * exact Hl.
      * lia.
      * intros i q Hq Hi. rewrite N.add_0_r, HI2 by exact Hq. apply Tx. exact Hi.
Qed.
Lemma fixed_from_grid_3d_panic c t x y z o : usize_bits c < MAX_LEVELS c Dim3D t ->
  fixed_from_grid_index_3d c t x y z o = Panic.
Proof.
  intros H. unfold fixed_from_grid_index_3d. cbv zeta. destruct (N.ltb_spec (usize_bits c) (MAX_LEVELS c Dim3D t)); [reflexivity|lia].
Qed.

(* from_grid_index_fast *)
Lemma from_grid_index_fast_ok c x y z o : 32 <= usize_bits c ->
  exists s l, from_grid_index_fast c x y z o = Ret s /\ canon c Dim3D (KFixed U64) s l /\ path_to3 o 21 x y z l.
Proof.
  intros H32. pose proof (pow2_usize_ge c).
  unfold from_grid_index_fast, MAX_LEVELS_BITMASK. cbv zeta. change (MAX_LEVELS c Dim3D U64) with 21.
  destruct (N.ltb_spec (usize_bits c) 21); [lia|]. destruct (N.ltb_spec 21 (usize_bits c)); [|lia]. rewrite bind_ret.
  rewrite !land_ones_mod.
  destruct (grid_chunk_3d_u64_ok c o (x mod 2 ^ 21) (y mod 2 ^ 21) (z mod 2 ^ 21)) as (ch & E & I); try (apply N.mod_lt, pow2_ne0).
  rewrite E, bind_ret. rewrite shl_ok by lia. rewrite bind_ret.
  assert (Hch : ch < 2 ^ 63) by (apply (inter3_lt o _ _ _ ch 21 I); apply N.mod_lt, pow2_ne0).
  set (v := cast 64 (N.shiftl ch 1)). assert (Hv : v < 2 ^ 64) by apply cast_lt.
  assert (HB : forall j, N.testbit v (1 + j) = N.testbit ch j).
  { intro j. unfold v. tb. destruct (N.leb_spec 1 (1 + j)); [|lia]. replace (1 + j - 1) with j by lia.
    destruct (N.ltb_spec (1 + j) 64); [reflexivity|]. rewrite (testbit_high ch 63) by (assumption || lia). reflexivity. }
  assert (H0b : N.testbit v 0 = false) by (unfold v; tb; reflexivity).
  exists (MkFixed v). destruct (raw_exists c Dim3D (KFixed U64) (MkFixed v) 21 dim3_ok Hv) as (l & Hl & Hraw).
  { cbn. lia. }
  exists l. split; [reflexivity|]. split.
  - unfold canon. rewrite Hl. destruct Hraw as [R1 R2 R3 R4 R5]. constructor; auto. cbn [width num fx_bits min_width] in *.
    try rewrite Hl. apply (rest_zero3 _ _ 1 21); auto; [lia| |].
    + intros j Hj. replace j with 0 by lia. exact H0b.
    + intros i q Hq Hi. lia.
  - apply (word_path3 o 64 v l x y z 21 0 1).
    + exact (raw_holds _ _ _ _ _ _ _ _ Hraw).
    + exact Hl.
    + reflexivity.
    + intros i q Hq Hi. rewrite N.add_0_r, HB, I by exact Hq. rewrite (sel_map (fun u => u mod 2 ^ 21)).
      rewrite testbit_mod. destruct (N.ltb_spec i 21); [reflexivity|lia].
Qed.
Lemma from_grid_index_fast_eq c x y z o : from_grid_index_fast c x y z o = fixed_from_grid_index_3d c U64 x y z o.
Proof.
  destruct (usize_bits_cases c) as [E|E].
  - rewrite fixed_from_grid_3d_panic by (rewrite E; reflexivity). unfold from_grid_index_fast. cbv zeta.
    rewrite E. reflexivity.
  - destruct (from_grid_index_fast_ok c x y z o) as (s & l & E1 & C1 & P1); [lia|].
    destruct (fixed_from_grid_3d_ok c U64 x y z o) as (s' & l' & E2 & C2 & P2); [lia|change (MAX_LEVELS c Dim3D U64) with 21; lia|].
    change (MAX_LEVELS c Dim3D U64) with 21 in P2. pose proof (path_to3_unique _ _ _ _ _ _ _ P1 P2). subst l'.
    pose proof (canon_unique c Dim3D (KFixed U64) s s' l dim3_ok C1 C2). subst. rewrite E1, E2. reflexivity.
Qed.

(* ---------- static ---------- *)
Definition clear_low (n x : N) : N := x / 2 ^ n * 2 ^ n.
Lemma testbit_clear_low n x i : N.testbit (clear_low n x) i = (n <=? i) && N.testbit x i.
Proof.
  unfold clear_low. tb. destruct (N.leb_spec n i); [|reflexivity]. replace (i - n + n) with i by lia. reflexivity.
Qed.
Lemma clear_low_0 x : clear_low 0 x = x.
Proof. unfold clear_low. change (2 ^ 0) with 1. rewrite N.div_1_r. lia. Qed.
(* number of low coordinate bits that from_grid_index drops at depth d *)
Definition dropped (M d : N) : N := 8 * ((M + 7) / 8 - (d + 7) / 8) - (M - d).

Lemma static_from_grid_3d_gen c t x y z d o : MAX_LEVELS c Dim3D t < usize_bits c ->
  x < 2 ^ usize_bits c -> y < 2 ^ usize_bits c -> z < 2 ^ usize_bits c -> d <= MAX_LEVELS c Dim3D t ->
  let n := dropped (MAX_LEVELS c Dim3D t) d in
  exists s l, static_from_grid_index_3d c t x y z d o = Ret (Ok s) /\ canon c Dim3D (KStatic t) s l
    /\ path_to3 o d (clear_low n x) (clear_low n y) (clear_low n z) l.
Proof.
  intros HW Hx Hy Hz Hd. destruct (max_levels_3d c t) as (M1 & M2 & M3 & M4 & M5). pose proof (pow2_usize_ge c). pose proof (usize_le64 c).
  unfold static_from_grid_index_3d. cbv zeta.
  set (M := MAX_LEVELS c Dim3D t) in *. cbn [dim Dim3D]. set (left := BITS c t mod 3) in *.
  destruct (N.ltb_spec M d); [lia|].
  rewrite sub_ok by lia. rewrite bind_ret.
  assert (B0 : forall v, bits_of v 0 d = v mod 2 ^ d) by (intro v; unfold bits_of; rewrite N.div_1_r; reflexivity).
  rewrite (num_get_bits_ok c USize x) by (cbn [BITS]; lia || exact Hx). rewrite bind_ret. rewrite N.sub_0_r, B0.
  destruct (shift_to_max c x d M Hd) as [Ex Lx]; [lia|auto|]. rewrite Ex, bind_ret.
  rewrite (num_get_bits_ok c USize y) by (cbn [BITS]; lia || exact Hy). rewrite bind_ret. rewrite N.sub_0_r, B0.
  destruct (shift_to_max c y d M Hd) as [Ey Ly]; [lia|auto|]. rewrite Ey, bind_ret.
  rewrite (num_get_bits_ok c USize z) by (cbn [BITS]; lia || exact Hz). rewrite bind_ret. rewrite N.sub_0_r, B0.
  destruct (shift_to_max c z d M Hd) as [Ez Lz]; [lia|auto|]. rewrite Ez, bind_ret.
  set (xb := N.shiftl (x mod 2 ^ d) (M - d)) in *. set (yb := N.shiftl (y mod 2 ^ d) (M - d)) in *.
  set (zb := N.shiftl (z mod 2 ^ d) (M - d)) in *.
  assert (Tx : forall q i, i < d -> N.testbit (sel o xb yb zb q) (i + (M - d)) = N.testbit (sel o x y z q) i).
  { intros q i Hi. unfold xb, yb, zb. rewrite (sel_map (fun u => N.shiftl (u mod 2 ^ d) (M - d))). clear - Hi. tb.
    destruct (N.leb_spec (M - d) (i + (M - d))); [|lia]. replace (i + (M - d) - (M - d)) with i by lia.
    destruct (N.ltb_spec i d); [reflexivity|lia]. }
  assert (Zs : forall i q, i < M - d -> N.testbit (sel o xb yb zb q) i = false).
  { intros i q Hi. unfold xb, yb, zb. rewrite (sel_map (fun u => N.shiftl (u mod 2 ^ d) (M - d))). apply N.shiftl_spec_low. exact Hi. }
  clearbody xb yb zb.
  assert (PM : 2 ^ M <= 2 ^ usize_bits c) by (apply pow2_le_mono; lia).
  assert (MW : 8 * ((M + 7) / 8) <= usize_bits c).
  { apply (max_levels_3d_chunks c t HW). }
  clearbody left M.
  assert (Mc : (M + 7) / 8 <= 6 /\ (d + 7) / 8 <= (M + 7) / 8 /\ M <= 8 * ((M + 7) / 8) /\ 8 * ((M + 7) / 8) < M + 8) by (clear - M4 Hd; lia).
  rewrite add_ok by (clear - M4 Hd H; lia). rewrite bind_ret. rewrite add_ok by (clear - M4 Hd H; lia). rewrite bind_ret.
  rewrite sub_ok by (clear - Mc; tauto). rewrite bind_ret.
  unfold dropped. set (mc := (M + 7) / 8) in *. set (cs := mc - (d + 7) / 8).
  assert (Hcs : cs <= mc) by (unfold cs; clear; lia).
  clearbody cs. destruct Mc as (Mc1 & _ & Mc2 & Mc3). clearbody mc.
  match goal with |- context [foldM ?f (rev (range cs mc)) 0] =>
    destruct (foldM_rev_range_inv (fun k v => v < 2 ^ BITS c t /\ (forall j, j < left -> N.testbit v j = false) /\ forall i q, q < 3 ->
       N.testbit v (left + (3 * i + q)) = (8 * k <=? i) && N.testbit (sel o xb yb zb q) i)
      f cs mc 0) as (v & E & Hv & HL & HI) end.
  - lia.
  - split; [apply pow2_pos|]. split; [intros; apply testbit_0|]. intros i q Hq. rewrite testbit_0.
    destruct (N.leb_spec (8 * mc) i); [|reflexivity].
    rewrite (testbit_high (sel o xb yb zb q) M); [reflexivity| |lia]. apply (sel_ind (fun a => a < 2 ^ M)); assumption.
  - intros k v Hk (Hv & HL & HI).
    rewrite mul_ok by lia. rewrite bind_ret. rewrite add_ok by lia. rewrite bind_ret.
    rewrite (num_get_bits_ok c USize xb) by (cbn [BITS]; lia). rewrite bind_ret.
    rewrite (num_get_bits_ok c USize yb) by (cbn [BITS]; lia). rewrite bind_ret.
    rewrite (num_get_bits_ok c USize zb) by (cbn [BITS]; lia). rewrite bind_ret.
    replace (k * 8 + 8 - k * 8) with 8 by lia. replace (k * 8) with (8 * k) by lia.
    destruct (grid_chunk_3d_u32_ok c o (bits_of xb (8 * k) 8) (bits_of yb (8 * k) 8) (bits_of zb (8 * k) 8)) as (ch & E & I);
      try apply bits_of_lt.
    rewrite E, bind_ret. rewrite mul_ok by lia. rewrite bind_ret. rewrite add_ok by lia. rewrite bind_ret. rewrite add_ok by lia. rewrite bind_ret.
    destruct (put_chunk_3d c t M left 8 k o xb yb zb v ch) as (v' & E' & Hv' & HL' & HI'); try assumption; try lia.
    cbv zeta in E'. replace (k * 24 + left) with (left + 3 * (8 * k)) by lia. change (3 * 8) with 24 in E'. rewrite E'.
    exists v'. split; [reflexivity|]. split; [exact Hv'|]. split; [intros j Hj; rewrite HL' by exact Hj; apply HL; exact Hj|].
    intros i q Hq. rewrite HI' by exact Hq. rewrite HI by exact Hq.
    destruct (N.leb_spec (8 * k) i), (N.ltb_spec i (8 * k + 8)), (N.leb_spec (8 * (k + 1)) i);
      cbn [andb]; try lia; reflexivity.
  - rewrite E, bind_ret. rewrite (cast_small 8) by (change (2 ^ 8) with 256; lia). exists (MkStatic v d).
    destruct (raw_exists c Dim3D (KStatic t) (MkStatic v d) d dim3_ok Hv) as (l & Hl & Hraw).
    { cbn [width dim Dim3D]. lia. }
    exists l. split; [reflexivity|]. split.
    + unfold canon. rewrite Hl. destruct Hraw as [R1 R2 R3 R4 R5]. constructor; auto. cbn [width num sx_bits min_width] in *.
      try rewrite Hl. apply (rest_zero3 _ _ left M); auto.
      intros i q Hq Hi. rewrite HI by exact Hq. rewrite Zs by lia. apply andb_false_r.
    + apply (word_path3 o (BITS c t) v l _ _ _ d (M - d) left).
      * exact (raw_holds _ _ _ _ _ _ _ _ Hraw).
      * exact Hl.
      * lia.
      * intros i q Hq Hi. rewrite HI by exact Hq. rewrite Tx by exact Hi.
        rewrite (sel_map (clear_low (8 * cs - (M - d)))), testbit_clear_low.
        destruct (N.leb_spec (8 * cs) (i + (M - d))), (N.leb_spec (8 * cs - (M - d)) i); lia || reflexivity.
Qed.
Lemma static_from_grid_3d_err c t x y z d o : MAX_LEVELS c Dim3D t < d ->
  static_from_grid_index_3d c t x y z d o = Ret (Err (DepthLimitedExceeded (MAX_LEVELS c Dim3D t))).
Proof.
  intros H. unfold static_from_grid_index_3d. cbv zeta.
  destruct (N.ltb_spec (MAX_LEVELS c Dim3D t) d); [reflexivity|lia].
Qed.

(* ---------- dynamic ---------- *)
(* writing all levels of a zeroed index *)
Lemma fill_cells c D k n w r s0 f (l : list (cell D)) : dim_ok D ->
  raw c D k n w r s0 (zero_cells D (len l)) ->
  (forall s i x, nth_error l (N.to_nat i) = Some x -> f s i = st_set (ops c D k) s i x) ->
  exists s', foldM f (range 0 (len l)) s0 = Ret s' /\ raw c D k n w r s' (map (stored c D k) l).
Proof.
  intros HD H0 Hf.
  destruct (foldM_range_inv (fun i s1 => raw c D k n w r s1 (map (stored c D k) (firstn (N.to_nat i) l) ++ zero_cells D (len l - i)))
     f 0 (len l) s0) as (s' & E & H').
  - lia.
  - change (N.to_nat 0) with O. cbn [firstn map app]. rewrite N.sub_0_r. exact H0.
  - intros i s1 Hi H1. destruct (nth_error_N_lt l i) as [x Hx]; [lia|]. rewrite (Hf s1 i x Hx).
    destruct (raw_set_w c D k _ _ _ s1 _ i x HD H1) as (s2 & E2 & H2).
    + rewrite len_app, len_map, len_firstn, len_repeat by lia. lia.
    + exists s2. split; [exact E2|]. revert H2.
      replace (N.to_nat (len l - i)) with (S (N.to_nat (len l - (i + 1)))) by lia. cbn [repeat].
      replace (N.to_nat i) with (List.length (map (stored c D k) (firstn (N.to_nat i) l))) at 2 by (rewrite map_length, firstn_length; unfold len in *; lia).
      rewrite update_app_last. rewrite (firstn_nth_snoc l i x Hx), map_app. rewrite <- app_assoc. auto.
  - exists s'. split; [exact E|]. rewrite N.sub_diag, to_nat_len, firstn_all in H'. cbn [N.to_nat repeat] in H'.
    rewrite app_nil_r in H'. exact H'.
Qed.

Definition octant_of (i : N) : octant := match octant_try_from i with Ok q => q | Err _ => O0 end.
Lemma octant_of_ok i : i < 8 -> octant_try_from i = Ok (octant_of i) /\ octant_index (octant_of i) = i.
Proof.
  intros H. assert (i = 0 \/ i = 1 \/ i = 2 \/ i = 3 \/ i = 4 \/ i = 5 \/ i = 6 \/ i = 7) as E by lia.
  repeat (destruct E as [E|E]; [subst; split; reflexivity|]); subst; split; reflexivity.
Qed.
Definition octant_bits (o : octant_ordering) (bx by_ bz : bool) : N :=
  N.lor (N.lor (N.shiftl (N.b2n bx) (ox_bit o)) (N.shiftl (N.b2n by_) (oy_bit o))) (N.shiftl (N.b2n bz) (oz_bit o)).
Lemma octant_bits_ok o bx by_ bz : octant_bits o bx by_ bz < 8 
  /\ oct_x o (octant_of (octant_bits o bx by_ bz)) = N.b2n bx
  /\ oct_y o (octant_of (octant_bits o bx by_ bz)) = N.b2n by_
  /\ oct_z o (octant_of (octant_bits o bx by_ bz)) = N.b2n bz.
Proof. destruct o, bx, by_, bz; vm_compute; auto. Qed.
(* the path to a grid cell *)
Definition path3 (o : octant_ordering) (d x y z : N) : list octant :=
  map (fun k => octant_of (octant_bits o (N.testbit x (d - k - 1)) (N.testbit y (d - k - 1)) (N.testbit z (d - k - 1)))) (range 0 d).

Lemma coord_map_bits {A} (off : A -> N) (f : N -> A) v d : (forall k, k < d -> off (f k) = N.b2n (N.testbit v (d - k - 1))) ->
  coord off (map f (range 0 d)) = v mod 2 ^ d.
Proof.
  intros F.
  assert (S : forall n, n < d -> 2 * (v mod 2 ^ d / 2 ^ (d - n)) + N.b2n (N.testbit v (d - n - 1)) = v mod 2 ^ d / 2 ^ (d - (n + 1))).
  { intros n Hn. clear F. apply N.bits_inj; intro i. rewrite testbit_double, !testbit_div_pow2, !testbit_mod.
    destruct (N.eqb_spec i 0) as [->|Hi].
    - replace (0 + (d - (n + 1))) with (d - n - 1) by lia. destruct (N.ltb_spec (d - n - 1) d); [reflexivity|lia].
    - replace (i - 1 + (d - n)) with (i + (d - (n + 1))) by lia. reflexivity. }
  assert (G : forall n, n <= d -> coord off (map f (range 0 n)) = v mod 2 ^ d / 2 ^ (d - n)).
  { induction n as [|n IH] using N.peano_ind; intros Hn.
    - cbn. rewrite N.sub_0_r, N.div_small by (apply N.mod_lt, pow2_ne0). reflexivity.
    - rewrite <- N.add_1_r in *. rewrite range_snoc, map_app by apply N.le_0_l. cbn [map]. rewrite coord_snoc.
      assert (Hn1 : n < d) by (clear - Hn; lia). assert (Hn2 : n <= d) by (clear - Hn; lia).
      rewrite IH, F by assumption. apply S; exact Hn1. }
  rewrite G by apply N.le_refl. rewrite N.sub_diag. change (2 ^ 0) with 1. apply N.div_1_r.
Qed.
Lemma path3_ok o d x y z : path_to3 o d x y z (path3 o d x y z).
Proof.
  split.
  - unfold path3, len. rewrite map_length. fold (len (range 0 d)). rewrite len_range. lia.
  - unfold grid3, path3.
    f_equal; [f_equal|]; apply coord_map_bits; intros k Hk; apply octant_bits_ok.
Qed.
Lemma path_to3_exists o d x y z : exists l, path_to3 o d x y z l.
Proof. eexists. apply path3_ok. Qed.

Lemma grid_octant c x y z d o level : d <= usize_bits c -> level < d ->
  (let '(x_shift, y_shift, z_shift) := get_bit_shifts_for_xyz o in
   forall (k : octant -> outcome dynamic_storage),
        (let! a := sub c (usize_bits c) d level in
        let! shift := sub c (usize_bits c) a 1 in
        let! xs := shr c (usize_bits c) (x mod 2 ^ d) shift in
        let! x_bit := shl c (usize_bits c) (N.land xs 1) x_shift in
        let! ys := shr c (usize_bits c) (y mod 2 ^ d) shift in
        let! y_bit := shl c (usize_bits c) (N.land ys 1) y_shift in
        let! zs := shr c (usize_bits c) (z mod 2 ^ d) shift in
        let! z_bit := shl c (usize_bits c) (N.land zs 1) z_shift in
        let! octant := unwrap (octant_try_from (N.lor (N.lor x_bit y_bit) z_bit)) in
        k octant)
   = k (octant_of (octant_bits o (N.testbit x (d - level - 1)) (N.testbit y (d - level - 1)) (N.testbit z (d - level - 1))))).
Proof.
  intros Hd Hl. destruct (get_bit_shifts_for_xyz o) as [[sx sy] sz] eqn:Es. intro k.
  assert (sx = ox_bit o /\ sy = oy_bit o /\ sz = oz_bit o) as (-> & -> & ->).
  { unfold ox_bit, oy_bit, oz_bit. rewrite Es. auto. }
  destruct (o_bits_lt o) as (B1 & B2 & B3). pose proof (usize_ge16 c).
  rewrite sub_ok by lia. rewrite bind_ret. rewrite sub_ok by lia. rewrite bind_ret.
  do 3 (rewrite shr_ok by lia; rewrite bind_ret; rewrite shl_ok by lia; rewrite bind_ret).
  assert (G : forall u s, s < 3 -> cast (usize_bits c) (N.shiftl (N.land (N.shiftr (u mod 2 ^ d) (d - level - 1)) 1) s)
      = N.shiftl (N.b2n (N.testbit u (d - level - 1))) s).
  { intros u s Hs.
    assert (E1 : N.land (N.shiftr (u mod 2 ^ d) (d - level - 1)) 1 = N.b2n (N.testbit u (d - level - 1))).
    { apply N.bits_inj; intro i. rewrite N.land_spec, testbit_1, testbit_b2n, testbit_shiftr, testbit_mod.
      destruct (N.eqb_spec i 0) as [->|Hi]; [|apply andb_false_r]. rewrite N.add_0_l.
      destruct (N.ltb_spec (d - level - 1) d); [|lia]. rewrite andb_true_r. reflexivity. }
    rewrite E1. apply cast_small. assert (2 ^ 3 <= 2 ^ usize_bits c) by (apply pow2_le_mono; lia).
    eapply N.lt_le_trans; [|eassumption]. assert (s = 0 \/ s = 1 \/ s = 2) as [-> | [-> | ->]] by lia; destruct (N.testbit u (d - level - 1)); vm_compute; reflexivity. }
  rewrite !G by assumption.
  fold (octant_bits o (N.testbit x (d - level - 1)) (N.testbit y (d - level - 1)) (N.testbit z (d - level - 1))).
  destruct (octant_bits_ok o (N.testbit x (d - level - 1)) (N.testbit y (d - level - 1)) (N.testbit z (d - level - 1))) as [H8 _].
  destruct (octant_of_ok _ H8) as [-> _]. reflexivity.
Qed.

Lemma dynamic_from_grid_3d_w c x y z d o : d <= usize_bits c / 2 ->
  x < 2 ^ usize_bits c -> y < 2 ^ usize_bits c -> z < 2 ^ usize_bits c ->
  exists s l, dynamic_from_grid_index_3d c x y z d o = Ret s /\ canon c Dim3D KDynamic s (map (stored c Dim3D KDynamic) l) /\ path_to3 o d x y z l.
Proof.
  intros Hd Hx Hy Hz. pose proof (pow2_usize_ge c). pose proof (usize_le64 c).
  unfold dynamic_from_grid_index_3d. cbv zeta. destruct (N.ltb_spec (usize_bits c / 2) d); [lia|].
  assert (B0 : forall v, bits_of v 0 d = v mod 2 ^ d) by (intro v; unfold bits_of; rewrite N.div_1_r; reflexivity).
  assert (Hd2 : d <= usize_bits c) by lia.
  rewrite (num_get_bits_ok c USize x) by (cbn [BITS]; lia || exact Hx). rewrite bind_ret.
  rewrite (num_get_bits_ok c USize y) by (cbn [BITS]; lia || exact Hy). rewrite bind_ret.
  rewrite (num_get_bits_ok c USize z) by (cbn [BITS]; lia || exact Hz). rewrite bind_ret.
  rewrite N.sub_0_r, !B0.
  pose proof (fun level => grid_octant c x y z d o level Hd2) as G.
  destruct (get_bit_shifts_for_xyz o) as [[sx sy] sz].
  unfold dynamic_zeroed_3d. rewrite mul_ok by lia. rewrite bind_ret. rewrite add_ok by lia. rewrite !bind_ret.
  destruct (path3_ok o d x y z) as [Lp _]. set (l := path3 o d x y z) in *.
  replace ((d * 3 + 7) / 8) with (nbytes Dim3D d) by (unfold nbytes; cbn [dim Dim3D]; f_equal; lia).
  destruct (nbytes_fit Dim3D d) as [F1 F2]. cbn [dim Dim3D] in F1, F2.
  assert (Z0 : raw c Dim3D KDynamic d (8 * nbytes Dim3D d) 0 (MkDynamic (zeros (nbytes Dim3D d)) d) (zero_cells Dim3D d)).
  { apply dynamic_zero_raw; [apply dim3_ok|cbn [dim Dim3D]; lia|lia]. }
  assert (Z1 : raw c Dim3D KDynamic d (8 * nbytes Dim3D d) 0 (MkDynamic (zeros (nbytes Dim3D d)) d) (zero_cells Dim3D (@len (cell Dim3D) l))).
  { change (cell Dim3D) with octant. rewrite Lp. exact Z0. }
  match goal with |- context [foldM ?f (range 0 d) _] =>
    destruct (fill_cells c Dim3D KDynamic _ _ _ _ f l dim3_ok Z1) as (s' & E & H') end.
  - intros s i q Hq. change (cell Dim3D) with octant in Hq. assert (Hi : i < d).
    { assert (Q : nth_error l (N.to_nat i) <> None) by congruence. apply nth_error_Some in Q. unfold len in Lp. lia. }
    unfold l, path3 in Hq.
    assert (Q : nth_error (range 0 d) (N.to_nat i) = Some i) by (rewrite nth_error_range by lia; f_equal; lia).
    apply (map_nth_error (fun k => octant_of (octant_bits o (N.testbit x (d - k - 1)) (N.testbit y (d - k - 1)) (N.testbit z (d - k - 1))))) in Q.
    rewrite Q in Hq. injection Hq as <-. rewrite G by exact Hi. reflexivity.
  - assert (Lc : @len (cell Dim3D) l = d) by exact Lp. exists s', l. rewrite Lc in E. split; [exact E|]. split; [|apply path3_ok].
    unfold canon. rewrite len_map, Lc. exact H'.
Qed.
Lemma dynamic_from_grid_3d_ok c x y z d o : d <= usize_bits c / 2 -> writable c KDynamic ->
  x < 2 ^ usize_bits c -> y < 2 ^ usize_bits c -> z < 2 ^ usize_bits c ->
  exists s l, dynamic_from_grid_index_3d c x y z d o = Ret s /\ canon c Dim3D KDynamic s l /\ path_to3 o d x y z l.
Proof.
  intros Hd HW Hx Hy Hz. destruct (dynamic_from_grid_3d_w c x y z d o Hd Hx Hy Hz) as (s & l & E & C & P).
  exists s, l. split; [exact E|]. split; [|exact P]. rewrite <- (map_stored c Dim3D KDynamic l HW). exact C.
Qed.
Lemma dynamic_from_grid_3d_panic c x y z d o : usize_bits c / 2 < d -> dynamic_from_grid_index_3d c x y z d o = Panic.
Proof.
  intros H. unfold dynamic_from_grid_index_3d. cbv zeta. destruct (N.ltb_spec (usize_bits c / 2) d); [reflexivity|lia].
Qed.
