(* FactsKinds.v - lemmas behind PropKinds.v: storage types on bits of any type (C57) and storages whose bits were replaced (C58) *)
From Coq Require Import ZifyBool ZifyNat ZifyN.
From Verif Require Import Base ModelNumber ModelDim ModelStorage Model2D Model3D ModelBits Spec BitProofs NumberProofs VecProofs CellProofs StorageProofs OrderProofs
  FactsTree FactsOrder FactsBits FactsInts.

Lemma pw_big c : 65536 <= 2 ^ usize_bits c.
Proof. unfold usize_bits. destruct (pointer c); vm_compute; discriminate. Qed.
Lemma BITS_range c t : 8 <= BITS c t /\ BITS c t <= 128.
Proof. unfold BITS, usize_bits. destruct t; try destruct (pointer c); split; discriminate. Qed.

(* the positions computed by the storage types *)
Lemma level_pos {A} c D W level (f : N -> N -> outcome A) : dim_ok D -> W < 65536 -> dim D * (level + 1) <= W ->
  (let! l1 := add c (usize_bits c) level 1 in
   let! off := mul c (usize_bits c) l1 (dim D) in
   let! start_bit := sub c (usize_bits c) W off in
   let! end_bit := add c (usize_bits c) start_bit (dim D) in
   f start_bit end_bit)
  = f (W - dim D * (level + 1)) (W - dim D * (level + 1) + dim D).
Proof.
  intros HD HW H. pose proof (pw_big c) as P. pose proof (dim_ge D HD) as G. pose proof (dim_le D HD) as G'.
  assert (level + 1 <= W) by nia.
  rewrite add_ok by lia. cbn [bind]. rewrite mul_ok by nia. cbn [bind].
  rewrite sub_ok by nia. cbn [bind]. rewrite add_ok by nia. cbn [bind].
  replace ((level + 1) * dim D) with (dim D * (level + 1)) by lia. reflexivity.
Qed.
Lemma small_pow D n : dim_ok D -> n < 2 ^ dim D -> n < 8.
Proof.
  intros HD H. apply N.lt_le_trans with (1 := H). change 8 with (2 ^ 3). apply N.pow_le_mono_r; [discriminate|]. apply (dim_le D HD).
Qed.
Lemma cast_le8 w n : 8 <= w -> n < 8 -> cast w n = n.
Proof.
  intros Hw H. apply cast_small. apply N.lt_le_trans with (1 := H). change 8 with (2 ^ 3). apply N.pow_le_mono_r; [discriminate|lia].
Qed.
Lemma usize_ge c : 16 <= usize_bits c.
Proof. unfold usize_bits. destruct (pointer c); discriminate. Qed.
Lemma field_cell D v s : dim_ok D -> exists x, cell_index D x = v / 2 ^ s mod 2 ^ dim D /\ unwrap (cell_try_from D (v / 2 ^ s mod 2 ^ dim D)) = Ret x.
Proof.
  intro HD. assert (H : v / 2 ^ s mod 2 ^ dim D < 2 ^ dim D) by (apply N.mod_lt; apply N.pow_nonzero; discriminate).
  destruct (try_total D HD _ H) as (x & E). exists x. split; [apply (try_ok D HD); exact E|]. rewrite E. reflexivity.
Qed.

(* ---------- C57 ---------- *)
Lemma c57_get_integer_lemma : forall c D L t t' v level, is_dim D L -> v < 2 ^ BITS c t' ->
  dim D * (level + 1) <= BITS c t -> BITS c t - dim D * level <= BITS c t' ->
  exists x, cell_index D x = v / 2 ^ (BITS c t - dim D * (level + 1)) mod 2 ^ dim D
    /\ fixed_type_get c D t (num_bits c t') v level = Ret x /\ static_type_get c D t (num_bits c t') v level = Ret x
    /\ (BITS c t' = BITS c t -> dynamic_type_get c D (num_bits c t') v level = Ret x).
Proof.
  intros c D L t t' v level HL Hv Hl Hp. pose proof (is_dim_ok D L HL) as HD.
  pose proof (BITS_range c t) as B. pose proof (BITS_range c t') as B'. pose proof (pw_big c) as P.
  pose proof (dim_ge D HD) as G. pose proof (dim_le D HD) as G'. pose proof (usize_ge c) as U.
  destruct (field_cell D v (BITS c t - dim D * (level + 1)) HD) as (x & Ex & Ux).
  exists x. split; [exact Ex|].
  assert (K : fixed_type_get c D t (num_bits c t') v level = Ret x).
  { unfold fixed_type_get. cbn zeta. rewrite level_pos by (assumption || lia). cbn [num_bits bo_get_bits bo_as_u8].
    rewrite c30_get_bits_lemma by (assumption || lia). cbn [bind].
    replace (_ + dim D - _) with (dim D) by lia.
    pose proof (idx_lt8 D x HD) as S. rewrite Ex in S.
    unfold num_as. rewrite (cast_le8 (BITS c U8)) by (assumption || discriminate).
    rewrite cast_le8 by (assumption || lia). exact Ux. }
  split; [exact K|]. split; [exact K|].
  intro Eb. unfold dynamic_type_get. cbn zeta. cbn [num_bits bo_size bo_get_bits_as_usize].
  rewrite mul_ok by (rewrite N.mul_comm, num_size_8; lia). cbn [bind].
  rewrite (N.mul_comm (num_size c t') 8), num_size_8, Eb. rewrite level_pos by (assumption || lia).
  rewrite c30_get_bits_as_usize_lemma by (assumption || lia). cbn [bind].
  replace (_ + dim D - _) with (dim D) by lia.
  pose proof (idx_lt8 D x HD) as S. rewrite Ex in S.
  rewrite (N.mod_small _ (2 ^ usize_bits c)) by lia. exact Ux.
Qed.
Lemma c57_set_integer_lemma : forall c D L t t' v level x, is_dim D L -> v < 2 ^ BITS c t' ->
  dim D * (level + 1) <= BITS c t -> BITS c t - dim D * level <= BITS c t' ->
  exists v', v' < 2 ^ BITS c t' /\ bits_replaced v (BITS c t - dim D * (level + 1)) (dim D) (cell_index D x) v'
    /\ fixed_type_set c D t (num_bits c t') v level x = Ret v' /\ static_type_set c D t (num_bits c t') v level x = Ret v'
    /\ (BITS c t' = BITS c t -> dynamic_type_set c D (num_bits c t') v level x = Ret v').
Proof.
  intros c D L t t' v level x HL Hv Hl Hp. pose proof (is_dim_ok D L HL) as HD.
  pose proof (BITS_range c t) as B. pose proof (BITS_range c t') as B'. pose proof (pw_big c) as P.
  pose proof (dim_ge D HD) as G. pose proof (dim_le D HD) as G'. pose proof (idx_lt8 D x HD) as S.
  set (s := BITS c t - dim D * (level + 1)).
  assert (Hs : s + dim D <= BITS c t') by (subst s; lia).
  destruct (c30_set_bits_lemma c t' v s (s + dim D) (cell_index D x)) as (v' & E & Hv' & R & _); try lia; try assumption.
  { replace (s + dim D - s) with (dim D) by lia. apply (idx_lt D HD). }
  replace (s + dim D - s) with (dim D) in R by lia.
  exists v'. split; [exact Hv'|]. split; [exact R|].
  assert (K : fixed_type_set c D t (num_bits c t') v level x = Ret v').
  { unfold fixed_type_set. cbn zeta. rewrite level_pos by (assumption || lia). cbn [num_bits bo_set_bits bo_from_u8].
    unfold num_from. rewrite (cast_le8 8) by (assumption || discriminate).
    rewrite cast_le8 by (assumption || lia). exact E. }
  split; [exact K|]. split; [exact K|].
  intro Eb. unfold dynamic_type_set. cbn zeta. cbn [num_bits bo_size bo_set_bits_from_usize].
  rewrite mul_ok by (rewrite N.mul_comm, num_size_8; lia). cbn [bind].
  rewrite (N.mul_comm (num_size c t') 8), num_size_8, Eb. rewrite level_pos by (assumption || lia).
  unfold num_set_bits_from_usize. rewrite cast_le8 by (assumption || lia). exact E.
Qed.

Lemma vec_from_u8_one c x : x < 8 -> vec_from c U8 (cast 8 x) = [x].
Proof.
  intro H. unfold vec_from, num_as_u8_slice, num_size. change (N.to_nat (BITS c U8 / 8)) with 1%nat.
  rewrite cast_le8 by (assumption || discriminate). unfold to_bytes. cbn [to_le_bytes].
  rewrite (N.mod_small x 256) by lia. destruct (target_endian c); reflexivity.
Qed.
Lemma div8 n : 8 * (n / 8) <= n /\ n < 8 * (n / 8) + 8.
Proof. pose proof (N.div_mod n 8 ltac:(discriminate)). pose proof (N.mod_lt n 8 ltac:(discriminate)). lia. Qed.
Lemma chunk_start_small s i : i < 8 -> chunk_start s i / 8 = 0.
Proof. intro H. apply N.div_small. unfold chunk_start. pose proof (div8 (s + i)). lia. Qed.
Lemma last_source_small s n : 0 < n -> n <= 8 -> last_source_byte s (s + n) = 0.
Proof. intros H H'. unfold last_source_byte. apply N.div_small. pose proof (div8 (s + n + 7)). lia. Qed.
Lemma source_bit_one en x s i : i < 8 -> source_bit en [x] s i = N.testbit x i.
Proof.
  intro H. unfold source_bit. rewrite chunk_start_small by exact H. cbn zeta. destruct en.
  - change (0 + 1 =? len [x]) with true. cbn match. change (nth (N.to_nat 0) [x] 0) with x. f_equal. lia.
  - change (bytes_value [x]) with (x + 256 * 0). rewrite N.mul_0_r, N.add_0_r. reflexivity.
Qed.
Lemma c57_set_vec_lemma : forall c D L t vec level x, is_dim D L -> Forall (fun b => b < 256) vec -> 8 * len vec + 8 <= 2 ^ usize_bits c ->
  dim D * (level + 1) <= BITS c t -> BITS c t - dim D * level <= 8 * len vec ->
  exists vec', fixed_type_set c D t (vec_bits c) vec level x = Ret vec' /\ static_type_set c D t (vec_bits c) vec level x = Ret vec'
    /\ Forall (fun b => b < 256) vec' /\ len vec' = len vec
    /\ bits_replaced (bytes_value vec) (BITS c t - dim D * (level + 1)) (dim D) (cell_index D x) (bytes_value vec').
Proof.
  intros c D L t vec level x HL Hv Hlen Hl Hp. pose proof (is_dim_ok D L HL) as HD.
  pose proof (BITS_range c t) as B. pose proof (pw_big c) as P.
  pose proof (dim_ge D HD) as G. pose proof (dim_le D HD) as G'. pose proof (idx_lt8 D x HD) as S.
  set (s := BITS c t - dim D * (level + 1)).
  assert (Hs : s + dim D <= 8 * len vec) by (subst s; lia).
  destruct (c31_vec_set_bits_every_target_lemma c vec s (s + dim D) [cell_index D x]) as (vec' & E & F & El & T); try assumption; try lia.
  { constructor; [lia|constructor]. }
  { rewrite last_source_small by lia. reflexivity. }
  exists vec'.
  assert (K : fixed_type_set c D t (vec_bits c) vec level x = Ret vec').
  { unfold fixed_type_set. cbn zeta. rewrite level_pos by (assumption || lia). cbn [vec_bits bo_set_bits bo_from_u8].
    rewrite vec_from_u8_one by exact S. exact E. }
  split; [exact K|]. split; [exact K|]. split; [exact F|]. split; [exact El|].
  intro i. rewrite T. destruct (N.leb_spec s i) as [A|A]; [|reflexivity]. cbn [andb].
  destruct (N.ltb_spec i (s + dim D)) as [A'|A']; [|reflexivity]. apply source_bit_one. lia.
Qed.
Lemma one_byte (r : list N) : len r = 1 -> exists b, r = [b].
Proof. destruct r as [|b [|b' r]]; unfold len; cbn; intro H; [discriminate H|exists b; reflexivity|lia]. Qed.
Lemma get_vec c D t vec level : dim_ok D -> Forall (fun b => b < 256) vec -> 8 * len vec + 8 <= 2 ^ usize_bits c ->
  dim D * (level + 1) <= BITS c t -> BITS c t - dim D * level <= 8 * len vec ->
  let s := BITS c t - dim D * (level + 1) in
  let e := s + dim D in
  fixed_type_get c D t (vec_bits c) vec level
  = unwrap (cell_try_from D (bytes_value vec / 2 ^ s mod 2 ^ (if (0 <? e mod 8) && (e mod 8 <? s mod 8) then 8 else dim D))).
Proof.
  intros HD Hv Hlen Hl Hp s e.
  pose proof (BITS_range c t) as B. pose proof (pw_big c) as P. pose proof (usize_ge c) as U.
  pose proof (dim_ge D HD) as G. pose proof (dim_le D HD) as G'.
  assert (Hs : e <= 8 * len vec) by (subst e s; lia).
  unfold fixed_type_get. cbn zeta. rewrite level_pos by (assumption || lia). fold s. fold e. cbn [vec_bits bo_get_bits bo_as_u8].
  destruct (c32_vec_get_bits_returns_lemma c vec s e) as (r & E & F & El & Er); try assumption; try (subst e; lia).
  rewrite E. cbn [bind].
  assert (Q : (e - s + 7) / 8 = 1).
  { replace (e - s) with (dim D) by (subst e; lia). clear - G G'. pose proof (div8 (dim D + 7)). lia. }
  rewrite Q in El, Er. destruct (one_byte r El) as (b & ->).
  change (vec_as_u8 [b]) with (Ret b). cbn [bind].
  change (bytes_value [b]) with (b + 256 * 0) in Er. rewrite N.mul_0_r, N.add_0_r in Er.
  replace (8 * 1) with 8 in Er by reflexivity. replace (e - s) with (dim D) in Er by (subst e; lia).
  rewrite <- Er. rewrite cast_small; [reflexivity|].
  apply Forall_inv in F. lia.
Qed.
Lemma even_field m k : 2 * (k + 1) <= 8 * m ->
  (0 <? (8 * m - 2 * (k + 1) + 2) mod 8) && ((8 * m - 2 * (k + 1) + 2) mod 8 <? (8 * m - 2 * (k + 1)) mod 8) = false.
Proof.
  intro H. assert (E : exists j, 8 * m - 2 * (k + 1) = 2 * j) by (exists (4 * m - (k + 1)); lia).
  destruct E as (j & ->). clear H m k.
  destruct (N.ltb_spec 0 ((2 * j + 2) mod 8)) as [A|A]; [|reflexivity]. apply N.ltb_ge. revert A.
  generalize (N.div_mod (2 * j) 8 ltac:(discriminate)), (N.mod_lt (2 * j) 8 ltac:(discriminate)),
    (N.div_mod (2 * j + 2) 8 ltac:(discriminate)), (N.mod_lt (2 * j + 2) 8 ltac:(discriminate)).
  generalize (2 * j / 8), (2 * j mod 8), ((2 * j + 2) / 8), ((2 * j + 2) mod 8). intros. lia.
Qed.
Lemma c57_get_vec_2d_lemma : forall c t vec level, Forall (fun b => b < 256) vec -> 8 * len vec + 8 <= 2 ^ usize_bits c ->
  2 * (level + 1) <= BITS c t -> BITS c t - 2 * level <= 8 * len vec ->
  exists x, quadrant_index x = bytes_value vec / 2 ^ (BITS c t - 2 * (level + 1)) mod 4
    /\ fixed_type_get c Dim2D t (vec_bits c) vec level = Ret x /\ static_type_get c Dim2D t (vec_bits c) vec level = Ret x.
Proof.
  intros c t vec level Hv Hlen Hl Hp.
  pose proof (get_vec c Dim2D t vec level dim2_ok Hv Hlen Hl Hp) as K. cbn zeta in K. cbn [dim Dim2D] in K.
  destruct (field_cell Dim2D (bytes_value vec) (BITS c t - 2 * (level + 1)) dim2_ok) as (x & Ex & Ux).
  exists x. split; [exact Ex|].
  assert (Q : (0 <? (BITS c t - 2 * (level + 1) + 2) mod 8) && ((BITS c t - 2 * (level + 1) + 2) mod 8 <? (BITS c t - 2 * (level + 1)) mod 8) = false).
  { rewrite <- (num_size_8 c t) in Hl |- *. apply even_field. lia. }
  rewrite Q in K. cbn match in K. change (2 ^ dim Dim2D) with (2 ^ 2) in Ux.
  split; [rewrite K; exact Ux|]. change (static_type_get c Dim2D t (vec_bits c) vec level) with (fixed_type_get c Dim2D t (vec_bits c) vec level).
  rewrite K. exact Ux.
Qed.
(* Octants that lie within one byte are read correctly *)
Lemma c57_get_vec_3d_partial_lemma : forall c t vec level, Forall (fun b => b < 256) vec -> 8 * len vec + 8 <= 2 ^ usize_bits c ->
  3 * (level + 1) <= BITS c t -> BITS c t - 3 * level <= 8 * len vec -> (BITS c t - 3 * (level + 1)) mod 8 <= 5 ->
  exists x, octant_index x = bytes_value vec / 2 ^ (BITS c t - 3 * (level + 1)) mod 8
    /\ fixed_type_get c Dim3D t (vec_bits c) vec level = Ret x /\ static_type_get c Dim3D t (vec_bits c) vec level = Ret x.
Proof.
  intros c t vec level Hv Hlen Hl Hp Hb.
  pose proof (get_vec c Dim3D t vec level dim3_ok Hv Hlen Hl Hp) as K. cbn zeta in K. cbn [dim Dim3D] in K.
  destruct (field_cell Dim3D (bytes_value vec) (BITS c t - 3 * (level + 1)) dim3_ok) as (x & Ex & Ux).
  exists x. split; [exact Ex|].
  set (s := BITS c t - 3 * (level + 1)) in *. clearbody s.
  assert (Q : (0 <? (s + 3) mod 8) && ((s + 3) mod 8 <? s mod 8) = false).
  { clear - Hb. destruct (N.ltb_spec 0 ((s + 3) mod 8)) as [A|A]; [|reflexivity]. apply N.ltb_ge.
    revert A Hb. generalize (N.div_mod s 8 ltac:(discriminate)), (N.mod_lt s 8 ltac:(discriminate)),
      (N.div_mod (s + 3) 8 ltac:(discriminate)), (N.mod_lt (s + 3) 8 ltac:(discriminate)).
    generalize (s / 8), (s mod 8), ((s + 3) / 8), ((s + 3) mod 8). intros. lia. }
  rewrite Q in K. cbn match in K. change (2 ^ dim Dim3D) with (2 ^ 3) in Ux.
  split; [rewrite K; exact Ux|]. change (static_type_get c Dim3D t (vec_bits c) vec level) with (fixed_type_get c Dim3D t (vec_bits c) vec level).
  rewrite K. exact Ux.
Qed.
(* For an octant that crosses into the next byte, all eight bits from its first bit on are read *)
Lemma c57_get_vec_3d_straddling_lemma : forall c t vec level, Forall (fun b => b < 256) vec -> 8 * len vec + 8 <= 2 ^ usize_bits c ->
  3 * (level + 1) <= BITS c t -> BITS c t - 3 * level <= 8 * len vec -> 5 < (BITS c t - 3 * (level + 1)) mod 8 ->
  let r := bytes_value vec / 2 ^ (BITS c t - 3 * (level + 1)) mod 256 in
  if r <? 8
  then exists x, octant_index x = r
    /\ fixed_type_get c Dim3D t (vec_bits c) vec level = Ret x /\ static_type_get c Dim3D t (vec_bits c) vec level = Ret x
  else fixed_type_get c Dim3D t (vec_bits c) vec level = Panic /\ static_type_get c Dim3D t (vec_bits c) vec level = Panic.
Proof.
  intros c t vec level Hv Hlen Hl Hp Hb r.
  pose proof (get_vec c Dim3D t vec level dim3_ok Hv Hlen Hl Hp) as K. cbn zeta in K. cbn [dim Dim3D] in K.
  change (static_type_get c Dim3D t (vec_bits c) vec level) with (fixed_type_get c Dim3D t (vec_bits c) vec level).
  assert (Q : (0 <? (BITS c t - 3 * (level + 1) + 3) mod 8) && ((BITS c t - 3 * (level + 1) + 3) mod 8 <? (BITS c t - 3 * (level + 1)) mod 8) = true).
  { set (s := BITS c t - 3 * (level + 1)) in *. clearbody s. clear - Hb. 
    revert Hb. generalize (N.div_mod s 8 ltac:(discriminate)), (N.mod_lt s 8 ltac:(discriminate)),
      (N.div_mod (s + 3) 8 ltac:(discriminate)), (N.mod_lt (s + 3) 8 ltac:(discriminate)).
    generalize (s / 8), (s mod 8), ((s + 3) / 8), ((s + 3) mod 8). intros.
    apply andb_true_intro. split; apply N.ltb_lt; lia. }
  rewrite Q in K. cbn match in K. change (2 ^ 8) with 256 in K. fold r in K. clearbody r.
  destruct (N.ltb_spec r 8) as [A|A].
  - destruct (proj1 (c28_octant_numbering_lemma r) A) as (x & E & Ex). exists x. split; [exact Ex|].
    change (cell_try_from Dim3D r) with (octant_try_from r) in K. rewrite E in K. split; exact K.
  - change (cell_try_from Dim3D r) with (octant_try_from r) in K. rewrite (proj2 (c28_octant_numbering_lemma r) A) in K. split; exact K.
Qed.
Lemma c57_get_vec_3d_refuted_lemma :
  ~ (forall c t vec level, Forall (fun b => b < 256) vec -> 8 * len vec + 8 <= 2 ^ usize_bits c ->
     3 * (level + 1) <= BITS c t -> BITS c t - 3 * level <= 8 * len vec ->
     exists x, octant_index x = bytes_value vec / 2 ^ (BITS c t - 3 * (level + 1)) mod 8
       /\ fixed_type_get c Dim3D t (vec_bits c) vec level = Ret x).
Proof.
  intro H. destruct (H (Cfg true PW64 LittleEndian) U16 [0; 0x30] 2) as (x & _ & E).
  - repeat constructor.
  - vm_compute. discriminate.
  - vm_compute. discriminate.
  - vm_compute. discriminate.
  - vm_compute in E. discriminate E.
Qed.

Lemma c57_dynamic_vec_lemma : forall c D L vec level, is_dim D L -> Forall (fun b => b < 256) vec -> 8 * len vec + 8 <= 2 ^ usize_bits c ->
  dim D * (level + 1) <= 8 * len vec ->
  let pos := 8 * len vec - dim D * (level + 1) in
  (exists x, cell_index D x = bytes_value vec / 2 ^ pos mod 2 ^ dim D /\ dynamic_type_get c D (vec_bits c) vec level = Ret x)
  /\ forall x, exists vec', dynamic_type_set c D (vec_bits c) vec level x = Ret vec'
       /\ Forall (fun b => b < 256) vec' /\ len vec' = len vec
       /\ bits_replaced (bytes_value vec) pos (dim D) (cell_index D (stored c D KDynamic x)) (bytes_value vec').
Proof.
  intros c D L vec level HL Hb Hw Hl. pose proof (is_dim_ok D L HL) as HD. cbv zeta.
  assert (S : sane c KDynamic (MkDynamic vec 0)) by (split; assumption).
  assert (P : (level + 1) * dim D <= width c KDynamic (MkDynamic vec 0)) by (cbn [width dy_bits]; lia).
  assert (F : field D (width c KDynamic (MkDynamic vec 0)) level = 8 * len vec - dim D * (level + 1)) by (unfold field; cbn [width dy_bits]; lia).
  split.
  - destruct (field_cell D (bytes_value vec) (8 * len vec - dim D * (level + 1)) HD) as (x & Ex & Ux). exists x. split; [exact Ex|].
    pose proof (get_num c D KDynamic (MkDynamic vec 0) level HD S P) as G. rewrite F in G.
    change (dynamic_type_get c D (vec_bits c) vec level = unwrap (cell_try_from D (bytes_value vec / 2 ^ (8 * len vec - dim D * (level + 1)) mod 2 ^ dim D))) in G.
    rewrite G. exact Ux.
  - intro x. destruct (set_num c D KDynamic (MkDynamic vec 0) level x HD S P) as ([b d] & E & (B & _) & W & V & _). rewrite F in V.
    change ((let! b := dynamic_type_set c D (vec_bits c) vec level x in Ret (MkDynamic b 0)) = Ret (MkDynamic b d)) in E.
    cbn [num width dy_bits] in *. destruct (dynamic_type_set c D (vec_bits c) vec level x) as [v'| |]; try discriminate E.
    cbn [bind] in E. injection E as -> _. exists b. split; [reflexivity|]. split; [exact B|]. split; [lia|].
    rewrite V. intro j. apply testbit_put.
Qed.
(* ---------- C58 ---------- *)
Lemma repr_bits c D k (s : storage k) l i x : dim_ok D -> repr c D k s l -> nth_error l (N.to_nat i) = Some x ->
  cell_index D x = num k s / 2 ^ (width c k s - dim D * (i + 1)) mod 2 ^ dim D.
Proof.
  intros HD R H. destruct (holds_get HD _ _ _ _ _ (raw_holds _ _ _ _ _ _ _ _ R) H) as (A & B).
  symmetry. unfold bits_of, field in B. rewrite <- B. do 3 f_equal. lia.
Qed.
Lemma c58_fixed_bits_lemma : forall c D L t (s : storage (KFixed t)) b, is_dim D L -> b < 2 ^ BITS c t ->
  valid c D (KFixed t) (fixed_put_bits s b)
  /\ exists l, shows (fixed_ops c D t) (fixed_put_bits s b) l /\ len l = BITS c t / dim D
     /\ forall i x, nth_error l (N.to_nat i) = Some x -> cell_index D x = b / 2 ^ (BITS c t - dim D * (i + 1)) mod 2 ^ dim D.
Proof.
  intros c D L t s b HL Hb. pose proof (is_dim_ok D L HL) as HD.
  assert (V : valid c D (KFixed t) (fixed_put_bits s b)) by exact Hb. split; [exact V|].
  destruct (valid_repr c D (KFixed t) _ HD V) as (l & R). pose proof (repr_shows _ _ _ _ _ HD R) as S.
  exists l. split; [exact S|]. split; [symmetry; exact (proj1 S)|].
  intros i x H. exact (repr_bits c D (KFixed t) _ l i x HD R H).
Qed.
Lemma c58_static_bits_lemma : forall c D L t (s : storage (KStatic t)) b, is_dim D L -> valid c D (KStatic t) s -> b < 2 ^ BITS c t ->
  valid c D (KStatic t) (static_put_bits s b)
  /\ exists l, shows (static_ops c D t) (static_put_bits s b) l /\ len l = sx_depth s
     /\ forall i x, nth_error l (N.to_nat i) = Some x -> cell_index D x = b / 2 ^ (BITS c t - dim D * (i + 1)) mod 2 ^ dim D.
Proof.
  intros c D L t s b HL Vs Hb. pose proof (is_dim_ok D L HL) as HD.
  assert (V : valid c D (KStatic t) (static_put_bits s b)) by (split; [exact Hb|exact (proj2 Vs)]). split; [exact V|].
  destruct (valid_repr c D (KStatic t) _ HD V) as (l & R). pose proof (repr_shows _ _ _ _ _ HD R) as S.
  exists l. split; [exact S|]. split; [symmetry; exact (proj1 S)|].
  intros i x H. exact (repr_bits c D (KStatic t) _ l i x HD R H).
Qed.
Lemma c58_dynamic_bits_lemma : forall c D L (s : storage KDynamic) b, is_dim D L ->
  Forall (fun x => x < 256) b -> dim D * dy_depth s <= 8 * len b -> 8 * len b + 8 <= 2 ^ usize_bits c ->
  valid c D KDynamic (dynamic_put_bits s b)
  /\ exists l, shows (dynamic_ops c D) (dynamic_put_bits s b) l /\ len l = dy_depth s
     /\ forall i x, nth_error l (N.to_nat i) = Some x -> cell_index D x = bytes_value b / 2 ^ (8 * len b - dim D * (i + 1)) mod 2 ^ dim D.
Proof.
  intros c D L s b HL Hb Hd Hw. pose proof (is_dim_ok D L HL) as HD.
  assert (V : valid c D KDynamic (dynamic_put_bits s b)) by (split; [exact Hb|]; split; assumption). split; [exact V|].
  destruct (valid_repr c D KDynamic _ HD V) as (l & R). pose proof (repr_shows _ _ _ _ _ HD R) as S.
  exists l. split; [exact S|]. split; [symmetry; exact (proj1 S)|].
  intros i x H. exact (repr_bits c D KDynamic _ l i x HD R H).
Qed.
(* with overflow checks exactly the levels that the vector has no bits for panic *)
Lemma c58_short_vector_lemma : forall c D L (s : storage KDynamic) b i, is_dim D L -> overflow_checks c = true ->
  Forall (fun x => x < 256) b -> 8 * len b + 8 <= 2 ^ usize_bits c -> i < dy_depth s -> dy_depth s < 2 ^ usize_bits c ->
  if dim D * (i + 1) <=? 8 * len b
  then exists x, get_cell_at_level (dynamic_ops c D) (dynamic_put_bits s b) i = Ret x
         /\ cell_index D x = bytes_value b / 2 ^ (8 * len b - dim D * (i + 1)) mod 2 ^ dim D
  else get_cell_at_level (dynamic_ops c D) (dynamic_put_bits s b) i = Panic.
Proof.
  intros c D L s b i HL Ho Hb Hw Hi Hd. pose proof (is_dim_ok D L HL) as HD.
  unfold get_cell_at_level. cbn [dynamic_ops st_depth st_get dynamic_put_bits dy_depth dy_bits].
  rewrite (proj2 (N.leb_gt _ _) Hi). destruct (N.leb_spec (dim D * (i + 1)) (8 * len b)) as [A|A].
  - rewrite (dynamic_get_num c D b i HD) by (assumption || lia).
    destruct (field_cell D (bytes_value b) (8 * len b - dim D * (i + 1)) HD) as (x & Ex & Ux).
    exists x. split; [|exact Ex]. rewrite <- Ux. unfold bits_of, field. rewrite (N.mul_comm (i + 1)). reflexivity.
  - unfold dynamic_get_cell. cbn zeta. unfold vec_size. rewrite mul_ok by lia. cbn [bind]. rewrite add_ok by lia. cbn [bind].
    unfold mul. destruct (N.ltb_spec ((i + 1) * dim D) (2 ^ usize_bits c)) as [B|B]; [|rewrite Ho; reflexivity]. cbn [bind].
    unfold sub. rewrite (proj2 (N.leb_gt _ _)) by lia. rewrite Ho. reflexivity.
Qed.
Lemma edited_eq c D k (s s' : storage k) l : dim_ok D -> repr c D k s l -> canon c D k s' l ->
  (idx_eq k s s' = true <-> width c k s = min_width D k c (len l) /\ rest D (width c k s) (num k s) (len l) = 0).
Proof.
  intros HD R C. split.
  - intro Q. apply idx_eq_iff in Q.
    subst s'. split; [exact (raw_width _ _ _ _ _ _ _ _ C)|]. rewrite (raw_width _ _ _ _ _ _ _ _ C). exact (raw_rest _ _ _ _ _ _ _ _ C).
  - intros (W & Z). assert (C2 : canon c D k s l).
    { unfold canon. rewrite <- W. unfold repr in R. rewrite Z in R. exact R. }
    apply idx_eq_iff. exact (canon_unique c D k s s' l HD C2 C).
Qed.
Lemma c58_fixed_equality_lemma : forall c D L t (s : storage (KFixed t)) b, is_dim D L -> b < 2 ^ BITS c t ->
  exists l s', shows (fixed_ops c D t) (fixed_put_bits s b) l /\ fixed_try_from c D t l = Ret (Ok s')
    /\ (idx_eq (KFixed t) (fixed_put_bits s b) s' = true <-> b mod 2 ^ (BITS c t mod dim D) = 0).
Proof.
  intros c D L t s b HL Hb. pose proof (is_dim_ok D L HL) as HD. pose proof (dim_ge D HD) as G.
  destruct (valid_repr c D (KFixed t) (fixed_put_bits s b) HD Hb) as (l & R). pose proof (repr_shows _ _ _ _ _ HD R) as S.
  assert (Hl : len l = MAX_LEVELS c D t) by (symmetry; exact (proj1 S)).
  destruct (fixed_try_from_ok c D t l HD) as (s' & E & C); [rewrite Hl; apply N.le_refl|].
  rewrite Hl, N.sub_diag in C. cbn [N.to_nat repeat] in C. rewrite app_nil_r in C.
  exists l, s'. split; [exact S|]. split; [exact E|].
  rewrite (edited_eq c D (KFixed t) _ s' l HD R C). cbn [width min_width num].
  assert (Hr : rest D (BITS c t) b (len l) = b mod 2 ^ (BITS c t mod dim D)).
  { rewrite Hl. unfold rest. do 2 f_equal. unfold MAX_LEVELS. pose proof (N.div_mod (BITS c t) (dim D) ltac:(lia)) as X. lia. }
  cbn [fixed_put_bits fx_bits]. rewrite Hr. split; [intros (_ & Z); exact Z|intro Z; split; [reflexivity|exact Z]].
Qed.
Lemma c58_static_equality_lemma : forall c D L t (s : storage (KStatic t)) b, is_dim D L -> valid c D (KStatic t) s -> b < 2 ^ BITS c t ->
  exists l s', shows (static_ops c D t) (static_put_bits s b) l /\ static_try_from c D t l = Ret (Ok s')
    /\ (idx_eq (KStatic t) (static_put_bits s b) s' = true <-> b mod 2 ^ (BITS c t - dim D * sx_depth s) = 0).
Proof.
  intros c D L t s b HL Vs Hb. pose proof (is_dim_ok D L HL) as HD.
  assert (V : valid c D (KStatic t) (static_put_bits s b)) by (split; [exact Hb|exact (proj2 Vs)]).
  destruct (valid_repr c D (KStatic t) _ HD V) as (l & R). pose proof (repr_shows _ _ _ _ _ HD R) as S.
  assert (Hl : len l = sx_depth s) by (symmetry; exact (proj1 S)).
  destruct (static_try_from_ok c D t l HD) as (s' & E & C); [rewrite Hl; exact (proj2 Vs)|].
  exists l, s'. split; [exact S|]. split; [exact E|].
  rewrite (edited_eq c D (KStatic t) _ s' l HD R C). cbn [width min_width num static_put_bits sx_bits]. rewrite Hl. unfold rest.
  split; [intros (_ & Z); exact Z|intro Z; split; [reflexivity|exact Z]].
Qed.
Lemma c58_dynamic_equality_lemma : forall c D L (s : storage KDynamic) b, is_dim D L -> writable c KDynamic ->
  Forall (fun x => x < 256) b -> dim D * dy_depth s <= 8 * len b -> 8 * len b + 8 <= 2 ^ usize_bits c ->
  exists l s', shows (dynamic_ops c D) (dynamic_put_bits s b) l /\ dynamic_try_from c D L l = Ret (Ok s')
    /\ (idx_eq KDynamic (dynamic_put_bits s b) s' = true
        <-> len b = (dim D * dy_depth s + 7) / 8 /\ bytes_value b mod 2 ^ (8 * len b - dim D * dy_depth s) = 0).
Proof.
  intros c D L s b HL Hwr Hb Hd Hw. pose proof (is_dim_ok D L HL) as HD.
  assert (V : valid c D KDynamic (dynamic_put_bits s b)) by (split; [exact Hb|]; split; assumption).
  destruct (valid_repr c D KDynamic _ HD V) as (l & R). pose proof (repr_shows _ _ _ _ _ HD R) as S.
  assert (Hl : len l = dy_depth s) by (symmetry; exact (proj1 S)).
  destruct (dynamic_try_from_ok c D L l HL Hwr) as (s' & E & C); [rewrite Hl; lia|].
  exists l, s'. split; [exact S|]. split; [exact E|].
  rewrite (edited_eq c D KDynamic _ s' l HD R C). cbn [width min_width num dynamic_put_bits dy_bits]. rewrite Hl. unfold rest.
  generalize ((dim D * dy_depth s + 7) / 8). intro n. split; intros (A & B); (split; [lia|exact B]).
Qed.
Lemma c58_static_comparison_lemma : forall c D L t (s s' : storage (KStatic t)) b b', is_dim D L ->
  valid c D (KStatic t) s -> valid c D (KStatic t) s' -> b < 2 ^ BITS c t -> b' < 2 ^ BITS c t ->
  exists l l', shows (static_ops c D t) (static_put_bits s b) l /\ shows (static_ops c D t) (static_put_bits s' b') l'
    /\ static_cmp c D t (static_put_bits s b) (static_put_bits s' b') = Ret (path_cmp l l').
Proof.
  intros c D L t s s' b b' HL V V' Hb Hb'. pose proof (is_dim_ok D L HL) as HD.
  destruct (valid_repr c D (KStatic t) (static_put_bits s b) HD) as (l & R); [split; [exact Hb|exact (proj2 V)]|].
  destruct (valid_repr c D (KStatic t) (static_put_bits s' b') HD) as (l' & R'); [split; [exact Hb'|exact (proj2 V')]|].
  exists l, l'. split; [exact (repr_shows c D (KStatic t) _ _ HD R)|]. split; [exact (repr_shows c D (KStatic t) _ _ HD R')|].
  exact (static_cmp_ok c D t _ _ l l' HD R R').
Qed.
Lemma c58_dynamic_comparison_lemma : forall c D L (s s' : storage KDynamic) b b', is_dim D L ->
  valid c D KDynamic (dynamic_put_bits s b) -> valid c D KDynamic (dynamic_put_bits s' b') ->
  exists l l', shows (dynamic_ops c D) (dynamic_put_bits s b) l /\ shows (dynamic_ops c D) (dynamic_put_bits s' b') l'
    /\ dynamic_cmp c D (dynamic_put_bits s b) (dynamic_put_bits s' b') = Ret (path_cmp l l').
Proof.
  intros c D L s s' b b' HL V V'. pose proof (is_dim_ok D L HL) as HD.
  destruct (valid_repr c D KDynamic (dynamic_put_bits s b) HD V) as (l & R).
  destruct (valid_repr c D KDynamic (dynamic_put_bits s' b') HD V') as (l' & R').
  exists l, l'. split; [exact (repr_shows c D KDynamic _ _ HD R)|]. split; [exact (repr_shows c D KDynamic _ _ HD R')|].
  exact (dynamic_cmp_ok c D _ _ l l' HD R R').
Qed.
(* fixed-depth storages compare all bits, also those behind the last octant *)
Lemma c58_fixed_comparison_lemma : forall c D L t (s s' : storage (KFixed t)) b b', is_dim D L -> b < 2 ^ BITS c t -> b' < 2 ^ BITS c t ->
  exists l l', shows (fixed_ops c D t) (fixed_put_bits s b) l /\ shows (fixed_ops c D t) (fixed_put_bits s' b') l'
    /\ let n := 2 ^ (BITS c t mod dim D) in
       fixed_cmp (fixed_put_bits s b) (fixed_put_bits s' b')
       = match path_cmp l l' with Eq => N.compare (b mod n) (b' mod n) | r => r end.
Proof.
  intros c D L t s s' b b' HL Hb Hb'. pose proof (is_dim_ok D L HL) as HD. pose proof (dim_ge D HD) as G.
  destruct (valid_repr c D (KFixed t) (fixed_put_bits s b) HD Hb) as (l & R).
  destruct (valid_repr c D (KFixed t) (fixed_put_bits s' b') HD Hb') as (l' & R').
  pose proof (repr_shows c D (KFixed t) _ _ HD R) as S. pose proof (repr_shows c D (KFixed t) _ _ HD R') as S'.
  exists l, l'. split; [exact S|]. split; [exact S'|]. cbn zeta.
  assert (K : BITS c t - dim D * MAX_LEVELS c D t = BITS c t mod dim D).
  { unfold MAX_LEVELS. pose proof (N.div_mod (BITS c t) (dim D) ltac:(lia)) as X. lia. }
  rewrite (fixed_cmp_raw c D t _ _ l l' HD R R'). rewrite <- (proj1 S), <- (proj1 S'). unfold rest.
  cbn [ops fixed_ops st_depth fixed_put_bits fx_bits]. rewrite K. reflexivity.
Qed.
