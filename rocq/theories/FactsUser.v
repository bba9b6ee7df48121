(* FactsUser.v - proofs of the theorems stated in PropUser.v: dimensions and storages implemented outside the crate *)
From Coq Require Import Bool Eqdep_dec ZifyBool ZifyNat ZifyN.
From Verif Require Import Base ModelNumber ModelDim ModelStorage Model2D Model3D ModelStd Spec SpecUser BitProofs NumberProofs VecProofs CellProofs StorageProofs GridProofs NameProofs HistoryProofs FactsBits FactsInts FactsCells FactsStd.

(* ---------- C66 ---------- *)
Lemma cell_at_index d (x : cell_of d) : cell_at d (proj1_sig x) = Some x.
Proof.
  destruct x as [n H]. unfold cell_at. cbn [proj1_sig]. destruct (bool_dec (n <? 2 ^ d) true) as [H'|H']; [|congruence].
  replace H' with H; [reflexivity|]. apply UIP_dec. exact bool_dec.
Qed.
Lemma c66_every_dimensionality_lemma : forall d, 1 <= d -> dimension_laws (DimN d) /\ dim (DimN d) = d.
Proof.
  intros d Hd. split; [|reflexivity]. split; [exact Hd|]. split.
  - intros [n H]. apply N.ltb_lt. exact H.
  - intro x. cbn [DimN cell_try_from cell_index]. rewrite cell_at_index. reflexivity.
Qed.
Lemma usize_big c : 65536 <= 2 ^ usize_bits c.
Proof. destruct (usize_bits_cases c) as [E|[E|E]]; rewrite E; discriminate. Qed.
Lemma BITS_small c t : 8 <= BITS c t /\ BITS c t <= 128.
Proof. destruct (BITS_cases c t) as [E|[E|[E|[E|E]]]]; rewrite E; split; discriminate. Qed.
Lemma level_bits d i n : 1 <= d -> d * (i + 1) <= n -> i < n.
Proof. intros H H'. assert (1 * (i + 1) <= d * (i + 1)) by (apply N.mul_le_mono_r; exact H). lia. Qed.
(* the position of a level *)
Lemma positions c n d i {A} (f : N -> N -> outcome A) : 1 <= d -> d * (i + 1) <= n -> n < 2 ^ usize_bits c ->
  (let! l1 := add c (usize_bits c) i 1 in
   let! off := mul c (usize_bits c) l1 d in
   let! start_bit := sub c (usize_bits c) n off in
   let! end_bit := add c (usize_bits c) start_bit d in f start_bit end_bit)
  = f (n - d * (i + 1)) (n - d * i).
Proof.
  intros Hd Hi Hn. pose proof (level_bits d i n Hd Hi) as Hl. rewrite add_ok by lia. rewrite bind_ret.
  rewrite (N.mul_comm d (i + 1)) in *. rewrite mul_ok by lia. rewrite bind_ret. rewrite sub_ok by exact Hi. rewrite bind_ret.
  assert (E : n - (i + 1) * d + d = n - d * i) by lia.
  rewrite add_ok by lia. rewrite bind_ret. rewrite E. reflexivity.
Qed.
Lemma type_get c D t v i : 1 <= dim D -> v < 2 ^ BITS c t -> dim D * (i + 1) <= BITS c t ->
  fixed_get_cell c D t v i = unwrap (cell_try_from D (v / 2 ^ (BITS c t - dim D * (i + 1)) mod 2 ^ dim D mod 256)).
Proof.
  intros Hd Hv Hi. destruct (BITS_small c t) as [B1 B2]. pose proof (usize_big c) as U. unfold fixed_get_cell. cbv zeta.
  rewrite (positions c (BITS c t) (dim D) i (fun s e => let! b := num_get_bits c t v s e in unwrap (cell_try_from D (cast (usize_bits c) (num_as c U8 b))))) by (try assumption; lia).
  assert (E : BITS c t - dim D * i - (BITS c t - dim D * (i + 1)) = dim D) by lia.
  rewrite c30_get_bits_lemma by (try assumption; lia). rewrite E, bind_ret. f_equal. f_equal. unfold num_as, cast. change (2 ^ BITS c U8) with 256.
  apply N.mod_small. eapply N.lt_le_trans; [apply N.mod_lt; discriminate|]. lia.
Qed.
Lemma static_is_fixed_get c D t v i : static_get_cell c D t v i = fixed_get_cell c D t v i.
Proof. reflexivity. Qed.
Lemma static_is_fixed_set c D t v i x : static_set_cell c D t v i x = fixed_set_cell c D t v i x.
Proof. reflexivity. Qed.
(* fields of a number with one field replaced *)
Lemma replaced_field v s n x v' p m : bits_replaced v s n x v' -> (p + m <= s \/ s + n <= p) -> v' / 2 ^ p mod 2 ^ m = v / 2 ^ p mod 2 ^ m.
Proof.
  intros R H. apply N.bits_inj. intro j. destruct (N.lt_ge_cases j m) as [K|K].
  - rewrite !N.mod_pow2_bits_low, !N.div_pow2_bits by exact K. rewrite R.
    destruct (N.leb_spec s (j + p)), (N.ltb_spec (j + p) (s + n)); cbn [andb]; try reflexivity. lia.
  - rewrite !N.mod_pow2_bits_high by exact K. reflexivity.
Qed.
Lemma replaced_itself v s n x v' : bits_replaced v s n x v' -> v' / 2 ^ s mod 2 ^ n = x mod 2 ^ n.
Proof.
  intros R. apply N.bits_inj. intro j. destruct (N.lt_ge_cases j n) as [K|K].
  - rewrite !N.mod_pow2_bits_low, N.div_pow2_bits by exact K. rewrite R.
    destruct (N.leb_spec s (j + s)), (N.ltb_spec (j + s) (s + n)); cbn [andb]; try lia. f_equal. lia.
  - rewrite !N.mod_pow2_bits_high by exact K. reflexivity.
Qed.
Lemma other_level d i j n : 1 <= d -> i <> j -> d * (i + 1) <= n -> d * (j + 1) <= n ->
  n - d * (j + 1) + d <= n - d * (i + 1) \/ n - d * (i + 1) + d <= n - d * (j + 1).
Proof.
  intros Hd Hne Hi Hj. rewrite !N.mul_add_distr_l, !N.mul_1_r in *. destruct (N.lt_ge_cases i j) as [H|H].
  - left. assert (d * (i + 1) <= d * j) by (apply N.mul_le_mono_l; lia). lia.
  - right. assert (d * (j + 1) <= d * i) by (apply N.mul_le_mono_l; lia). lia.
Qed.
Lemma c66_integer_storages_lemma : forall c D t v i x, dimension_laws D -> v < 2 ^ BITS c t -> dim D * (i + 1) <= BITS c t ->
  exists v', fixed_set_cell c D t v i x = Ret v' /\ static_set_cell c D t v i x = Ret v' /\ v' < 2 ^ BITS c t
    /\ bits_replaced v (BITS c t - dim D * (i + 1)) (dim D) (cell_index D x mod 256) v'
    /\ fixed_get_cell c D t v' i = unwrap (cell_try_from D (cell_index D x mod 256))
    /\ static_get_cell c D t v' i = unwrap (cell_try_from D (cell_index D x mod 256))
    /\ forall j, j <> i -> dim D * (j + 1) <= BITS c t ->
         fixed_get_cell c D t v' j = fixed_get_cell c D t v j /\ static_get_cell c D t v' j = static_get_cell c D t v j.
Proof.
  intros c D t v i x (Hd & Hlt & _) Hv Hi. destruct (BITS_small c t) as [B1 B2]. pose proof (usize_big c) as U.
  assert (Hx : cell_index D x mod 256 < 2 ^ dim D).
  { eapply N.le_lt_trans; [apply N.mod_le; discriminate|apply Hlt]. }
  assert (Hx' : cell_index D x mod 256 < 256) by (apply N.mod_lt; discriminate).
  assert (E : BITS c t - dim D * i - (BITS c t - dim D * (i + 1)) = dim D) by lia.
  destruct (c30_set_bits_lemma c t v (BITS c t - dim D * (i + 1)) (BITS c t - dim D * i) (cell_index D x mod 256)) as (v' & S & Hv' & R & _);
    [assumption|lia|lia|lia|rewrite E; exact Hx|]. rewrite E in R. exists v'.
  assert (F : fixed_set_cell c D t v i x = Ret v').
  { unfold fixed_set_cell. cbv zeta.
    rewrite (positions c (BITS c t) (dim D) i (fun s e => num_set_bits c t v s e (num_from c t (cast 8 (cell_index D x))))) by (try assumption; lia).
    unfold num_from, cast. change (2 ^ 8) with 256. rewrite (N.mod_small (cell_index D x mod 256)); [exact S|].
    eapply N.lt_le_trans; [exact Hx'|]. apply (N.pow_le_mono_r 2 8); [discriminate|exact B1]. }
  assert (G : fixed_get_cell c D t v' i = unwrap (cell_try_from D (cell_index D x mod 256))).
  { rewrite type_get by assumption. rewrite (replaced_itself _ _ _ _ _ R). rewrite (N.mod_small _ _ Hx). rewrite N.mod_mod by discriminate. reflexivity. }
  assert (O : forall j, j <> i -> dim D * (j + 1) <= BITS c t -> fixed_get_cell c D t v' j = fixed_get_cell c D t v j).
  { intros j Hne Hj. rewrite !type_get by assumption. rewrite (replaced_field _ _ _ _ _ _ (dim D) R); [reflexivity|].
    apply other_level; assumption || congruence. }
  split; [exact F|]. split; [exact F|]. split; [exact Hv'|]. split; [exact R|]. split; [exact G|]. split; [exact G|].
  intros j Hne Hj. split; [exact (O j Hne Hj)|exact (O j Hne Hj)].
Qed.
Lemma c66_up_to_eight_lemma : forall c D t v i x, dimension_laws D -> dim D <= 8 -> v < 2 ^ BITS c t -> dim D * (i + 1) <= BITS c t ->
  exists v', fixed_set_cell c D t v i x = Ret v' /\ static_set_cell c D t v i x = Ret v' /\ v' < 2 ^ BITS c t
    /\ fixed_get_cell c D t v' i = Ret x /\ static_get_cell c D t v' i = Ret x.
Proof.
  intros c D t v i x HD H8 Hv Hi. destruct (c66_integer_storages_lemma c D t v i x HD Hv Hi) as (v' & S & S' & Hv' & _ & G & G' & _).
  destruct HD as (_ & Hlt & Ht). exists v'. assert (E : cell_index D x mod 256 = cell_index D x).
  { apply N.mod_small. eapply N.lt_le_trans; [apply Hlt|]. apply (N.pow_le_mono_r 2 _ 8); [discriminate|exact H8]. }
  rewrite E, Ht in G, G'. auto 6.
Qed.
Lemma c66_beyond_eight_lemma : forall c t d i, 8 < d -> d * (i + 1) <= BITS c t ->
  exists x y, x <> y /\ forall v, v < 2 ^ BITS c t ->
    exists v', fixed_set_cell c (DimN d) t v i x = Ret v' /\ static_set_cell c (DimN d) t v i x = Ret v'
      /\ fixed_get_cell c (DimN d) t v' i = Ret y /\ static_get_cell c (DimN d) t v' i = Ret y.
Proof.
  intros c t d i Hd Hi. destruct (c66_every_dimensionality_lemma d ltac:(lia)) as [L _].
  assert (H256 : (256 <? 2 ^ d) = true) by (apply N.ltb_lt; apply (N.pow_lt_mono_r 2 8 d); [reflexivity|exact Hd]).
  exists (exist _ 256 H256), (cell_zero (DimN d)). split; [intro E; discriminate (f_equal (@proj1_sig _ _) E)|].
  intros v Hv. destruct (c66_integer_storages_lemma c (DimN d) t v i (exist _ 256 H256) L Hv Hi) as (v' & S & S' & _ & _ & G & G' & _).
  assert (E : unwrap (cell_try_from (DimN d) (cell_index (DimN d) (exist _ 256 H256) mod 256)) = Ret (cell_zero (DimN d))).
  { change (cell_index (DimN d) (exist _ 256 H256) mod 256) with (cell_index (DimN d) (cell_zero (DimN d))). rewrite (proj2 (proj2 L)). reflexivity. }
  exists v'. split; [exact S|]. split; [exact S'|]. split; [exact (eq_trans G E)|exact (eq_trans G' E)].
Qed.
Lemma dyn_get c D vec i : 1 <= dim D -> dim D <= usize_bits c -> Forall (fun b => b < 256) vec -> dim D * (i + 1) <= 8 * len vec -> 8 * len vec + 8 <= 2 ^ usize_bits c ->
  dynamic_get_cell c D vec i = unwrap (cell_try_from D (bytes_value vec / 2 ^ (8 * len vec - dim D * (i + 1)) mod 2 ^ dim D)).
Proof.
  intros Hd HW Hv Hi Hl. unfold dynamic_get_cell. cbv zeta. unfold vec_size. rewrite mul_ok by lia. rewrite bind_ret. rewrite (N.mul_comm (len vec) 8).
  rewrite (positions c (8 * len vec) (dim D) i (fun s e => let! b := vec_get_bits_as_usize c vec s e in unwrap (cell_try_from D b))) by (try assumption; lia).
  assert (E : 8 * len vec - dim D * i - (8 * len vec - dim D * (i + 1)) = dim D) by lia.
  rewrite c31_vec_get_bits_as_usize_lemma by (rewrite ?E; try assumption; lia). rewrite E, bind_ret. reflexivity.
Qed.
Lemma c66_dynamic_storage_lemma : forall c D vec i x, dimension_laws D -> dim D <= usize_bits c -> target_endian c = LittleEndian ->
  Forall (fun b => b < 256) vec -> dim D * (i + 1) <= 8 * len vec -> 8 * len vec + 8 <= 2 ^ usize_bits c ->
  exists vec', dynamic_set_cell c D vec i x = Ret vec' /\ Forall (fun b => b < 256) vec' /\ len vec' = len vec
    /\ bits_replaced (bytes_value vec) (8 * len vec - dim D * (i + 1)) (dim D) (cell_index D x) (bytes_value vec')
    /\ dynamic_get_cell c D vec' i = Ret x
    /\ forall j, j <> i -> dim D * (j + 1) <= 8 * len vec -> dynamic_get_cell c D vec' j = dynamic_get_cell c D vec j.
Proof.
  intros c D vec i x (Hd & Hlt & Ht) HW HE Hv Hi Hl.
  assert (E : 8 * len vec - dim D * i - (8 * len vec - dim D * (i + 1)) = dim D) by lia.
  assert (Hx : cell_index D x < 2 ^ usize_bits c) by (eapply N.lt_le_trans; [apply Hlt|apply N.pow_le_mono_r; [discriminate|exact HW]]).
  destruct (c31_vec_set_bits_from_usize_lemma c vec (8 * len vec - dim D * (i + 1)) (8 * len vec - dim D * i) (cell_index D x)) as (vec' & S & Fv & Lv & R & _);
    [exact HE|exact Hx|rewrite E; exact HW|exact Hv|lia|lia|exact Hl|]. rewrite E in R. exists vec'.
  split.
  { unfold dynamic_set_cell. cbv zeta. unfold vec_size. rewrite mul_ok by lia. rewrite bind_ret. rewrite (N.mul_comm (len vec) 8).
    rewrite (positions c (8 * len vec) (dim D) i (fun s e => vec_set_bits_from_usize c vec s e (cell_index D x))) by (try assumption; lia). exact S. }
  split; [exact Fv|]. split; [exact Lv|]. split; [exact R|]. split.
  - rewrite dyn_get by (rewrite ?Lv; assumption). rewrite Lv. rewrite (replaced_itself _ _ _ _ _ R). rewrite N.mod_small by apply Hlt. rewrite Ht. reflexivity.
  - intros j Hne Hj. rewrite !dyn_get by (rewrite ?Lv; assumption). rewrite Lv. rewrite (replaced_field _ _ _ _ _ _ (dim D) R); [reflexivity|].
    apply other_level; assumption || congruence.
Qed.

(* ---------- C67 ---------- *)
Lemma shows_get {D S} (o : StorageOps D S) s l i x : shows o s l -> nth_error l (N.to_nat i) = Some x -> st_get o s i = Ret x.
Proof.
  intros [Hd H] E. specialize (H i). rewrite E in H. unfold get_cell_at_level in H. pose proof (nth_error_len _ _ _ E) as Hi. rewrite N2Nat.id in Hi.
  rewrite Hd in H. destruct (N.leb_spec (len l) i); [lia|exact H].
Qed.
Lemma user_next_end {D S} c (o : StorageOps D S) s l : shows o s l -> cell_iter_next c o s (len l) = Ret (None, len l).
Proof. intros [Hd _]. unfold cell_iter_next. rewrite Hd, N.eqb_refl. reflexivity. Qed.
Lemma user_next_some {D S} c (o : StorageOps D S) s l i x : shows o s l -> len l < 2 ^ usize_bits c -> nth_error l (N.to_nat i) = Some x ->
  cell_iter_next c o s i = Ret (Some x, i + 1).
Proof.
  intros H HW E. pose proof (nth_error_len _ _ _ E) as Hi. rewrite N2Nat.id in Hi. unfold cell_iter_next. rewrite (proj1 H).
  destruct (N.eqb_spec i (len l)); [lia|]. rewrite add_ok by lia. rewrite bind_ret. rewrite (shows_get o s l i x H E). reflexivity.
Qed.
Lemma skipn_nth {A} (l : list A) i x : nth_error l (N.to_nat i) = Some x -> skipn (N.to_nat i) l = x :: skipn (N.to_nat (i + 1)) l.
Proof.
  intros Hx. apply nth_error_split in Hx. destruct Hx as (p & z & -> & Hp).
  replace (N.to_nat (i + 1)) with (List.length (p ++ [x])) by (rewrite app_length; cbn [List.length]; lia).
  rewrite <- Hp, skipn_length_app. f_equal. change (x :: z) with ([x] ++ z). rewrite app_assoc. symmetry. apply skipn_length_app.
Qed.
Lemma user_next_calls {D S} c (o : StorageOps D S) s l : shows o s l -> len l < 2 ^ usize_bits c -> forall n i, i <= len l ->
  next_calls c o s i n = Ret (map Some (firstn n (skipn (N.to_nat i) l)) ++ repeat None (n - (List.length l - N.to_nat i))).
Proof.
  intros H HW. induction n as [|n IH]; intros i Hi; cbn [next_calls]; [rewrite firstn_O; reflexivity|].
  destruct (N.eq_dec i (len l)) as [->|Hne].
  - rewrite (user_next_end c o s l H), bind_ret. cbn [fst snd]. rewrite IH by lia. rewrite bind_ret. rewrite to_nat_len, skipn_all, !firstn_nil.
    cbn [map app]. rewrite Nat.sub_diag, !Nat.sub_0_r. reflexivity.
  - destruct (nth_error_N_lt l i) as (x & Hx); [lia|]. rewrite (user_next_some c o s l i x H HW Hx), bind_ret. cbn [fst snd].
    rewrite IH by lia. rewrite bind_ret. rewrite (skipn_nth l i x Hx). cbn [firstn map app]. do 3 f_equal. f_equal. unfold len in *. lia.
Qed.
Lemma user_collect {D S} c (o : StorageOps D S) s l : shows o s l -> len l < 2 ^ usize_bits c -> forall fuel i, i <= len l -> (N.to_nat (len l - i) < fuel)%nat ->
  collect_from fuel c o s i = Ret (skipn (N.to_nat i) l).
Proof.
  intros H HW. induction fuel as [|fuel IH]; intros i Hi Hf; [lia|]. cbn [collect_from]. destruct (N.eq_dec i (len l)) as [->|Hne].
  - rewrite (user_next_end c o s l H), bind_ret. rewrite to_nat_len, skipn_all. reflexivity.
  - destruct (nth_error_N_lt l i) as (x & Hx); [lia|]. rewrite (user_next_some c o s l i x H HW Hx), bind_ret. rewrite IH by lia. rewrite bind_ret.
    rewrite (skipn_nth l i x Hx). reflexivity.
Qed.
Lemma c67_cells_lemma : forall D S c (o : StorageOps D S) s l, shows o s l -> len l < 2 ^ usize_bits c ->
  collect_cells c o s = Ret l
  /\ forall n, next_calls c o s cell_iter_start n = Ret (map Some (firstn n l) ++ repeat None (n - List.length l)).
Proof.
  intros D S c o s l H HW. split.
  - unfold collect_cells, cell_iter_start. rewrite (user_collect c o s l H HW); [reflexivity|lia|]. rewrite (proj1 H). lia.
  - intro n. rewrite (user_next_calls c o s l H HW) by (unfold cell_iter_start; lia). cbn [cell_iter_start N.to_nat skipn]. rewrite Nat.sub_0_r. reflexivity.
Qed.
Lemma user_chars {D S} (o : StorageOps D S) s (l : list (cell D)) : dim_ok D -> shows o s l -> cell_concatenation o s = Ret (cell_name l).
Proof.
  intros HD H. unfold cell_concatenation. rewrite (proj1 H).
  set (f := fun level => let! x := st_get o s level in unwrap_opt (from_digit10 (cast 32 (cell_index D x)))).
  assert (F : forall i x, nth_error l (N.to_nat i) = Some x -> exists a, f i = Ret a /\ decimal (cell_index D x) = String a EmptyString).
  { intros i x Hi. destruct (digit_decimal (cell_index D x) (idx_lt8 D x HD)) as (a & A & B). exists a. split; [|exact B].
    unfold f. rewrite (shows_get o s l i x H Hi), bind_ret, A. reflexivity. }
  clearbody f. clear H.
  assert (G : forall l2 i, (forall j x, nth_error l2 (N.to_nat j) = Some x -> exists a, f (i + j) = Ret a /\ decimal (cell_index D x) = String a EmptyString) ->
    exists chars, mapM f (range i (i + len l2)) = Ret chars /\ string_of_list_ascii chars = cell_name l2).
  { induction l2 as [|x l2 IH]; intros i Hi.
    - exists []. change (len (@nil (cell D))) with 0. rewrite N.add_0_r, range_nil by lia. split; reflexivity.
    - destruct (Hi 0 x eq_refl) as (a & A & B). rewrite N.add_0_r in A.
      destruct (IH (i + 1)) as (cs & C1 & C2).
      { intros j y Hj. destruct (Hi (j + 1) y) as (b & B1 & B2).
        - replace (N.to_nat (j + 1)) with (Datatypes.S (N.to_nat j)) by lia. exact Hj.
        - exists b. split; [|exact B2]. rewrite <- B1. f_equal. lia. }
      exists (a :: cs). replace (i + len (x :: l2)) with (i + 1 + len l2) by (rewrite len_cons; lia).
      rewrite range_cons by lia. cbn [mapM]. rewrite A, bind_ret. rewrite C1, bind_ret. split; [reflexivity|].
      cbn [string_of_list_ascii]. rewrite cell_name_cons, B, C2. reflexivity. }
  destruct (G l 0) as (cs & C1 & C2).
  - intros j x Hj. rewrite N.add_0_l. apply F. exact Hj.
  - rewrite N.add_0_l in C1. rewrite C1, bind_ret, C2. reflexivity.
Qed.
Lemma user_grid_2d {S} c (op : StorageOps Dim2D S) s o l : shows op s l -> len l <= usize_bits c -> to_grid_index_2d c op s o = Ret (grid2 o l).
Proof.
  intros H HW. unfold to_grid_index_2d. rewrite (proj1 H).
  match goal with |- foldM ?f _ _ = _ => destruct (foldM_range_inv (fun i xy => xy =
     (coord (quad_x o) (firstn (N.to_nat i) l) * 2 ^ (len l - i), coord (quad_y o) (firstn (N.to_nat i) l) * 2 ^ (len l - i)))
     f 0 (len l) (0, 0)) as (r & E & Hr) end.
  - lia.
  - cbn. rewrite !N.mul_0_l. reflexivity.
  - intros i [x y] Hi [= -> ->]. destruct (nth_error_N_lt l i) as [q Hq]; [lia|].
    rewrite (shows_get op s l i q H Hq), bind_ret. rewrite quadrant_to_index_spec.
    rewrite sub_ok by lia. rewrite bind_ret. rewrite sub_ok by lia. rewrite bind_ret.
    rewrite !shl_ok by lia. rewrite !bind_ret. eexists. split; [reflexivity|].
    rewrite (firstn_nth_snoc l i q Hq), !coord_snoc. replace (len l - (i + 1)) with (len l - i - 1) by lia.
    destruct (quad_lt o q). f_equal; apply lor_next; (assumption || (change (cell Dim2D) with quadrant in *; lia)).
  - rewrite E, Hr. rewrite N.sub_diag, to_nat_len, firstn_all. cbn. rewrite !N.mul_1_r. reflexivity.
Qed.
Lemma user_grid_3d {S} c (op : StorageOps Dim3D S) s o l : shows op s l -> len l <= usize_bits c -> to_grid_index_3d c op s o = Ret (grid3 o l).
Proof.
  intros H HW. unfold to_grid_index_3d. rewrite (proj1 H).
  match goal with |- foldM ?f _ _ = _ => destruct (foldM_range_inv (fun i xyz => xyz =
     (coord (oct_x o) (firstn (N.to_nat i) l) * 2 ^ (len l - i), coord (oct_y o) (firstn (N.to_nat i) l) * 2 ^ (len l - i),
      coord (oct_z o) (firstn (N.to_nat i) l) * 2 ^ (len l - i)))
     f 0 (len l) (0, 0, 0)) as (r & E & Hr) end.
  - lia.
  - cbn. rewrite !N.mul_0_l. reflexivity.
  - intros i [[x y] z] Hi [= -> -> ->]. destruct (nth_error_N_lt l i) as [q Hq]; [lia|].
    rewrite (shows_get op s l i q H Hq), bind_ret. rewrite octant_to_index_spec.
    rewrite sub_ok by lia. rewrite bind_ret. rewrite sub_ok by lia. rewrite bind_ret.
    rewrite !shl_ok by lia. rewrite !bind_ret. eexists. split; [reflexivity|].
    rewrite (firstn_nth_snoc l i q Hq), !coord_snoc. replace (len l - (i + 1)) with (len l - i - 1) by lia.
    destruct (oct_lt o q) as (? & ? & ?). f_equal; [f_equal|]; apply lor_next; (assumption || (change (cell Dim3D) with octant in *; lia)).
  - rewrite E, Hr. rewrite N.sub_diag, to_nat_len, firstn_all. cbn. rewrite !N.mul_1_r. reflexivity.
Qed.
Lemma c67_two_dimensions_lemma : forall S c (op : StorageOps Dim2D S) s l, shows op s l ->
  to_string_2d c op s CellConcatenation = Ret (String.concat "" (map (fun q => decimal (quadrant_index q)) l))
  /\ to_string_2d c op s CellConcatenationWithRoot = Ret ("r" ++ String.concat "" (map (fun q => decimal (quadrant_index q)) l))%string
  /\ (len l <= usize_bits c ->
      (forall o, to_grid_index_2d c op s o = Ret (coord (quad_x o) l, coord (quad_y o) l))
      /\ to_string_2d c op s GridIndex
         = Ret (decimal (len l) ++ "-" ++ decimal (coord (quad_x XY) l) ++ "-" ++ decimal (coord (quad_y XY) l))%string).
Proof.
  intros S c op s l H. pose proof (user_chars op s l dim2_ok H) as E. split; [exact E|]. split.
  - unfold to_string_2d. rewrite E, bind_ret. reflexivity.
  - intro HW. split; [intro o; apply user_grid_2d; assumption|]. unfold to_string_2d. rewrite (user_grid_2d c op s _ l H HW), bind_ret.
    unfold grid2. rewrite (proj1 H). reflexivity.
Qed.
Lemma c67_three_dimensions_lemma : forall S c (op : StorageOps Dim3D S) s l, shows op s l ->
  to_string_3d c op s CellConcatenation = Ret (String.concat "" (map (fun q => decimal (octant_index q)) l))
  /\ to_string_3d c op s CellConcatenationWithRoot = Ret ("r" ++ String.concat "" (map (fun q => decimal (octant_index q)) l))%string
  /\ (len l <= usize_bits c ->
      (forall o, to_grid_index_3d c op s o = Ret (coord (oct_x o) l, coord (oct_y o) l, coord (oct_z o) l))
      /\ to_string_3d c op s GridIndex
         = Ret (decimal (len l) ++ "-" ++ decimal (coord (oct_x XYZ) l) ++ "-" ++ decimal (coord (oct_y XYZ) l)
                ++ "-" ++ decimal (coord (oct_z XYZ) l))%string).
Proof.
  intros S c op s l H. pose proof (user_chars op s l dim3_ok H) as E. split; [exact E|]. split.
  - unfold to_string_3d. rewrite E, bind_ret. reflexivity.
  - intro HW. split; [intro o; apply user_grid_3d; assumption|]. unfold to_string_3d. rewrite (user_grid_3d c op s _ l H HW), bind_ret.
    unfold grid3. rewrite (proj1 H). reflexivity.
Qed.
Lemma c67_accessors_lemma : forall D S (o : StorageOps D S) inv s l i x, writes_cells o inv -> inv s -> shows o s l ->
  if i <? len l
  then exists s', set_cell_at_level o s i x = Ret s' /\ inv s' /\ shows o s' (replaced l i x)
  else get_cell_at_level o s i = Panic /\ set_cell_at_level o s i x = Panic.
Proof.
  intros D S o inv s l i x W I H. unfold get_cell_at_level, set_cell_at_level. rewrite (proj1 H). rewrite N.leb_antisym.
  destruct (N.ltb_spec i (len l)) as [Hi|Hi]; cbn [negb]; [|split; reflexivity]. exact (W s l i x I H Hi).
Qed.
Lemma rev_firstn_step {A} (l : list A) i x : nth_error l (N.to_nat i) = Some x ->
  rev (firstn (N.to_nat (i + 1)) l) = x :: rev (firstn (N.to_nat i) l).
Proof. intro H. rewrite (firstn_nth_snoc l i x H), rev_app_distr. reflexivity. Qed.
Lemma c67_inverted_lemma : forall D S c (o : StorageOps D S) inv s l, writes_cells o inv -> inv s -> shows o s l ->
  exists s', inverted c o s = Ret s' /\ inv s' /\ shows o s' (rev l).
Proof.
  intros D S c o inv s l W I H. unfold inverted. rewrite (proj1 H).
  destruct (foldM_range_inv (fun i s1 => inv s1 /\ shows o s1 (firstn (N.to_nat (len l - i)) l ++ rev (firstn (N.to_nat i) l)))
    (fun ret level =>
             let! a := sub c (usize_bits c) (len l) level in
             let! inverted_level := sub c (usize_bits c) a 1 in
             let! x := st_get o s level in
             st_set o ret inverted_level x) 0 (len l) s) as (s' & E & I' & H').
  - lia.
  - split; [exact I|]. rewrite N.sub_0_r, to_nat_len, firstn_all. change (N.to_nat 0) with O. cbn [firstn rev]. rewrite app_nil_r. exact H.
  - intros i s1 Hi [I1 H1]. rewrite sub_ok by lia. rewrite bind_ret. rewrite sub_ok by lia. rewrite bind_ret.
    destruct (nth_error_N_lt l i) as [x Hx]; [lia|]. rewrite (shows_get o s l i x H Hx), bind_ret.
    destruct (W s1 _ (len l - i - 1) x I1 H1) as (s2 & E2 & I2 & H2).
    + rewrite len_app, len_rev, !len_firstn by lia. lia.
    + exists s2. split; [exact E2|]. split; [exact I2|]. revert H2. unfold replaced.
      rewrite (rev_firstn_step l i x Hx). replace (len l - (i + 1)) with (len l - i - 1) by lia.
      replace (len l - i - 1 + 1) with (len l - i) by lia.
      rewrite firstn_app. rewrite (skipn_app (N.to_nat (len l - i))).
      assert (L1 : List.length (firstn (N.to_nat (len l - i)) l) = N.to_nat (len l - i)) by (rewrite firstn_length; unfold len in *; lia).
      rewrite L1, Nat.sub_diag. rewrite (skipn_all2 (firstn (N.to_nat (len l - i)) l)) by lia. cbn [skipn app].
      replace (N.to_nat (len l - i - 1) - N.to_nat (len l - i))%nat with O by lia. rewrite firstn_O, app_nil_r.
      rewrite firstn_firstn. replace (Nat.min (N.to_nat (len l - i - 1)) (N.to_nat (len l - i))) with (N.to_nat (len l - i - 1)) by lia.
      intro H2. exact H2.
  - exists s'. split; [exact E|]. split; [exact I'|]. rewrite N.sub_diag, to_nat_len, firstn_all in H'. exact H'.
Qed.
Lemma c67_tree_lemma : forall D S c (v : VarOps D S) inv fits s l, walks c v inv fits -> inv s -> shows (vo_ops v) s l ->
  (forall n, if n <=? len l
             then exists s', with_depth c v s n = Ret (Some s') /\ inv s' /\ shows (vo_ops v) s' (firstn (N.to_nat n) l)
             else with_depth c v s n = Ret None)
  /\ match l with
     | [] => parent v s = Ret None
     | _ :: _ => exists s', parent v s = Ret (Some s') /\ inv s' /\ shows (vo_ops v) s' (removelast l)
     end
  /\ forall x, if fits (len l + 1)
               then exists s', child v s x = Ret (Some s') /\ inv s' /\ shows (vo_ops v) s' (l ++ [x])
               else child v s x = Ret None.
Proof.
  intros D S c v inv fits s l [A B] I H. split; [|split].
  - intro n. unfold with_depth. rewrite (proj1 H). rewrite N.ltb_antisym. destruct (N.leb_spec n (len l)) as [Hn|Hn]; cbn [negb]; [|reflexivity].
    rewrite sub_ok by exact Hn. rewrite bind_ret. destruct (N.eqb_spec (len l - n) 0) as [E|E].
    + exists s. split; [reflexivity|]. split; [exact I|]. replace n with (len l) by lia. rewrite to_nat_len, firstn_all. exact H.
    + pose proof (A s l (len l - n) I H ltac:(lia)) as P. rewrite (proj2 (N.leb_le (len l - n) (len l)) ltac:(lia)) in P.
      replace (len l - (len l - n)) with n in P by lia. exact P.
  - pose proof (A s l 1 I H eq_refl) as P. destruct l as [|y l']; [exact P|].
    rewrite (proj2 (N.leb_le 1 (len (y :: l'))) ltac:(rewrite len_cons; lia)) in P. rewrite removelast_firstn_len.
    replace (Nat.pred (List.length (y :: l'))) with (N.to_nat (len (y :: l') - 1)) by (unfold len; cbn [List.length]; lia). exact P.
  - intro x. refine (B s l [x] I H _). destruct (usize_bits_cases c) as [E|[E|E]]; rewrite E; reflexivity.
Qed.
(* ---------- the unsafe contract ---------- *)
Lemma foldM_ext_inv {S} (P : S -> Prop) (f g : S -> N -> outcome S) l : 
  (forall s i, P s -> In i l -> f s i = g s i) -> (forall s i s', P s -> In i l -> g s i = Ret s' -> P s') ->
  forall s, P s -> foldM f l s = foldM g l s.
Proof.
  induction l as [|i l IH]; intros E K s Hs; [reflexivity|]. cbn [foldM]. rewrite (E s i Hs (or_introl eq_refl)).
  destruct (g s i) as [s'| |] eqn:G; cbn [bind]; try reflexivity. apply IH.
  - intros s0 j Hs0 Hj. apply E; [exact Hs0|right; exact Hj].
  - intros s0 j s1 Hs0 Hj. apply K; [exact Hs0|right; exact Hj].
  - exact (K s i s' Hs (or_introl eq_refl) G).
Qed.
Lemma mapM_ext_in {A B} (f g : A -> outcome B) l : (forall i, In i l -> f i = g i) -> mapM f l = mapM g l.
Proof.
  induction l as [|i l IH]; intro E; [reflexivity|]. cbn [mapM]. rewrite (E i (or_introl eq_refl)), IH; [reflexivity|].
  intros j Hj. apply E. right. exact Hj.
Qed.
Lemma contract_get {D S} (o : StorageOps D S) s i : i < st_depth o s -> st_get (contract o) s i = st_get o s i.
Proof. intro H. cbn [contract st_get]. rewrite (proj2 (N.ltb_lt _ _) H). reflexivity. Qed.
Lemma contract_next {D S} c (o : StorageOps D S) s i : st_depth o s < 2 ^ usize_bits c -> i <= st_depth o s ->
  cell_iter_next c (contract o) s i = cell_iter_next c o s i
  /\ forall r i', cell_iter_next c o s i = Ret (r, i') -> i' <= st_depth o s.
Proof.
  intros HW Hi. unfold cell_iter_next. change (st_depth (contract o) s) with (st_depth o s).
  destruct (N.eqb_spec i (st_depth o s)) as [->|Hne]; [split; [reflexivity|intros r i' [= <- <-]; lia]|].
  rewrite add_ok by lia. rewrite !bind_ret. rewrite contract_get by lia. split; [reflexivity|].
  intros r i' E. destruct (st_get o s i); cbn [bind] in E; [injection E as <- <-; lia|discriminate|discriminate].
Qed.
Lemma contract_calls {D S} c (o : StorageOps D S) s : st_depth o s < 2 ^ usize_bits c -> forall n i, i <= st_depth o s ->
  next_calls c (contract o) s i n = next_calls c o s i n.
Proof.
  intro HW. induction n as [|n IH]; intros i Hi; [reflexivity|]. cbn [next_calls]. destruct (contract_next c o s i HW Hi) as [-> K].
  destruct (cell_iter_next c o s i) as [[r i']| |]; cbn [bind]; try reflexivity. cbn [fst snd]. rewrite IH by exact (K r i' eq_refl). reflexivity.
Qed.
Lemma contract_collect {D S} c (o : StorageOps D S) s : st_depth o s < 2 ^ usize_bits c -> forall n i, i <= st_depth o s ->
  collect_from n c (contract o) s i = collect_from n c o s i.
Proof.
  intro HW. induction n as [|n IH]; intros i Hi; [reflexivity|]. cbn [collect_from]. destruct (contract_next c o s i HW Hi) as [-> K].
  destruct (cell_iter_next c o s i) as [[[x|] i']| |]; cbn [bind]; try reflexivity. rewrite IH by exact (K _ i' eq_refl). reflexivity.
Qed.
Lemma c67_unsafe_contract_lemma : forall D S c (o : StorageOps D S) s, st_depth o s < 2 ^ usize_bits c ->
  (forall i, get_cell_at_level (contract o) s i = get_cell_at_level o s i)
  /\ (forall i x, set_cell_at_level (contract o) s i x = set_cell_at_level o s i x)
  /\ (forall n, next_calls c (contract o) s cell_iter_start n = next_calls c o s cell_iter_start n)
  /\ collect_cells c (contract o) s = collect_cells c o s
  /\ ((forall s1 i x s2, st_set o s1 i x = Ret s2 -> st_depth o s2 = st_depth o s1) -> inverted c (contract o) s = inverted c o s).
Proof.
  intros D S c o s HW. split; [|split; [|split; [|split]]].
  - intro i. unfold get_cell_at_level. change (st_depth (contract o) s) with (st_depth o s). destruct (N.leb_spec (st_depth o s) i); [reflexivity|].
    apply contract_get. assumption.
  - intros i x. unfold set_cell_at_level. change (st_depth (contract o) s) with (st_depth o s). destruct (N.leb_spec (st_depth o s) i) as [H|H]; [reflexivity|].
    cbn [contract st_set]. rewrite (proj2 (N.ltb_lt _ _) H). reflexivity.
  - intro n. apply contract_calls; [exact HW|unfold cell_iter_start; lia].
  - apply contract_collect; [exact HW|unfold cell_iter_start; lia].
  - intro K. unfold inverted. change (st_depth (contract o) s) with (st_depth o s).
    apply (foldM_ext_inv (fun ret => st_depth o ret = st_depth o s)); [| |reflexivity].
    + intros ret i Hr Hi. apply in_range in Hi. rewrite sub_ok by lia. rewrite !bind_ret. rewrite sub_ok by lia. rewrite !bind_ret.
      rewrite contract_get by lia. destruct (st_get o s i); cbn [bind]; try reflexivity. cbn [contract st_set]. rewrite Hr.
      destruct (N.ltb_spec (st_depth o s - i - 1) (st_depth o s)); [reflexivity|lia].
    + intros ret i s' Hr Hi E. apply in_range in Hi. rewrite sub_ok in E by lia. rewrite !bind_ret in E. rewrite sub_ok in E by lia. rewrite !bind_ret in E.
      destruct (st_get o s i) as [x| |]; cbn [bind] in E; try discriminate. rewrite (K _ _ _ _ E). exact Hr.
Qed.
Lemma contract_name {D S} (o : StorageOps D S) s : cell_concatenation (contract o) s = cell_concatenation o s.
Proof.
  unfold cell_concatenation. change (st_depth (contract o) s) with (st_depth o s).
  erewrite mapM_ext_in; [reflexivity|]. intros i Hi. apply in_range in Hi. rewrite contract_get by lia. reflexivity.
Qed.
Lemma contract_grid_2d {S} c (op : StorageOps Dim2D S) s o : to_grid_index_2d c (contract op) s o = to_grid_index_2d c op s o.
Proof.
  unfold to_grid_index_2d. change (st_depth (contract op) s) with (st_depth op s).
  apply (foldM_ext_inv (fun _ => True)); [|auto|exact I]. intros [x y] i _ Hi. apply in_range in Hi. rewrite contract_get by lia. reflexivity.
Qed.
Lemma contract_grid_3d {S} c (op : StorageOps Dim3D S) s o : to_grid_index_3d c (contract op) s o = to_grid_index_3d c op s o.
Proof.
  unfold to_grid_index_3d. change (st_depth (contract op) s) with (st_depth op s).
  apply (foldM_ext_inv (fun _ => True)); [|auto|exact I]. intros [[x y] z] i _ Hi. apply in_range in Hi. rewrite contract_get by lia. reflexivity.
Qed.
Lemma c67_unsafe_contract_2d_lemma : forall S c (op : StorageOps Dim2D S) s,
  (forall o, to_grid_index_2d c (contract op) s o = to_grid_index_2d c op s o) /\ (forall n, to_string_2d c (contract op) s n = to_string_2d c op s n).
Proof.
  intros S c op s. split; [intro o; apply contract_grid_2d|]. intros []; unfold to_string_2d; rewrite ?contract_name, ?contract_grid_2d; reflexivity.
Qed.
Lemma c67_unsafe_contract_3d_lemma : forall S c (op : StorageOps Dim3D S) s,
  (forall o, to_grid_index_3d c (contract op) s o = to_grid_index_3d c op s o) /\ (forall n, to_string_3d c (contract op) s n = to_string_3d c op s n).
Proof.
  intros S c op s. split; [intro o; apply contract_grid_3d|]. intros []; unfold to_string_3d; rewrite ?contract_name, ?contract_grid_3d; reflexivity.
Qed.
(* the storages of the crate in user-defined dimensions *)
Lemma replaced_len {A} (l : list A) i x : i < len l -> len (replaced l i x) = len l.
Proof. intro H. unfold replaced, len in *. rewrite app_length. cbn [List.length]. rewrite firstn_length, skipn_length. lia. Qed.
Lemma replaced_nth {A} (l : list A) i x j : i < len l ->
  nth_error (replaced l i x) (N.to_nat j) = if j =? i then Some x else nth_error l (N.to_nat j).
Proof.
  intro H. unfold replaced. assert (L : List.length (firstn (N.to_nat i) l) = N.to_nat i) by (rewrite firstn_length; unfold len in H; lia).
  destruct (N.eqb_spec j i) as [->|Hne].
  - rewrite nth_error_app2 by lia. rewrite L, Nat.sub_diag. reflexivity.
  - rewrite <- (firstn_skipn (N.to_nat i) l) at 3. destruct (N.lt_ge_cases j i) as [Hj|Hj].
    + rewrite !nth_error_app1 by lia. reflexivity.
    + rewrite !nth_error_app2 by lia. rewrite L. destruct (N.to_nat j - N.to_nat i)%nat as [|m] eqn:Em; [lia|]. cbn [nth_error].
      destruct (nth_error_N_lt l i H) as (y & Hy). rewrite (skipn_nth l i y Hy). reflexivity.
Qed.
Lemma fits_level c D t i : 1 <= dim D -> i < BITS c t / dim D -> dim D * (i + 1) <= BITS c t.
Proof.
  intros Hd H. pose proof (N.div_mod' (BITS c t) (dim D)). assert (dim D * (i + 1) <= dim D * (BITS c t / dim D)) by (apply N.mul_le_mono_l; lia). lia.
Qed.
Lemma shows_replaced {D S} (o : StorageOps D S) s s' l i x : shows o s l -> i < len l -> st_depth o s' = st_depth o s -> st_get o s' i = Ret x ->
  (forall j, j <> i -> j < len l -> st_get o s' j = st_get o s j) -> shows o s' (replaced l i x).
Proof.
  intros [Hd H] Hi Hd' Gi Gj. split; [rewrite Hd', Hd; symmetry; apply replaced_len; exact Hi|]. intro j. rewrite (replaced_nth l i x j Hi).
  unfold get_cell_at_level. rewrite Hd', Hd. destruct (N.eqb_spec j i) as [->|Hne].
  - destruct (N.leb_spec (len l) i); [lia|exact Gi].
  - specialize (H j). unfold get_cell_at_level in H. rewrite Hd in H. destruct (N.leb_spec (len l) j) as [K|K]; [exact H|]. rewrite Gj by assumption. exact H.
Qed.
Lemma c66_storages_hold_lists_lemma : forall c D k, dimension_laws D -> target_endian c = LittleEndian \/ k <> KDynamic ->
  match k with KFixed _ | KStatic _ => dim D <= 8 | KDynamic => dim D <= usize_bits c end ->
  writes_cells (ops c D k) (valid c D k).
Proof.
  intros c D k HD HE H8 s l i x Hv Hs Hi. destruct k as [t|t|].
  - cbn in s. cbn [valid] in Hv. assert (Hl : i < BITS c t / dim D) by (rewrite <- (proj1 Hs) in Hi; exact Hi).
    pose proof (fits_level c D t i (proj1 HD) Hl) as Hf. destruct (c66_integer_storages_lemma c D t (fx_bits s) i x HD Hv Hf) as (v' & S & _ & Hv' & _ & _ & _ & O).
    destruct (c66_up_to_eight_lemma c D t (fx_bits s) i x HD H8 Hv Hf) as (v2 & S2 & _ & _ & G & _). rewrite S in S2. injection S2 as <-.
    exists (MkFixed v'). split; [cbn [ops fixed_ops st_set]; rewrite S; reflexivity|]. split; [exact Hv'|].
    eapply shows_replaced; [exact Hs|exact Hi|reflexivity|exact G|]. intros j Hne Hj. refine (proj1 (O j Hne _)). apply fits_level; [exact (proj1 HD)|].
    rewrite <- (proj1 Hs) in Hj. exact Hj.
  - cbn in s. cbn [valid] in Hv. destruct Hv as [Hv Hdep]. assert (Hl : i < sx_depth s) by (rewrite <- (proj1 Hs) in Hi; exact Hi).
    pose proof (fits_level c D t i (proj1 HD) ltac:(lia)) as Hf. destruct (c66_integer_storages_lemma c D t (sx_bits s) i x HD Hv Hf) as (v' & S & _ & Hv' & _ & _ & _ & O).
    destruct (c66_up_to_eight_lemma c D t (sx_bits s) i x HD H8 Hv Hf) as (v2 & S2 & _ & _ & G & _). rewrite S in S2. injection S2 as <-.
    exists (MkStatic v' (sx_depth s)). split; [cbn [ops static_ops st_set]; rewrite static_is_fixed_set, S; reflexivity|]. split; [split; [exact Hv'|exact Hdep]|].
    eapply shows_replaced; [exact Hs|exact Hi|reflexivity|exact G|]. intros j Hne Hj. refine (proj2 (O j Hne _)). apply fits_level; [exact (proj1 HD)|].
    rewrite <- (proj1 Hs) in Hj. change (st_depth (ops c D (KStatic t)) s) with (sx_depth s) in Hj. lia.
  - cbn in s. cbn [valid] in Hv. destruct Hv as (Hb & Hdep & Hlen). assert (Hl : i < dy_depth s) by (rewrite <- (proj1 Hs) in Hi; exact Hi).
    destruct HE as [HE|HE]; [|congruence].
    assert (F : forall j, j < dy_depth s -> dim D * (j + 1) <= 8 * len (dy_bits s)).
    { intros j Hj. assert (dim D * (j + 1) <= dim D * dy_depth s) by (apply N.mul_le_mono_l; lia). lia. }
    destruct (c66_dynamic_storage_lemma c D (dy_bits s) i x HD H8 HE Hb (F i Hl) Hlen) as (v' & S & Hb' & Hlen' & _ & G & O).
    exists (MkDynamic v' (dy_depth s)). split; [cbn [ops dynamic_ops st_set]; rewrite S; reflexivity|].
    split; [cbn [valid dy_bits dy_depth]; rewrite Hlen'; auto|].
    eapply shows_replaced; [exact Hs|exact Hi|reflexivity|exact G|]. intros j Hne Hj. refine (O j Hne _). apply F.
    rewrite <- (proj1 Hs) in Hj. exact Hj.
Qed.

Lemma shows_build {D S} (o : StorageOps D S) s : (forall i, i < st_depth o s -> exists x, st_get o s i = Ret x) -> exists l, shows o s l.
Proof.
  intro G.
  assert (K : forall n, (n <= N.to_nat (st_depth o s))%nat -> exists l, List.length l = n /\ forall i x, nth_error l i = Some x -> st_get o s (N.of_nat i) = Ret x).
  { induction n as [|n IH]; intro Hn; [exists []; split; [reflexivity|]; intros [|i] x E; discriminate|].
    destruct IH as (l & El & F); [lia|]. destruct (G (N.of_nat n) ltac:(lia)) as (x & Gx). exists (l ++ [x]).
    split; [rewrite app_length, El; cbn; lia|]. intros i y E. destruct (Nat.lt_ge_cases i n) as [Hi|Hi].
    - rewrite nth_error_app1 in E by lia. exact (F i y E).
    - rewrite nth_error_app2 in E by lia. rewrite El in E. destruct (i - n)%nat as [|m] eqn:Em; [|destruct m; discriminate].
      injection E as <-. replace i with n by lia. exact Gx. }
  destruct (K _ (Nat.le_refl _)) as (l & El & F). exists l. assert (Hlen : len l = st_depth o s) by (unfold len; lia).
  split; [symmetry; exact Hlen|]. intro i. unfold get_cell_at_level. destruct (nth_error l (N.to_nat i)) as [x|] eqn:E.
  - pose proof (nth_error_len _ _ _ E) as Hi. rewrite N2Nat.id in Hi. destruct (N.leb_spec (st_depth o s) i); [lia|].
    specialize (F _ _ E). rewrite N2Nat.id in F. exact F.
  - apply nth_error_None in E. destruct (N.leb_spec (st_depth o s) i); [reflexivity|lia].
Qed.
Lemma c66_every_value_holds_cells_lemma : forall c D k (s : storage k), 1 <= dim D -> (forall n, n < 2 ^ dim D -> exists x, cell_try_from D n = Ok x) ->
  match k with KFixed _ | KStatic _ => True | KDynamic => dim D <= usize_bits c end ->
  valid c D k s -> exists l, shows (ops c D k) s l.
Proof.
  intros c D k s Hd Ht Hk Hv. apply shows_build. intros i Hi.
  assert (U : forall n, n < 2 ^ dim D -> exists x, unwrap (cell_try_from D n) = Ret x).
  { intros n Hn. destruct (Ht n Hn) as (x & E). exists x. rewrite E. reflexivity. }
  assert (M : forall n, n mod 2 ^ dim D mod 256 < 2 ^ dim D).
  { intro n. eapply N.le_lt_trans; [apply N.mod_le; discriminate|]. apply N.mod_lt. apply pow2_ne0. }
  destruct k as [t|t|].
  - change (st_get (ops c D (KFixed t)) s i) with (fixed_get_cell c D t (fx_bits s) i). change (st_depth (ops c D (KFixed t)) s) with (BITS c t / dim D) in Hi.
    rewrite type_get; [|exact Hd|exact Hv|apply fits_level; assumption]. apply U, M.
  - destruct Hv as [Hv Hdep]. change (st_get (ops c D (KStatic t)) s i) with (fixed_get_cell c D t (sx_bits s) i). change (st_depth (ops c D (KStatic t)) s) with (sx_depth s) in Hi.
    rewrite type_get; [|exact Hd|exact Hv|apply fits_level; [exact Hd|lia]]. apply U, M.
  - destruct Hv as (Hb & Hdep & Hlen). change (st_get (ops c D KDynamic) s i) with (dynamic_get_cell c D (dy_bits s) i). change (st_depth (ops c D KDynamic) s) with (dy_depth s) in Hi.
    rewrite dyn_get; [|exact Hd|exact Hk|exact Hb| |exact Hlen].
    + apply U. apply N.mod_lt. apply pow2_ne0.
    + assert (dim D * (i + 1) <= dim D * dy_depth s) by (apply N.mul_le_mono_l; lia). lia.
Qed.
Lemma list_shows D (l : list (cell D)) : shows (list_ops D) l l.
Proof.
  split; [reflexivity|]. intro i. unfold get_cell_at_level. cbn [list_ops st_depth st_get]. destruct (nth_error l (N.to_nat i)) as [x|] eqn:E.
  - pose proof (nth_error_len _ _ _ E) as Hi. rewrite N2Nat.id in Hi. destruct (N.leb_spec (len l) i); [lia|reflexivity].
  - apply nth_error_None in E. destruct (N.leb_spec (len l) i); [reflexivity|unfold len in *; lia].
Qed.
Lemma c67_laws_are_satisfiable_lemma : forall c D limit,
  (forall l, shows (list_ops D) l l) /\ writes_cells (list_ops D) (fun _ => True) /\ walks c (list_vops D limit) (fun _ => True) (fun n => n <=? limit).
Proof.
  intros c D limit. split; [apply list_shows|]. split; [|split].
  - intros s l i x _ H Hi. assert (s = l) as -> by (eapply shows_unique; [apply list_shows|exact H]). exists (replaced l i x).
    cbn [list_ops st_set]. rewrite (proj2 (N.ltb_lt _ _) Hi). split; [reflexivity|]. split; [exact I|apply list_shows].
  - intros s l g _ H Hg. assert (s = l) as -> by (eapply shows_unique; [apply list_shows|exact H]). cbn [list_vops vo_ancestor vo_ops].
    destruct (g <=? len l); [|reflexivity]. eexists. split; [reflexivity|]. split; [exact I|apply list_shows].
  - intros s l cells _ H _. assert (s = l) as -> by (eapply shows_unique; [apply list_shows|exact H]). cbn [list_vops vo_descendant vo_ops].
    destruct (len l + len cells <=? limit); [|reflexivity]. eexists. split; [reflexivity|]. split; [exact I|apply list_shows].
Qed.
Lemma c66_every_dimension_refuted_lemma : ~ (forall c D t v i x, dimension_laws D -> v < 2 ^ BITS c t -> dim D * (i + 1) <= BITS c t ->
  exists v', fixed_set_cell c D t v i x = Ret v' /\ fixed_get_cell c D t v' i = Ret x).
Proof.
  intro H. set (c := Cfg true PW64 LittleEndian). destruct (c66_beyond_eight_lemma c U16 9 0 eq_refl ltac:(vm_compute; discriminate)) as (x & y & Hne & K).
  destruct (K 0 eq_refl) as (v' & S & _ & G & _).
  destruct (H c (DimN 9) U16 0 0 x (proj1 (c66_every_dimensionality_lemma 9 ltac:(discriminate))) eq_refl ltac:(vm_compute; discriminate)) as (v2 & S2 & G2).
  congruence.
Qed.
