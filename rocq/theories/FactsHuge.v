(* FactsHuge.v - proofs of the theorems stated in PropHuge.v *)
From Verif Require Import Base ModelNumber ModelDim ModelStorage Model2D Model3D Spec History BitProofs NumberProofs VecProofs CellProofs
  StorageProofs SafetyProofs FactsLimits FactsWide.

(* ---------- bit access touches only the bytes of its range ---------- *)
Lemma foldM_ext_in {A S} (f g : S -> A -> outcome S) l : (forall s x, In x l -> f s x = g s x) -> forall s, foldM f l s = foldM g l s.
Proof.
  induction l as [|x l IH]; intros H s; [reflexivity|]. cbn [foldM]. rewrite (H s x) by (left; reflexivity).
  destruct (g s x); cbn [bind]; try reflexivity. apply IH. intros s' y Hy. apply H. right. exact Hy.
Qed.
Lemma vec_get_app {A} (p r : list A) i : i < len p -> vec_get (p ++ r) i = vec_get p i.
Proof. intro H. unfold vec_get. rewrite nth_error_app1 by (unfold len in H; lia). reflexivity. Qed.
Lemma update_app {A} (p r : list A) i x : (i < List.length p)%nat -> update (p ++ r) i x = update p i x ++ r.
Proof.
  revert i. induction p as [|y p IH]; intros i H; [cbn in H; lia|]. destruct i as [|i]; cbn [update app]; [reflexivity|].
  f_equal. apply IH. cbn in H. lia.
Qed.
Lemma vec_set_app (p r : list N) i x : i < len p -> vec_set (p ++ r) i x = let! p' := vec_set p i x in Ret (p' ++ r).
Proof.
  intro H. unfold vec_set. rewrite len_app. destruct (N.ltb_spec i (len p)); [|lia]. destruct (N.ltb_spec i (len p + len r)); [|lia].
  cbn [bind]. rewrite update_app by (unfold len in H; lia). reflexivity.
Qed.
Lemma get_usize_app c p r s e : e + 7 < 2 ^ usize_bits c -> e <= 8 * len p ->
  vec_get_bits_as_usize c (p ++ r) s e = vec_get_bits_as_usize c p s e.
Proof.
  intros HW He. unfold vec_get_bits_as_usize. cbv zeta. rewrite add_ok by exact HW. rewrite !bind_ret.
  rewrite (foldM_ext_in _ (vec_get_bits_as_usize_step c p e)); [reflexivity|].
  intros [[ret ss] us] i Hi. apply in_range in Hi. unfold vec_get_bits_as_usize_step.
  rewrite vec_get_app by (clear -Hi He; lia). reflexivity.
Qed.
Definition glue (r : list N) (st : list N * N * N) : list N * N * N := (fst (fst st) ++ r, snd (fst st), snd st).
Lemma bind_cong {A B} (m : outcome A) (f g : A -> outcome B) : (forall a, m = Ret a -> f a = g a) -> bind m f = bind m g.
Proof. intro H. destruct m; cbn [bind]; [apply H; reflexivity|reflexivity ..]. Qed.
Lemma bind_bind {A B C} (m : outcome A) (f : A -> outcome B) (g : B -> outcome C) :
  bind (bind m f) g = bind m (fun a => bind (f a) g).
Proof. destruct m; reflexivity. Qed.
Lemma set_step_app c e nv p r ss ns i : i < len p ->
  set_vec_u8_bits_step c e nv (p ++ r, ss, ns) i = let! st := set_vec_u8_bits_step c e nv (p, ss, ns) i in Ret (glue r st).
Proof.
  intro Hi. unfold set_vec_u8_bits_step. cbv zeta.
  do 6 (rewrite bind_bind; apply bind_cong; intros ? _).
  rewrite bind_bind. rewrite vec_get_app by exact Hi. apply bind_cong; intros ? _.
  do 4 (rewrite bind_bind; apply bind_cong; intros ? _).
  rewrite vec_set_app by exact Hi. rewrite !bind_bind. apply bind_cong; intros p' _. rewrite bind_ret.
  rewrite bind_bind. apply bind_cong; intros ? _. reflexivity.
Qed.
Lemma vec_set_len {A} (l : list A) i x l' : vec_set l i x = Ret l' -> len l' = len l.
Proof. unfold vec_set. destruct (i <? len l); [|discriminate]. intro E. injection E as <-. apply len_update. Qed.
Lemma bind_inv {A B} (m : outcome A) (f : A -> outcome B) b : bind m f = Ret b -> exists a, m = Ret a /\ f a = Ret b.
Proof. destruct m; cbn [bind]; [eauto|discriminate ..]. Qed.
Ltac inv_binds H := repeat (let a := fresh "a" in let E := fresh "E" in apply bind_inv in H; destruct H as (a & E & H)).
Lemma set_step_inv c e nv p ss ns i st : set_vec_u8_bits_step c e nv (p, ss, ns) i = Ret st ->
  len (fst (fst st)) = len p /\ i < len p.
Proof.
  intro H. unfold set_vec_u8_bits_step in H. cbv zeta in H.
  do 6 (apply bind_inv in H; destruct H as (? & _ & H)). apply bind_inv in H. destruct H as (old & Hget & H).
  do 4 (apply bind_inv in H; destruct H as (? & _ & H)). apply bind_inv in H. destruct H as (p' & Hset & H).
  apply bind_inv in H. destruct H as (? & _ & H). injection H as <-. cbn [fst]. split; [exact (vec_set_len _ _ _ _ Hset)|].
  unfold vec_set in Hset. destruct (N.ltb_spec i (len p)); [assumption|discriminate].
Qed.
Lemma set_loop_len c e nv l : forall st st', foldM (set_vec_u8_bits_step c e nv) l st = Ret st' -> len (fst (fst st')) = len (fst (fst st)).
Proof.
  induction l as [|i l IH]; intros [[p ss] ns] st' E; cbn [foldM] in E; [injection E as <-; reflexivity|].
  apply bind_inv in E. destruct E as (st1 & E1 & E). rewrite (IH _ _ E). apply set_step_inv in E1. exact (proj1 E1).
Qed.
Lemma set_loop_app c e nv r l : forall p ss ns, (forall i, In i l -> i < len p) ->
  foldM (set_vec_u8_bits_step c e nv) l (p ++ r, ss, ns) = let! st := foldM (set_vec_u8_bits_step c e nv) l (p, ss, ns) in Ret (glue r st).
Proof.
  induction l as [|i l IH]; intros p ss ns H; cbn [foldM]; [reflexivity|].
  rewrite set_step_app by (apply H; left; reflexivity). rewrite !bind_bind. apply bind_cong. intros [[p' ss'] ns'] E. rewrite bind_ret.
  unfold glue. cbn [fst snd]. apply IH. apply set_step_inv in E. cbn [fst] in E. rewrite (proj1 E). intros j Hj. apply H. right. exact Hj.
Qed.
Lemma set_vec_app c p r s e nv : e + 7 < 2 ^ usize_bits c -> e <= 8 * len p ->
  set_vec_u8_bits c (p ++ r) s e nv = let! p' := set_vec_u8_bits c p s e nv in Ret (p' ++ r).
Proof.
  intros HW He. unfold set_vec_u8_bits. cbv zeta. rewrite add_ok by exact HW. rewrite !bind_ret.
  rewrite set_loop_app. 2:{ intros i Hi. apply in_range in Hi. clear -Hi He. lia. }
  rewrite !bind_bind. apply bind_cong. intros st _. reflexivity.
Qed.

(* ---------- access to any vector, as long as the bit positions fit ---------- *)
Lemma split_vec c (vec : list N) : 2 ^ usize_bits c < 8 * len vec + 8 ->
  exists p r, vec = p ++ r /\ 8 * len p + 8 = 2 ^ usize_bits c.
Proof.
  intro H. exists (firstn (N.to_nat (2 ^ usize_bits c / 8 - 1)) vec), (skipn (N.to_nat (2 ^ usize_bits c / 8 - 1)) vec).
  split; [symmetry; apply firstn_skipn|]. unfold len in *. rewrite firstn_length.
  destruct (usize_bits_cases c) as [E|[E|E]]; rewrite E in *; clear E;
    [change (2 ^ 16) with 65536 in *|change (2 ^ 32) with 4294967296 in *|change (2 ^ 64) with 18446744073709551616 in *];
    match goal with |- context [?a / 8 - 1] => let v := eval vm_compute in (a / 8 - 1) in change (a / 8 - 1) with v end; lia.
Qed.
Lemma bits_of_app p r s n : bytes_ok p -> s + n <= 8 * len p -> bits_of (bytes_value (p ++ r)) s n = bits_of (bytes_value p) s n.
Proof.
  intros Hp H. rewrite bytes_value_app. rewrite <- (bits_of_mod _ s n (8 * len p)) by exact H.
  rewrite N.mul_comm, N.mod_add by apply pow2_ne0. apply bits_of_mod. exact H.
Qed.
Lemma put_app p p' r s n x : bytes_ok p -> bytes_ok p' -> len p' = len p -> s + n <= 8 * len p ->
  bytes_value p' = put (bytes_value p) s n x -> bytes_value (p' ++ r) = put (bytes_value (p ++ r)) s n x.
Proof.
  intros Hp Hp' Hl H E. rewrite !bytes_value_app, E, Hl. pose proof (bytes_value_lt p Hp) as B.
  rewrite !(N.mul_comm (2 ^ _)). apply N.bits_inj. intro i.
  assert (B' : put (bytes_value p) s n x < 2 ^ (8 * len p)) by (apply put_lt; assumption).
  assert (T : forall a b j, a < 2 ^ (8 * len p) ->
     N.testbit (a + b * 2 ^ (8 * len p)) j = if j <? 8 * len p then N.testbit a j else N.testbit b (j - 8 * len p)).
  { intros a b j Ha. destruct (N.ltb_spec j (8 * len p)) as [L|L].
    - rewrite <- (N.mod_pow2_bits_low (a + _) (8 * len p)) by exact L. rewrite N.mod_add by apply pow2_ne0. rewrite N.mod_small by exact Ha. reflexivity.
    - replace j with (j - 8 * len p + 8 * len p) at 1 by lia. rewrite <- N.div_pow2_bits. rewrite N.div_add by apply pow2_ne0.
      rewrite N.div_small by exact Ha. reflexivity. }
  rewrite T by exact B'. rewrite !testbit_put. rewrite T by exact B.
  destruct (N.leb_spec s i), (N.ltb_spec i (s + n)), (N.ltb_spec i (8 * len p)); cbn [andb]; (reflexivity || lia).
Qed.
Lemma get_usize_any c vec s e : bytes_ok vec -> s <= e -> e - s <= usize_bits c -> e <= 8 * len vec -> e + 8 <= 2 ^ usize_bits c ->
  vec_get_bits_as_usize c vec s e = Ret (bits_of (bytes_value vec) s (e - s)).
Proof.
  intros Hv Hs Hn He HW. destruct (N.le_gt_cases (8 * len vec + 8) (2 ^ usize_bits c)) as [H|H]; [apply vec_get_bits_as_usize_ok; assumption|].
  destruct (split_vec c vec H) as (p & r & -> & Hp). pose proof (proj1 (proj1 (Forall_app _ _ _) Hv)) as Bp.
  rewrite get_usize_app by lia. rewrite bits_of_app by (assumption || lia). apply vec_get_bits_as_usize_ok; (assumption || lia).
Qed.
Lemma set_vec_any c vec s e nv x : reads_as c nv (e - s) x ->
  bytes_ok vec -> s <= e -> e <= 8 * len vec -> e + 8 <= 2 ^ usize_bits c ->
  exists vec', set_vec_u8_bits c vec s e nv = Ret vec' /\ bytes_ok vec' /\ len vec' = len vec
    /\ bytes_value vec' = put (bytes_value vec) s (e - s) x.
Proof.
  intros Hr Hv Hs He HW. destruct (N.le_gt_cases (8 * len vec + 8) (2 ^ usize_bits c)) as [H|H]; [apply set_vec_u8_bits_gen; assumption|].
  destruct (split_vec c vec H) as (p & r & -> & Hp). destruct (proj1 (Forall_app _ _ _) Hv) as [Bp Br].
  destruct (set_vec_u8_bits_gen c p s e nv x Hr Bp Hs ltac:(lia) ltac:(lia)) as (p' & E & B & L & V).
  rewrite set_vec_app by lia. rewrite E, bind_ret. exists (p' ++ r). split; [reflexivity|]. split; [apply Forall_app; split; assumption|].
  split; [rewrite !len_app, L; reflexivity|]. apply put_app; (assumption || lia).
Qed.
(* positions so close to the end of the range of usize that `end + 7` wraps: the loops do nothing *)
Lemma get_usize_top c vec s e : overflow_checks c = false -> e < 2 ^ usize_bits c -> 2 ^ usize_bits c <= e + 7 -> 8 <= s ->
  vec_get_bits_as_usize c vec s e = Ret 0.
Proof.
  intros HO He HW Hs. unfold vec_get_bits_as_usize, add. rewrite HO. cbv zeta.
  destruct (N.ltb_spec (e + 7) (2 ^ usize_bits c)); [lia|]. rewrite bind_ret.
  assert (E : cast (usize_bits c) (e + 7) <= 6).
  { unfold cast. replace (e + 7) with (e + 7 - 2 ^ usize_bits c + 1 * 2 ^ usize_bits c) by lia. rewrite N.mod_add by apply pow2_ne0.
    pose proof (N.mod_le (e + 7 - 2 ^ usize_bits c) (2 ^ usize_bits c) (pow2_ne0 _)). lia. }
  rewrite range_nil by (clear -E Hs; lia). reflexivity.
Qed.
Lemma get_usize_back c vec s e : e + 15 < 2 ^ usize_bits c -> e + 15 <= s -> vec_get_bits_as_usize c vec s e = Ret 0.
Proof.
  intros HW Hs. unfold vec_get_bits_as_usize. cbv zeta. rewrite add_ok by lia. rewrite bind_ret.
  rewrite range_nil by (clear -Hs; lia). reflexivity.
Qed.
Lemma set_vec_top c vec s e nv : overflow_checks c = false -> e < 2 ^ usize_bits c -> 2 ^ usize_bits c <= e + 7 -> 8 <= s ->
  set_vec_u8_bits c vec s e nv = Ret vec.
Proof.
  intros HO He HW Hs. unfold set_vec_u8_bits, add. rewrite HO. cbv zeta.
  destruct (N.ltb_spec (e + 7) (2 ^ usize_bits c)); [lia|]. rewrite bind_ret.
  assert (E : cast (usize_bits c) (e + 7) <= 6).
  { unfold cast. replace (e + 7) with (e + 7 - 2 ^ usize_bits c + 1 * 2 ^ usize_bits c) by lia. rewrite N.mod_add by apply pow2_ne0.
    pose proof (N.mod_le (e + 7 - 2 ^ usize_bits c) (2 ^ usize_bits c) (pow2_ne0 _)). lia. }
  rewrite range_nil by (clear -E Hs; lia). reflexivity.
Qed.
Lemma set_vec_back c vec s e nv : e + 15 < 2 ^ usize_bits c -> e + 15 <= s -> set_vec_u8_bits c vec s e nv = Ret vec.
Proof.
  intros HW Hs. unfold set_vec_u8_bits. cbv zeta. rewrite add_ok by lia. rewrite bind_ret.
  rewrite range_nil by (clear -Hs; lia). reflexivity.
Qed.

(* ---------- C46 ---------- *)
Lemma add_rel c w a b : overflow_checks c = false -> add c w a b = Ret ((a + b) mod 2 ^ w).
Proof. intro H. unfold add. rewrite H. destruct (N.ltb_spec (a + b) (2 ^ w)); [rewrite N.mod_small by assumption|]; reflexivity. Qed.
Lemma mul_rel c w a b : overflow_checks c = false -> mul c w a b = Ret ((a * b) mod 2 ^ w).
Proof. intro H. unfold mul. rewrite H. destruct (N.ltb_spec (a * b) (2 ^ w)); [rewrite N.mod_small by assumption|]; reflexivity. Qed.
Lemma sub_rel c w a b : overflow_checks c = false -> a < 2 ^ w -> sub c w a b = Ret ((2 ^ w + a - b) mod 2 ^ w) \/ 2 ^ w < b.
Proof.
  intros H Ha. unfold sub. rewrite H. destruct (N.leb_spec b a); [|left; reflexivity]. left. f_equal.
  replace (2 ^ w + a - b) with (a - b + 1 * 2 ^ w) by lia. rewrite N.mod_add by apply pow2_ne0. symmetry. apply N.mod_small. lia.
Qed.
Lemma sub_rel_mod c w x y : overflow_checks c = false -> y <= x -> sub c w (x mod 2 ^ w) (y mod 2 ^ w) = Ret ((x - y) mod 2 ^ w).
Proof.
  intros HO H. pose proof (pow2_ne0 w) as P0. pose proof (N.mod_lt x (2 ^ w) P0) as Hx. pose proof (N.mod_lt y (2 ^ w) P0) as Hy.
  destruct (sub_rel c w (x mod 2 ^ w) (y mod 2 ^ w) HO Hx) as [E|E]; [|lia]. rewrite E. f_equal.
  pose proof (N.div_mod x (2 ^ w) P0) as Dx. pose proof (N.div_mod y (2 ^ w) P0) as Dy.
  pose proof (N.div_le_mono y x (2 ^ w) P0 H) as Dxy.
  set (P := 2 ^ w) in *. set (a := x mod P) in *. set (b := y mod P) in *. set (p := x / P) in *. set (q := y / P) in *.
  clearbody P a b p q. clear E.
  assert (K : P + x - y = P + a - b + (p - q) * P) by nia.
  transitivity ((P + x - y) mod P).
  - rewrite K. rewrite N.mod_add by exact P0. reflexivity.
  - replace (P + x - y) with (x - y + 1 * P) by lia. apply N.mod_add. exact P0.
Qed.
Definition place (c : cfg) (D : Dimension) (n i : N) : N := (8 * n - dim D * (i + 1)) mod 2 ^ usize_bits c.
Lemma positions {B} c D n i (k : N -> N -> outcome B) : overflow_checks c = false -> i + 1 < 2 ^ usize_bits c -> dim D * (i + 1) <= 8 * n ->
  (let! nbits := mul c (usize_bits c) n 8 in let! l1 := add c (usize_bits c) i 1 in let! off := mul c (usize_bits c) l1 (dim D) in
   let! st := sub c (usize_bits c) nbits off in let! en := add c (usize_bits c) st (dim D) in k st en)
  = k (place c D n i) ((place c D n i + dim D) mod 2 ^ usize_bits c).
Proof.
  intros HO Hi Hn. rewrite (mul_rel c _ n 8 HO), bind_ret. rewrite add_ok by exact Hi. rewrite bind_ret. rewrite (mul_rel c _ (i + 1) _ HO), bind_ret.
  rewrite sub_rel_mod by (assumption || lia). rewrite bind_ret. rewrite (add_rel c _ _ _ HO), bind_ret. unfold place.
  replace (n * 8 - (i + 1) * dim D) with (8 * n - dim D * (i + 1)) by lia. reflexivity.
Qed.
Lemma place_lt c D n i : place c D n i < 2 ^ usize_bits c.
Proof. apply N.mod_lt. apply pow2_ne0. Qed.
Lemma place_in c D n i : dim D * (i + 1) <= 8 * n -> place c D n i + dim D <= 8 * n.
Proof.
  intro H. unfold place. pose proof (N.mod_le (8 * n - dim D * (i + 1)) (2 ^ usize_bits c) (pow2_ne0 _)). nia.
Qed.
Definition in_reach (c : cfg) (D : Dimension) (n i : N) : bool := place c D n i + dim D + 8 <=? 2 ^ usize_bits c.
Lemma get_release c D l i : dim_ok D -> overflow_checks c = false -> bytes_ok l -> i + 1 < 2 ^ usize_bits c -> dim D * (i + 1) <= 8 * len l ->
  dynamic_get_cell c D l i = unwrap (cell_try_from D (if in_reach c D (len l) i then bits_of (bytes_value l) (place c D (len l) i) (dim D) else 0)).
Proof.
  intros HD HO Hl Hi Hn. pose proof (usize_ge16 c). pose proof (pow2_usize_ge c). pose proof (dim_ge D HD). pose proof (dim_le D HD).
  unfold dynamic_get_cell. cbv zeta. unfold vec_size. rewrite positions by assumption. pose proof (place_lt c D (len l) i) as Lt. pose proof (place_in c D (len l) i Hn) as In.
  unfold in_reach. set (pos := place c D (len l) i) in *. clearbody pos. destruct (N.leb_spec (pos + dim D + 8) (2 ^ usize_bits c)) as [R|R].
  - rewrite N.mod_small by lia. rewrite get_usize_any by (assumption || lia). rewrite bind_ret. do 3 f_equal. lia.
  - destruct (N.lt_ge_cases (pos + dim D) (2 ^ usize_bits c)) as [Q|Q].
    + rewrite N.mod_small by exact Q. rewrite get_usize_top by (assumption || lia). reflexivity.
    + replace (pos + dim D) with (pos + dim D - 2 ^ usize_bits c + 1 * 2 ^ usize_bits c) by lia. rewrite N.mod_add by apply pow2_ne0.
      rewrite N.mod_small by lia. rewrite get_usize_back by lia. reflexivity.
Qed.
Lemma reads_cell c D (x : cell D) : dim_ok D ->
  reads_as c (num_as_u8_slice c USize (cell_index D x)) (dim D) (cell_index D (stored c D KDynamic x)).
Proof.
  intro HD. pose proof (dim_le D HD). pose proof (idx_lt8 D x HD) as Hx. pose proof (pow2_usize_ge c). unfold stored. destruct (target_endian c) eqn:HE.
  - pose proof (reads_as_be c (cell_index D x) (dim D) HE ltac:(lia) ltac:(lia)) as R. destruct (usize_bits c =? 16); [exact R|].
    rewrite (zero_idx D HD). exact R.
  - pose proof (num_size_8 c USize) as H8. cbn [BITS] in H8. pose proof (usize_ge16 c).
    rewrite <- (bytes_value_as_u8_slice c USize (cell_index D x)) at 2 by (cbn [BITS]; (assumption || lia)).
    apply reads_as_le; [exact HE|apply bytes_ok_to_bytes|rewrite len_as_u8_slice; apply num_size_pos|rewrite len_as_u8_slice; lia|lia].
Qed.
Lemma set_release c D l i x : dim_ok D -> overflow_checks c = false -> bytes_ok l -> i + 1 < 2 ^ usize_bits c -> dim D * (i + 1) <= 8 * len l ->
  exists l', dynamic_set_cell c D l i x = Ret l' /\ bytes_ok l' /\ len l' = len l
    /\ bytes_value l' = if in_reach c D (len l) i then put (bytes_value l) (place c D (len l) i) (dim D) (cell_index D (stored c D KDynamic x))
                        else bytes_value l.
Proof.
  intros HD HO Hl Hi Hn. pose proof (usize_ge16 c). pose proof (pow2_usize_ge c). pose proof (dim_ge D HD). pose proof (dim_le D HD).
  unfold dynamic_set_cell. cbv zeta. unfold vec_size. rewrite positions by assumption. pose proof (place_lt c D (len l) i) as Lt. pose proof (place_in c D (len l) i Hn) as In.
  unfold in_reach. set (pos := place c D (len l) i) in *. clearbody pos. unfold vec_set_bits_from_usize.
  destruct (N.leb_spec (pos + dim D + 8) (2 ^ usize_bits c)) as [R|R].
  - rewrite N.mod_small by lia.
    destruct (set_vec_any c l pos (pos + dim D) (num_as_u8_slice c USize (cell_index D x)) (cell_index D (stored c D KDynamic x))) as (l' & E & B & L & V);
      try (assumption || lia). { replace (pos + dim D - pos) with (dim D) by lia. apply reads_cell. exact HD. }
    exists l'. replace (pos + dim D - pos) with (dim D) in V by lia. auto.
  - exists l. split; [|auto]. destruct (N.lt_ge_cases (pos + dim D) (2 ^ usize_bits c)) as [Q|Q].
    + rewrite N.mod_small by exact Q. apply set_vec_top; (assumption || lia).
    + replace (pos + dim D) with (pos + dim D - 2 ^ usize_bits c + 1 * 2 ^ usize_bits c) by lia. rewrite N.mod_add by apply pow2_ne0.
      rewrite N.mod_small by lia. apply set_vec_back; lia.
Qed.
Lemma unwrap_cell D v : dim_ok D -> v < 2 ^ dim D -> exists x, unwrap (cell_try_from D v) = Ret x /\ cell_index D x = v.
Proof. intros HD H. destruct (try_total D HD v H) as (x & E). exists x. rewrite E. split; [reflexivity|]. apply (try_ok D HD). exact E. Qed.
Lemma unwrap_idx D (x : cell D) : dim_ok D -> unwrap (cell_try_from D (cell_index D x)) = Ret x.
Proof. intro HD. rewrite (proj2 (try_ok D HD (cell_index D x) x) eq_refl). reflexivity. Qed.
Lemma c46_get_cell_release_lemma : forall c D L s i, is_dim D L -> overflow_checks c = false -> Forall (fun b => b < 256) (dy_bits s) ->
  i < dy_depth s -> i + 1 < 2 ^ usize_bits c -> dim D * (i + 1) <= 8 * len (dy_bits s) ->
  let pos := (8 * len (dy_bits s) - dim D * (i + 1)) mod 2 ^ usize_bits c in
  exists x, get_cell_at_level (dynamic_ops c D) s i = Ret x
    /\ cell_index D x = if pos + dim D + 8 <=? 2 ^ usize_bits c then bytes_value (dy_bits s) / 2 ^ pos mod 2 ^ dim D else 0.
Proof.
  intros c D L s i HL HO Hb Hd Hi Hn pos. pose proof (is_dim_ok _ _ HL) as HD. unfold get_cell_at_level. cbn [st_depth st_get dynamic_ops].
  destruct (N.leb_spec (dy_depth s) i); [lia|]. rewrite get_release by assumption. unfold in_reach, place. fold pos. apply unwrap_cell; [exact HD|].
  destruct (pos + dim D + 8 <=? 2 ^ usize_bits c); [apply bits_of_lt|apply pow2_pos].
Qed.
Lemma c46_set_cell_release_lemma : forall c D L s i x, is_dim D L -> overflow_checks c = false -> writable c KDynamic ->
  Forall (fun b => b < 256) (dy_bits s) -> i < dy_depth s -> i + 1 < 2 ^ usize_bits c -> dim D * (i + 1) <= 8 * len (dy_bits s) ->
  let pos := (8 * len (dy_bits s) - dim D * (i + 1)) mod 2 ^ usize_bits c in
  exists s', set_cell_at_level (dynamic_ops c D) s i x = Ret s' /\ dy_depth s' = dy_depth s /\ len (dy_bits s') = len (dy_bits s)
    /\ Forall (fun b => b < 256) (dy_bits s')
    /\ if pos + dim D + 8 <=? 2 ^ usize_bits c
       then bits_replaced (bytes_value (dy_bits s)) pos (dim D) (cell_index D x) (bytes_value (dy_bits s'))
       else bytes_value (dy_bits s') = bytes_value (dy_bits s).
Proof.
  intros c D L s i x HL HO HW Hb Hd Hi Hn pos. pose proof (is_dim_ok _ _ HL) as HD. unfold set_cell_at_level. cbn [st_depth st_set dynamic_ops].
  destruct (N.leb_spec (dy_depth s) i); [lia|]. destruct (set_release c D (dy_bits s) i x HD HO Hb Hi Hn) as (l' & E & B & Ll & V).
  rewrite E, bind_ret. eexists. split; [reflexivity|]. cbn [dy_depth dy_bits]. split; [reflexivity|]. split; [exact Ll|]. split; [exact B|].
  unfold in_reach, place in V. fold pos in V. rewrite (stored_writable c D KDynamic x HW) in V.
  destruct (pos + dim D + 8 <=? 2 ^ usize_bits c); [|exact V]. rewrite V. intro j. apply testbit_put.
Qed.
Lemma foldM_panic {A S} (P : S -> Prop) (f : S -> A -> outcome S) l1 x l2 : 
  (forall s y, P s -> safe (f s y) /\ forall s', f s y = Ret s' -> P s') -> (forall s, P s -> f s x = Panic) ->
  forall s, P s -> foldM f (l1 ++ x :: l2) s = Panic.
Proof.
  intros Hs Hx. induction l1 as [|y l1 IH]; intros s Hp; cbn [app foldM].
  - rewrite Hx by exact Hp. reflexivity.
  - destruct (Hs s y Hp) as [A1 A2]. destruct (f s y) as [s'| |]; cbn [bind]; [|reflexivity|exfalso; apply A1; reflexivity].
    apply IH. apply A2. reflexivity.
Qed.
Lemma dynamic_set_len c D s i x s' : st_set (dynamic_ops c D) s i x = Ret s' -> len (dy_bits s') = len (dy_bits s).
Proof.
  cbn [st_set dynamic_ops]. intro H. apply bind_inv in H. destruct H as (b & E & H). injection H as <-. cbn [dy_bits].
  unfold dynamic_set_cell in E. cbv zeta in E. do 5 (apply bind_inv in E; destruct E as (? & _ & E)).
  unfold vec_set_bits_from_usize, set_vec_u8_bits in E. cbv zeta in E. apply bind_inv in E. destruct E as (? & _ & E).
  apply bind_inv in E. destruct E as (st & E & H). injection H as <-. rewrite (set_loop_len _ _ _ _ _ _ E). reflexivity.
Qed.
Lemma set_vec_outside c vec s e nv : e + 7 < 2 ^ usize_bits c -> s < e -> len vec <= s / 8 -> safe (set_vec_u8_bits c vec s e nv) ->
  set_vec_u8_bits c vec s e nv = Panic.
Proof.
  intros HW Hs Hl Sf. destruct (set_vec_u8_bits c vec s e nv) as [v'| |] eqn:E; [|reflexivity|exfalso; apply Sf; reflexivity].
  exfalso. unfold set_vec_u8_bits in E. cbv zeta in E. rewrite add_ok in E by exact HW. rewrite bind_ret in E.
  rewrite range_cons in E by (clear -Hs; lia). cbn [foldM] in E. apply bind_inv in E. destruct E as (st & E & _).
  apply bind_inv in E. destruct E as (st1 & E & _). apply set_step_inv in E. lia.
Qed.
Lemma c46_try_from_release_3d_lemma : forall c cells, overflow_checks c = false -> len cells < 2 ^ (usize_bits c - 1) ->
  2 ^ usize_bits c < 3 * len cells + 8 -> dynamic_try_from c Dim3D layout3D cells = Panic.
Proof.
  intros c cells HO Hn HP. unfold dynamic_try_from. cbn [dl_num_bytes layout3D].
  assert (PW : 2 ^ usize_bits c = 2 * 2 ^ (usize_bits c - 1) /\ 32768 <= 2 ^ (usize_bits c - 1)).
  { destruct (usize_bits_cases c) as [E|[E|E]]; rewrite E; split; vm_compute; (reflexivity || discriminate). }
  rewrite (mul_rel c _ _ _ HO), bind_ret, (add_rel c _ _ _ HO), !bind_ret.
  set (P := 2 ^ usize_bits c) in *. set (H := 2 ^ (usize_bits c - 1)) in *. destruct PW as [EP HH].
  set (nb := ((len cells * 3) mod P + 7) mod P / 8).
  assert (NB : 8 * nb < H + 8 /\ 8 * nb + 40 <= 3 * len cells).
  { assert (R : forall k r, len cells * 3 = k * P + r -> r < P -> (len cells * 3) mod P = r).
    { intros k r E Hr. rewrite E, N.add_comm, N.mod_add by lia. apply N.mod_small. exact Hr. }
    assert (B : 8 * nb <= ((len cells * 3) mod P + 7) mod P) by (subst nb; clear; lia).
    destruct (N.lt_ge_cases (len cells * 3) P) as [Q|Q].
    - rewrite (R 0 (len cells * 3)) in B by (clear -Q; lia).
      assert (E : (len cells * 3 + 7) mod P = len cells * 3 + 7 - P).
      { replace (len cells * 3 + 7) with (len cells * 3 + 7 - P + 1 * P) at 1 by (clear -HP; lia).
        rewrite N.mod_add by (clear -EP HH; lia). apply N.mod_small. clear -Q EP HH; lia. }
      rewrite E in B. clear R E. clearbody nb. lia.
    - assert (K1 : len cells * 3 = 1 * P + (len cells * 3 - P)) by (clear -Q; lia).
      assert (K2 : len cells * 3 - P < P) by (clear -Hn EP; lia).
      rewrite (R 1 (len cells * 3 - P) K1 K2) in B.
      rewrite (N.mod_small (_ + 7)) in B by (clear -Hn EP HH; lia). clear R. clearbody nb. lia. }
  clearbody nb. destruct NB as [NB1 NB2].
  set (j := (8 * nb + 13) / 3 - 1).
  assert (J : 8 * nb + 11 <= 3 * (j + 1) <= 8 * nb + 13 /\ 1 <= j) by (subst j; clear; lia). clearbody j.
  assert (Hj : j < len cells) by lia.
  destruct (nth_error_N_lt cells j Hj) as (x & Ex).
  destruct (nth_error_split cells (N.to_nat j) Ex) as (l1 & l2 & E & Ll).
  unfold set_cells. 
  assert (EN : exists m1 m2, enumerate cells = m1 ++ (j, x) :: m2).
  { rewrite E. unfold enumerate. assert (G : forall a b n, exists m1 m2, enum_from n (a ++ x :: b) = m1 ++ (n + N.of_nat (List.length a), x) :: m2).
    { clear. induction a as [|y a IH]; intros b n; cbn [enum_from app List.length].
      - exists [], (enum_from (n + 1) b). rewrite N.add_0_r. reflexivity.
      - destruct (IH b (n + 1)) as (m1 & m2 & E). exists ((n, y) :: m1), m2. cbn [app]. rewrite E.
        replace (n + N.of_nat (S (List.length a))) with (n + 1 + N.of_nat (List.length a)) by lia. reflexivity. }
    destruct (G l1 l2 0) as (m1 & m2 & G1). exists m1, m2. rewrite G1, Ll. rewrite N2Nat.id. reflexivity. }
  destruct EN as (m1 & m2 & ->).
  rewrite (foldM_panic (fun s => len (dy_bits s) = nb)); [reflexivity| | |cbn [dy_bits]; apply len_zeros].
  - intros s [i y] Hs. cbn [fst snd]. split; [apply (safe_set c Dim3D KDynamic); discriminate|].
    intros s' E'. rewrite (dynamic_set_len _ _ _ _ _ _ E'). exact Hs.
  - intros s Hs. cbn [fst snd]. destruct (st_set (dynamic_ops c Dim3D) s j x) as [s'| |] eqn:E'; [|reflexivity|].
    2:{ exfalso. apply (safe_set c Dim3D KDynamic s j x); [discriminate|exact E']. }
    exfalso. cbn [st_set dynamic_ops] in E'. apply bind_inv in E'. destruct E' as (b & E' & _).
    unfold dynamic_set_cell in E'. cbv zeta in E'. unfold vec_size in E'. rewrite Hs in E'.
    rewrite mul_ok in E' by (fold P; lia). rewrite bind_ret in E'. rewrite add_ok in E' by (fold P; lia). rewrite bind_ret in E'.
    cbn [dim Dim3D] in E'. rewrite mul_ok in E' by (fold P; lia). rewrite bind_ret in E'.
    unfold sub in E'. rewrite HO in E'. destruct (N.leb_spec ((j + 1) * 3) (nb * 8)); [lia|]. rewrite bind_ret in E'.
    unfold cast in E'. fold P in E'. rewrite N.mod_small in E' by lia. rewrite add_ok in E' by (fold P; lia). rewrite bind_ret in E'.
    unfold vec_set_bits_from_usize in E'. rewrite set_vec_outside in E'; [discriminate E'|fold P; lia|clear; lia|rewrite Hs; clear - NB1 EP HH J; clearbody P H; lia|].
    apply (safe_set_vec_u8_bits c); [fold P; lia| |].
    + pose proof (num_size_pos c USize) as Z. rewrite <- (len_as_u8_slice c USize (cell_index Dim3D x)) in Z. intro Q. cbn [cell_index Dim3D] in *. rewrite Q in Z. cbn in Z. lia.
    + rewrite len_as_u8_slice. pose proof (num_size_8 c USize) as Z. cbn [BITS] in Z. pose proof (usize_ge16 c). lia.
Qed.
Lemma c46_try_from_release_2d_lemma : forall c cells, overflow_checks c = false -> writable c KDynamic -> len cells < 2 ^ (usize_bits c - 1) ->
  2 ^ usize_bits c < 2 * len cells + 8 ->
  exists s, dynamic_try_from c Dim2D layout2D cells = Ret (Ok s)
    /\ shows (dynamic_ops c Dim2D) s ([Q0; Q0; Q0; Q0] ++ skipn 4 cells).
Proof.
  intros c cells HO HW Hn HP. unfold dynamic_try_from. cbn [dl_num_bytes layout2D].
  assert (PW : 2 ^ usize_bits c = 2 * 2 ^ (usize_bits c - 1) /\ 32768 <= 2 ^ (usize_bits c - 1) /\ exists m, 2 ^ usize_bits c = 8 * m).
  { destruct (usize_bits_cases c) as [E|[E|E]]; rewrite E; (split; [vm_compute; reflexivity|]; split; [vm_compute; discriminate|]);
      [exists (2 ^ 13)|exists (2 ^ 29)|exists (2 ^ 61)]; vm_compute; reflexivity. }
  destruct PW as (EP & HH & m & Em).
  rewrite add_ok by lia. rewrite !bind_ret.
  assert (NB : (len cells + 3) / 4 = m) by (clear - EP HH Em Hn HP; set (P := 2 ^ usize_bits c) in *; set (H := 2 ^ (usize_bits c - 1)) in *; clearbody P H; lia).
  rewrite NB. clear NB.
  assert (PL : forall i, i < len cells -> place c Dim2D m i = 2 ^ usize_bits c - 2 * (i + 1)).
  { intros i Hi. unfold place. cbn [dim Dim2D]. rewrite <- Em. apply N.mod_small. lia. }
  assert (RE : forall i, i < len cells -> in_reach c Dim2D m i = (4 <=? i)).
  { intros i Hi. unfold in_reach. rewrite PL by exact Hi. cbn [dim Dim2D].
    destruct (N.leb_spec (2 ^ usize_bits c - 2 * (i + 1) + 2 + 8) (2 ^ usize_bits c)), (N.leb_spec 4 i); (reflexivity || lia). }
  set (Inv := fun k (s : dynamic_storage) => dy_depth s = len cells /\ bytes_ok (dy_bits s) /\ len (dy_bits s) = m
     /\ forall i x, nth_error cells (N.to_nat i) = Some x ->
          bits_of (bytes_value (dy_bits s)) (2 ^ usize_bits c - 2 * (i + 1)) 2 = if (4 <=? i) && (i <? k) then cell_index Dim2D x else 0).
  unfold set_cells.
  destruct (foldM_enum_inv Inv (fun (r : dynamic_storage) lc => st_set (dynamic_ops c Dim2D) r (fst lc) (snd lc)) cells
     (MkDynamic (zeros m) (len cells))) as (s & E & I1 & I2 & I3 & I4).
  - split; [reflexivity|]. split; [apply bytes_ok_zeros|]. split; [apply len_zeros|]. intros i x Hx. cbn [dy_bits].
    rewrite bytes_value_zeros, bits_of_zero. destruct (N.ltb_spec i 0); [lia|]. rewrite andb_false_r. reflexivity.
  - intros i x s Hx (J1 & J2 & J3 & J4). cbn [fst snd st_set dynamic_ops].
    assert (Hi : N.of_nat i < len cells).
    { assert (Q : (i < List.length cells)%nat) by (apply nth_error_Some; congruence). unfold len. lia. }
    destruct (set_release c Dim2D (dy_bits s) (N.of_nat i) x dim2_ok HO J2 ltac:(lia) ltac:(cbn [dim Dim2D]; rewrite J3; lia)) as (l' & E & B & Ll & V).
    rewrite E, bind_ret. eexists. split; [reflexivity|]. cbn [dy_depth dy_bits]. split; [exact J1|]. split; [exact B|].
    split; [cbn [dy_bits]; rewrite Ll; exact J3|]. cbn [dy_bits]. intros k y Hk.
    assert (Hk' : k < len cells).
    { assert (Q : (N.to_nat k < List.length cells)%nat) by (apply nth_error_Some; congruence). unfold len. lia. }
    rewrite V. rewrite J3, RE by exact Hi. rewrite (stored_writable c Dim2D KDynamic x HW). rewrite PL by exact Hi. cbn [dim Dim2D].
    specialize (J4 k y Hk). destruct (N.eqb_spec k (N.of_nat i)) as [Q|Q].
    + subst k. rewrite Nat2N.id in Hk. assert (y = x) by congruence. subst y. destruct (N.ltb_spec (N.of_nat i) (N.of_nat i + 1)); [|lia].
      destruct (N.leb_spec 4 (N.of_nat i)) as [G|G]; cbn [andb].
      * rewrite bits_of_put_same. apply N.mod_small. exact (idx_lt Dim2D dim2_ok x).
      * rewrite J4. reflexivity.
    + assert (T : (k <? N.of_nat i + 1) = (k <? N.of_nat i)).
      { destruct (N.ltb_spec k (N.of_nat i + 1)), (N.ltb_spec k (N.of_nat i)); (reflexivity || lia). }
      rewrite T. rewrite <- J4. destruct (4 <=? N.of_nat i); [|reflexivity]. apply bits_of_put_other. lia.
  - rewrite E, bind_ret. exists s. split; [reflexivity|].
    assert (LL : len ([Q0; Q0; Q0; Q0] ++ skipn 4 cells) = len cells).
    { rewrite len_app. unfold len in *. rewrite skipn_length. cbn [List.length]. lia. }
    split; [cbn [st_depth dynamic_ops]; rewrite I1; symmetry; exact LL|].
    intro k. unfold get_cell_at_level. cbn [st_depth st_get dynamic_ops]. rewrite I1. destruct (N.leb_spec (len cells) k) as [G|G].
    + rewrite (proj2 (nth_error_None _ _)); [reflexivity|].
      unfold len in LL, G. apply Nat2N.inj in LL. apply (Nat.le_trans _ (List.length cells)); [apply Nat.eq_le_incl; exact LL|lia].
    + destruct (nth_error_N_lt cells k G) as (x & Hx). specialize (I4 k x Hx).
      rewrite get_release by (exact dim2_ok || assumption || (cbn [dim Dim2D]; lia)). rewrite I3, RE, PL by exact G. cbn [dim Dim2D].
      destruct (N.leb_spec 4 k) as [F|F].
      * rewrite I4. destruct (N.ltb_spec k (len cells)); [|lia]. cbn [andb].
        rewrite nth_error_app2 by (cbn [List.length]; lia). cbn [List.length].
        assert (NE : @nth_error (cell Dim2D) (skipn 4 cells) (N.to_nat k - 4) = Some x).
        { rewrite <- Hx. replace (N.to_nat k) with (4 + (N.to_nat k - 4))%nat at 2 by lia. generalize (N.to_nat k - 4)%nat. clear. intro n.
          do 4 (destruct cells as [|? cells]; [destruct n; reflexivity|]). reflexivity. }
        etransitivity; [exact (unwrap_idx Dim2D x dim2_ok)|].
        match goal with |- _ = match ?t with _ => _ end => change t with (@nth_error (cell Dim2D) (skipn 4 cells) (N.to_nat k - 4)) end.
        rewrite NE. reflexivity.
      * rewrite nth_error_app1 by (cbn [List.length]; lia). assert (K : k = 0 \/ k = 1 \/ k = 2 \/ k = 3) by lia.
        destruct K as [-> |[-> |[-> | ->]]]; reflexivity.
Qed.
Lemma c46_release_loses_cells_refuted_lemma :
  ~ (forall c cells s, overflow_checks c = false -> target_endian c = LittleEndian -> len cells < 2 ^ (usize_bits c - 1) ->
     dynamic_try_from c Dim2D layout2D cells = Ret (Ok s) -> shows (dynamic_ops c Dim2D) s cells).
Proof.
  intro H. set (c := Cfg false PW16 LittleEndian). set (cells := @repeat (cell Dim2D) Q1 (N.to_nat 32765)).
  assert (Hl : len cells = 32765) by (unfold cells; rewrite len_repeat, N2Nat.id; reflexivity).
  destruct (c46_try_from_release_2d_lemma c cells eq_refl (or_introl eq_refl)) as (s & E & Sh).
  { rewrite Hl. vm_compute. reflexivity. } { rewrite Hl. vm_compute. reflexivity. }
  specialize (H c cells s eq_refl eq_refl ltac:(rewrite Hl; vm_compute; reflexivity) E).
  destruct H as [_ H]. destruct Sh as [_ Sh]. specialize (H 0). rewrite (Sh 0) in H. unfold cells in H.
  replace (N.to_nat 32765) with (S (N.to_nat 32764)) in H by lia. cbn in H. discriminate H.
Qed.
