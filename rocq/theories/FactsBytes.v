(* FactsBytes.v - lemmas behind PropBytes.v: comparing indices through their bits and bytes (C59) *)
From Coq Require Import ZifyBool ZifyNat ZifyN.
From Verif Require Import Base ModelNumber ModelDim ModelStorage Model2D Model3D Spec SpecSpace SpecBytes History BitProofs NumberProofs CellProofs
  StorageProofs OrderProofs HistoryProofs FactsTree FactsOrder FactsHistory FactsSpace ExampleTools.

Lemma compare_scale a b p : N.compare (a * 2 ^ p) (b * 2 ^ p) = N.compare a b.
Proof.
  pose proof (pow2_ne0 p) as Z. destruct (N.compare_spec a b) as [->|H|H].
  - apply N.compare_refl.
  - apply N.compare_lt_iff. nia.
  - apply N.compare_gt_iff. nia.
Qed.
(* codes at the top of words of the same width *)
Lemma compare_codes_word n da a db b w : n * da <= w -> n * db <= w ->
  compare_codes n da a db b
  = match N.compare (a * 2 ^ (w - n * da)) (b * 2 ^ (w - n * db)) with Eq => N.compare da db | r => r end.
Proof.
  intros Ha Hb. unfold compare_codes.
  rewrite <- (compare_scale (a * _) (b * _) (w - n * N.max da db)), <- !N.mul_assoc, <- !N.pow_add_r.
  destruct (N.le_gt_cases da db) as [H|H].
  - replace (da - db) with 0 by lia. rewrite N.max_r by exact H.
    replace (n * (db - da) + (w - n * db)) with (w - n * da) by nia.
    replace (n * 0 + (w - n * db)) with (w - n * db) by lia. reflexivity.
  - replace (db - da) with 0 by lia. rewrite N.max_l by lia.
    replace (n * (da - db) + (w - n * da)) with (w - n * db) by nia.
    replace (n * 0 + (w - n * da)) with (w - n * da) by lia. reflexivity.
Qed.
Lemma bytes_cmp_antisym a b : bytes_cmp b a = CompOpp (bytes_cmp a b).
Proof.
  revert b; induction a as [|x a IH]; intros [|y b]; try reflexivity. cbn [bytes_cmp].
  rewrite (N.compare_antisym x y). destruct (N.compare x y); cbn [CompOpp]; try reflexivity. apply IH.
Qed.
(* the number written by a byte string with the most significant byte first *)
Definition big (l : list N) : N := bytes_value (rev l).
Lemma big_cons x l : big (x :: l) = x * 2 ^ (8 * len l) + big l.
Proof.
  unfold big. cbn [rev]. rewrite bytes_value_app. unfold len at 1. rewrite rev_length. fold (len l).
  cbn [bytes_value]. lia.
Qed.
Lemma big_lt l : bytes_ok l -> big l < 2 ^ (8 * len l).
Proof.
  intro H. unfold big. assert (E : len l = len (rev l)) by (unfold len; rewrite rev_length; reflexivity).
  rewrite E. apply bytes_value_lt. apply Forall_rev. exact H.
Qed.
Lemma bytes_cmp_codes a : forall b, bytes_ok a -> bytes_ok b -> bytes_cmp a b = compare_codes 8 (len a) (big a) (len b) (big b).
Proof.
  induction a as [|x a IH]; intros [|y b] Ha Hb.
  - reflexivity.
  - unfold compare_codes. change (big []) with 0. rewrite N.mul_0_l. cbn [bytes_cmp].
    assert (Q : N.compare (len (A:=N) []) (len (y :: b)) = Lt) by (apply N.compare_lt_iff; rewrite len_cons; unfold len; cbn; lia).
    rewrite Q. match goal with |- _ = match ?x with _ => _ end => destruct x eqn:C end; try reflexivity.
    apply N.compare_gt_iff in C. destruct (N.nlt_0_r _ C).
  - unfold compare_codes. change (big []) with 0. rewrite N.mul_0_l. cbn [bytes_cmp].
    assert (Q : N.compare (len (x :: a)) (len (A:=N) []) = Gt) by (apply N.compare_gt_iff; rewrite len_cons; unfold len; cbn; lia).
    rewrite Q. match goal with |- _ = match ?x with _ => _ end => destruct x eqn:C end; try reflexivity.
    apply N.compare_lt_iff in C. destruct (N.nlt_0_r _ C).
  - cbn [bytes_cmp]. inversion Ha as [|? ? _ Ha']. inversion Hb as [|? ? _ Hb']. subst.
    rewrite (IH b Ha' Hb').
    set (w := 8 * N.max (len a) (len b)).
    rewrite (compare_codes_word 8 (len (x :: a)) _ (len (y :: b)) _ (8 + w)) by (rewrite len_cons; subst w; lia).
    rewrite (compare_codes_word 8 (len a) _ (len b) _ w) by (subst w; lia).
    rewrite !big_cons, !len_cons.
    replace (8 + w - 8 * (len a + 1)) with (w - 8 * len a) by lia.
    replace (8 + w - 8 * (len b + 1)) with (w - 8 * len b) by lia.
    rewrite !N.mul_add_distr_r, <- !N.mul_assoc, <- !N.pow_add_r.
    replace (8 * len a + (w - 8 * len a)) with w by (subst w; lia).
    replace (8 * len b + (w - 8 * len b)) with w by (subst w; lia).
    pose proof (big_lt a Ha') as La. pose proof (big_lt b Hb') as Lb.
    rewrite compare_digits.
    + destruct (N.compare x y); try reflexivity.
      match goal with |- match ?x with _ => _ end = _ => destruct x end; try reflexivity. symmetry.
      destruct (N.compare_spec (len a) (len b)); [apply N.compare_eq_iff|apply N.compare_lt_iff|apply N.compare_gt_iff]; lia.
    + replace w with (8 * len a + (w - 8 * len a)) at 2 by (subst w; lia). rewrite N.pow_add_r.
      apply N.mul_lt_mono_pos_r; [pose proof (pow2_ne0 (w - 8 * len a)); lia|exact La].
    + replace w with (8 * len b + (w - 8 * len b)) at 2 by (subst w; lia). rewrite N.pow_add_r.
      apply N.mul_lt_mono_pos_r; [pose proof (pow2_ne0 (w - 8 * len b)); lia|exact Lb].
Qed.

(* ---------- C59 ---------- *)
Lemma canon_num c D k s l : canon c D k s l -> dim D * len l <= width c k s /\ num k s = enc l * 2 ^ (width c k s - dim D * len l).
Proof.
  intros [A B _ W R]. rewrite W. split; [exact (proj1 (proj2 B))|]. rewrite (holds_value _ _ _ B) at 1. rewrite R. lia.
Qed.
Lemma c59_static_bits_lemma : forall c D L t (a b : storage (KStatic t)) la lb,
  made c D L (KStatic t) true a la -> made c D L (KStatic t) true b lb ->
  idx_cmp c D (KStatic t) a b
  = Ret (match N.compare (sx_bits a) (sx_bits b) with Eq => N.compare (sx_depth a) (sx_depth b) | r => r end).
Proof.
  intros c D L t a b la lb Ma Mb.
  rewrite (made_cmp c D L (KStatic t) true true a b la lb (fun t' Q => or_intror (conj eq_refl eq_refl)) Ma Mb).
  destruct (made_canon _ _ _ _ _ _ Ma) as [HD Ca]. destruct (made_canon _ _ _ _ _ _ Mb) as [_ Cb].
  destruct (canon_num _ _ _ _ _ Ca) as [Wa Na]. destruct (canon_num _ _ _ _ _ Cb) as [Wb Nb].
  cbn [num width] in *.
  rewrite (path_cmp_codes D la lb HD), (compare_codes_word _ _ _ _ _ _ Wa Wb), <- Na, <- Nb.
  pose proof (raw_depth _ _ _ _ _ _ _ _ Ca) as Da. pose proof (raw_depth _ _ _ _ _ _ _ _ Cb) as Db.
  change (sx_depth a = len la) in Da. change (sx_depth b = len lb) in Db. rewrite Da, Db. reflexivity.
Qed.
Lemma c59_dynamic_bytes_lemma : forall c D L (a b : storage KDynamic) la lb,
  made c D L KDynamic true a la -> made c D L KDynamic true b lb ->
  idx_cmp c D KDynamic a b
  = Ret (match bytes_cmp (rev (dy_bits a)) (rev (dy_bits b)) with Eq => N.compare (dy_depth a) (dy_depth b) | r => r end).
Proof.
  intros c D L a b la lb Ma Mb.
  assert (F : forall t, KDynamic = KFixed t -> dim D = 2 \/ true = true /\ true = true) by (intros; discriminate).
  rewrite (made_cmp c D L KDynamic true true a b la lb F Ma Mb).
  destruct (made_canon _ _ _ _ _ _ Ma) as [HD Ca]. destruct (made_canon _ _ _ _ _ _ Mb) as [_ Cb].
  destruct (canon_num _ _ _ _ _ Ca) as [Wa Na]. destruct (canon_num _ _ _ _ _ Cb) as [Wb Nb].
  pose proof (raw_depth _ _ _ _ _ _ _ _ Ca) as Da. pose proof (raw_depth _ _ _ _ _ _ _ _ Cb) as Db.
  change (dy_depth a = len la) in Da. change (dy_depth b = len lb) in Db. rewrite Da, Db.
  destruct (raw_sane _ _ _ _ _ _ _ _ Ca) as [Oa _]. destruct (raw_sane _ _ _ _ _ _ _ _ Cb) as [Ob _].
  pose proof (raw_width _ _ _ _ _ _ _ _ Ca) as La. pose proof (raw_width _ _ _ _ _ _ _ _ Cb) as Lb.
  cbn [num width min_width] in *.
  rewrite bytes_cmp_codes by (apply Forall_rev; assumption). unfold big. rewrite !rev_involutive.
  replace (len (rev (dy_bits a))) with (len (dy_bits a)) by (unfold len; rewrite rev_length; reflexivity).
  replace (len (rev (dy_bits b))) with (len (dy_bits b)) by (unfold len; rewrite rev_length; reflexivity).
  set (na := len (dy_bits a)) in *. set (nb := len (dy_bits b)) in *.
  set (w := 8 * N.max na nb).
  rewrite (compare_codes_word 8 na _ nb _ w) by (subst w; lia).
  rewrite (path_cmp_codes D la lb HD), (compare_codes_word (dim D) (len la) _ (len lb) _ w) by (subst w; lia).
  rewrite Na, Nb, <- !N.mul_assoc, <- !N.pow_add_r.
  replace (8 * na - dim D * len la + (w - 8 * na)) with (w - dim D * len la) by (subst w; lia).
  replace (8 * nb - dim D * len lb + (w - 8 * nb)) with (w - dim D * len lb) by (subst w; lia).
  destruct (N.compare (enc la * _) (enc lb * _)); try reflexivity.
  assert (Z : dim D <> 0) by (pose proof (dim_ge _ HD); lia).
  destruct (N.compare_spec na nb) as [Q|Q|Q]; try reflexivity.
  - f_equal. apply N.compare_lt_iff. clear - La Lb Q Z. destruct (N.lt_ge_cases (len la) (len lb)) as [G|G]; [exact G|].
    assert (H : (dim D * len lb + 7) / 8 <= (dim D * len la + 7) / 8) by (apply N.div_le_mono; nia). lia.
  - f_equal. apply N.compare_gt_iff. clear - La Lb Q Z. destruct (N.lt_ge_cases (len lb) (len la)) as [G|G]; [exact G|].
    assert (H : (dim D * len la + 7) / 8 <= (dim D * len lb + 7) / 8) by (apply N.div_le_mono; nia). lia.
Qed.

(* ---------- C60 from the bits ---------- *)
Lemma prefix_codes D (la lb : list (cell D)) w w' : dim_ok D -> dim D * len la <= w -> dim D * len lb <= w' ->
  (is_prefix la lb <-> len la <= len lb
   /\ enc la * 2 ^ (w - dim D * len la) / 2 ^ (w - dim D * len la) = enc lb * 2 ^ (w' - dim D * len lb) / 2 ^ (w' - dim D * len la)).
Proof.
  intros HD Wa Wb. rewrite N.div_mul by apply pow2_ne0.
  assert (S : forall p r, lb = p ++ r -> len p = len la ->
    enc lb * 2 ^ (w' - dim D * len lb) / 2 ^ (w' - dim D * len la) = enc p).
  { intros p r -> Hp. rewrite len_app in *. rewrite Hp in *.
    replace (w' - dim D * len la) with (dim D * len r + (w' - dim D * (len la + len r))) by lia.
    rewrite N.pow_add_r, N.div_mul_cancel_r by apply pow2_ne0.
    rewrite enc_app, N.div_add_l by apply pow2_ne0. rewrite N.div_small by apply (enc_lt HD). lia. }
  split.
  - intros [r ->]. split; [rewrite len_app; lia|]. symmetry. exact (S la r eq_refl eq_refl).
  - intros [H E]. exists (skipn (N.to_nat (len la)) lb).
    assert (P : len (firstn (N.to_nat (len la)) lb) = len la) by (unfold len in *; rewrite firstn_length; lia).
    rewrite (S (firstn (N.to_nat (len la)) lb) (skipn (N.to_nat (len la)) lb) (eq_sym (firstn_skipn _ _)) P) in E.
    rewrite (enc_inj HD _ _ (eq_sym P) E) at 1. symmetry. apply firstn_skipn.
Qed.
Lemma c60_static_bits_lemma : forall c D L t (a b : storage (KStatic t)) la lb,
  made c D L (KStatic t) true a la -> made c D L (KStatic t) true b lb ->
  (is_prefix la lb <-> sx_depth a <= sx_depth b
   /\ N.shiftr (sx_bits a) (BITS c t - dim D * sx_depth a) = N.shiftr (sx_bits b) (BITS c t - dim D * sx_depth a)).
Proof.
  intros c D L t a b la lb Ma Mb.
  destruct (made_canon _ _ _ _ _ _ Ma) as [HD Ca]. destruct (made_canon _ _ _ _ _ _ Mb) as [_ Cb].
  destruct (canon_num _ _ _ _ _ Ca) as [Wa Na]. destruct (canon_num _ _ _ _ _ Cb) as [Wb Nb].
  pose proof (raw_depth _ _ _ _ _ _ _ _ Ca) as Da. pose proof (raw_depth _ _ _ _ _ _ _ _ Cb) as Db.
  change (sx_depth a = len la) in Da. change (sx_depth b = len lb) in Db. rewrite Da, Db.
  cbn [num width] in *. rewrite !N.shiftr_div_pow2, Na, Nb. apply (prefix_codes D la lb _ _ HD Wa Wb).
Qed.
Lemma c60_dynamic_bytes_lemma : forall c D L (a b : storage KDynamic) la lb,
  made c D L KDynamic true a la -> made c D L KDynamic true b lb ->
  (is_prefix la lb <-> dy_depth a <= dy_depth b
   /\ N.shiftr (bytes_value (dy_bits a)) (8 * len (dy_bits a) - dim D * dy_depth a)
      = N.shiftr (bytes_value (dy_bits b)) (8 * len (dy_bits b) - dim D * dy_depth a)).
Proof.
  intros c D L a b la lb Ma Mb.
  destruct (made_canon _ _ _ _ _ _ Ma) as [HD Ca]. destruct (made_canon _ _ _ _ _ _ Mb) as [_ Cb].
  destruct (canon_num _ _ _ _ _ Ca) as [Wa Na]. destruct (canon_num _ _ _ _ _ Cb) as [Wb Nb].
  pose proof (raw_depth _ _ _ _ _ _ _ _ Ca) as Da. pose proof (raw_depth _ _ _ _ _ _ _ _ Cb) as Db.
  change (dy_depth a = len la) in Da. change (dy_depth b = len lb) in Db. rewrite Da, Db.
  cbn [num width] in *. rewrite !N.shiftr_div_pow2, Na, Nb. apply (prefix_codes D la lb _ _ HD Wa Wb).
Qed.

(* ---------- C59 outside its hypotheses ---------- *)
Lemma c59_bytes_of_zeroed_refuted_lemma :
  ~ (forall c d s, 2 * d + 24 <= 2 ^ usize_bits c -> dynamic_try_from c Dim2D layout2D (repeat (cell_zero Dim2D) (N.to_nat d)) = Ret (Ok s) ->
     idx_cmp c Dim2D KDynamic (dynamic_zeroed_2d d) s
     = Ret (match bytes_cmp (rev (dy_bits (dynamic_zeroed_2d d))) (rev (dy_bits s)) with
            | Eq => N.compare (dy_depth (dynamic_zeroed_2d d)) (dy_depth s) | r => r end)).
Proof.
  intros H. specialize (H debug64 4 (MkDynamic [0] 4)).
  assert (P : 2 * 4 + 24 <= 2 ^ usize_bits debug64) by (vm_compute; discriminate).
  specialize (H P eq_refl). vm_compute in H. discriminate H.
Qed.
Lemma c59_bytes_in_stored_order_refuted_lemma :
  ~ (forall c D L (a b : storage KDynamic) la lb,
     made c D L KDynamic true a la -> made c D L KDynamic true b lb ->
     idx_cmp c D KDynamic a b
     = Ret (match bytes_cmp (dy_bits a) (dy_bits b) with Eq => N.compare (dy_depth a) (dy_depth b) | r => r end)).
Proof.
  intros H. specialize (H debug64 Dim2D layout2D (MkDynamic [0x40; 0] 5) (MkDynamic [0; 0x40] 5) [Q0; Q0; Q0; Q0; Q1] [Q1; Q0; Q0; Q0; Q0]).
  assert (P : idx_cmp debug64 Dim2D KDynamic (MkDynamic [0x40; 0] 5) (MkDynamic [0; 0x40] 5) = Ret Lt) by (vm_compute; reflexivity).
  rewrite P in H.
  assert (X : Ret (A:=comparison) Lt = Ret Gt); [|discriminate X]. apply H.
  - made_by (start_dynamic_cells debug64 Dim2D layout2D [Q0; Q0; Q0; Q0; Q1]) (@nil (call Dim2D)).
  - made_by (start_dynamic_cells debug64 Dim2D layout2D [Q1; Q0; Q0; Q0; Q0]) (@nil (call Dim2D)).
Qed.

(* ---------- C77 ---------- *)
Lemma enc_cons D x (l : list (cell D)) : enc (x :: l) = cell_index D x * 2 ^ (dim D * len l) + enc l.
Proof.
  change (x :: l) with ([x] ++ l). rewrite enc_app. f_equal. f_equal. unfold enc. cbn [fold_left]. lia.
Qed.
Lemma top_bits_enc D w (l : list (cell D)) : dim D * len l <= w ->
  top_bits (dim D) w (map (cell_index D) l) = enc l * 2 ^ (w - dim D * len l).
Proof.
  revert w; induction l as [|x l IH]; intros w H; [reflexivity|]. cbn [map top_bits]. rewrite len_cons in *.
  assert (E : dim D + dim D * len l = dim D * (len l + 1)) by lia.
  rewrite IH by lia. rewrite enc_cons, N.mul_add_distr_r, <- N.mul_assoc, <- N.pow_add_r.
  f_equal; [do 2 f_equal; lia|]. f_equal. f_equal. lia.
Qed.
Lemma c77_fixed_bits_lemma : forall c D L t (s : storage (KFixed t)) l, made c D L (KFixed t) true s l ->
  fx_bits s = top_bits (dim D) (BITS c t) (map (cell_index D) l).
Proof.
  intros c D L t s l M. destruct (made_canon _ _ _ _ _ _ M) as [HD C]. destruct (canon_num _ _ _ _ _ C) as [W E].
  cbn [num width] in *. rewrite top_bits_enc by exact W. exact E.
Qed.
Lemma c77_static_bits_lemma : forall c D L t (s : storage (KStatic t)) l, made c D L (KStatic t) true s l ->
  sx_depth s = len l /\ sx_bits s = top_bits (dim D) (BITS c t) (map (cell_index D) l).
Proof.
  intros c D L t s l M. destruct (made_canon _ _ _ _ _ _ M) as [HD C]. destruct (canon_num _ _ _ _ _ C) as [W E].
  cbn [num width] in *. rewrite top_bits_enc by exact W. split; [|exact E]. exact (raw_depth _ _ _ _ _ _ _ _ C).
Qed.
Lemma c77_dynamic_bytes_lemma : forall c D L (s : storage KDynamic) l, made c D L KDynamic true s l ->
  dy_depth s = len l /\ len (dy_bits s) = (dim D * len l + 7) / 8 /\ Forall (fun b => b < 256) (dy_bits s)
  /\ bytes_value (dy_bits s) = top_bits (dim D) (8 * len (dy_bits s)) (map (cell_index D) l).
Proof.
  intros c D L s l M. destruct (made_canon _ _ _ _ _ _ M) as [HD C]. destruct (canon_num _ _ _ _ _ C) as [W E].
  pose proof (raw_width _ _ _ _ _ _ _ _ C) as N. destruct (raw_sane _ _ _ _ _ _ _ _ C) as [B _].
  cbn [num width min_width] in *. rewrite top_bits_enc by exact W.
  split; [exact (raw_depth _ _ _ _ _ _ _ _ C)|]. split; [lia|]. split; [exact B|exact E].
Qed.
(* with an arbitrary start, such as raw bits: the cells are still at the top *)
Lemma holds_between D w v (l : list (cell D)) : holds w v l ->
  top_bits (dim D) w (map (cell_index D) l) <= v < top_bits (dim D) w (map (cell_index D) l) + 2 ^ (w - dim D * len l).
Proof.
  intros H. pose proof (holds_value _ _ _ H) as E. destruct H as (_ & W & _). rewrite top_bits_enc by exact W.
  assert (R : rest D w v (len l) < 2 ^ (w - dim D * len l)) by (apply N.mod_lt, pow2_ne0). lia.
Qed.
Lemma c77_fixed_any_lemma : forall c D L t e (s : storage (KFixed t)) l, made c D L (KFixed t) e s l ->
  let top := top_bits (dim D) (BITS c t) (map (cell_index D) l) in
  len l = BITS c t / dim D /\ top <= fx_bits s < top + 2 ^ (BITS c t mod dim D).
Proof.
  intros c D L t e s l M. destruct (made_repr _ _ _ _ _ _ _ M) as [HD R]. cbv zeta.
  pose proof (raw_depth _ _ _ _ _ _ _ _ R) as Q. change (MAX_LEVELS c D t = len l) in Q. unfold MAX_LEVELS in Q. split; [symmetry; exact Q|].
  pose proof (holds_between _ _ _ _ (raw_holds _ _ _ _ _ _ _ _ R)) as H. cbn [num width] in H.
  assert (Z : dim D <> 0) by (pose proof (dim_ge _ HD); lia). pose proof (N.div_mod (BITS c t) (dim D) Z) as DM. rewrite Q in DM.
  replace (BITS c t mod dim D) with (BITS c t - dim D * len l) by (clear - DM; lia). exact H.
Qed.
Lemma c77_static_any_lemma : forall c D L t e (s : storage (KStatic t)) l, made c D L (KStatic t) e s l ->
  let top := top_bits (dim D) (BITS c t) (map (cell_index D) l) in
  sx_depth s = len l /\ len l <= BITS c t / dim D /\ top <= sx_bits s < top + 2 ^ (BITS c t - dim D * len l).
Proof.
  intros c D L t e s l M. destruct (made_repr _ _ _ _ _ _ _ M) as [HD R]. cbv zeta.
  split; [exact (raw_depth _ _ _ _ _ _ _ _ R)|]. split.
  - exact (static_room _ _ _ _ _ HD R).
  - exact (holds_between _ _ _ _ (raw_holds _ _ _ _ _ _ _ _ R)).
Qed.
Lemma c77_dynamic_any_lemma : forall c D L e (s : storage KDynamic) l, made c D L KDynamic e s l ->
  let n := len (dy_bits s) in
  let top := top_bits (dim D) (8 * n) (map (cell_index D) l) in
  dy_depth s = len l /\ (dim D * len l + 7) / 8 <= n <= (dim D * len l + 7) / 8 + 1
  /\ Forall (fun b => b < 256) (dy_bits s) /\ top <= bytes_value (dy_bits s) < top + 2 ^ (8 * n - dim D * len l).
Proof.
  intros c D L e s l M. destruct (made_rep _ _ _ _ _ _ _ M) as [_ P]. pose proof (rep_repr _ _ _ _ _ _ P) as R. cbv zeta.
  pose proof (rep_width _ _ _ _ _ _ P) as W. cbn [width min_width] in W.
  destruct (raw_sane _ _ _ _ _ _ _ _ R) as [B _]. pose proof (raw_holds _ _ _ _ _ _ _ _ R) as H.
  pose proof (proj1 (proj2 H)) as F. cbn [width] in F.
  split; [exact (raw_depth _ _ _ _ _ _ _ _ R)|]. split; [split; [|lia]|split; [exact B|exact (holds_between _ _ _ _ H)]].
  clear - F. apply N.lt_succ_r. apply N.div_lt_upper_bound; lia.
Qed.
Lemma c77_no_spare_byte_refuted_lemma :
  ~ (forall c D L e (s : storage KDynamic) l, made c D L KDynamic e s l -> len (dy_bits s) = (dim D * len l + 7) / 8).
Proof.
  intros H. specialize (H debug64 Dim2D layout2D false (MkDynamic [0; 0] 4) [Q0; Q0; Q0; Q0]).
  assert (X : 2 = 1); [|discriminate X]. apply H.
  made_by (start_dynamic_zeroed2 debug64 4) (@nil (call Dim2D)).
Qed.
(* on a little-endian target the conversion to fixed depth keeps the low bits of the stored number *)
Lemma le_slice_mod c t bytes : bytes_ok bytes -> num_from_u8_slice c t bytes LittleEndian = bytes_value bytes mod 2 ^ BITS c t.
Proof.
  intros Bl. rewrite num_from_u8_slice_spec by exact Bl. unfold from_bytes. rewrite from_le_bytes_value. unfold padded.
  set (n := num_size c t). assert (Hn : 8 * n = BITS c t) by apply num_size_8.
  assert (V2 : bytes_value (bytes ++ zeros (n - len bytes)) = bytes_value bytes) by (rewrite bytes_value_app, bytes_value_zeros; lia).
  assert (B2 : bytes_ok (bytes ++ zeros (n - len bytes))) by (apply bytes_ok_app; [exact Bl|apply bytes_ok_zeros]).
  assert (L2 : n <= len (bytes ++ zeros (n - len bytes))) by (rewrite len_app, len_zeros; lia).
  set (l2 := bytes ++ zeros (n - len bytes)) in *. clearbody l2.
  rewrite <- V2, <- Hn. rewrite <- (firstn_skipn (N.to_nat n) l2) at 2. rewrite bytes_value_app.
  assert (EL : len (firstn (N.to_nat n) l2) = n) by (rewrite len_firstn by exact L2; reflexivity). rewrite EL.
  rewrite (N.mul_comm (2 ^ (8 * n))), N.mod_add by apply pow2_ne0. symmetry. apply N.mod_small.
  rewrite <- EL at 2. apply bytes_value_lt. apply bytes_ok_firstn. exact B2.
Qed.
Lemma to_from_bytes e l : bytes_ok l -> to_bytes e (List.length l) (from_bytes e l) = l.
Proof.
  intros B. destruct e; cbn [to_bytes from_bytes]; unfold from_be_bytes; rewrite from_le_bytes_value.
  - rewrite <- (rev_length l). rewrite to_le_bytes_inj by (apply bytes_ok_rev; exact B). apply rev_involutive.
  - apply to_le_bytes_inj. exact B.
Qed.
(* ---------- C37 ---------- *)
Lemma c37_bytes_round_trip_lemma : forall c t bytes e, Forall (fun b => b < 256) bytes ->
  let n := BITS c t / 8 in
  let used := firstn (N.to_nat n) (bytes ++ repeat 0 (N.to_nat (n - len bytes))) in
  num_as_u8_slice c t (num_from_u8_slice c t bytes e)
  = match e, target_endian c with LittleEndian, LittleEndian | BigEndian, BigEndian => used | _, _ => rev used end.
Proof.
  intros c t bytes e B n used. rewrite num_from_u8_slice_spec by exact B.
  assert (U : padded (num_size c t) bytes = used) by (unfold used, n; rewrite <- (num_size_8' c t); reflexivity). rewrite U.
  assert (OK : bytes_ok used) by (rewrite <- U; apply padded_ok; exact B).
  assert (LN : N.to_nat (num_size c t) = List.length used) by (rewrite <- (padded_len (num_size c t) bytes), U; apply to_nat_len).
  unfold num_as_u8_slice. rewrite LN. clear U LN. clearbody used.
  destruct e, (target_endian c); try (apply to_from_bytes; exact OK).
  - rewrite <- (rev_length used). apply (to_from_bytes LittleEndian (rev used)). apply bytes_ok_rev; exact OK.
  - rewrite <- (rev_length used). change (from_bytes LittleEndian used) with (from_le_bytes used).
    rewrite <- (rev_involutive used) at 2. apply (to_from_bytes BigEndian (rev used)). apply bytes_ok_rev; exact OK.
Qed.
(* ---------- C24 ---------- *)
Lemma c24_dynamic_to_fixed_memory_lemma : forall c D L t e (s : storage KDynamic) l,
  made c D L KDynamic e s l -> len l <= BITS c t / dim D ->
  let nb := BITS c t / 8 in
  exists s', fixed_from_dynamic c D t s = Ok s'
    /\ num_as_u8_slice c t (fx_bits s') = firstn (N.to_nat nb) (dy_bits s ++ repeat 0 (N.to_nat (nb - len (dy_bits s)))).
Proof.
  intros c D L t e s l M H. destruct (made_repr _ _ _ _ _ _ _ M) as [HD R].
  pose proof (raw_depth _ _ _ _ _ _ _ _ R) as Q. cbn in Q. destruct (raw_sane _ _ _ _ _ _ _ _ R) as [B _].
  unfold fixed_from_dynamic, MAX_LEVELS. rewrite Q. destruct (N.ltb_spec (BITS c t / dim D) (len l)); [lia|].
  eexists. split; [reflexivity|]. cbn [fx_bits]. pose proof (c37_bytes_round_trip_lemma c t (dy_bits s) (target_endian c) B) as X.
  cbv zeta in X. rewrite X. destruct (target_endian c); reflexivity.
Qed.
Lemma c24_dynamic_to_fixed_any_lemma : forall c D L t e (s : storage KDynamic) l,
  made c D L KDynamic e s l -> target_endian c = LittleEndian ->
  fixed_from_dynamic c D t s
  = if len l <=? BITS c t / dim D then Ok (MkFixed (bytes_value (dy_bits s) mod 2 ^ BITS c t)) else Err (DepthLimitedExceeded (BITS c t / dim D)).
Proof.
  intros c D L t e s l M HE. destruct (made_repr _ _ _ _ _ _ _ M) as [HD R].
  pose proof (raw_depth _ _ _ _ _ _ _ _ R) as Q. cbn in Q. destruct (raw_sane _ _ _ _ _ _ _ _ R) as [B _].
  unfold fixed_from_dynamic, MAX_LEVELS. rewrite Q, HE, le_slice_mod by exact B.
  destruct (N.ltb_spec (BITS c t / dim D) (len l)), (N.leb_spec (len l) (BITS c t / dim D)); (reflexivity || lia).
Qed.
Lemma holds_extend D w v (l : list (cell D)) n : dim_ok D -> holds w v l -> dim D * n <= w -> len l <= n ->
  exists r, len (l ++ r) = n /\ holds w v (l ++ r).
Proof.
  intros HD H W Hn. destruct (holds_exists HD w v n (proj1 H) W) as (m & Em & Hm).
  exists (skipn (N.to_nat (len l)) m).
  assert (E : firstn (N.to_nat (len l)) m = l).
  { apply (holds_unique HD w v); [|exact H|apply len_firstn; rewrite Em; exact Hn].
    apply (holds_prefix HD _ _ _ (skipn (N.to_nat (len l)) m)). rewrite firstn_skipn. exact Hm. }
  rewrite <- E at 1 3. rewrite firstn_skipn. split; [exact Em|exact Hm].
Qed.
Lemma c24_dynamic_to_fixed_any_2d_lemma : forall c t e (s : storage KDynamic) l,
  made c Dim2D layout2D KDynamic e s l -> target_endian c = LittleEndian -> len l <= BITS c t / 2 ->
  let n := len (dy_bits s) in let nb := BITS c t / 8 in
  exists s' r, fixed_from_dynamic c Dim2D t s = Ok s'
    /\ shows (fixed_ops c Dim2D t) s' (if n <=? nb then repeat Q0 (N.to_nat (4 * (nb - n))) ++ l ++ r else skipn 4 l ++ r).
Proof.
  intros c t e s l M HE Hl. cbv zeta. pose proof (c24_dynamic_to_fixed_any_lemma c _ _ t e s l M HE) as F.
  change (dim Dim2D) with 2 in F. destruct (N.leb_spec (len l) (BITS c t / 2)); [|lia]. rewrite F. clear F.
  destruct (made_rep _ _ _ _ _ _ _ M) as [_ P]. pose proof (rep_repr _ _ _ _ _ _ P) as R.
  pose proof (rep_width _ _ _ _ _ _ P) as W. cbn [width min_width] in W. change (dim Dim2D) with 2 in W.
  pose proof (raw_holds _ _ _ _ _ _ _ _ R) as Hh. cbn [num width] in Hh.
  destruct (made_repr _ _ _ _ _ _ _ M) as [HD _].
  set (v := bytes_value (dy_bits s)) in *. set (n := len (dy_bits s)) in *.
  pose proof (num_size_8 c t) as S8. rewrite <- S8 in *. set (nb := num_size c t) in *.
  replace (8 * nb / 8) with nb by (symmetry; rewrite N.mul_comm; apply N.div_mul; discriminate).
  replace (8 * nb / 2) with (4 * nb) in * by (symmetry; replace (8 * nb) with (4 * nb * 2) by lia; apply N.div_mul; discriminate).
  enough (X : exists p, (len p <= 4 * nb /\ @holds Dim2D (8 * nb) (v mod 2 ^ (8 * nb)) p)
     /\ p = if n <=? nb then repeat Q0 (N.to_nat (4 * (nb - n))) ++ l else skipn 4 l).
  { destruct X as (p & (Lp & Hp) & Ep).
    destruct (holds_extend Dim2D _ _ p (4 * nb) HD Hp) as (r & Er & Hr); [change (dim Dim2D) with 2; lia|exact Lp|].
    exists (MkFixed (v mod 2 ^ (8 * nb))), r. split; [reflexivity|].
    enough (Y : shows (fixed_ops c Dim2D t) (MkFixed (v mod 2 ^ (8 * nb))) (p ++ r)).
    { rewrite Ep in Y. destruct (n <=? nb); [rewrite <- app_assoc in Y|]; exact Y. }
    apply (repr_shows c Dim2D (KFixed t)); [exact HD|]. constructor; try reflexivity; cbn [num width fx_bits].
    - cbn [sane fx_bits]. rewrite <- S8. apply N.mod_lt, pow2_ne0.
    - rewrite <- S8. exact Hr.
    - change (MAX_LEVELS c Dim2D t = len (p ++ r)). unfold MAX_LEVELS. rewrite Er, <- S8. change (dim Dim2D) with 2.
      replace (8 * nb) with (4 * nb * 2) by lia. apply N.div_mul. discriminate. }
  destruct Hh as (V & F & Ev). change (dim Dim2D) with 2 in F, Ev.
  destruct (N.leb_spec n nb) as [C|C].
  - exists (repeat (cell_zero Dim2D) (N.to_nat (4 * (nb - n))) ++ l). split; [|reflexivity].
    assert (LZ : len (repeat (cell_zero Dim2D) (N.to_nat (4 * (nb - n))) ++ l) = 4 * (nb - n) + len l) by (rewrite len_app, len_repeat, N2Nat.id; reflexivity).
    split; [rewrite LZ; lia|]. assert (V' : v < 2 ^ (8 * nb)) by (eapply N.lt_le_trans; [exact V|apply N.pow_le_mono_r; lia]).
    rewrite N.mod_small by exact V'. unfold holds. rewrite LZ. change (dim Dim2D) with 2. split; [exact V'|]. split; [lia|].
    replace (8 * nb - 2 * (4 * (nb - n) + len l)) with (8 * n - 2 * len l) by lia. rewrite Ev.
    rewrite enc_app, (enc_zeros HD). lia.
  - exists (skipn 4 l). split; [|reflexivity]. assert (n = nb + 1).
    { assert (2 * len l <= 8 * nb) by lia. assert ((2 * len l + 7) / 8 <= nb); [|lia].
      apply N.lt_succ_r. apply N.div_lt_upper_bound; lia. }
    assert (V' : v mod 2 ^ (8 * nb) < 2 ^ (8 * nb)) by apply N.mod_lt, pow2_ne0.
    destruct (N.le_gt_cases 4 (len l)) as [G|G].
    + pose proof (len_skipn l 4) as LS. change (N.to_nat 4) with 4%nat in LS.
      split; [lia|]. unfold holds. rewrite LS. change (dim Dim2D) with 2. split; [exact V'|]. split; [lia|].
      replace (8 * nb - 2 * (len l - 4)) with (8 * n - 2 * len l) by lia.
      assert (Ea : enc l = enc (firstn 4 l) * 2 ^ (2 * (len l - 4)) + enc (skipn 4 l)).
      { rewrite <- (firstn_skipn 4 l) at 1. rewrite enc_app, LS. reflexivity. }
      assert (Lt : enc (skipn 4 l) < 2 ^ (2 * (len l - 4))) by (rewrite <- LS; apply (enc_lt HD)).
      replace (8 * nb) with (2 * (len l - 4) + (8 * n - 2 * len l)) by lia.
      set (q := 8 * n - 2 * len l) in *. set (u := 2 * (len l - 4)) in *. clearbody q u. clear - Ev Ea Lt.
      rewrite (N.add_comm u q), N.pow_add_r, N.mod_mul_r, N.mul_comm by apply pow2_ne0. rewrite Ev, Ea.
      rewrite (N.add_comm (_ * _) (enc (skipn 4 l))), N.mod_add, (N.mod_small _ _ Lt) by apply pow2_ne0.
      rewrite N.add_comm, N.div_add_l, N.div_small by (apply pow2_ne0 || (apply N.mod_lt; apply pow2_ne0)). apply N.add_0_r.
    + rewrite skipn_all2 by (unfold len in G; lia). split; [change (len (@nil (cell Dim2D))) with 0; lia|apply holds_nil; exact V'].
Qed.
(* a full index made from zeroed(4) does not survive the conversion to a fixed-depth index of the same depth *)
Lemma c24_spare_byte_refuted_lemma :
  ~ (forall c t e (s : storage KDynamic) l s', target_endian c = LittleEndian -> made c Dim2D layout2D KDynamic e s l ->
     len l = BITS c t / 2 -> fixed_from_dynamic c Dim2D t s = Ok s' -> shows (fixed_ops c Dim2D t) s' l).
Proof.
  intros H. specialize (H debug64 U8 false (MkDynamic [0; 0xC0] 4) [Q3; Q0; Q0; Q0] (MkFixed 0)).
  destruct H as [_ H]; try reflexivity.
  - made_by (start_dynamic_zeroed2 debug64 4) [CSet (D:=Dim2D) 0 Q3].
  - specialize (H 0). vm_compute in H. discriminate H.
Qed.
(* the bits that ancestor leaves behind the path become cells of the fixed-depth index *)
Lemma c24_stale_bits_refuted_lemma :
  ~ (forall c D L t e (s : storage KDynamic) l s', target_endian c = LittleEndian -> made c D L KDynamic e s l ->
     len (dy_bits s) = BITS c t / 8 -> fixed_from_dynamic c D t s = Ok s' ->
     shows (fixed_ops c D t) s' (l ++ repeat (cell_zero D) (N.to_nat (BITS c t / dim D - len l)))).
Proof.
  intros H. specialize (H debug64 Dim2D layout2D U16 false (MkDynamic [0; 3] 3) [Q0; Q0; Q0] (MkFixed 0x0300)).
  destruct H as [_ H]; try reflexivity.
  - made_by (start_dynamic_zeroed2 debug64 4) [CSet (D:=Dim2D) 3 Q3; CParent (D:=Dim2D)].
  - specialize (H 3). vm_compute in H. discriminate H.
Qed.
(* equality between indices that all started from the same zeroed index *)
Lemma c22_derived_from_zeroed_refuted_lemma :
  ~ (forall c d h h' l (a b : storage KDynamic) r r', 2 * d + 24 <= 2 ^ usize_bits c ->
     run_model (D:=Dim2D) c layout2D (pack KDynamic (dynamic_zeroed_2d d)) h = Ret (pack KDynamic a, r) ->
     run_model (D:=Dim2D) c layout2D (pack KDynamic (dynamic_zeroed_2d d)) h' = Ret (pack KDynamic b, r') ->
     shows (dynamic_ops c Dim2D) a l -> shows (dynamic_ops c Dim2D) b l -> idx_eq KDynamic a b = true).
Proof.
  intros H.
  specialize (H debug64 4 [CParent] [CSet (D:=Dim2D) 3 Q3; CParent] [Q0; Q0; Q0] (MkDynamic [0; 0] 3) (MkDynamic [0; 3] 3) [ADone] [ADone; ADone]).
  assert (S : forall s : dynamic_storage, s = MkDynamic [0; 0] 3 \/ s = MkDynamic [0; 3] 3 -> shows (dynamic_ops debug64 Dim2D) s [Q0; Q0; Q0]).
  { intros s [-> | ->]; concrete. }
  assert (X : false = true); [|discriminate X].
  apply H; [vm_compute; discriminate|vm_compute; reflexivity|vm_compute; reflexivity|apply S; left; reflexivity|apply S; right; reflexivity].
Qed.
