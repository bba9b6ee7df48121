(* FactsConv.v - proofs of the theorems stated in PropConv.v *)
From Verif Require Import Base ModelNumber ModelDim ModelStorage Model2D Model3D Spec History BitProofs NumberProofs VecProofs CellProofs StorageProofs OrderProofs ConvProofs HistoryProofs FactsCells FactsOrder.

(* ---------- C23 ---------- *)
Lemma c23_fixed_to_static_lemma : forall c D L t (s : storage (KFixed t)) l,
  is_dim D L -> valid c D (KFixed t) s -> shows (fixed_ops c D t) s l ->
  valid c D (KStatic t) (static_from_fixed c D t s) /\ shows (static_ops c D t) (static_from_fixed c D t s) l.
Proof.
  intros c D L t s l HL V S. pose proof (is_dim_ok _ _ HL) as HD. pose proof (valid_shows c D (KFixed t) _ _ HD V S) as R.
  apply static_from_fixed_repr in R; [|exact HD]. split; [eapply repr_valid; eassumption|apply (repr_shows c D (KStatic t)); assumption].
Qed.
Lemma c23_fixed_to_dynamic_lemma : forall c D L t (s : storage (KFixed t)) l,
  is_dim D L -> valid c D (KFixed t) s -> shows (fixed_ops c D t) s l ->
  valid c D KDynamic (dynamic_from_fixed c D t s) /\ shows (dynamic_ops c D) (dynamic_from_fixed c D t s) l.
Proof.
  intros c D L t s l HL V S. pose proof (is_dim_ok _ _ HL) as HD. pose proof (valid_shows c D (KFixed t) _ _ HD V S) as R.
  destruct (dynamic_from_fixed_repr c D L t s l HL R) as [R' _].
  split; [eapply repr_valid; eassumption|apply (repr_shows c D KDynamic); assumption].
Qed.
Lemma c23_static_to_dynamic_lemma : forall c D L t (s : storage (KStatic t)) l,
  is_dim D L -> writable c KDynamic -> valid c D (KStatic t) s -> shows (static_ops c D t) s l ->
  exists s', dynamic_from_static c D L t s = Ret s' /\ valid c D KDynamic s' /\ shows (dynamic_ops c D) s' l.
Proof.
  intros c D L t s l HL HE V S. pose proof (is_dim_ok _ _ HL) as HD. pose proof (valid_shows c D (KStatic t) _ _ HD V S) as R.
  destruct (dynamic_from_static_canon c D L t s l HL HE R) as (s' & E & R'). apply canon_repr in R'. exists s'. split; [exact E|].
  split; [eapply repr_valid; eassumption|apply (repr_shows c D KDynamic); assumption].
Qed.
Lemma c23_dynamic_to_static_lemma : forall c D L t (s : storage KDynamic) l,
  is_dim D L -> valid c D KDynamic s -> shows (dynamic_ops c D) s l ->
  if len l <=? BITS c t / dim D
  then exists s', static_from_dynamic c D t s = Ret (Ok s') /\ valid c D (KStatic t) s' /\ shows (static_ops c D t) s' l
  else static_from_dynamic c D t s = Ret (Err (DepthLimitedExceeded (BITS c t / dim D))).
Proof.
  intros c D L t s l HL V S. pose proof (is_dim_ok _ _ HL) as HD. pose proof (valid_shows c D KDynamic _ _ HD V S) as R.
  destruct (N.leb_spec (len l) (BITS c t / dim D)) as [H|H].
  - destruct (static_from_dynamic_ok c D t s l HD R H) as (s' & E & R'). apply canon_repr in R'. exists s'. split; [exact E|].
    split; [eapply repr_valid; eassumption|apply (repr_shows c D (KStatic t)); assumption].
  - unfold static_from_dynamic. pose proof (raw_depth _ _ _ _ _ _ _ _ R) as Hd. cbn [st_depth ops dynamic_ops] in Hd. rewrite Hd.
    unfold MAX_LEVELS. destruct (N.ltb_spec (BITS c t / dim D) (len l)); [reflexivity|lia].
Qed.
Lemma c23_static_to_fixed_lemma : forall c D L t (s : storage (KStatic t)) l,
  made c D L (KStatic t) true s l ->
  valid c D (KFixed t) (fixed_from_static s)
  /\ shows (fixed_ops c D t) (fixed_from_static s) (l ++ repeat (cell_zero D) (N.to_nat (BITS c t / dim D - len l))).
Proof.
  intros c D L t s l HM. destruct (made_canon _ _ _ _ _ _ HM) as [HD C].
  pose proof (canon_repr _ _ _ _ _ (fixed_from_static_canon c D t s l HD C)) as R.
  split; [eapply (repr_valid c D (KFixed t)); eassumption|apply (repr_shows c D (KFixed t)); assumption].
Qed.
(* without knowing how the static index was made, its cells are still preserved *)
Lemma c23_static_to_fixed_keeps_cells_lemma : forall c D L t (s : storage (KStatic t)) l,
  is_dim D L -> valid c D (KStatic t) s -> shows (static_ops c D t) s l ->
  valid c D (KFixed t) (fixed_from_static s)
  /\ exists tail, shows (fixed_ops c D t) (fixed_from_static s) (l ++ tail).
Proof.
  intros c D L t s l HL V S. pose proof (is_dim_ok _ _ HL) as HD. pose proof (valid_shows c D (KStatic t) _ _ HD V S) as R.
  destruct (fixed_from_static_repr c D t s l HD R) as (tail & R').
  split; [eapply (repr_valid c D (KFixed t)); eassumption|]. exists tail. apply (repr_shows c D (KFixed t)); assumption.
Qed.
(* converting to dynamic and back is the identity *)
Lemma c23_static_dynamic_static_lemma : forall c D L t (s : storage (KStatic t)) l,
  made c D L (KStatic t) true s l -> writable c KDynamic ->
  exists d s', dynamic_from_static c D L t s = Ret d /\ static_from_dynamic c D t d = Ret (Ok s') /\ idx_eq (KStatic t) s' s = true.
Proof.
  intros c D L t s l HM HE. destruct (made_rep _ _ _ _ _ _ _ HM) as [HL C]. pose proof (is_dim_ok _ _ HL) as HD. cbn [rep] in C.
  pose proof (canon_repr _ _ _ _ _ C) as R.
  destruct (dynamic_from_static_canon c D L t s l HL HE R) as (d & E & Cd).
  destruct (static_from_dynamic_ok c D t d l HD (canon_repr _ _ _ _ _ Cd)) as (s' & E' & C'); [eapply static_room; eassumption|].
  exists d, s'. split; [exact E|]. split; [exact E'|]. apply idx_eq_iff. eapply (canon_unique c D (KStatic t)); eassumption.
Qed.
Lemma c23_fixed_static_fixed_lemma : forall c D t (s : storage (KFixed t)),
  idx_eq (KFixed t) (fixed_from_static (static_from_fixed c D t s)) s = true.
Proof. intros c D t s. apply idx_eq_iff. destruct s; reflexivity. Qed.

(* ---------- C24 ---------- *)
Lemma enc_zero_iff D (l : list (cell D)) : dim_ok D -> (enc l = 0 <-> l = repeat (cell_zero D) (List.length l)).
Proof.
  intros HD. split.
  - intros E. apply (enc_inj HD); [rewrite len_repeat; reflexivity|]. rewrite enc_zeros by assumption. exact E.
  - intros ->. apply enc_zeros; assumption.
Qed.
Lemma c24_dynamic_to_fixed_partial_lemma : forall c D L t (s : storage KDynamic) l,
  made c D L KDynamic true s l -> target_endian c = LittleEndian ->
  if len l <=? BITS c t / dim D
  then exists s', fixed_from_dynamic c D t s = Ok s'
         /\ (shows (fixed_ops c D t) s' (l ++ repeat (cell_zero D) (N.to_nat (BITS c t / dim D - len l)))
             <-> (dim D * len l + 7) / 8 = BITS c t / 8 \/ l = repeat (cell_zero D) (List.length l))
  else fixed_from_dynamic c D t s = Err (DepthLimitedExceeded (BITS c t / dim D)).
Proof.
  intros c D L t s l HM HE. destruct (made_rep _ _ _ _ _ _ _ HM) as [HL C]. pose proof (is_dim_ok _ _ HL) as HD. cbn [rep] in C.
  pose proof (canon_repr _ _ _ _ _ C) as R. pose proof (raw_depth _ _ _ _ _ _ _ _ R) as Hd. cbn [st_depth ops dynamic_ops] in Hd.
  destruct (N.leb_spec (len l) (BITS c t / dim D)) as [H|H].
  - assert (Hs : len (dy_bits s) = nbytes D (len l)).
    { pose proof (raw_width _ _ _ _ _ _ _ _ C) as W. cbn [width min_width] in W. fold (nbytes D (len l)) in W. lia. }
    assert (Hle : nbytes D (len l) <= num_size c t).
    { rewrite <- (max_levels_bytes c D L t HL). apply nbytes_le. exact H. }
    fold (nbytes D (len l)). rewrite num_size_8'.
    pose proof (fixed_from_dynamic_bits c D t s l R H HE ltac:(lia)) as E.
    eexists. split; [exact E|].
    assert (Hv : valid c D (KFixed t) (MkFixed (bytes_value (dy_bits s)))).
    { cbn. destruct (raw_sane _ _ _ _ _ _ _ _ R) as [B _]. eapply N.lt_le_trans; [apply bytes_value_lt; exact B|].
      apply pow2_le_mono. rewrite <- num_size_8. lia. }
    split.
    + intros Sh. destruct (N.eq_dec (nbytes D (len l)) (num_size c t)) as [Q|Q]; [left; exact Q|]. right.
      apply enc_zero_iff; [exact HD|]. destruct (N.eq_dec (enc l) 0) as [Z|Z]; [exact Z|]. exfalso.
      eapply (fixed_from_dynamic_short c D L t s l HL C H HE Q Z _ _ E). apply (valid_shows c D (KFixed t)); [exact HD|exact Hv|exact Sh].
    + intros [Q|Z].
      * destruct (fixed_from_dynamic_same c D t s l HD R H HE ltac:(lia)) as (s' & E' & _ & K). rewrite E in E'. injection E' as <-.
        apply (repr_shows c D (KFixed t)); [exact HD|]. apply canon_repr. apply K. exact C.
      * assert (Z' : bytes_value (dy_bits s) = 0).
        { pose proof (holds_value _ _ _ (raw_holds _ _ _ _ _ _ _ _ C)) as V. cbn [num] in V. rewrite V.
          pose proof (raw_rest _ _ _ _ _ _ _ _ C) as RR. cbn [num] in RR. rewrite RR. rewrite (proj2 (enc_zero_iff D l HD) Z). reflexivity. }
        rewrite Z'. rewrite Z at 1. rewrite <- repeat_app.
        replace (List.length l + N.to_nat (BITS c t / dim D - len l))%nat with (N.to_nat (BITS c t / dim D)) by (unfold len in *; lia).
        apply (repr_shows c D (KFixed t)); [exact HD|]. apply canon_repr. apply (fixed_default_canon c D t HD).
  - unfold fixed_from_dynamic, MAX_LEVELS. rewrite Hd. destruct (N.ltb_spec (BITS c t / dim D) (len l)); [reflexivity|lia].
Qed.
Lemma c24_dynamic_to_fixed_refuted_lemma :
  ~ (forall c D L t (s : storage KDynamic) l s', is_dim D L -> target_endian c = LittleEndian ->
     made c D L KDynamic true s l -> fixed_from_dynamic c D t s = Ok s' ->
     shows (fixed_ops c D t) s' (l ++ repeat (cell_zero D) (N.to_nat (BITS c t / dim D - len l)))).
Proof.
  intro H. specialize (H (Cfg true PW64 LittleEndian) Dim2D layout2D U64 (MkDynamic [0x6C] 3) [Q1; Q2; Q3] (MkFixed 0x6C) is_dim2 eq_refl).
  assert (A : shows (fixed_ops (Cfg true PW64 LittleEndian) Dim2D U64) (MkFixed 0x6C) ([Q1; Q2; Q3] ++ repeat Q0 29)).
  { apply H; [|vm_compute; reflexivity]. exists KDynamic, true, (MkDynamic [0x6C] 3), [Q1; Q2; Q3], [], [].
    split; [|split; reflexivity]. apply (start_dynamic_cells (Cfg true PW64 LittleEndian) Dim2D layout2D [Q1; Q2; Q3]); [constructor|vm_compute; discriminate|vm_compute; reflexivity]. }
  destruct A as [_ A]. specialize (A 0). vm_compute in A. discriminate.
Qed.

(* ---------- C45 ---------- *)
Lemma c45_static_to_dynamic_lemma : forall c D L t (a b : storage (KStatic t)),
  is_dim D L -> writable c KDynamic -> valid c D (KStatic t) a -> valid c D (KStatic t) b ->
  exists a' b', dynamic_from_static c D L t a = Ret a' /\ dynamic_from_static c D L t b = Ret b'
    /\ idx_cmp c D KDynamic a' b' = idx_cmp c D (KStatic t) a b.
Proof.
  intros c D L t a b HL HE Va Vb. pose proof (is_dim_ok _ _ HL) as HD.
  destruct (valid_repr _ _ _ _ HD Va) as (la & Ra). destruct (valid_repr _ _ _ _ HD Vb) as (lb & Rb).
  destruct (dynamic_from_static_canon c D L t a la HL HE Ra) as (a' & Ea & Ca).
  destruct (dynamic_from_static_canon c D L t b lb HL HE Rb) as (b' & Eb & Cb).
  exists a', b'. split; [exact Ea|]. split; [exact Eb|]. cbn [idx_cmp].
  rewrite (static_cmp_ok c D t a b la lb HD Ra Rb). apply dynamic_cmp_ok; [exact HD| |]; apply canon_repr; assumption.
Qed.
Lemma c45_dynamic_to_static_lemma : forall c D L t (a b : storage KDynamic) a' b',
  is_dim D L -> valid c D KDynamic a -> valid c D KDynamic b ->
  static_from_dynamic c D t a = Ret (Ok a') -> static_from_dynamic c D t b = Ret (Ok b') ->
  idx_cmp c D (KStatic t) a' b' = idx_cmp c D KDynamic a b.
Proof.
  intros c D L t a b a' b' HL Va Vb Ea Eb. pose proof (is_dim_ok _ _ HL) as HD.
  destruct (valid_repr _ _ _ _ HD Va) as (la & Ra). destruct (valid_repr _ _ _ _ HD Vb) as (lb & Rb).
  assert (K : forall s s' l, repr c D KDynamic s l -> static_from_dynamic c D t s = Ret (Ok s') -> repr c D (KStatic t) s' l).
  { intros s s' l R E. pose proof (c23_dynamic_to_static_lemma c D L t s l HL (repr_valid _ _ _ _ _ HD R) (repr_shows _ _ _ _ _ HD R)) as X.
    destruct (len l <=? BITS c t / dim D).
    - destruct X as (s1 & E1 & V1 & S1). rewrite E in E1. injection E1 as <-. apply (valid_shows c D (KStatic t)); assumption.
    - rewrite E in X. discriminate. }
  cbn [idx_cmp]. rewrite (dynamic_cmp_ok c D a b la lb HD Ra Rb). apply static_cmp_ok; eauto.
Qed.
Lemma c45_fixed_to_static_lemma : forall c D L t (a b : storage (KFixed t)) la lb,
  made c D L (KFixed t) true a la -> made c D L (KFixed t) true b lb ->
  idx_cmp c D (KStatic t) (static_from_fixed c D t a) (static_from_fixed c D t b) = idx_cmp c D (KFixed t) a b.
Proof.
  intros c D L t a b la lb Ma Mb. destruct (made_canon _ _ _ _ _ _ Ma) as [HD Ca]. destruct (made_canon _ _ _ _ _ _ Mb) as [_ Cb].
  rewrite (idx_cmp_canon c D (KFixed t) a b la lb HD Ca Cb).
  apply idx_cmp_canon; [exact HD| |]; apply static_from_fixed_canon; assumption.
Qed.
Lemma c45_fixed_to_dynamic_lemma : forall c D L t (a b : storage (KFixed t)) la lb,
  made c D L (KFixed t) true a la -> made c D L (KFixed t) true b lb ->
  idx_cmp c D KDynamic (dynamic_from_fixed c D t a) (dynamic_from_fixed c D t b) = idx_cmp c D (KFixed t) a b.
Proof.
  intros c D L t a b la lb Ma Mb. destruct (made_rep _ _ _ _ _ _ _ Ma) as [HL Ca]. destruct (made_rep _ _ _ _ _ _ _ Mb) as [_ Cb].
  pose proof (is_dim_ok _ _ HL) as HD. cbn [rep] in Ca, Cb.
  rewrite (idx_cmp_canon c D (KFixed t) a b la lb HD Ca Cb).
  apply idx_cmp_canon; [exact HD| |]; apply (dynamic_from_fixed_repr c D L t); auto using canon_repr.
Qed.
(* static -> fixed forgets the depth: it never reverses the order *)
Lemma path_cmp_pad D (a b za zb : list (cell D)) : dim_ok D -> path_cmp a b = Lt -> 
  za = repeat (cell_zero D) (List.length za) -> path_cmp (a ++ za) (b ++ zb) <> Gt \/ len (a ++ za) <> len (b ++ zb).
Proof.
  intros HD. revert b. induction a as [|x a IH]; intros b E Z; cbn [app].
  - destruct (N.eq_dec (len za) (len (b ++ zb))) as [Hl|Hl]; [left|right; exact Hl].
    revert Hl. generalize (b ++ zb). clear - HD Z. revert Z. induction za as [|z za IH]; intros Z q Hl.
    + destruct q; cbn [path_cmp]; discriminate.
    + cbn [List.length repeat] in Z. injection Z as Hz Z. destruct q as [|y q]; [rewrite len_cons in Hl; cbn in Hl; lia|].
      cbn [path_cmp]. subst z. rewrite (zero_idx D HD). destruct (N.compare_spec 0 (cell_index D y)); try discriminate; [|lia].
      apply IH; [exact Z|]. rewrite !len_cons in Hl. lia.
  - destruct b as [|y b]; [discriminate E|]. cbn [app path_cmp] in *. rewrite !len_cons.
    destruct (N.compare (cell_index D x) (cell_index D y)); try discriminate.
    + destruct (IH b E Z) as [H|H]; [left; exact H|right; lia].
    + left. discriminate.
Qed.
Lemma c45_static_to_fixed_monotone_lemma : forall c D L t (a b : storage (KStatic t)) la lb,
  made c D L (KStatic t) true a la -> made c D L (KStatic t) true b lb ->
  idx_cmp c D (KStatic t) a b = Ret Lt ->
  exists r, idx_cmp c D (KFixed t) (fixed_from_static a) (fixed_from_static b) = Ret r /\ r <> Gt
    /\ (r = Eq <-> exists n, lb = la ++ repeat (cell_zero D) n).
Proof.
  intros c D L t a b la lb Ma Mb E. destruct (made_rep _ _ _ _ _ _ _ Ma) as [HL Ca]. destruct (made_rep _ _ _ _ _ _ _ Mb) as [_ Cb].
  pose proof (is_dim_ok _ _ HL) as HD. cbn [rep] in Ca, Cb. rewrite (idx_cmp_canon c D (KStatic t) a b la lb HD Ca Cb) in E. injection E as E.
  pose proof (static_room c D t a la HD (canon_repr _ _ _ _ _ Ca)) as La.
  pose proof (static_room c D t b lb HD (canon_repr _ _ _ _ _ Cb)) as Lb.
  apply fixed_from_static_canon in Ca, Cb; try exact HD. rewrite (idx_cmp_canon c D (KFixed t) _ _ _ _ HD Ca Cb).
  eexists. split; [reflexivity|]. split.
  - destruct (path_cmp_pad D la lb (repeat (cell_zero D) (N.to_nat (MAX_LEVELS c D t - len la)))
                              (repeat (cell_zero D) (N.to_nat (MAX_LEVELS c D t - len lb))) HD E) as [H|H].
    + rewrite repeat_length. reflexivity.
    + exact H.
    + exfalso. apply H. rewrite !len_app, !len_repeat, !N2Nat.id. lia.
  - rewrite (path_cmp_eq HD). split.
    + intro Q. apply app_eq_app in Q. destruct Q as (m & [[Q1 Q2]|[Q1 Q2]]); apply repeat_eq_app in Q2; destruct Q2 as [Q2 _].
      * exfalso. subst la. destruct m as [|y m]; [rewrite app_nil_r, path_cmp_refl in E; discriminate E|].
        rewrite path_cmp_antisym, path_cmp_prefix in E by discriminate. discriminate E.
      * exists (List.length m). rewrite Q2. exact Q1.
    + intros (n & ->). rewrite <- app_assoc, <- repeat_app. f_equal. f_equal.
      rewrite len_app, len_repeat in Lb |- *. lia.
Qed.
