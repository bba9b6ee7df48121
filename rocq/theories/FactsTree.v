(* FactsTree.v - proofs of the theorems stated in PropTree.v *)
From Verif Require Import Base ModelNumber ModelDim ModelStorage Model2D Model3D Spec History BitProofs NumberProofs VecProofs CellProofs StorageProofs OrderProofs ConvProofs HistoryProofs.

Lemma ancestor_repr c D L k v s l g : is_dim D L -> var_ops c D L k = Some v -> repr c D k s l -> g <= len l ->
  exists s', ancestor v s g = Ret (Some s') /\ repr c D k s' (firstn (N.to_nat (len l - g)) l).
Proof.
  intros HL HV R Hg. pose proof (is_dim_ok _ _ HL) as HD. destruct k as [t|t|]; cbn [var_ops] in HV; [discriminate| |]; injection HV as <-;
    unfold ancestor; cbn [vo_ancestor static_vops dynamic_vops].
  - apply static_ancestor_repr; assumption.
  - apply dynamic_ancestor_repr; assumption.
Qed.

(* ---------- C14 ---------- *)
Lemma c14_ancestor_truncates_lemma : forall c D L k v (s : storage k) l g,
  is_dim D L -> var_ops c D L k = Some v -> valid c D k s -> shows (ops c D k) s l ->
  if g <=? len l
  then exists s', ancestor v s g = Ret (Some s') /\ valid c D k s' /\ shows (ops c D k) s' (firstn (N.to_nat (len l - g)) l)
  else ancestor v s g = Ret None.
Proof.
  intros c D L k v s l g HL HV Hv Hs. pose proof (is_dim_ok _ _ HL) as HD. pose proof (valid_shows _ _ _ _ _ HD Hv Hs) as R.
  destruct (N.leb_spec g (len l)) as [H|H].
  - destruct (ancestor_repr c D L k v s l g HL HV R H) as (s' & E & R'). exists s'. split; [exact E|].
    split; [eapply repr_valid; eassumption|apply repr_shows; assumption].
  - eapply ancestor_none; eassumption.
Qed.
Lemma c14_parent_lemma : forall c D L k v (s : storage k) l,
  is_dim D L -> var_ops c D L k = Some v -> valid c D k s -> shows (ops c D k) s l ->
  match rev l with
  | [] => parent v s = Ret None
  | _ :: l' => exists s', parent v s = Ret (Some s') /\ valid c D k s' /\ shows (ops c D k) s' (rev l')
  end.
Proof.
  intros c D L k v s l HL HV Hv Hs. pose proof (c14_ancestor_truncates_lemma c D L k v s l 1 HL HV Hv Hs) as H.
  unfold parent. destruct (rev l) as [|x l'] eqn:E.
  - assert (El : l = []) by (rewrite <- (rev_involutive l), E; reflexivity). subst l. exact H.
  - assert (El : l = rev l' ++ [x]) by (rewrite <- (rev_involutive l), E; reflexivity). subst l.
    rewrite len_app in H. change (len [x]) with 1 in H. destruct (N.leb_spec 1 (len (rev l') + 1)); [|lia].
    replace (len (rev l') + 1 - 1) with (len (rev l')) in H by lia. rewrite to_nat_len in H.
    rewrite firstn_app, Nat.sub_diag, firstn_all, firstn_O, app_nil_r in H. exact H.
Qed.

(* ---------- C15 ---------- *)
Lemma c15_static_descendant_lemma : forall c D L t (s : storage (KStatic t)) l cells,
  is_dim D L -> valid c D (KStatic t) s -> shows (static_ops c D t) s l -> len cells < 2 ^ (usize_bits c - 1) ->
  if len l + len cells <=? BITS c t / dim D
  then exists s', descendant (static_vops c D t) s cells = Ret (Some s') /\ valid c D (KStatic t) s'
         /\ shows (static_ops c D t) s' (l ++ cells)
  else descendant (static_vops c D t) s cells = Ret None.
Proof.
  intros c D L t s l cells HL Hv Hs Hc. pose proof (is_dim_ok _ _ HL) as HD.
  pose proof (valid_shows c D (KStatic t) _ _ HD Hv Hs) as R. unfold descendant. cbn [vo_descendant static_vops].
  destruct (N.leb_spec (len l + len cells) (BITS c t / dim D)) as [H|H].
  - destruct (static_descendant_gen c D t s l cells _ HD H R) as (s' & E & R' & _). exists s'. split; [exact E|].
    split; [eapply repr_valid; eassumption|apply (repr_shows c D (KStatic t)); assumption].
  - eapply static_descendant_none; eassumption.
Qed.
Lemma c15_dynamic_descendant_lemma : forall c D L (s : storage KDynamic) l cells,
  is_dim D L -> writable c KDynamic -> valid c D KDynamic s -> shows (dynamic_ops c D) s l ->
  8 * len (dy_bits s) + dim D * len cells + 16 <= 2 ^ usize_bits c ->
  exists s', descendant (dynamic_vops c D L) s cells = Ret (Some s') /\ valid c D KDynamic s'
    /\ shows (dynamic_ops c D) s' (l ++ cells).
Proof.
  intros c D L s l cells HL HE Hv Hs Hc. pose proof (is_dim_ok _ _ HL) as HD.
  pose proof (valid_shows c D KDynamic _ _ HD Hv Hs) as R. unfold descendant. cbn [vo_descendant dynamic_vops].
  destruct (dynamic_descendant_gen c D L s l cells HL HE) as (s' & E & R' & _); [|exact R|].
  - destruct (nbytes_fit D (len l)) as [A _]. destruct (nbytes_fit D (len l + len cells)) as [_ B].
    pose proof (nbytes_le D (len l) (len l + len cells) ltac:(lia)) as M.
    rewrite N.mul_add_distr_l in B. lia.
  - exists s'. split; [exact E|]. split; [eapply repr_valid; eassumption|apply (repr_shows c D KDynamic); assumption].
Qed.
Lemma c15_static_child_lemma : forall c D L t (s : storage (KStatic t)) l x,
  is_dim D L -> valid c D (KStatic t) s -> shows (static_ops c D t) s l ->
  if len l <? BITS c t / dim D
  then exists s', child (static_vops c D t) s x = Ret (Some s') /\ valid c D (KStatic t) s'
         /\ shows (static_ops c D t) s' (l ++ [x])
  else child (static_vops c D t) s x = Ret None.
Proof.
  intros c D L t s l x HL Hv Hs. assert (Hc : len [x] < 2 ^ (usize_bits c - 1)).
  { apply N.lt_le_trans with (2 ^ 15); [reflexivity|]. apply pow2_le_mono. pose proof (usize_ge16 c). lia. }
  pose proof (c15_static_descendant_lemma c D L t s l [x] HL Hv Hs Hc) as H. change (len [x]) with 1 in H.
  destruct (N.ltb_spec (len l) (BITS c t / dim D)), (N.leb_spec (len l + 1) (BITS c t / dim D)); try lia; exact H.
Qed.
Lemma c15_dynamic_child_lemma : forall c D L (s : storage KDynamic) l x,
  is_dim D L -> writable c KDynamic -> valid c D KDynamic s -> shows (dynamic_ops c D) s l ->
  8 * len (dy_bits s) + dim D + 16 <= 2 ^ usize_bits c ->
  exists s', child (dynamic_vops c D L) s x = Ret (Some s') /\ valid c D KDynamic s'
    /\ shows (dynamic_ops c D) s' (l ++ [x]).
Proof.
  intros c D L s l x HL HE Hv Hs Hc. apply (c15_dynamic_descendant_lemma c D L s l [x]); try assumption.
  change (len [x]) with 1. lia.
Qed.

(* ---------- C16 ---------- *)
Lemma c16_ancestor_undoes_static_descendant_lemma : forall c D L t (s s' : storage (KStatic t)) l cells,
  made c D L (KStatic t) true s l ->
  descendant (static_vops c D t) s cells = Ret (Some s') -> len cells < 2 ^ (usize_bits c - 1) ->
  exists s'', ancestor (static_vops c D t) s' (len cells) = Ret (Some s'') /\ idx_eq (KStatic t) s'' s = true.
Proof.
  intros c D L t s s' l cells HM E Hc. destruct (made_rep _ _ _ _ _ _ _ HM) as [HL C].
  pose proof (is_dim_ok _ _ HL) as HD. cbn [rep] in C. unfold descendant in E. cbn [vo_descendant static_vops] in E.
  destruct (N.le_gt_cases (len l + len cells) (MAX_LEVELS c D t)) as [H|H];
    [|rewrite (static_descendant_none c D t s l cells HD (canon_repr _ _ _ _ _ C) Hc H) in E; discriminate].
  destruct (rep_static_descendant c D t true s l cells HD C H) as (s1 & E1 & C1). rewrite E in E1. injection E1 as <-.
  destruct (rep_ancestor c D L (KStatic t) _ true s' (l ++ cells) (len cells) HL eq_refl C1) as (s2 & E2 & C2); [rewrite len_app; lia|].
  exists s2. split; [exact E2|]. apply idx_eq_iff. cbn [rep] in C2.
  replace (firstn _ (l ++ cells)) with l in C2; [eapply (canon_unique c D (KStatic t)); eassumption|].
  rewrite len_app, N.add_sub, to_nat_len, firstn_app, Nat.sub_diag, firstn_all, firstn_O, app_nil_r. reflexivity.
Qed.
Lemma c16_ancestor_undoes_dynamic_descendant_lemma : forall c D L (s : storage KDynamic) l cells,
  made c D L KDynamic true s l ->
  dim D * (len l + len cells) + 24 <= 2 ^ usize_bits c ->
  exists s' s'', descendant (dynamic_vops c D L) s cells = Ret (Some s')
    /\ ancestor (dynamic_vops c D L) s' (len cells) = Ret (Some s'') /\ idx_eq KDynamic s'' s = true.
Proof.
  intros c D L s l cells HM Hc. destruct (made_rep _ _ _ _ _ _ _ HM) as [HL C]. pose proof (is_dim_ok _ _ HL) as HD.
  destruct (rep_dynamic_descendant c D L true s l cells HL C Hc) as (s' & E1 & C1). 
  destruct (rep_ancestor c D L KDynamic _ true s' (l ++ map (stored c D KDynamic) cells) (len cells) HL eq_refl C1) as (s2 & E2 & C2); [rewrite len_app, len_map; lia|].
  exists s', s2. split; [exact E1|]. split; [exact E2|]. apply idx_eq_iff. cbn [rep] in C, C2.
  replace (firstn _ (l ++ map (stored c D KDynamic) cells)) with l in C2; [eapply (canon_unique c D KDynamic); eassumption|].
  rewrite len_app, len_map, N.add_sub, to_nat_len, firstn_app, Nat.sub_diag, firstn_all, firstn_O, app_nil_r. reflexivity.
Qed.
(* descending in steps or at once, climbing in steps or at once: the same index *)
Lemma c16_ancestor_in_steps_lemma : forall c D L k v (s a : storage k) l g h,
  made c D L k true s l -> var_ops c D L k = Some v -> g + h <= len l ->
  ancestor v s g = Ret (Some a) -> ancestor v a h = ancestor v s (g + h).
Proof.
  intros c D L k v s a l g h HM HV Hg E. destruct (made_rep _ _ _ _ _ _ _ HM) as [HL C]. pose proof (is_dim_ok _ _ HL) as HD.
  destruct (rep_ancestor c D L k v true s l g HL HV C) as (s1 & E1 & C1); [lia|]. rewrite E in E1. injection E1 as <-.
  assert (H1 : len (firstn (N.to_nat (len l - g)) l) = len l - g) by (apply len_firstn; lia).
  destruct (rep_ancestor c D L k v true a _ h HL HV C1) as (s2 & E2 & C2); [lia|].
  destruct (rep_ancestor c D L k v true s l (g + h) HL HV C) as (s3 & E3 & C3); [lia|].
  rewrite E2, E3. f_equal. f_equal. eapply canon_unique; [exact HD|exact C2|]. cbn [rep] in C3.
  rewrite H1. rewrite firstn_firstn. replace (Nat.min _ _) with (N.to_nat (len l - (g + h))) by lia. exact C3.
Qed.

(* ---------- C17 ---------- *)
Lemma c17_with_depth_truncates_lemma : forall c D L k v (s : storage k) l n,
  is_dim D L -> var_ops c D L k = Some v -> valid c D k s -> shows (ops c D k) s l ->
  if n <=? len l
  then exists s', with_depth c v s n = Ret (Some s') /\ valid c D k s' /\ shows (ops c D k) s' (firstn (N.to_nat n) l)
  else with_depth c v s n = Ret None.
Proof.
  intros c D L k v s l n HL HV Hv Hs. pose proof (is_dim_ok _ _ HL) as HD. pose proof (valid_shows _ _ _ _ _ HD Hv Hs) as R.
  destruct (N.leb_spec n (len l)) as [H|H]; [|eapply with_depth_none; eassumption].
  assert (Hd : st_depth (vo_ops v) s = len l).
  { destruct k as [t|t|]; cbn [var_ops] in HV; [discriminate| |]; injection HV as <-; exact (proj1 Hs). }
  unfold with_depth. rewrite Hd. destruct (N.ltb_spec (len l) n); [lia|]. rewrite sub_ok, bind_ret by lia.
  destruct (N.eqb_spec (len l - n) 0) as [Z|Z].
  - exists s. split; [reflexivity|]. assert (n = len l) by lia. subst n. rewrite to_nat_len, firstn_all. auto.
  - destruct (ancestor_repr c D L k v s l (len l - n) HL HV R ltac:(lia)) as (s' & E & R'). exists s'. split; [exact E|].
    replace (len l - (len l - n)) with n in R' by lia. split; [eapply repr_valid; eassumption|apply repr_shows; assumption].
Qed.
Lemma c17_with_depth_same_lemma : forall c D L k v (s : storage k),
  var_ops c D L k = Some v -> with_depth c v s (st_depth (ops c D k) s) = Ret (Some s).
Proof.
  intros c D L k v s HV. destruct k as [t|t|]; cbn [var_ops] in HV; [discriminate| |]; injection HV as <-;
    unfold with_depth; cbn [vo_ops static_vops dynamic_vops ops]; rewrite N.ltb_irrefl, sub_ok, bind_ret, N.sub_diag by lia; reflexivity.
Qed.
