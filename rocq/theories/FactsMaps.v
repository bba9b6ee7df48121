(* FactsMaps.v - lemmas behind PropMaps.v: hashing with any Hasher, indices as keys of maps (C73, C74) *)
From Coq Require Import Sorting.Sorted.
From Verif Require Import Base ModelNumber ModelDim ModelStorage ModelHash Spec SpecTraits SpecMaps History
  BitProofs NumberProofs VecProofs CellProofs StorageProofs OrderProofs HistoryProofs FactsHistory FactsTraits.

(* ---------- C73 ---------- *)
Lemma c73_equal_values_lemma : forall k (a b : storage k) h, idx_eq k a b = true ->
  hash_of h (idx_calls k a) = hash_of h (idx_calls k b).
Proof. intros k a b h E. apply idx_eq_iff in E. subst b. reflexivity. Qed.
Lemma c73_calls_identify_lemma : forall k (a b : storage k), idx_calls k a = idx_calls k b <-> idx_eq k a b = true.
Proof.
  intros k a b. rewrite idx_eq_iff. split; [|intros ->; reflexivity].
  destruct k; destruct a, b; cbn; intro E; injection E; intros; subst; reflexivity.
Qed.
Lemma c73_same_path_lemma : forall c D L k (a b : storage k) la lb h, made c D L k true a la -> made c D L k true b lb ->
  (la = lb -> hash_of h (idx_calls k a) = hash_of h (idx_calls k b)) /\ (idx_calls k a = idx_calls k b -> la = lb).
Proof.
  intros c D L k a b la lb h A B. destruct (c38_relations_lemma c D L k a b la lb A B) as (_ & E & Q). split.
  - intro H. apply c73_equal_values_lemma. apply E. exact H.
  - intro H. apply E. apply c73_calls_identify_lemma. exact H.
Qed.
Lemma app_same_length {A} (a b x y : list A) : len a = len b -> a ++ x = b ++ y -> a = b /\ x = y.
Proof.
  revert b. induction a as [|h a IH]; intros [|h' b] L E.
  - split; [reflexivity|exact E].
  - rewrite len_cons in L. change (len []) with 0 in L. lia.
  - rewrite len_cons in L. change (len []) with 0 in L. lia.
  - rewrite !len_cons in L. cbn [app] in E. injection E as -> E. apply IH in E; [|lia]. destruct E as [-> ->]. split; reflexivity.
Qed.
Lemma slice_inj c t a b x y : a < 2 ^ BITS c t -> b < 2 ^ BITS c t -> num_as_u8_slice c t a ++ x = num_as_u8_slice c t b ++ y -> a = b /\ x = y.
Proof.
  intros Ha Hb E. apply app_same_length in E; [|rewrite !len_as_u8_slice; reflexivity]. destruct E as [E ->]. split; [|reflexivity].
  unfold num_as_u8_slice in E. apply (f_equal (from_bytes (target_endian c))) in E.
  rewrite !from_to_bytes in E by (rewrite N2Nat.id, num_size_8; assumption). exact E.
Qed.
Lemma BITS_le_128 c t : BITS c t <= 128.
Proof. destruct t; cbn [BITS]; try discriminate. unfold usize_bits. destruct (pointer c); discriminate. Qed.
Lemma c73_streams_lemma : forall c D L k (a b : storage k) x y, is_dim D L -> valid c D k a -> valid c D k b ->
  stream c (idx_calls k a) ++ x = stream c (idx_calls k b) ++ y -> idx_eq k a b = true /\ x = y.
Proof.
  intros c D L k a b x y HD Va Vb. rewrite idx_eq_iff. apply is_dim_ok in HD. pose proof (dim_ge D HD) as D2.
  destruct k as [t|t|]; [destruct a as [a], b as [b]|destruct a as [a n], b as [b n']|destruct a as [a n], b as [b n']];
    cbn [valid fx_bits sx_bits sx_depth dy_bits dy_depth] in Va, Vb; unfold stream;
    cbn [idx_calls index_calls fixed_calls static_calls dynamic_calls flat_map default_bytes fx_bits sx_bits sx_depth dy_bits dy_depth];
    unfold index_calls, fixed_calls, static_calls, dynamic_calls; cbn [flat_map default_bytes fx_bits sx_bits sx_depth dy_bits dy_depth];
    rewrite ?app_nil_r; intro E.
  - apply slice_inj in E; [|assumption|assumption]. destruct E as [-> ->]. split; reflexivity.
  - destruct Va as [Va Da], Vb as [Vb Db]. rewrite <- !app_assoc in E. apply slice_inj in E; [|assumption|assumption]. destruct E as [-> E].
    pose proof (BITS_le_128 c t) as B. assert (B2 : BITS c t / dim D <= 128).
    { apply N.div_le_upper_bound; [lia|]. nia. }
    apply slice_inj in E; [|cbn [BITS]; change (2 ^ 8) with 256; lia|cbn [BITS]; change (2 ^ 8) with 256; lia]. destruct E as [-> ->]. split; reflexivity.
  - destruct Va as (Fa & Da & La), Vb as (Fb & Db & Lb). rewrite <- !app_assoc in E. apply slice_inj in E; [|cbn [BITS]; lia|cbn [BITS]; lia].
    destruct E as [L1 E]. apply app_same_length in E; [|exact L1]. destruct E as [-> E].
    apply slice_inj in E; [|cbn [BITS]; nia|cbn [BITS]; nia]. destruct E as [-> ->]. split; reflexivity.
Qed.
Lemma streams_of_lists c D L k : is_dim D L -> forall (a b : list (storage k)) x y, Forall (valid c D k) a -> Forall (valid c D k) b ->
  len a = len b -> stream c (flat_map (idx_calls k) a) ++ x = stream c (flat_map (idx_calls k) b) ++ y -> a = b /\ x = y.
Proof.
  intros HD a. induction a as [|s a IH]; intros [|s' b] x y Fa Fb Ll E; rewrite ?len_cons in Ll; change (len []) with 0 in Ll; try lia.
  - split; [reflexivity|exact E].
  - inversion_clear Fa as [|? ? Vs Va]. inversion_clear Fb as [|? ? Vs' Vb]. unfold stream in E. cbn [flat_map] in E. rewrite !flat_map_app, <- !app_assoc in E.
    apply (c73_streams_lemma c D L k s s' _ _ HD Vs Vs') in E. destruct E as [Q E]. apply idx_eq_iff in Q. subst s'.
    apply IH in E; [|assumption|assumption|lia]. destruct E as [-> ->]. split; reflexivity.
Qed.
Lemma c73_slices_lemma : forall c D L k (a b : list (storage k)) x y, is_dim D L -> Forall (valid c D k) a -> Forall (valid c D k) b ->
  len a < 2 ^ usize_bits c -> len b < 2 ^ usize_bits c ->
  stream c (slice_calls (idx_calls k) a) ++ x = stream c (slice_calls (idx_calls k) b) ++ y -> a = b /\ x = y.
Proof.
  intros c D L k a b x y HD Fa Fb La Lb E. unfold slice_calls, stream in E. cbn [flat_map default_bytes] in E. rewrite <- !app_assoc in E.
  apply slice_inj in E; [|exact La|exact Lb]. destruct E as [Ll E]. exact (streams_of_lists c D L k HD a b x y Fa Fb Ll E).
Qed.
Lemma c73_cells_lemma :
  (forall a b, quadrant_calls a = quadrant_calls b <-> a = b) /\ (forall a b, octant_calls a = octant_calls b <-> a = b)
  /\ (forall c a b x y, stream c (quadrant_calls a) ++ x = stream c (quadrant_calls b) ++ y -> a = b /\ x = y)
  /\ (forall c a b x y, stream c (octant_calls a) ++ x = stream c (octant_calls b) ++ y -> a = b /\ x = y).
Proof.
  assert (Hq : forall a b, N.of_nat (quadrant_discr a) = N.of_nat (quadrant_discr b) -> a = b) by (intros [] []; cbn; intro E; try reflexivity; discriminate E).
  assert (Ho : forall a b, N.of_nat (octant_discr a) = N.of_nat (octant_discr b) -> a = b) by (intros [] []; cbn; intro E; try reflexivity; discriminate E).
  assert (S : forall c n, n < 8 -> n < 2 ^ BITS c USize).
  { intros c n H. cbn [BITS]. unfold usize_bits. destruct (pointer c); (eapply N.lt_le_trans; [exact H|discriminate]). }
  split; [|split; [|split]].
  - intros a b. split; [|intros ->; reflexivity]. intro E. injection E as E. apply Hq. exact E.
  - intros a b. split; [|intros ->; reflexivity]. intro E. injection E as E. apply Ho. exact E.
  - intros c a b x y E. unfold stream, quadrant_calls in E. cbn [flat_map default_bytes] in E. rewrite !app_nil_r in E.
    apply slice_inj in E; [|apply S; destruct a; reflexivity|apply S; destruct b; reflexivity]. destruct E as [E ->]. split; [apply Hq; exact E|reflexivity].
  - intros c a b x y E. unfold stream, octant_calls in E. cbn [flat_map default_bytes] in E. rewrite !app_nil_r in E.
    apply slice_inj in E; [|apply S; destruct a; reflexivity|apply S; destruct b; reflexivity]. destruct E as [E ->]. split; [apply Ho; exact E|reflexivity].
Qed.

Lemma c73_cell_values_lemma :
  (forall q, quadrant_calls q = [WriteIsize (cell_index Dim2D q)]) /\ (forall q, octant_calls q = [WriteIsize (cell_index Dim3D q)]).
Proof. split; intros []; reflexivity. Qed.
Lemma c73_static_after_fixed_lemma : forall t (s : storage (KStatic t)),
  idx_calls (KStatic t) s = idx_calls (KFixed t) (fixed_from_static s) ++ [WriteUint U8 (sx_depth s)]
  /\ idx_hash (KStatic t) s = idx_hash (KFixed t) (fixed_from_static s) ++ [sx_depth s].
Proof. intros t s. split; reflexivity. Qed.
Lemma c73_written_values_lemma : forall k (s : storage k),
  idx_hash k s = flat_map (fun x => match x with WriteUint _ v | WriteIsize v | WriteLengthPrefix v => [v] | WriteBytes l => l end) (idx_calls k s).
Proof. intros k s. destruct k; cbn; unfold fixed_hash, static_hash, dynamic_hash; reflexivity. Qed.

(* ---------- C74 ---------- *)
Lemma last_snoc {K V} (same : K -> Prop) (steps : list (map_step K V)) x r : last_step same steps r ->
  (same (step_key x) -> last_step same (steps ++ [x]) match x with Insert _ v => Some v | Remove _ => None end)
  /\ (~ same (step_key x) -> last_step same (steps ++ [x]) r).
Proof.
  intro H. split; intro S.
  - destruct x as [k v|k]; [apply last_insert|apply last_remove]; try exact S; constructor.
  - destruct H as [steps F|b k v a HK F|b k a HK F].
    + apply last_none. apply Forall_app. split; [exact F|repeat constructor; exact S].
    + rewrite <- app_assoc. cbn [app]. apply last_insert; [exact HK|]. apply Forall_app. split; [exact F|repeat constructor; exact S].
    + rewrite <- app_assoc. cbn [app]. apply last_remove; [exact HK|]. apply Forall_app. split; [exact F|repeat constructor; exact S].
Qed.
Lemma last_step_same {K V} (same same' : K -> Prop) (steps : list (map_step K V)) r :
  (forall x, In x steps -> same (step_key x) <-> same' (step_key x)) -> last_step same steps r -> last_step same' steps r.
Proof.
  intros I H. destruct H as [steps F|b k v a HK F|b k a HK F].
  - apply last_none. rewrite Forall_forall in *. intros x Hx. rewrite <- (I x Hx). apply F. exact Hx.
  - apply last_insert; [apply (I (Insert k v)); [apply in_elt|exact HK]|]. rewrite Forall_forall in *. intros x Hx. rewrite <- I; [apply F; exact Hx|].
    apply in_or_app. right. right. exact Hx.
  - apply last_remove; [apply (I (Remove k)); [apply in_elt|exact HK]|]. rewrite Forall_forall in *. intros x Hx. rewrite <- I; [apply F; exact Hx|].
    apply in_or_app. right. right. exact Hx.
Qed.
Lemma split_last {A} (same : A -> Prop) b x a b' x' a' : b ++ x :: a = b' ++ x' :: a' -> same x -> same x' ->
  Forall (fun z => ~ same z) a -> Forall (fun z => ~ same z) a' -> x = x'.
Proof.
  intros E S S' F F'. revert b' E. induction b as [|y b IH]; intros [|y' b'] E; cbn [app] in E.
  - injection E as E _. exact E.
  - injection E as _ E. exfalso. subst a. rewrite Forall_app in F. destruct F as [_ F]. inversion F as [|? ? N _]. exact (N S').
  - injection E as _ E. exfalso. subst a'. rewrite Forall_app in F'. destruct F' as [_ F']. inversion F' as [|? ? N _]. exact (N S).
  - injection E as _ E. exact (IH b' E).
Qed.
Lemma c74_last_step_lemma : forall K V (same : K -> Prop) (steps : list (map_step K V)) r r',
  last_step same steps r -> last_step same steps r' -> r = r'.
Proof.
  intros K V same steps r r' H H'.
  assert (N : forall b x a, steps = b ++ x :: a -> same (step_key x) -> ~ Forall (fun z => ~ same (step_key z)) steps).
  { intros b x a E S F. rewrite E in F. apply Forall_app in F. destruct F as [_ F]. inversion F as [|? ? Q _]. exact (Q S). }
  inversion H as [s1 F E R|b k v a S F E R|b k a S F E R]; inversion H' as [s1' F' E' R'|b' k' v' a' S' F' E' R'|b' k' a' S' F' E' R']; subst r r'; try reflexivity;
    try (exfalso; (eapply N; [symmetry; eassumption| |eassumption]); assumption); rewrite <- E' in E;
    apply (split_last (fun z => same (step_key z))) in E; try assumption; try discriminate E. injection E as _ ->. reflexivity.
Qed.

Lemma entry_insert_keys {K V} eqb (eqb_spec : forall x y : K, eqb x y = true <-> x = y) (l : list (K * V)) k v :
  NoDup (map fst l) -> NoDup (map fst (entry_insert eqb l k v)) /\ forall x, In x (map fst (entry_insert eqb l k v)) -> x = k \/ In x (map fst l).
Proof.
  induction l as [|[k' v'] r IH]; intro ND; cbn [entry_insert map fst].
  - split; [repeat constructor; intros []|]. intros x [E|[]]. left. congruence.
  - inversion_clear ND as [|? ? N1 N2]. destruct (eqb k' k) eqn:E; cbn [map fst].
    + split; [constructor; assumption|]. intros x H. right. exact H.
    + destruct (IH N2) as [A B]. split.
      * constructor; [|exact A]. intro H. apply B in H. destruct H as [->|H]; [|contradiction].
        assert (eqb k k = true) by (apply eqb_spec; reflexivity). congruence.
      * intros x [->|H]; [right; left; reflexivity|]. apply B in H. destruct H as [->|H]; [left; reflexivity|right; right; exact H].
Qed.
Lemma entry_remove_keys {K V} eqb (l : list (K * V)) k : 
  NoDup (map fst l) -> NoDup (map fst (entry_remove eqb l k)) /\ forall x, In x (map fst (entry_remove eqb l k)) -> In x (map fst l).
Proof.
  induction l as [|[k' v'] r IH]; intro ND; cbn [entry_remove map fst]; [split; [constructor|intros x []]|].
  inversion_clear ND as [|? ? N1 N2]. destruct (eqb k' k); cbn [map fst].
  - split; [exact N2|]. intros x H. right. exact H.
  - destruct (IH N2) as [A B]. split; [constructor; [intro H; apply N1, B, H|exact A]|]. intros x [->|H]; [left; reflexivity|right; apply B, H].
Qed.
Lemma entry_get_insert {K V} eqb (eqb_spec : forall x y : K, eqb x y = true <-> x = y) (l : list (K * V)) k v a :
  entry_get eqb (entry_insert eqb l k v) a = if eqb k a then Some v else entry_get eqb l a.
Proof.
  induction l as [|[k' v'] r IH]; cbn [entry_insert entry_get]; [reflexivity|]. destruct (eqb k' k) eqn:E; cbn [entry_get].
  - apply eqb_spec in E. subst k'. destruct (eqb k a); reflexivity.
  - rewrite IH. destruct (eqb k' a) eqn:Q, (eqb k a) eqn:Q'; try reflexivity. apply eqb_spec in Q, Q'. subst.
    assert (eqb a a = true) by (apply eqb_spec; reflexivity). congruence.
Qed.
Lemma entry_get_none {K V} eqb (eqb_spec : forall x y : K, eqb x y = true <-> x = y) (l : list (K * V)) a : ~ In a (map fst l) -> entry_get eqb l a = None.
Proof.
  induction l as [|[k' v'] r IH]; cbn [entry_get map fst]; intro N; [reflexivity|]. destruct (eqb k' a) eqn:E.
  - apply eqb_spec in E. subst. exfalso. apply N. left. reflexivity.
  - apply IH. intro H. apply N. right. exact H.
Qed.
Lemma entry_get_remove {K V} eqb (eqb_spec : forall x y : K, eqb x y = true <-> x = y) (l : list (K * V)) k a : NoDup (map fst l) ->
  entry_get eqb (entry_remove eqb l k) a = if eqb k a then None else entry_get eqb l a.
Proof.
  induction l as [|[k' v'] r IH]; cbn [entry_remove entry_get map fst]; intro ND; [destruct (eqb k a); reflexivity|].
  inversion_clear ND as [|? ? N1 N2]. destruct (eqb k' k) eqn:E; cbn [entry_get].
  - apply eqb_spec in E. subst k'. destruct (eqb k a) eqn:Q; [|reflexivity]. apply eqb_spec in Q. subst a. apply entry_get_none; assumption.
  - rewrite IH by exact N2. destruct (eqb k' a) eqn:Q, (eqb k a) eqn:Q'; try reflexivity. apply eqb_spec in Q, Q'. subst.
    assert (eqb a a = true) by (apply eqb_spec; reflexivity). congruence.
Qed.
Lemma hm_run_get {K V} eqb (eqb_spec : forall x y : K, eqb x y = true <-> x = y) (bucket : K -> N) (steps : list (map_step K V)) :
  (forall n, NoDup (map fst (hm_run eqb bucket steps n))) /\ forall a, last_step (eq a) steps (hm_get eqb bucket (hm_run eqb bucket steps) a).
Proof.
  induction steps as [|x steps [IN IH]] using rev_ind.
  - split; [intro n; constructor|]. intro a. apply last_none. constructor.
  - unfold hm_run in *. rewrite fold_left_app. cbn [fold_left]. set (m := fold_left _ steps hm_empty) in *. clearbody m. split.
    + intro n. destruct x as [k v|k]; unfold hm_insert, hm_remove; destruct (n =? bucket k); try apply IN.
      * apply entry_insert_keys; [exact eqb_spec|apply IN].
      * apply entry_remove_keys, IN.
    + intro a. destruct (last_snoc (eq a) steps x _ (IH a)) as [A B].
      assert (Dc : a = step_key x \/ a <> step_key x).
      { destruct (eqb a (step_key x)) eqn:E; [left; apply eqb_spec; exact E|right; intro Q; apply eqb_spec in Q; congruence]. }
      destruct Dc as [Q|Q]; [specialize (A Q); clear B|specialize (B Q); clear A].
      * destruct x as [k v|k]; cbn [step_key] in Q; subst a; unfold hm_get, hm_insert, hm_remove in *; rewrite N.eqb_refl.
        -- rewrite (entry_get_insert eqb eqb_spec). replace (eqb k k) with true by (symmetry; apply eqb_spec; reflexivity). exact A.
        -- rewrite (entry_get_remove eqb eqb_spec) by apply IN. replace (eqb k k) with true by (symmetry; apply eqb_spec; reflexivity). exact A.
      * destruct x as [k v|k]; cbn [step_key] in Q; unfold hm_get, hm_insert, hm_remove in *.
        -- destruct (bucket a =? bucket k); [|exact B]. rewrite (entry_get_insert eqb eqb_spec).
           destruct (eqb k a) eqn:E; [apply eqb_spec in E; congruence|exact B].
        -- destruct (bucket a =? bucket k); [|exact B]. rewrite (entry_get_remove eqb eqb_spec) by apply IN.
           destruct (eqb k a) eqn:E; [apply eqb_spec in E; congruence|exact B].
Qed.
Lemma made_same c D L k (a s : storage k) la ls : made c D L k true a la -> made c D L k true s ls -> (a = s <-> made c D L k true s la).
Proof.
  intros A S. split; [intros <-; exact A|]. intro S'. destruct (c38_relations_lemma c D L k a s la la A S') as (_ & E & _).
  apply idx_eq_iff. apply E. reflexivity.
Qed.
Lemma c74_hash_map_lemma : forall c D L k V (h : hasher) (buckets : N -> N) (steps : list (map_step (storage k) V)) a la,
  Forall (fun x => exists l, made c D L k true (step_key x) l) steps -> made c D L k true a la ->
  let bucket s := buckets (hash_of h (idx_calls k s)) in
  last_step (fun s => made c D L k true s la) steps (hm_get (idx_eq k) bucket (hm_run (idx_eq k) bucket steps) a).
Proof.
  intros c D L k V h buckets steps a la F A bucket.
  apply (last_step_same (eq a)); [|apply hm_run_get; apply idx_eq_iff].
  intros x Hx. rewrite Forall_forall in F. destruct (F x Hx) as [l M]. exact (made_same c D L k a (step_key x) la l A M).
Qed.

(* ordered maps, over keys P compared by a strict order r *)
Section Ordered.
  Context {K V : Type} (cmp : K -> K -> outcome comparison) (r : K -> K -> comparison) (P : K -> Prop).
  Hypothesis cmp_r : forall a b, P a -> P b -> cmp a b = Ret (r a b).
  Hypothesis r_eq : forall a b, P a -> P b -> (r a b = Eq <-> a = b).
  Hypothesis r_opp : forall a b, P a -> P b -> r b a = CompOpp (r a b).
  Hypothesis r_trans : forall a b e, P a -> P b -> P e -> r a b = Lt -> r b e = Lt -> r a e = Lt.
  Let ordered (m : list (K * V)) : Prop := Forall (fun e => P (fst e)) m /\ StronglySorted (fun e e' => r (fst e) (fst e') = Lt) m.
  Lemma om_get_in m a : ordered m -> P a -> exists o, om_get cmp m a = Ret o /\ forall v, o = Some v <-> In (a, v) m.
  Proof.
    intros [F S] Pa. induction m as [|[k v] m IH]; cbn [om_get].
    - exists None. split; [reflexivity|]. intro w. split; [discriminate|intros []].
    - inversion_clear F as [|? ? Pk Fm]. inversion_clear S as [|? ? Sm Lm]. cbn [fst] in *. rewrite cmp_r by assumption. cbn [bind].
      destruct (r a k) eqn:E.
      + apply r_eq in E; [|assumption|assumption]. subst k. exists (Some v). split; [reflexivity|]. intro w. split; [intro Q; injection Q as ->; left; reflexivity|].
        intros [Q|Q]; [congruence|]. exfalso. rewrite Forall_forall in Lm. specialize (Lm _ Q). cbn [fst] in Lm.
        assert (r a a = Eq) by (apply r_eq; auto). congruence.
      + exists None. split; [reflexivity|]. intro w. split; [discriminate|]. intros [Q|Q].
        * injection Q as -> ->. assert (r a a = Eq) by (apply r_eq; auto). congruence.
        * exfalso. rewrite Forall_forall in Lm. specialize (Lm _ Q). cbn [fst] in Lm. pose proof (r_trans a k a Pa Pk Pa E Lm).
          assert (r a a = Eq) by (apply r_eq; auto). congruence.
      + destruct (IH Fm Sm) as (o & G & I). exists o. split; [exact G|]. intro w. rewrite I. split; [intro Q; right; exact Q|].
        intros [Q|Q]; [|exact Q]. injection Q as -> ->. assert (r a a = Eq) by (apply r_eq; auto). congruence.
  Qed.
  Lemma om_insert_ok m k v : ordered m -> P k -> exists m', om_insert cmp m k v = Ret m' /\ ordered m'
    /\ (forall e, In e m' <-> e = (k, v) \/ In e m /\ fst e <> k).
  Proof.
    intros [F S] Pk. induction m as [|[k' v'] m IH]; cbn [om_insert].
    - exists [(k, v)]. split; [reflexivity|]. split; [split; repeat constructor; exact Pk|]. intro e. cbn [In]. intuition congruence.
    - inversion_clear F as [|? ? Pk' Fm]. inversion_clear S as [|? ? Sm Lm]. cbn [fst] in *. rewrite cmp_r by assumption. cbn [bind].
      destruct (r k k') eqn:E.
      + apply r_eq in E; [|assumption|assumption]. subst k'. exists ((k, v) :: m). split; [reflexivity|]. split.
        * split; constructor; assumption.
        * intro e. cbn [In]. split.
          -- intros [Q|Q]; [left; congruence|]. right. split; [right; exact Q|]. intro X. rewrite Forall_forall in Lm. specialize (Lm _ Q). cbn [fst] in Lm.
             rewrite X in Lm. assert (r k k = Eq) by (apply r_eq; auto). congruence.
          -- intros [->|[[Q|Q] X]]; [left; reflexivity| |right; exact Q]. exfalso. subst e. apply X. reflexivity.
      + exists ((k, v) :: (k', v') :: m). split; [reflexivity|]. split.
        * split; [repeat (constructor; try assumption)|]. constructor; [constructor; assumption|]. constructor; [exact E|].
          rewrite Forall_forall in *. intros e He. cbn [fst]. apply (r_trans k k' (fst e)); try assumption; [apply Fm; exact He|apply (Lm e He)].
        * intro e. cbn [In]. split.
          -- intros [Q|Q]; [left; congruence|]. right. split; [exact Q|]. intro X. assert (RR : r k k = Eq) by (apply r_eq; auto).
             destruct Q as [<-|Q]; cbn [fst] in X; [subst k'; congruence|]. rewrite Forall_forall in Lm. pose proof (Lm _ Q) as L2. cbn [fst] in L2. rewrite X in L2.
             pose proof (r_trans k k' k Pk Pk' Pk E L2). congruence.
          -- intros [->|[Q _]]; [left; reflexivity|right; exact Q].
      + destruct (IH Fm Sm) as (m' & G & [F' S'] & I). rewrite G. cbn [bind]. exists ((k', v') :: m'). split; [reflexivity|]. split.
        * split; constructor; try assumption. rewrite Forall_forall in *. intros e He. apply I in He. cbn [fst]. destruct He as [->|[He _]]; [|apply (Lm e He)].
          cbn [fst]. rewrite (r_opp k k') by assumption. rewrite E. reflexivity.
        * intro e. cbn [In]. rewrite I. split.
          -- intros [<-|[->|[Q X]]]; [|left; reflexivity|right; split; [right; exact Q|exact X]]. right. split; [left; reflexivity|]. cbn [fst]. intros ->.
             assert (r k k = Eq) by (apply r_eq; auto). congruence.
          -- intros [->|[[Q|Q] X]]; [right; left; reflexivity|left; exact Q|right; right; split; assumption].
  Qed.
  Lemma om_remove_ok m k : ordered m -> P k -> exists m', om_remove cmp m k = Ret m' /\ ordered m'
    /\ (forall e, In e m' <-> In e m /\ fst e <> k).
  Proof.
    intros [F S] Pk. induction m as [|[k' v'] m IH]; cbn [om_remove].
    - exists []. split; [reflexivity|]. split; [split; constructor|]. intro e. cbn [In]. tauto.
    - inversion_clear F as [|? ? Pk' Fm]. inversion_clear S as [|? ? Sm Lm]. cbn [fst] in *. rewrite cmp_r by assumption. cbn [bind].
      assert (RR : r k k = Eq) by (apply r_eq; auto).
      destruct (r k k') eqn:E.
      + apply r_eq in E; [|assumption|assumption]. subst k'. exists m. split; [reflexivity|]. split; [split; assumption|].
        intro e. cbn [In]. split.
        * intro Q. split; [right; exact Q|]. intro X. rewrite Forall_forall in Lm. specialize (Lm _ Q). cbn [fst] in Lm. rewrite X in Lm. congruence.
        * intros [[Q|Q] X]; [exfalso; subst e; apply X; reflexivity|exact Q].
      + exists ((k', v') :: m). split; [reflexivity|]. split; [split; constructor; assumption|]. intro e. split; [|intros [Q _]; exact Q].
        intro Q. split; [exact Q|]. intro X. destruct Q as [<-|Q]; cbn [fst] in X; [subst k'; congruence|].
        rewrite Forall_forall in Lm. pose proof (Lm _ Q) as L2. cbn [fst] in L2. rewrite X in L2. pose proof (r_trans k k' k Pk Pk' Pk E L2). congruence.
      + destruct (IH Fm Sm) as (m' & G & [F' S'] & I). rewrite G. cbn [bind]. exists ((k', v') :: m'). split; [reflexivity|]. split.
        * split; constructor; try assumption. rewrite Forall_forall in *. intros e He. apply I in He. apply (Lm e). apply He.
        * intro e. cbn [In]. rewrite I. split.
          -- intros [<-|[Q X]]; [|split; [right; exact Q|exact X]]. split; [left; reflexivity|]. cbn [fst]. intros ->. congruence.
          -- intros [[Q|Q] X]; [left; exact Q|right; split; assumption].
  Qed.
  Lemma om_run_ok (steps : list (map_step K V)) : Forall (fun x => P (step_key x)) steps ->
    exists m, om_run cmp steps = Ret m /\ ordered m /\ forall a v, In (a, v) m <-> last_step (eq a) steps (Some v).
  Proof.
    induction steps as [|x steps IH] using rev_ind; intro F.
    - exists []. split; [reflexivity|]. split; [split; constructor|]. intros a v. split; [intros []|]. intro H.
      inversion H as [|b k w l X Y E|]. destruct b; discriminate E.
    - apply Forall_app in F. destruct F as [F Fx]. inversion_clear Fx as [|? ? Px _]. destruct (IH F) as (m & R & O & I).
      unfold om_run in *. rewrite foldM_app, R. cbn [bind foldM].
      assert (Dc : forall a, P a -> a = step_key x \/ a <> step_key x).
      { intros a Pa. destruct (r a (step_key x)) eqn:E; [left; apply r_eq; assumption| |]; right; intros ->; assert (r (step_key x) (step_key x) = Eq) by (apply r_eq; auto); congruence. }
      assert (L : forall a r0, last_step (eq a) (steps ++ [x]) r0 -> 
         (a = step_key x /\ r0 = match x with Insert _ v => Some v | Remove _ => None end) \/ (a <> step_key x /\ last_step (eq a) steps r0)).
      { intros a r0 H. inversion H as [s1 G E|b k v l X Y E|b k l X Y E].
        - right. apply Forall_app in G. destruct G as [G1 G2]. inversion_clear G2 as [|? ? Q _]. split; [exact Q|apply last_none; exact G1].
        - destruct l as [|y l] using rev_ind.
          + apply app_inj_tail in E. destruct E as [_ <-]. left. split; [exact X|reflexivity].
          + clear IHl. change (Insert k v :: l ++ [y]) with ((Insert k v :: l) ++ [y]) in E. rewrite app_assoc in E. apply app_inj_tail in E. destruct E as [<- <-].
            apply Forall_app in Y. destruct Y as [Y1 Y2]. inversion_clear Y2 as [|? ? Q _]. right. split; [exact Q|apply last_insert; assumption].
        - destruct l as [|y l] using rev_ind.
          + apply app_inj_tail in E. destruct E as [_ <-]. left. split; [exact X|reflexivity].
          + clear IHl. change (Remove k :: l ++ [y]) with ((Remove (V := V) k :: l) ++ [y]) in E. rewrite app_assoc in E. apply app_inj_tail in E. destruct E as [<- <-].
            apply Forall_app in Y. destruct Y as [Y1 Y2]. inversion_clear Y2 as [|? ? Q _]. right. split; [exact Q|apply last_remove; assumption]. }
      destruct x as [k v|k]; cbn [step_key] in *.
      + destruct (om_insert_ok m k v O Px) as (m' & G & O' & I'). rewrite G. exists m'. split; [reflexivity|]. split; [exact O'|].
        intros a w. rewrite I'. cbn [fst]. split.
        * intros [Q|[Q X]]; [injection Q as -> ->; apply last_insert; [reflexivity|constructor]|]. apply I in Q.
          destruct (last_snoc (eq a) steps (Insert k v) _ Q) as [_ B]. apply B. exact X.
        * intro H. apply L in H. destruct H as [[-> Q]|[X Q]]; [left; injection Q as ->; reflexivity|right]. split; [apply I; exact Q|exact X].
      + destruct (om_remove_ok m k O Px) as (m' & G & O' & I'). rewrite G. exists m'. split; [reflexivity|]. split; [exact O'|].
        intros a w. rewrite I'. cbn [fst]. split.
        * intros [Q X]. apply I in Q. destruct (last_snoc (eq a) steps (Remove k) _ Q) as [_ B]. apply B. exact X.
        * intro H. apply L in H. destruct H as [[-> Q]|[X Q]]; [discriminate Q|]. split; [apply I; exact Q|exact X].
  Qed.
End Ordered.
Lemma last_step_total {K V} (same : K -> Prop) (steps : list (map_step K V)) :
  (forall x, In x steps -> same (step_key x) \/ ~ same (step_key x)) -> exists r, last_step same steps r.
Proof.
  induction steps as [|x steps IH] using rev_ind; intro H; [exists None; apply last_none; constructor|].
  destruct IH as [r R]; [intros y Hy; apply H; apply in_or_app; left; exact Hy|].
  destruct (last_snoc same steps x r R) as [A B]. destruct (H x) as [Q|Q]; [apply in_or_app; right; left; reflexivity| |]; eauto.
Qed.
Lemma c74_ordered_map_lemma : forall c D L k V (steps : list (map_step (storage k) V)),
  Forall (fun x => exists l, made c D L k true (step_key x) l) steps ->
  exists m, om_run (idx_cmp c D k) steps = Ret m
    /\ (forall a la, made c D L k true a la ->
          exists o, om_get (idx_cmp c D k) m a = Ret o /\ last_step (fun s => made c D L k true s la) steps o)
    /\ (exists paths, Forall2 (fun e p => made c D L k true (fst e) p) m paths /\ StronglySorted earlier paths)
    /\ (forall s v, In (s, v) m <-> last_step (eq s) steps (Some v)).
Proof.
  intros c D L k V steps F. set (P := fun s : storage k => exists l, made c D L k true s l).
  set (r := fun a b : storage k => match idx_cmp c D k a b with Ret x => x | _ => Eq end).
  assert (R : forall a b la lb, made c D L k true a la -> made c D L k true b lb -> r a b = path_cmp la lb /\ idx_cmp c D k a b = Ret (path_cmp la lb) /\ (a = b <-> la = lb)).
  { intros a b la lb A B. destruct (c38_relations_lemma c D L k a b la lb A B) as (E & Q & _). unfold r. rewrite E. split; [reflexivity|]. split; [reflexivity|].
    rewrite <- Q. symmetry. apply idx_eq_iff. }
  assert (HD : forall a, P a -> dim_ok D) by (intros a [l A]; exact (proj1 (made_canon _ _ _ _ _ _ A))).
  assert (X1 : forall a b, P a -> P b -> idx_cmp c D k a b = Ret (r a b)).
  { intros a b [la A] [lb B]. destruct (R a b la lb A B) as (E & Q & _). rewrite Q, E. reflexivity. }
  assert (X2 : forall a b, P a -> P b -> (r a b = Eq <-> a = b)).
  { intros a b Pa [lb B]. pose proof (HD a Pa) as Hd. destruct Pa as [la A]. destruct (R a b la lb A B) as (E & _ & Q). rewrite E, Q. apply path_cmp_eq. exact Hd. }
  assert (X3 : forall a b, P a -> P b -> r b a = CompOpp (r a b)).
  { intros a b [la A] [lb B]. rewrite (proj1 (R a b la lb A B)), (proj1 (R b a lb la B A)). apply path_cmp_antisym. }
  assert (X4 : forall a b e, P a -> P b -> P e -> r a b = Lt -> r b e = Lt -> r a e = Lt).
  { intros a b e Pa [lb B] [le E]. pose proof (HD a Pa) as Hd. destruct Pa as [la A]. rewrite (proj1 (R a b la lb A B)), (proj1 (R b e lb le B E)), (proj1 (R a e la le A E)).
    apply path_cmp_trans. }
  destruct (om_run_ok (idx_cmp c D k) r P X1 X2 X3 X4 steps F) as (m & G & O & I). exists m. split; [exact G|]. split; [|split; [|exact I]].
  - intros a la A. assert (Pa : P a) by (exists la; exact A). destruct (om_get_in (idx_cmp c D k) r P X1 X2 X4 m a O Pa) as (o & G' & Io). exists o. split; [exact G'|].
    apply (last_step_same (eq a)).
    { intros x Hx. rewrite Forall_forall in F. destruct (F x Hx) as [l M]. exact (made_same c D L k a (step_key x) la l A M). }
    destruct o as [v|]; [apply I; apply Io; reflexivity|].
    destruct (last_step_total (eq a) steps) as [[v|] T]; [| |exact T].
    + intros x Hx. rewrite Forall_forall in F. specialize (F x Hx). destruct (idx_eq k a (step_key x)) eqn:E; [left; apply idx_eq_iff; exact E|].
      right. intro Q. apply idx_eq_iff in Q. congruence.
    + apply I in T. apply Io in T. discriminate T.
  - destruct O as [Fm Sm]. clear - Fm Sm R HD. induction m as [|e m IH]; [exists []; split; constructor|].
    inversion_clear Fm as [|? ? Pe F']. inversion_clear Sm as [|? ? S' L']. destruct (IH F' S') as (ps & A & B). pose proof (HD _ Pe) as Hd. destruct Pe as [p Mp].
    exists (p :: ps). split; [constructor; assumption|]. constructor; [exact B|].
    clear - A L' R Mp Hd. induction A as [|e' p' m ps M A IH]; [constructor|]. inversion_clear L' as [|? ? Q Lr]. constructor; [|apply IH; exact Lr].
    apply earlier_iff; [exact Hd|]. rewrite <- (proj1 (R _ _ _ _ Mp M)). exact Q.
Qed.
