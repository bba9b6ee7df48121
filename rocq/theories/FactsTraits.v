(* FactsTraits.v - proofs of the theorems stated in PropTraits.v *)
From Coq Require Import Permutation.
From Verif Require Import Base ModelNumber ModelDim ModelStorage ModelTraits Model2D Model3D Spec SpecTraits History BitProofs NumberProofs VecProofs CellProofs StorageProofs OrderProofs ConvProofs HistoryProofs FactsCells FactsTree FactsOrder FactsHistory FactsLimits.

(* ---------- the pre-order ---------- *)
Lemma earlier_iff D (a b : list (cell D)) : dim_ok D -> (path_cmp a b = Lt <-> earlier a b).
Proof.
  intro HD. revert b. induction a as [|x a IH]; intros [|y b]; cbn [path_cmp].
  - split; [discriminate|]. intros [(z & r & E)|(p & z & w & ra & rb & E & _)]; [discriminate E|]. destruct p; discriminate E.
  - split; [|reflexivity]. intros _. left. exists y, b. reflexivity.
  - split; [discriminate|]. intros [(z & r & E)|(p & z & w & ra & rb & _ & E & _)]; [discriminate E|]. destruct p; discriminate E.
  - destruct (N.compare_spec (cell_index D x) (cell_index D y)) as [E|E|E].
    + apply (idx_inj D _ _ HD) in E. subst y. rewrite IH. split.
      * intros [(z & r & ->)|(p & z & w & ra & rb & -> & -> & Q)]; [left; exists z, r; reflexivity|].
        right. exists (x :: p), z, w, ra, rb. repeat split; assumption.
      * intros [(z & r & Q)|(p & z & w & ra & rb & Qa & Qb & Q)].
        -- injection Q as ->. left. exists z, r. reflexivity.
        -- destruct p as [|u p]; cbn in Qa, Qb; injection Qa as Q1 Q2; injection Qb as Q3 Q4; [exfalso; subst; lia|].
           subst. right. exists p, z, w, ra, rb. repeat split; assumption.
    + split; [|reflexivity]. intros _. right. exists [], x, y, a, b. repeat split; assumption.
    + split; [discriminate|]. intros [(z & r & Q)|(p & z & w & ra & rb & Qa & Qb & Q)].
      * injection Q as -> _. lia.
      * destruct p as [|u p]; cbn in Qa, Qb; injection Qa as Q1 Q2; injection Qb as Q3 Q4; subst; lia.
Qed.

Definition no_later {D} (a b : list (cell D)) : Prop := earlier a b \/ a = b.
Lemma no_later_iff D (a b : list (cell D)) : dim_ok D -> (path_cmp a b <> Gt <-> no_later a b).
Proof.
  intro HD. unfold no_later. rewrite <- earlier_iff, <- (path_cmp_eq HD) by exact HD. destruct (path_cmp a b); intuition congruence.
Qed.

(* ---------- C49 ---------- *)
Lemma c49_fixed_max_depth_lemma : forall c D L t, is_dim D L ->
  exists m, idx_max_depth c D (KFixed t) = Some m
    /\ (forall s, st_depth (fixed_ops c D t) s = m)
    /\ (forall cells, (exists s, fixed_try_from c D t cells = Ret (Ok s)) <-> len cells <= m).
Proof.
  intros c D L t HL. exists (BITS c t / dim D). split; [reflexivity|]. split; [reflexivity|].
  intro cells. exact (proj2 (c03_fixed_try_from_err_lemma c D L t cells HL)).
Qed.
Lemma len_repeat_to_nat {A} (x : A) n : len (repeat x (N.to_nat n)) = n.
Proof. unfold len. rewrite repeat_length. apply N2Nat.id. Qed.
Lemma c49_static_max_depth_lemma : forall c D L t, is_dim D L ->
  exists m, idx_max_depth c D (KStatic t) = Some m
    /\ (forall s, valid c D (KStatic t) s -> st_depth (static_ops c D t) s <= m)
    /\ (forall n, n <= m -> exists s, valid c D (KStatic t) s /\ st_depth (static_ops c D t) s = n)
    /\ (forall cells, (exists s, static_try_from c D t cells = Ret (Ok s)) <-> len cells <= m)
    /\ (forall s cells, valid c D (KStatic t) s -> len cells < 2 ^ (usize_bits c - 1) ->
          ((exists s', descendant (static_vops c D t) s cells = Ret (Some s')) <-> st_depth (static_ops c D t) s + len cells <= m)).
Proof.
  intros c D L t HL. exists (BITS c t / dim D). split; [reflexivity|].
  split; [intros s V; exact (proj2 V)|].
  split.
  { intros n Hn. destruct (proj2 (c03_static_try_from_err_lemma c D L t (repeat (cell_zero D) (N.to_nat n)) HL)) as [_ B].
    destruct B as [s E]; [rewrite len_repeat_to_nat; exact Hn|].
    destruct (c02_static_try_from_order_lemma c D L t _ s HL E) as [V [S _]]. exists s. split; [exact V|].
    rewrite S. apply len_repeat_to_nat. }
  split; [intro cells; exact (proj2 (c03_static_try_from_err_lemma c D L t cells HL))|].
  intros s cells V Hc. destruct (c01_every_index_shows_one_path_lemma c D L (KStatic t) s HL V) as (l & S & _).
  pose proof (c15_static_descendant_lemma c D L t s l cells HL V S Hc) as Q. rewrite (proj1 S : st_depth (static_ops c D t) s = len l).
  destruct (len l + len cells <=? BITS c t / dim D) eqn:E.
  - apply N.leb_le in E. destruct Q as (s' & Q & _). split; [intros _; exact E|]. intros _. exists s'. exact Q.
  - apply N.leb_gt in E. split; [intros (s' & Q'); congruence|lia].
Qed.
Lemma c49_dynamic_max_depth_lemma : forall c D L, is_dim D L ->
  idx_max_depth c D KDynamic = None
  /\ forall cells, dim D * len cells + 8 <= 2 ^ usize_bits c ->
       exists s, dynamic_try_from c D L cells = Ret (Ok s) /\ valid c D KDynamic s /\ st_depth (dynamic_ops c D) s = len cells.
Proof.
  intros c D L HL. split; [reflexivity|]. intros cells Hn.
  assert (W : writable c KDynamic \/ (target_endian c = BigEndian /\ usize_bits c <> 16)).
  { cbn [writable]. destruct (target_endian c); [|auto]. destruct (N.eq_dec (usize_bits c) 16); auto. }
  destruct W as [W|[E U]].
  - destruct (c02_dynamic_try_from_order_lemma c D L cells HL W Hn) as (s & E & V & S & _). exists s. auto.
  - destruct (c36_try_from_writes_zero_lemma c D L cells HL E U Hn) as (s & Q & V & S & _). exists s. split; [exact Q|].
    split; [exact V|]. rewrite S. unfold len. rewrite repeat_length. reflexivity.
Qed.

(* ---------- C50 ---------- *)
Lemma partial_cmp_of_cmp c D k (a b : storage k) r : idx_cmp c D k a b = Ret r -> idx_partial_cmp c D k a b = Ret (Some r).
Proof.
  destruct k as [t|t|]; cbn [idx_cmp idx_partial_cmp]; intro H.
  - unfold fixed_partial_cmp. congruence.
  - unfold static_partial_cmp. rewrite H. reflexivity.
  - unfold dynamic_partial_cmp. rewrite H. reflexivity.
Qed.
Lemma c50_partial_cmp_is_cmp_lemma : forall c D L k (a b : storage k), is_dim D L -> valid c D k a -> valid c D k b ->
  exists r, idx_cmp c D k a b = Ret r /\ idx_partial_cmp c D k a b = Ret (Some r).
Proof.
  intros c D L k a b HL Va Vb. destruct (idx_cmp_some c D L k a b HL Va Vb) as [r E]. exists r. split; [exact E|].
  apply partial_cmp_of_cmp. exact E.
Qed.
Lemma operators_of_path c D k (a b : storage k) (la lb : list (cell D)) : dim_ok D -> idx_cmp c D k a b = Ret (path_cmp la lb) ->
  (exists r, index_lt c D k a b = Ret r /\ (r = true <-> earlier la lb))
  /\ (exists r, index_gt c D k a b = Ret r /\ (r = true <-> earlier lb la))
  /\ (exists r, index_le c D k a b = Ret r /\ (r = true <-> earlier la lb \/ la = lb))
  /\ (exists r, index_ge c D k a b = Ret r /\ (r = true <-> earlier lb la \/ la = lb)).
Proof.
  intros HD E. apply partial_cmp_of_cmp in E. unfold index_lt, index_le, index_gt, index_ge. rewrite E. cbn [bind].
  pose proof (earlier_iff D la lb HD) as E1. pose proof (earlier_iff D lb la HD) as E2. pose proof (path_cmp_eq HD la lb) as E3.
  rewrite (path_cmp_antisym (D := D) la lb) in E2.
  destruct (path_cmp la lb); cbn [op_lt op_gt op_le op_ge CompOpp] in *;
    repeat split; (eexists; split; [reflexivity|]); intuition congruence.
Qed.
Lemma c50_operators_lemma : forall c D L k (a b : storage k) la lb,
  made c D L k true a la -> made c D L k true b lb ->
  (exists r, index_lt c D k a b = Ret r /\ (r = true <-> earlier la lb))
  /\ (exists r, index_gt c D k a b = Ret r /\ (r = true <-> earlier lb la))
  /\ (exists r, index_le c D k a b = Ret r /\ (r = true <-> earlier la lb \/ la = lb))
  /\ (exists r, index_ge c D k a b = Ret r /\ (r = true <-> earlier lb la \/ la = lb)).
Proof.
  intros c D L k a b la lb Ma Mb. destruct (made_canon _ _ _ _ _ _ Ma) as [HD _].
  apply operators_of_path; [exact HD|]. exact (c18_cmp_of_made_indices_lemma c D L k a b la lb Ma Mb).
Qed.
Lemma c50_operators_of_valid_indices_lemma : forall c D L k (a b : storage k) la lb,
  is_dim D L -> (forall t, k = KFixed t -> dim D = 2) ->
  valid c D k a -> valid c D k b -> shows (ops c D k) a la -> shows (ops c D k) b lb ->
  (exists r, index_lt c D k a b = Ret r /\ (r = true <-> earlier la lb))
  /\ (exists r, index_gt c D k a b = Ret r /\ (r = true <-> earlier lb la))
  /\ (exists r, index_le c D k a b = Ret r /\ (r = true <-> earlier la lb \/ la = lb))
  /\ (exists r, index_ge c D k a b = Ret r /\ (r = true <-> earlier lb la \/ la = lb)).
Proof.
  intros c D L k a b la lb HL HF Va Vb Sa Sb. pose proof (is_dim_ok _ _ HL) as HD.
  apply operators_of_path; [exact HD|]. exact (c18_cmp_is_preorder_lemma c D L k a b la lb HL HF Va Vb Sa Sb).
Qed.
Lemma c50_max_min_lemma : forall c D L k (a b : storage k) la lb,
  made c D L k true a la -> made c D L k true b lb ->
  exists hi lo lhi llo, ord_max (idx_cmp c D k) a b = Ret hi /\ ord_min (idx_cmp c D k) a b = Ret lo
    /\ shows (ops c D k) hi lhi /\ shows (ops c D k) lo llo
    /\ (earlier llo lhi \/ llo = lhi)
    /\ ((lhi = la /\ llo = lb) \/ (lhi = lb /\ llo = la)).
Proof.
  intros c D L k a b la lb Ma Mb. destruct (made_canon _ _ _ _ _ _ Ma) as [HD _].
  pose proof (c18_cmp_of_made_indices_lemma c D L k a b la lb Ma Mb) as E.
  destruct (made_facts _ _ _ _ _ _ _ Ma) as [_ Sa]. destruct (made_facts _ _ _ _ _ _ _ Mb) as [_ Sb].
  unfold ord_max, ord_min. rewrite E. cbn [bind]. destruct (path_cmp la lb) eqn:Q.
  - exists b, a, lb, la. repeat split; try apply Sa; try apply Sb; auto. right. exact (proj1 (path_cmp_eq HD _ _) Q).
  - exists b, a, lb, la. repeat split; try apply Sa; try apply Sb; auto. left. apply earlier_iff; assumption.
  - exists a, b, la, lb. repeat split; try apply Sa; try apply Sb; auto. left. apply earlier_iff; [exact HD|].
    rewrite path_cmp_antisym, Q. reflexivity.
Qed.
Lemma c50_clamp_lemma : forall c D L k (s lo hi : storage k) l llo lhi,
  made c D L k true s l -> made c D L k true lo llo -> made c D L k true hi lhi ->
  (earlier lhi llo -> ord_clamp (idx_cmp c D k) s lo hi = Panic)
  /\ (~ earlier lhi llo ->
      (earlier l llo -> ord_clamp (idx_cmp c D k) s lo hi = Ret lo)
      /\ (earlier lhi l -> ord_clamp (idx_cmp c D k) s lo hi = Ret hi)
      /\ (~ earlier l llo -> ~ earlier lhi l -> ord_clamp (idx_cmp c D k) s lo hi = Ret s)).
Proof.
  intros c D L k s lo hi l llo lhi Ms Ml Mh. destruct (made_canon _ _ _ _ _ _ Ms) as [HD _].
  unfold ord_clamp. rewrite (c18_cmp_of_made_indices_lemma c D L k lo hi llo lhi Ml Mh),
    (c18_cmp_of_made_indices_lemma c D L k s lo l llo Ms Ml), (c18_cmp_of_made_indices_lemma c D L k s hi l lhi Ms Mh). cbn [bind].
  rewrite <- !(earlier_iff D _ _ HD).
  rewrite (path_cmp_antisym (D := D) llo lhi), (path_cmp_antisym (D := D) l lhi).
  assert (T : path_cmp llo lhi <> Gt -> path_cmp l lhi = Gt -> path_cmp l llo <> Lt).
  { intros A B C. destruct (path_cmp llo lhi) eqn:Q; [|rewrite (path_cmp_trans _ _ _ _ C Q) in B; discriminate|congruence].
    apply (path_cmp_eq HD) in Q. subst. congruence. }
  destruct (path_cmp llo lhi), (path_cmp l llo), (path_cmp l lhi); cbn [CompOpp] in *; intuition congruence.
Qed.

(* ---------- C52 ---------- *)
Section Sorted.
  Context {D : Dimension} (HD : dim_ok D).
  (* every element is no later than all that follow *)
  Fixpoint all_sorted (ls : list (list (cell D))) : Prop :=
    match ls with [] => True | a :: r => Forall (fun b => path_cmp a b <> Gt) r /\ all_sorted r end.
  Lemma path_le_trans (a b e : list (cell D)) : path_cmp a b <> Gt -> path_cmp b e <> Gt -> path_cmp a e <> Gt.
  Proof.
    intros A B. destruct (path_cmp a b) eqn:Q; [apply (path_cmp_eq HD) in Q; subst; exact B| |congruence].
    destruct (path_cmp b e) eqn:R; [apply (path_cmp_eq HD) in R; subst; congruence| |congruence].
    rewrite (path_cmp_trans _ _ _ _ Q R). discriminate.
  Qed.
  Lemma path_le_antisym (a b : list (cell D)) : path_cmp a b <> Gt -> path_cmp b a <> Gt -> a = b.
  Proof.
    rewrite (path_cmp_antisym a b). intros A B. apply (path_cmp_eq HD). destruct (path_cmp a b); cbn in *; congruence.
  Qed.
  Lemma all_sorted_app (a b : list (list (cell D))) : all_sorted (a ++ b) -> all_sorted a /\ all_sorted b.
  Proof.
    induction a as [|x a IH]; cbn; [auto|]. intros [F S]. apply IH in S. apply Forall_app in F. tauto.
  Qed.
  Lemma all_sorted_unique (a b : list (list (cell D))) : Permutation a b -> all_sorted a -> all_sorted b -> a = b.
  Proof.
    revert b. induction a as [|x a IH]; intros b P Sa Sb.
    - apply Permutation_nil in P. auto.
    - destruct b as [|y b]; [apply Permutation_sym, Permutation_nil in P; discriminate P|].
      cbn in Sa, Sb. destruct Sa as [Fa Sa], Sb as [Fb Sb]. rewrite Forall_forall in Fa, Fb.
      assert (E : x = y).
      { assert (Ix : In x (y :: b)) by (eapply Permutation_in; [exact P|left; reflexivity]).
        assert (Iy : In y (x :: a)) by (eapply Permutation_in; [apply Permutation_sym; exact P|left; reflexivity]).
        destruct Ix as [Ix|Ix]; [auto|]. destruct Iy as [Iy|Iy]; [auto|]. apply path_le_antisym; auto. }
      subst y. f_equal. apply IH; auto. eapply Permutation_cons_inv. exact P.
  Qed.
  Lemma insert_exists x (b : list (list (cell D))) : all_sorted b -> exists e, Permutation (x :: b) e /\ all_sorted e.
  Proof.
    induction b as [|y b IH]; intro S.
    - exists [x]. split; [apply Permutation_refl|]. cbn. auto.
    - destruct (path_cmp x y) eqn:Q.
      1,2: exists (x :: y :: b); split; [apply Permutation_refl|]; cbn; cbn in S; destruct S as [F S]; split; [|auto];
           constructor; [congruence|]; eapply Forall_impl; [|exact F]; intros z Hz; apply (path_le_trans x y z); [congruence|exact Hz].
      cbn in S. destruct S as [F S]. destruct (IH S) as (e & P & Se). exists (y :: e). split.
      + eapply Permutation_trans; [apply perm_swap|]. apply perm_skip. exact P.
      + cbn. split; [|exact Se]. eapply Permutation_Forall; [exact P|]. constructor; [|exact F].
        rewrite (path_cmp_antisym x y), Q. discriminate.
  Qed.
  Lemma sort_exists (a : list (list (cell D))) : exists b, Permutation a b /\ all_sorted b.
  Proof.
    induction a as [|x a (b & P & S)]; [exists []; cbn; auto|].
    destruct (insert_exists x b S) as (e & P' & S'). exists e. split; [|exact S'].
    eapply Permutation_trans; [apply perm_skip; exact P|exact P'].
  Qed.
  Lemma cell_dec (x y : cell D) : {x = y} + {x <> y}.
  Proof.
    destruct (N.eq_dec (cell_index D x) (cell_index D y)) as [E|E]; [left; apply (idx_inj D x y HD E)|right; congruence].
  Qed.
  Lemma is_prefix_dec (p l : list (cell D)) : is_prefix p l \/ ~ is_prefix p l.
  Proof.
    revert l. induction p as [|x p IH]; intro l; [left; exists l; reflexivity|].
    destruct l as [|y l]; [right; intros (r & E); discriminate E|].
    destruct (cell_dec x y) as [<-|N]; [|right; intros (r & E); injection E; congruence].
    destruct (IH l) as [(r & ->)|N]; [left; exists r; reflexivity|].
    right. intros (r & E). injection E as ->. apply N. exists r. reflexivity.
  Qed.
  Lemma subtree_block (p : list (cell D)) (ls : list (list (cell D))) : all_sorted ls ->
    exists before block after, ls = before ++ block ++ after
      /\ Forall (is_prefix p) block /\ Forall (fun l => ~ is_prefix p l) (before ++ after).
  Proof.
    induction ls as [|a r IH]; intro S; [exists [], [], []; cbn; auto|].
    cbn in S. destruct S as [F S]. destruct (IH S) as (pre & mid & post & -> & Hm & Ho).
    destruct (is_prefix_dec p a) as [Pa|Pa].
    - destruct mid as [|m mid].
      + exists [], [a], (pre ++ post). repeat split; auto.
      + assert (E : pre = []); [|subst pre; exists [], (a :: m :: mid), post; repeat split; auto].
        destruct pre as [|x pre]; [reflexivity|]. exfalso. rewrite Forall_forall in F, Hm, Ho.
        assert (Nx : ~ is_prefix p x) by (apply Ho; left; reflexivity). apply Nx.
        apply (path_cmp_between D a x m p HD); [apply F; left; reflexivity| |exact Pa|apply Hm; left; reflexivity].
        cbn in S. destruct S as [Fx _]. rewrite Forall_forall in Fx. apply Fx. apply in_or_app. right. left. reflexivity.
    - exists (a :: pre), mid, post. repeat split; auto. cbn. constructor; assumption.
  Qed.
  Lemma subtree_root_first (p : list (cell D)) before block after : all_sorted (before ++ block ++ after) ->
    Forall (is_prefix p) block -> Forall (fun l => ~ is_prefix p l) (before ++ after) ->
    In p (before ++ block ++ after) -> exists rest, block = p :: rest.
  Proof.
    intros S Hb Ho Hi. apply all_sorted_app in S. destruct S as [_ S]. apply all_sorted_app in S. destruct S as [S _].
    rewrite Forall_forall in Ho.
    assert (I : In p block).
    { apply in_app_or in Hi. destruct Hi as [Hi|Hi]; [|apply in_app_or in Hi; destruct Hi as [Hi|Hi]; [exact Hi|]];
        exfalso; (apply (Ho p); [apply in_or_app; auto|exists []; rewrite app_nil_r; reflexivity]). }
    destruct block as [|h t]; [destruct I|]. exists t. f_equal. destruct I as [I|I]; [exact I|].
    cbn in S. destruct S as [F _]. rewrite Forall_forall in F, Hb. specialize (F p I).
    destruct (Hb h (or_introl eq_refl)) as (r & ->). destruct r as [|x r]; [apply app_nil_r|].
    exfalso. apply F. rewrite path_cmp_antisym, path_cmp_prefix by discriminate. reflexivity.
  Qed.
  Lemma all_sorted_nth (ls : list (list (cell D))) : all_sorted ls <->
    (forall i j a b, (i < j)%nat -> nth_error ls i = Some a -> nth_error ls j = Some b -> path_cmp a b <> Gt).
  Proof.
    induction ls as [|x ls IH]; cbn.
    - split; [|auto]. intros _ i j a b _ Ea. destruct i; discriminate Ea.
    - split.
      + intros [F S] [|i] [|j] a b Hij; cbn; intros Ea Eb; try lia.
        * injection Ea as <-. rewrite Forall_forall in F. apply F. eapply nth_error_In. exact Eb.
        * eapply (proj1 IH S i j); eauto. lia.
      + intro H. split.
        * apply Forall_forall. intros y Hy. apply In_nth_error in Hy. destruct Hy as [j Ej]. apply (H 0%nat (Datatypes.S j) x y); [lia|reflexivity|exact Ej].
        * apply IH. intros i j a b Hij Ea Eb. apply (H (Datatypes.S i) (Datatypes.S j) a b); [lia|exact Ea|exact Eb].
  Qed.
End Sorted.

Lemma index_le_iff c D L k (a b : storage k) la lb : made c D L k true a la -> made c D L k true b lb ->
  (index_le c D k a b = Ret true <-> path_cmp la lb <> Gt).
Proof.
  intros Ma Mb. pose proof (partial_cmp_of_cmp _ _ _ _ _ _ (c18_cmp_of_made_indices_lemma c D L k a b la lb Ma Mb)) as E.
  unfold index_le. rewrite E. cbn [bind]. destruct (path_cmp la lb); cbn; intuition congruence.
Qed.
Lemma sorted_iff c D L k xs ls : dim_ok D -> Forall2 (made c D L k true) xs ls -> (sorted c D k xs <-> all_sorted ls).
Proof.
  intros HD F. induction F as [|a la xs ls Ma F IH]; [cbn; tauto|].
  destruct F as [|b lb xs ls Mb F]; [cbn; split; auto|].
  change (sorted c D k (a :: b :: xs)) with (index_le c D k a b = Ret true /\ sorted c D k (b :: xs)).
  rewrite IH. rewrite (index_le_iff _ _ _ _ _ _ _ _ Ma Mb). split.
  - intros [E S]. cbn [all_sorted]. split; [|exact S]. destruct S as [Fb _]. constructor; [exact E|].
    eapply Forall_impl; [|exact Fb]. intros z Hz. apply (path_le_trans HD la lb z E Hz).
  - intros [Fa S]. split; [|exact S]. inversion Fa; assumption.
Qed.
Lemma made_all_dim c D L k xs ls : Forall2 (made c D L k true) xs ls -> xs <> [] -> dim_ok D.
Proof. intros [|a la xs' ls' Ma F] H; [congruence|]. exact (proj1 (made_canon _ _ _ _ _ _ Ma)). Qed.

Lemma c52_sorted_is_traversal_lemma : forall c D L k xs ls, is_dim D L -> Forall2 (made c D L k true) xs ls ->
  (sorted c D k xs
   <-> forall i j a b, (i < j)%nat -> nth_error ls i = Some a -> nth_error ls j = Some b -> earlier a b \/ a = b).
Proof.
  intros c D L k xs ls HL F. pose proof (is_dim_ok _ _ HL) as HD. rewrite (sorted_iff _ _ _ _ _ _ HD F), all_sorted_nth.
  split; intros H i j a b Hij Ea Eb; specialize (H i j a b Hij Ea Eb).
  - exact (proj1 (no_later_iff D a b HD) H).
  - exact (proj2 (no_later_iff D a b HD) H).
Qed.
Lemma made_unique c D L k a b la : made c D L k true a la -> made c D L k true b la -> a = b.
Proof.
  intros Ma Mb. destruct (made_canon _ _ _ _ _ _ Ma) as [HD Ca]. destruct (made_canon _ _ _ _ _ _ Mb) as [_ Cb].
  eapply canon_unique; eassumption.
Qed.
Lemma made_unique_list c D L k xs ys ls : Forall2 (made c D L k true) xs ls -> Forall2 (made c D L k true) ys ls -> xs = ys.
Proof.
  intros F. revert ys. induction F as [|a la xs ls Ma F IH]; intros ys G; inversion G; subst; [reflexivity|].
  f_equal; [eapply made_unique; eassumption|]. apply IH. assumption.
Qed.
Lemma Forall2_swap {A B} (P : A -> B -> Prop) xs ys : Forall2 P xs ys -> Forall2 (fun y x => P x y) ys xs.
Proof. induction 1; constructor; assumption. Qed.
Lemma c52_sorting_is_unique_lemma : forall c D L k xs ls, is_dim D L -> Forall2 (made c D L k true) xs ls ->
  exists ys, Permutation xs ys /\ sorted c D k ys
    /\ forall zs, Permutation xs zs -> sorted c D k zs -> zs = ys.
Proof.
  intros c D L k xs ls HL F. pose proof (is_dim_ok _ _ HL) as HD.
  destruct (sort_exists HD ls) as (ls' & P & S).
  assert (F' : Forall2 (fun l s => made c D L k true s l) ls xs) by (apply Forall2_swap; exact F).
  destruct (Permutation_Forall2 P F') as (ys & Py & Fy). apply Forall2_swap in Fy.
  exists ys. split; [exact Py|]. split; [apply (sorted_iff _ _ _ _ _ _ HD Fy); exact S|].
  intros zs Pz Sz. destruct (Permutation_Forall2 Pz F) as (lz & Plz & Fz).
  apply (sorted_iff _ _ _ _ _ _ HD Fz) in Sz.
  assert (E : lz = ls').
  { apply (all_sorted_unique HD); auto. eapply Permutation_trans; [apply Permutation_sym; exact Plz|exact P]. }
  subst lz. eapply made_unique_list; eassumption.
Qed.
Lemma c52_subtrees_are_blocks_lemma : forall c D L k xs ls p, is_dim D L -> Forall2 (made c D L k true) xs ls -> sorted c D k xs ->
  exists before block after, ls = before ++ block ++ after
    /\ Forall (is_prefix p) block /\ Forall (fun l => ~ is_prefix p l) (before ++ after)
    /\ (In p ls -> exists rest, block = p :: rest).
Proof.
  intros c D L k xs ls p HL F S. pose proof (is_dim_ok _ _ HL) as HD. apply (sorted_iff _ _ _ _ _ _ HD F) in S.
  destruct (subtree_block HD p ls S) as (pre & mid & post & -> & Hm & Ho). exists pre, mid, post.
  repeat split; auto. intro I. apply (subtree_root_first p pre mid post S Hm Ho I).
Qed.

(* ---------- C53 ---------- *)
Lemma c53_max_levels_partial_lemma : forall c D L k (s : storage k), is_dim D L -> valid c D k s ->
  (st_depth (ops c D k) s <= idx_MAX_LEVELS c D k <-> (k = KDynamic -> st_depth (ops c D k) s = 0)).
Proof.
  intros c D L k s HL V. destruct k as [t|t|]; cbn [idx_MAX_LEVELS].
  - split; [discriminate|]. intros _. apply N.le_refl.
  - split; [discriminate|]. intros _. exact (proj2 V).
  - unfold dynamic_MAX_LEVELS. split; [intros H _; lia|]. intro H. rewrite (H eq_refl). lia.
Qed.
Lemma c53_max_levels_refuted_lemma :
  ~ (forall c D L k (s : storage k), is_dim D L -> valid c D k s -> st_depth (ops c D k) s <= idx_MAX_LEVELS c D k).
Proof.
  intro H. specialize (H (Cfg true PW64 LittleEndian) Dim2D layout2D KDynamic (MkDynamic [0] 1) is_dim2).
  assert (V : valid (Cfg true PW64 LittleEndian) Dim2D KDynamic (MkDynamic [0] 1)).
  { split; [repeat constructor|]. split; vm_compute; discriminate. }
  specialize (H V). vm_compute in H. apply H. reflexivity.
Qed.
