(* FactsSplit.v - lemmas behind PropSplit.v: splitting and merging nodes (C80) *)
From Verif Require Import Base ModelNumber ModelDim ModelStorage Spec SpecSplit History
  BitProofs NumberProofs VecProofs CellProofs StorageProofs OrderProofs HistoryProofs FactsHistory FactsOrder FactsMono FactsSpace FactsTraits ExampleTools.

Section Sorted.
  Context {A : Type} (R : A -> A -> Prop).
  Lemma sorted_app (xs ys : list A) :
    StronglySorted R (xs ++ ys) <-> StronglySorted R xs /\ StronglySorted R ys /\ forall x y, In x xs -> In y ys -> R x y.
  Proof.
    induction xs as [|a xs IH]; cbn [app].
    - split; [intro H; split; [constructor|split; [exact H|intros x y []]]|intros (_ & H & _); exact H].
    - split.
      + intros H. apply StronglySorted_inv in H. destruct H as [H F]. apply IH in H. destruct H as (H1 & H2 & H3).
        rewrite Forall_app in F. destruct F as [F1 F2]. split; [constructor; assumption|]. split; [exact H2|].
        intros x y [<-|I] J; [rewrite Forall_forall in F2; apply F2; exact J|apply H3; assumption].
      + intros (H1 & H2 & H3). apply StronglySorted_inv in H1. destruct H1 as [H1 F]. constructor.
        * apply IH. split; [exact H1|]. split; [exact H2|]. intros x y I J. apply H3; [right; exact I|exact J].
        * rewrite Forall_app. split; [exact F|]. rewrite Forall_forall. intros y J. apply H3; [left; reflexivity|exact J].
  Qed.
End Sorted.

Lemma Forall2_len {A B} (R : A -> B -> Prop) xs ys : Forall2 R xs ys -> List.length xs = List.length ys.
Proof. induction 1; cbn; congruence. Qed.

(* ---------- paths ---------- *)
(* la lies to the left of lb: the first cells that differ are in order *)
Definition left_of {D} (la lb : list (cell D)) : Prop :=
  exists p x y r r', la = p ++ x :: r /\ lb = p ++ y :: r' /\ cell_index D x < cell_index D y.
Lemma left_iff D (la lb : list (cell D)) : dim_ok D -> (left_of la lb <-> path_cmp la lb = Lt /\ ~ is_prefix la lb).
Proof.
  intros HD. split.
  - intros (p & x & y & r & r' & -> & -> & E). rewrite path_cmp_app. cbn [path_cmp]. apply N.compare_lt_iff in E as E'. rewrite E'.
    split; [reflexivity|]. intros (u & U). rewrite <- app_assoc in U. apply app_inv_head in U. cbn [app] in U. injection U as U _. subst y. lia.
  - revert lb. induction la as [|x la IH]; intros lb (C & P).
    + destruct P. exists lb. reflexivity.
    + destruct lb as [|y lb]; [discriminate|]. cbn [path_cmp] in C. destruct (N.compare_spec (cell_index D x) (cell_index D y)) as [E|E|E]; [| |discriminate].
      * apply (idx_inj D x y HD) in E. subst y. destruct (IH lb) as (p & a & b & r & r' & Ea & Eb & L).
        { split; [exact C|]. intros (u & U). apply P. exists u. rewrite U. reflexivity. }
        exists (x :: p), a, b, r, r'. rewrite Ea, Eb. auto.
      * exists [], x, y, la, lb. auto.
Qed.
Lemma left_app D (la lb u w : list (cell D)) : left_of la lb -> left_of (la ++ u) (lb ++ w).
Proof.
  intros (p & x & y & r & r' & -> & -> & E). exists p, x, y, (r ++ u), (r' ++ w). rewrite <- !app_assoc. auto.
Qed.
(* splitting the node on the left, or on the right *)
Lemma left_children D (la lb : list (cell D)) : (forall q, left_of (la ++ [q]) lb) -> left_of la lb.
Proof.
  intros H. destruct (H (cell_zero D)) as (p & x & y & r & r' & Ea & Eb & E). destruct r as [|z r _] using rev_ind.
  - apply app_inj_tail in Ea. destruct Ea as [<- <-]. subst lb. exfalso. destruct (H y) as (p & a & b & s & s' & Ea & Eb & L).
    change (y :: r') with ([y] ++ r') in Eb. rewrite app_assoc, Ea, <- app_assoc in Eb. apply app_inv_head in Eb. injection Eb as <- _. lia.
  - change (x :: r ++ [z]) with ((x :: r) ++ [z]) in Ea. rewrite app_assoc in Ea. apply app_inj_tail in Ea. destruct Ea as [-> _].
    exists p, x, y, r, r'. auto.
Qed.
Lemma children_left D (la lb : list (cell D)) : (forall q, left_of la (lb ++ [q])) -> left_of la lb.
Proof.
  intros H. destruct (H (cell_zero D)) as (p & x & y & r & r' & Ea & Eb & E). destruct r' as [|z r' _] using rev_ind.
  - apply app_inj_tail in Eb. destruct Eb as [<- <-]. subst la. exfalso. destruct (H x) as (p & a & b & s & s' & Ea & Eb & L).
    change (x :: r) with ([x] ++ r) in Ea. rewrite app_assoc, Eb, <- app_assoc in Ea. apply app_inv_head in Ea. injection Ea as <- _. lia.
  - change (y :: r' ++ [z]) with ((y :: r') ++ [z]) in Eb. rewrite app_assoc in Eb. apply app_inj_tail in Eb. destruct Eb as [-> _].
    exists p, x, y, r, r'. auto.
Qed.

(* ---------- indices ---------- *)
Lemma canon_depth c D k (s : storage k) l : canon c D k s l -> st_depth (ops c D k) s = len l.
Proof. intro C. exact (raw_depth _ _ _ _ _ _ _ _ C). Qed.
Lemma apart_iff c D L k v (a b : storage k) la lb : is_dim D L -> var_ops c D L k = Some v -> canon c D k a la -> canon c D k b lb ->
  (apart c D k v a b <-> left_of la lb).
Proof.
  intros HL HV Ca Cb. pose proof (is_dim_ok _ _ HL) as HD. rewrite left_iff by exact HD. unfold apart.
  rewrite (idx_cmp_canon c D k a b la lb HD Ca Cb), (canon_depth _ _ _ _ _ Ca). split; intros [H1 H2].
  - split; [congruence|]. intros (r & ->). destruct (rep_with_depth c D L k v true b (la ++ r) (len la) HL HV Cb) as (s & E & C); [rewrite len_app; lia|].
    apply H2 in E. cbn [rep] in C. rewrite to_nat_len, firstn_app, Nat.sub_diag, firstn_all, app_nil_r in C.
    rewrite (proj2 (idx_eq_canon c D k s a la la HD C Ca) eq_refl) in E. discriminate.
  - split; [congruence|]. intros s E. destruct (N.le_gt_cases (len la) (len lb)) as [H|H].
    + destruct (rep_with_depth c D L k v true b lb (len la) HL HV Cb H) as (s' & E' & C). rewrite E in E'. injection E' as <-. cbn [rep] in C.
      destruct (idx_eq k s a) eqn:Q; [|reflexivity]. apply (idx_eq_canon c D k s a _ _ HD C Ca) in Q. destruct H2.
      exists (skipn (N.to_nat (len la)) lb). rewrite <- Q at 1. symmetry. apply firstn_skipn.
    + rewrite (with_depth_none c D L k v b lb (len la) HV (canon_repr _ _ _ _ _ Cb) H) in E. discriminate.
Qed.
Lemma child_canon c D L k v (s s' : storage k) l q : is_dim D L -> writable c k -> var_ops c D L k = Some v -> canon c D k s l ->
  (k = KDynamic -> dim D * (len l + 1) + 24 <= 2 ^ usize_bits c) -> child v s q = Ret (Some s') -> canon c D k s' (l ++ [q]).
Proof.
  intros HL W HV C R E. pose proof (is_dim_ok _ _ HL) as HD. unfold child, descendant in E.
  destruct k as [t|t|]; cbn [var_ops] in HV; [discriminate| |]; injection HV as <-; cbn [vo_descendant static_vops dynamic_vops] in E.
  - destruct (N.le_gt_cases (len l + len [q]) (MAX_LEVELS c D t)) as [H|H].
    + destruct (rep_static_descendant c D t true s l [q] HD C H) as (s1 & E1 & C1). rewrite E in E1. injection E1 as <-. exact C1.
    + rewrite (static_descendant_none c D t s l [q] HD (canon_repr _ _ _ _ _ C)) in E; [discriminate| |exact H].
      change (len [q]) with 1. change 1 with (2 ^ 0). apply N.pow_lt_mono_r; [lia|]. pose proof (usize_ge16 c). lia.
  - destruct (rep_dynamic_descendant c D L true s l [q] HL C (R eq_refl)) as (s1 & E1 & C1). rewrite E in E1. injection E1 as <-.
    rewrite map_stored in C1 by exact W. exact C1.
Qed.
Lemma c80_split_and_merge_lemma : forall c D L k v (xs ys children : list (storage k)) s lxs l lys qs,
  Forall2 (made c D L k true) (xs ++ s :: ys) (lxs ++ l :: lys) -> List.length xs = List.length lxs ->
  writable c k -> var_ops c D L k = Some v -> (k = KDynamic -> dim D * (len l + 1) + 24 <= 2 ^ usize_bits c) ->
  all_cells D qs -> Forall2 (fun q s' => child v s q = Ret (Some s')) qs children ->
  (leaves c D k v (xs ++ s :: ys) <-> leaves c D k v (xs ++ children ++ ys)).
Proof.
  intros c D L k v xs ys children s lxs l lys qs M HLen W HV R (All & Inc) F.
  assert (HLs : is_dim D L /\ canon c D k s l /\ (forall x, In x xs -> exists lx, canon c D k x lx) /\ (forall y, In y ys -> exists ly, canon c D k y ly)).
  { apply Forall2_app_inv_l in M. destruct M as (m1 & m2 & M1 & M2 & E).
    assert (Em : m1 = lxs /\ m2 = l :: lys).
    { pose proof (Forall2_len _ _ _ M1) as Q. assert (List.length m1 = List.length lxs) as Q' by congruence.
      clear -E Q'. revert lxs E Q'. induction m1 as [|a m1 IH]; intros [|b lxs] E Q'; try discriminate; cbn [app] in E; [auto|].
      injection E as <- E. injection Q' as Q'. destruct (IH lxs E Q') as [-> ->]. auto. }
    destruct Em as [-> ->]. inversion M2 as [|s1 l1 ys1 lys1 Ms My]; subst. destruct (made_rep _ _ _ _ _ _ _ Ms) as [HL Cs].
    split; [exact HL|]. split; [exact Cs|]. split.
    - intros x I. clear -M1 I. induction M1 as [|a la m lm H H' IH]; [destruct I|]. destruct I as [<-|I]; [|exact (IH I)].
      exists la. apply (made_canon _ _ _ _ _ _ H).
    - intros x I. clear -My I. induction My as [|a la m lm H H' IH]; [destruct I|]. destruct I as [<-|I]; [|exact (IH I)].
      exists la. apply (made_canon _ _ _ _ _ _ H). }
  destruct HLs as (HL & Cs & Cx & Cy). clear M HLen.
  assert (CC : Forall2 (fun q s' => canon c D k s' (l ++ [q])) qs children).
  { clear -F HL W HV Cs R. induction F as [|q s' qs children E F IH]; constructor; [|exact IH]. exact (child_canon c D L k v s s' l q HL W HV Cs R E). }
  assert (Ci : forall s', In s' children -> exists q, canon c D k s' (l ++ [q])).
  { intros s' I. clear -CC I. induction CC as [|q a qs cs H H' IH]; [destruct I|]. destruct I as [<-|I]; [exists q; exact H|exact (IH I)]. }
  assert (Cq : forall q, exists s', In s' children /\ canon c D k s' (l ++ [q])).
  { intros q. specialize (All q). clear -CC All. induction CC as [|q' a qs cs H H' IH]; [destruct All|].
    destruct All as [<-|I]; [exists a; split; [left; reflexivity|exact H]|]. destruct (IH I) as (s' & J & C). exists s'. split; [right; exact J|exact C]. }
  assert (Sc : leaves c D k v children).
  { clear -CC Inc HL HV. induction CC as [|q a qs cs H H' IH]; [constructor|]. apply StronglySorted_inv in Inc. destruct Inc as [I J].
    constructor; [exact (IH I)|]. clear -H H' J HL HV. induction H' as [|q' b qs cs H1 H2 IH]; [constructor|]. inversion J; subst. constructor; [|auto].
    apply (apart_iff c D L k v a b (l ++ [q]) (l ++ [q']) HL HV H H1). exists l, q, q', [], []. auto. }
  unfold leaves in *. rewrite !sorted_app. split.
  - intros (H1 & H2 & H3). apply StronglySorted_inv in H2. destruct H2 as [H2 H4]. rewrite Forall_forall in H4.
    split; [exact H1|]. split.
    + split; [exact Sc|]. split; [exact H2|]. intros s' y I J. destruct (Ci s' I) as (q & C). destruct (Cy y J) as (ly & C').
      apply (apart_iff c D L k v s' y _ _ HL HV C C'). rewrite <- (app_nil_r ly). apply left_app.
      apply (apart_iff c D L k v s y l ly HL HV Cs C'). apply H4. exact J.
    + intros x y I J. apply in_app_or in J. destruct J as [J|J]; [|apply H3; [exact I|right; exact J]].
      destruct (Ci y J) as (q & C). destruct (Cx x I) as (lx & C').
      apply (apart_iff c D L k v x y _ _ HL HV C' C). rewrite <- (app_nil_r lx). apply left_app.
      apply (apart_iff c D L k v x s lx l HL HV C' Cs). apply H3; [exact I|left; reflexivity].
  - intros (H1 & (_ & H2 & H4) & H3). split; [exact H1|]. split.
    + constructor; [exact H2|]. rewrite Forall_forall. intros y J. destruct (Cy y J) as (ly & C').
      apply (apart_iff c D L k v s y l ly HL HV Cs C'). apply left_children. intros q. destruct (Cq q) as (s' & I & C).
      apply (apart_iff c D L k v s' y _ _ HL HV C C'). apply H4; assumption.
    + intros x y I [<-|J]; [|apply H3; [exact I|apply in_or_app; right; exact J]]. destruct (Cx x I) as (lx & C').
      apply (apart_iff c D L k v x s lx l HL HV C' Cs). apply children_left. intros q. destruct (Cq q) as (s' & J & C).
      apply (apart_iff c D L k v x s' _ _ HL HV C' C). apply H3; [exact I|apply in_or_app; left; exact J].
Qed.
(* every node below s lies below exactly one child of s: the one that with_depth finds *)
Lemma c80_exactly_one_child_lemma : forall c D L k v (s m : storage k) l q r,
  made c D L k true s l -> made c D L k true m (l ++ q :: r) -> writable c k -> var_ops c D L k = Some v ->
  (k = KDynamic -> dim D * (len l + 1) + 24 <= 2 ^ usize_bits c) ->
  exists s', child v s q = Ret (Some s') /\ with_depth c v m (st_depth (ops c D k) s + 1) = Ret (Some s')
  /\ forall q' s'', child v s q' = Ret (Some s'') ->
     (q' = q <-> exists t, with_depth c v m (st_depth (ops c D k) s'') = Ret (Some t) /\ idx_eq k t s'' = true).
Proof.
  intros c D L k v s m l q r Ms Mm W HV R. destruct (made_rep _ _ _ _ _ _ _ Ms) as [HL Cs]. destruct (made_rep _ _ _ _ _ _ _ Mm) as [_ Cm].
  pose proof (is_dim_ok _ _ HL) as HD. rewrite (canon_depth _ _ _ _ _ Cs).
  destruct (rep_with_depth c D L k v true m (l ++ q :: r) (len l + 1) HL HV Cm) as (t & E & C); [rewrite len_app, len_cons; lia|].
  cbn [rep] in C. replace (firstn (N.to_nat (len l + 1)) (l ++ q :: r)) with (l ++ [q]) in C.
  2:{ rewrite N2Nat.inj_add, to_nat_len. change (q :: r) with ([q] ++ r). rewrite app_assoc. change (N.to_nat 1) with (List.length [q]).
      rewrite <- app_length, firstn_app, Nat.sub_diag, firstn_all, firstn_O, app_nil_r. reflexivity. }
  assert (X : exists s', child v s q = Ret (Some s') /\ canon c D k s' (l ++ [q])).
  { unfold child, descendant. destruct k as [u|u|]; cbn [var_ops] in HV; [discriminate| |]; injection HV as <-; cbn [vo_descendant static_vops dynamic_vops].
    - destruct (rep_static_descendant c D u true s l [q] HD Cs) as (s1 & E1 & C1); [|exists s1; auto].
      pose proof (static_room _ _ _ _ _ HD (canon_repr _ _ _ _ _ C)) as Q. rewrite len_app in Q. exact Q.
    - destruct (rep_dynamic_descendant c D L true s l [q] HL Cs (R eq_refl)) as (s1 & E1 & C1). rewrite map_stored in C1 by exact W. exists s1. auto. }
  destruct X as (s' & Es & C'). exists s'. split; [exact Es|]. split.
  - rewrite E. do 2 f_equal. apply (idx_eq_iff k). apply (idx_eq_canon c D k t s' _ _ HD C C'). reflexivity.
  - intros q' s'' Eq'. pose proof (child_canon c D L k v s s'' l q' HL W HV Cs R Eq') as C''. rewrite (canon_depth _ _ _ _ _ C''), len_app.
    change (len [q']) with 1. rewrite E. split.
    + intros ->. exists t. split; [reflexivity|]. apply (idx_eq_canon c D k t s'' _ _ HD C C''). reflexivity.
    + intros (t' & Et & Q). injection Et as <-. apply (idx_eq_canon c D k t s'' _ _ HD C C'') in Q. apply app_inj_tail in Q. symmetry. apply Q.
Qed.
(* at most one leaf contains a given node *)
Lemma left_prefix D (la lb lm : list (cell D)) : left_of la lb -> is_prefix la lm -> ~ is_prefix lb lm.
Proof.
  intros (p & x & y & r & r' & -> & -> & E) (u & ->) (w & Q). rewrite <- !app_assoc in Q. apply app_inv_head in Q. cbn [app] in Q. injection Q as Q _. subst y. lia.
Qed.
Lemma c80_at_most_one_leaf_lemma : forall c D L k v (xs : list (storage k)) lxs m lm i j a b,
  Forall2 (made c D L k true) xs lxs -> made c D L k true m lm -> var_ops c D L k = Some v -> leaves c D k v xs ->
  nth_error xs i = Some a -> nth_error xs j = Some b ->
  (exists s, with_depth c v m (st_depth (ops c D k) a) = Ret (Some s) /\ idx_eq k s a = true) ->
  (exists s, with_depth c v m (st_depth (ops c D k) b) = Ret (Some s) /\ idx_eq k s b = true) -> i = j.
Proof.
  intros c D L k v xs lxs m lm i j a b M Mm HV S Ia Ib Ha Hb. destruct (made_rep _ _ _ _ _ _ _ Mm) as [HL Cm].
  assert (Lt : forall i j a b, (i < j)%nat -> nth_error xs i = Some a -> nth_error xs j = Some b -> apart c D k v a b).
  { clear -S. induction S as [|x xs S IH F]; intros i j a b H Ia Ib; [destruct i; discriminate|]. destruct j as [|j]; [lia|]. cbn [nth_error] in Ib.
    destruct i as [|i]; cbn [nth_error] in Ia.
    - injection Ia as <-. rewrite Forall_forall in F. apply F. exact (nth_error_In _ _ Ib).
    - apply (IH i j a b); [lia|assumption|assumption]. }
  assert (Mn : forall i a, nth_error xs i = Some a -> exists la, made c D L k true a la).
  { clear -M. induction M as [|x l xs lxs H M IH]; intros [|i] a Ia; try discriminate; cbn [nth_error] in Ia; [injection Ia as <-; exists l; exact H|exact (IH i a Ia)]. }
  destruct (Mn i a Ia) as (la & Ma). destruct (Mn j b Ib) as (lb & Mb).
  apply (c60_with_depth_finds_ancestors_lemma c D L k v a m la lm Ma Mm HV) in Ha.
  apply (c60_with_depth_finds_ancestors_lemma c D L k v b m lb lm Mb Mm HV) in Hb.
  destruct (made_canon _ _ _ _ _ _ Ma) as [_ Ca]. destruct (made_canon _ _ _ _ _ _ Mb) as [_ Cb].
  destruct (Nat.lt_trichotomy i j) as [H|[H|H]]; [exfalso|exact H|exfalso].
  - pose proof (Lt i j a b H Ia Ib) as Q. apply (apart_iff c D L k v a b la lb HL HV Ca Cb) in Q. exact (left_prefix D la lb lm Q Ha Hb).
  - pose proof (Lt j i b a H Ib Ia) as Q. apply (apart_iff c D L k v b a lb la HL HV Cb Ca) in Q. exact (left_prefix D lb la lm Q Hb Ha).
Qed.
(* ---------- intervals ---------- *)
Fixpoint chain (lo hi : N) (is : list (N * N)) : Prop :=
  match is with [] => lo <= hi | (s, w) :: r => lo <= s /\ 0 < w /\ chain (s + w) hi r end.
Definition total (is : list (N * N)) : N := fold_right (fun i m => snd i + m) 0 is.
Definition inside (X : N) (i : N * N) : Prop := fst i <= X < fst i + snd i.
Lemma chain_total is : forall lo hi, chain lo hi is -> lo + total is <= hi.
Proof. induction is as [|[s w] is IH]; intros lo hi; cbn [chain total fold_right snd]; [lia|]. intros (H1 & H2 & H3). apply IH in H3. unfold total in H3. lia. Qed.
Lemma chain_low is : forall lo hi X, chain lo hi is -> X < lo -> ~ Exists (inside X) is.
Proof.
  induction is as [|[s w] is IH]; intros lo hi X C L E; [inversion E|]. cbn [chain] in C. destruct C as (H1 & H2 & H3). inversion E as [i r [A B]|i r A]; subst.
  - cbn [fst snd] in *. lia.
  - exact (IH (s + w) hi X H3 ltac:(lia) A).
Qed.
Lemma chain_full is : forall lo hi, chain lo hi is -> (lo + total is = hi <-> forall X, lo <= X < hi -> Exists (inside X) is).
Proof.
  induction is as [|[s w] is IH]; intros lo hi C; cbn [chain total fold_right snd] in *.
  - split; [lia|]. intros H. destruct (N.eq_dec lo hi) as [E|E]; [lia|]. specialize (H lo ltac:(lia)). inversion H.
  - destruct C as (H1 & H2 & H3). pose proof (chain_total _ _ _ H3) as T. fold (total is) in *. split.
    + intros E X HX. destruct (N.lt_ge_cases X (s + w)) as [L|L]; [left; split; cbn [fst snd]; lia|].
      right. apply (proj1 (IH (s + w) hi H3)); lia.
    + intros H. assert (E : lo = s).
      { destruct (N.eq_dec lo s) as [E|E]; [exact E|exfalso]. specialize (H lo ltac:(lia)). inversion H as [i r [A B]|i r A]; subst; [cbn [fst] in A; lia|].
        exact (chain_low is (s + w) hi lo H3 ltac:(lia) A). }
      subst s. assert (Q : lo + w + total is = hi); [|lia]. apply (IH (lo + w) hi H3). intros X HX. specialize (H X ltac:(lia)).
      inversion H as [i r [A B]|i r A]; subst; [cbn [fst snd] in B; lia|exact A].
Qed.
Lemma left_interval D (la lb : list (cell D)) n : dim_ok D -> len la <= n -> len lb <= n -> left_of la lb ->
  enc la * 2 ^ (dim D * (n - len la)) + 2 ^ (dim D * (n - len la)) <= enc lb * 2 ^ (dim D * (n - len lb)).
Proof.
  intros HD Na Nb (p & x & y & r & r' & -> & -> & E). rewrite !len_app, !len_cons in *.
  set (d := dim D) in *. set (W := 2 ^ (d * (n - (len p + 1)))).
  assert (Wa : 2 ^ (d * len r) * 2 ^ (d * (n - (len p + (len r + 1)))) = W) by (unfold W; rewrite <- N.pow_add_r; f_equal; nia).
  assert (Wb : 2 ^ (d * len r') * 2 ^ (d * (n - (len p + (len r' + 1)))) = W) by (unfold W; rewrite <- N.pow_add_r; f_equal; nia).
  assert (U : forall z (u : list (cell D)), enc (p ++ z :: u) = (enc p * 2 ^ d + cell_index D z) * 2 ^ (d * len u) + enc u).
  { intros z u. rewrite enc_app, enc_cons, len_cons. fold d. rewrite N.mul_add_distr_l, N.mul_1_r, N.pow_add_r. lia. }
  rewrite !U. pose proof (enc_lt HD r) as Lr. fold d in Lr. remember (2 ^ (d * (n - (len p + (len r + 1))))) as wa. remember (2 ^ (d * (n - (len p + (len r' + 1))))) as wb.
  transitivity ((enc p * 2 ^ d + cell_index D x + 1) * W).
  { rewrite <- Wa, N.mul_assoc. rewrite <- (N.mul_1_l wa) at 2. rewrite <- N.mul_add_distr_r. apply N.mul_le_mono_r.
    rewrite (N.mul_add_distr_r _ 1), N.mul_1_l. lia. }
  transitivity ((enc p * 2 ^ d + cell_index D y) * W); [apply N.mul_le_mono_r; lia|].
  rewrite <- Wb, N.mul_assoc. apply N.mul_le_mono_r. lia.
Qed.
Lemma prefix_interval D (lx l : list (cell D)) : dim_ok D -> len lx <= len l ->
  (is_prefix lx l <-> inside (enc l) (enc lx * 2 ^ (dim D * (len l - len lx)), 2 ^ (dim D * (len l - len lx)))).
Proof.
  intros HD H. destruct (len_app_cut l (len lx) H) as (l1 & l2 & -> & L1 & L2). rewrite <- L2, enc_app. pose proof (enc_lt HD l2) as E.
  unfold inside. cbn [fst snd]. split.
  - intros (r & Q). assert (l1 = lx) as ->; [|lia]. apply (f_equal (firstn (N.to_nat (len lx)))) in Q. rewrite <- L1 in Q at 1.
    rewrite !to_nat_len, !firstn_app, !Nat.sub_diag, !firstn_all, !firstn_O, !app_nil_r in Q. exact Q.
  - intros [A B]. assert (Q : enc l1 = enc lx) by nia. apply (enc_inj HD) in Q; [|exact L1]. subst l1. exists l2. reflexivity.
Qed.
Lemma enc_surj D L n : is_dim D L -> forall X, X < 2 ^ (dim D * N.of_nat n) -> exists l : list (cell D), len l = N.of_nat n /\ enc l = X.
Proof.
  intros HL. assert (B : forall i, i < 2 ^ dim D -> exists q : cell D, cell_index D q = i).
  { intros i Hi. destruct HL; [change (2 ^ dim Dim2D) with 4 in Hi|change (2 ^ dim Dim3D) with 8 in Hi].
    - assert (i = 0 \/ i = 1 \/ i = 2 \/ i = 3) as [->|[->|[->| ->]]] by lia; [exists Q0|exists Q1|exists Q2|exists Q3]; reflexivity.
    - assert (i = 0 \/ i = 1 \/ i = 2 \/ i = 3 \/ i = 4 \/ i = 5 \/ i = 6 \/ i = 7) as [->|[->|[->|[->|[->|[->|[->| ->]]]]]]] by lia;
        [exists O0|exists O1|exists O2|exists O3|exists O4|exists O5|exists O6|exists O7]; reflexivity. }
  induction n as [|n IH]; intros X HX.
  - exists []. rewrite N.mul_0_r in HX. change (2 ^ 0) with 1 in HX. split; [reflexivity|]. change (enc (D:=D) []) with 0. lia.
  - assert (P : 2 ^ dim D <> 0) by (apply N.pow_nonzero; discriminate).
    destruct (IH (X / 2 ^ dim D)) as (l & Ll & El).
    { apply N.div_lt_upper_bound; [exact P|]. rewrite <- N.pow_add_r. eapply N.lt_le_trans; [exact HX|]. apply N.pow_le_mono_r; [discriminate|]. lia. }
    destruct (B (X mod 2 ^ dim D)) as (q & Q); [apply N.mod_lt; exact P|]. exists (l ++ [q]). split.
    + rewrite len_app, Ll. change (len [q]) with 1. lia.
    + rewrite enc_snoc, El, Q. symmetry. apply N.div_mod. exact P.
Qed.
Lemma c80_covers_everything_lemma : forall c D L k v (xs : list (storage k)) lxs n,
  Forall2 (made c D L k true) xs lxs -> is_dim D L -> var_ops c D L k = Some v -> leaves c D k v xs ->
  (forall x, In x xs -> st_depth (ops c D k) x <= n) ->
  nodes_below c D k n xs <= 2 ^ (dim D * n)
  /\ (nodes_below c D k n xs = 2 ^ (dim D * n) <-> forall l, len l = n -> exists lx, In lx lxs /\ is_prefix lx l).
Proof.
  intros c D L k v xs lxs n M HL HV S Dn. pose proof (is_dim_ok _ _ HL) as HD.
  pose (iv := fun lx : list (cell D) => (enc lx * 2 ^ (dim D * (n - len lx)), 2 ^ (dim D * (n - len lx)))).
  assert (Ln : forall lx, In lx lxs -> len lx <= n).
  { clear -M Dn. induction M as [|x lx xs lxs H M IH]; intros l []; [subst l|].
    - rewrite <- (canon_depth _ _ _ _ _ (proj2 (made_canon _ _ _ _ _ _ H))). apply Dn. left. reflexivity.
    - apply IH; [intros y I; apply Dn; right; exact I|assumption]. }
  assert (T : nodes_below c D k n xs = total (map iv lxs)).
  { clear -M. unfold nodes_below, total. induction M as [|x lx xs lxs H M IH]; [reflexivity|]. cbn [map fold_right].
    rewrite IH, (canon_depth _ _ _ _ _ (proj2 (made_canon _ _ _ _ _ _ H))). reflexivity. }
  assert (Sl : StronglySorted left_of lxs).
  { clear -M S HL HV. induction M as [|x lx xs lxs H M IH]; [constructor|]. apply StronglySorted_inv in S. destruct S as [S F]. constructor; [exact (IH S)|].
    clear IH S. induction M as [|y ly ys lys H' M IH]; [constructor|]. inversion F; subst. constructor; [|auto].
    apply (apart_iff c D L k v x y lx ly HL HV); [apply (made_canon _ _ _ _ _ _ H)|apply (made_canon _ _ _ _ _ _ H')|assumption]. }
  assert (C : forall lo, (forall lx, In lx lxs -> lo <= fst (iv lx)) -> lo <= 2 ^ (dim D * n) -> chain lo (2 ^ (dim D * n)) (map iv lxs)).
  { clear -Ln Sl HD. induction lxs as [|lx lxs IH]; intros lo Hlo Hhi; [exact Hhi|]. cbn [map chain]. unfold iv at 1. cbn beta iota.
    apply StronglySorted_inv in Sl. destruct Sl as [Sl F]. rewrite Forall_forall in F. split; [apply (Hlo lx); left; reflexivity|].
    split; [apply N.neq_0_lt_0, N.pow_nonzero; discriminate|]. apply IH; [intros l I; apply Ln; right; exact I|exact Sl| |].
    - intros l I. cbn [fst iv]. apply left_interval; [exact HD|apply Ln; left; reflexivity|apply Ln; right; exact I|apply F; exact I].
    - assert (L0 : len lx <= n) by (apply Ln; left; reflexivity). pose proof (enc_lt HD lx) as E.
      replace (2 ^ (dim D * n)) with (2 ^ (dim D * len lx) * 2 ^ (dim D * (n - len lx))) by (rewrite <- N.pow_add_r; f_equal; nia). nia. }
  specialize (C 0 (fun _ _ => N.le_0_l _) (N.le_0_l _)). rewrite T. split; [exact (chain_total _ _ _ C)|].
  pose proof (chain_full _ _ _ C) as Q. rewrite N.add_0_l in Q. rewrite Q. clear Q C T S. split.
  - intros H l Hl. assert (E : 0 <= enc l < 2 ^ (dim D * n)) by (split; [lia|rewrite <- Hl; apply (enc_lt HD)]). specialize (H _ E).
    apply Exists_exists in H. destruct H as (i & I & J). apply in_map_iff in I. destruct I as (lx & <- & I). exists lx. split; [exact I|].
    unfold iv in J. rewrite <- Hl in J. apply prefix_interval; [exact HD|rewrite Hl; apply Ln; exact I|exact J].
  - intros H X [_ HX]. destruct (enc_surj D L (N.to_nat n) HL X) as (l & Hl & E); [rewrite N2Nat.id; exact HX|]. rewrite N2Nat.id in Hl.
    destruct (H l Hl) as (lx & I & P). apply Exists_exists. exists (iv lx). split; [apply in_map; exact I|]. unfold iv. rewrite <- E, <- Hl.
    apply prefix_interval; [exact HD|rewrite Hl; apply Ln; exact I|exact P].
Qed.
