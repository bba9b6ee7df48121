(* FactsSuite.v - the randomised tests of the repository pass whatever numbers are drawn *)
From Verif Require Import Base ModelNumber ModelDim ModelStorage Model2D Model3D Spec History ModelSuite ExampleTools
  BitProofs CellProofs StorageProofs ConvProofs OrderProofs GridProofs Grid2DProofs Grid3DProofs HistoryProofs FactsCells FactsHistory FactsGrid FactsWide.
From Coq Require Sorting.Sorted.

(* ---------- rand ---------- *)
Lemma draw_ok D L n r : is_dim D L -> exists l r', draw D n r = Ret (l, r') /\ len l = n.
Proof.
  intros HL. pose proof (is_dim_ok _ _ HL) as HD. unfold draw.
  assert (H : forall count r, exists l r', get_test_cells D count r = Ret (l, r') /\ List.length l = count).
  { induction count as [|count IH]; intro r0; cbn [get_test_cells]; [exists [], r0; split; reflexivity|].
    cbn [gen_range].
    assert (B : numbers r0 (used r0) mod 4 < 2 ^ dim D).
    { pose proof (N.mod_lt (numbers r0 (used r0)) 4 ltac:(lia)). destruct HL; cbn [dim Dim2D Dim3D]; lia. }
    destruct (try_total D HD _ B) as (x & E). rewrite E. cbn [unwrap bind].
    destruct (IH (Rng (numbers r0) (used r0 + 1))) as (l & r' & E' & Hl). rewrite E'. cbn [bind].
    exists (x :: l), r'. split; [reflexivity|]. cbn [List.length]. lia. }
  destruct (H (N.to_nat n) r) as (l & r' & E & Hl). exists l, r'. split; [exact E|]. unfold len. lia.
Qed.
Ltac draw L n r l Hl :=
  let r' := fresh "r'" in let E := fresh "E" in
  destruct (draw_ok _ L n r ltac:(eassumption)) as (l & r' & E & Hl); rewrite E; clear E; cbn [bind].

(* ---------- assertions ---------- *)
Lemma cell_eqb_refl D x : dim_ok D -> cell_eqb D x x = true.
Proof. intros HD. unfold cell_eqb. rewrite (cmp_ok D HD), N.compare_refl. reflexivity. Qed.
Lemma cells_eq_refl D l : dim_ok D -> cells_eq D l l = true.
Proof. intros HD. induction l as [|x l IH]; cbn [cells_eq]; [reflexivity|]. rewrite cell_eqb_refl by exact HD. exact IH. Qed.
Lemma for_all_ok {A} (l : list A) f : (forall x, In x l -> f x = Ret tt) -> for_all l f = Ret tt.
Proof.
  unfold for_all. induction l as [|x l IH]; intros H; cbn [foldM]; [reflexivity|]. rewrite (H x (or_introl eq_refl)). cbn [bind].
  apply IH. intros y Hy. apply H. right. exact Hy.
Qed.
Lemma for_all_inv {A} (l : list A) f : for_all l f = Ret tt -> forall x, In x l -> f x = Ret tt.
Proof.
  unfold for_all. induction l as [|x l IH]; intros H y Hy; cbn [foldM] in H; [destruct Hy|].
  destruct (f x) as [[]| |] eqn:E; cbn [bind] in H; try discriminate. destruct Hy as [<-|Hy]; [exact E|]. exact (IH H y Hy).
Qed.
Lemma enum_from_in {A} (l : list A) i x base : nth_error l i = Some x -> In (base + N.of_nat i, x) (enum_from base l).
Proof.
  revert i base. induction l as [|y l IH]; intros i base H; destruct i as [|i]; cbn [nth_error] in H; try discriminate; cbn [enum_from].
  - injection H as ->. left. f_equal. lia.
  - right. replace (base + N.of_nat (S i)) with (base + 1 + N.of_nat i) by lia. apply IH. exact H.
Qed.
Lemma enumerate_in {A} (l : list A) i x : nth_error l (N.to_nat i) = Some x -> In (i, x) (enumerate l).
Proof. intros H. pose proof (enum_from_in l _ x 0 H) as Q. rewrite N2Nat.id in Q. exact Q. Qed.
Lemma in_enum_from {A} (l : list A) i x base : In (i, x) (enum_from base l) -> exists j, i = base + j /\ nth_error l (N.to_nat j) = Some x.
Proof.
  revert base. induction l as [|y l IH]; intros base H; cbn [enum_from] in H; [destruct H|]. destruct H as [H|H].
  - injection H as <- <-. exists 0. split; [lia|reflexivity].
  - destruct (IH (base + 1) H) as (j & -> & E). exists (j + 1). split; [lia|]. replace (N.to_nat (j + 1)) with (S (N.to_nat j)) by lia. exact E.
Qed.
Lemma in_enumerate {A} (l : list A) i x : In (i, x) (enumerate l) -> nth_error l (N.to_nat i) = Some x.
Proof. intros H. destruct (in_enum_from l i x 0 H) as (j & -> & E). rewrite N.add_0_l. exact E. Qed.

(* the indices the theorems are about *)
Definition fits (c : cfg) (D : Dimension) (k : kind) (n : N) : Prop :=
  match k with
  | KFixed t | KStatic t => n <= BITS c t / dim D
  | KDynamic => writable c KDynamic /\ dim D * n + 24 <= 2 ^ usize_bits c
  end.
Definition shown (c : cfg) (D : Dimension) (k : kind) (l : list (cell D)) : list (cell D) :=
  match k with KFixed t => l ++ repeat (cell_zero D) (N.to_nat (BITS c t / dim D - len l)) | _ => l end.
Lemma starts_made c D L k e s l : starts c D L k e s l -> made c D L k e s l.
Proof. intros H. exists k, e, s, l, [], []. split; [exact H|]. split; reflexivity. Qed.
Lemma index_of_ok c D L k cells : is_dim D L -> fits c D k (len cells) ->
  exists s, index_of c D L k cells = Ret s /\ starts c D L k true s (shown c D k cells).
Proof.
  intros HL H. pose proof (is_dim_ok _ _ HL) as HD. destruct k as [t|t|]; cbn [fits] in H; unfold index_of, expect, try_from_cells.
  - destruct (fixed_try_from_ok c D t cells HD H) as (s & E & _). exists s. rewrite E. split; [reflexivity|].
    exact (start_fixed_cells c D L t cells s HL E).
  - destruct (static_try_from_ok c D t cells HD H) as (s & E & _). exists s. rewrite E. split; [reflexivity|].
    exact (start_static_cells c D L t cells s HL E).
  - destruct H as [HW H]. destruct (dynamic_try_from_ok c D L cells HL HW) as (s & E & _); [lia|]. exists s. rewrite E. split; [reflexivity|].
    pose proof (start_dynamic_cells c D L cells s HL H E) as Q. rewrite map_stored in Q by exact HW. exact Q.
Qed.
Lemma shown_full c D t l : len l = BITS c t / dim D -> shown c D (KFixed t) l = l.
Proof. intros H. cbn [shown]. rewrite H, N.sub_diag. apply app_nil_r. Qed.

Lemma index_canon c D L k cells : is_dim D L -> fits c D k (len cells) ->
  exists s, index_of c D L k cells = Ret s /\ canon c D k s (shown c D k cells).
Proof.
  intros HL H. destruct (index_of_ok c D L k cells HL H) as (s & E & St). exists s. split; [exact E|].
  exact (proj2 (starts_rep _ _ _ _ _ _ _ St)).
Qed.

Section AnyStorage.
  Context (c : cfg) (D : Dimension) (L : DynLayout) (k : kind) (HL : is_dim D L).
  Let HD : dim_ok D := is_dim_ok _ _ HL.

  Lemma depth_ok s l : repr c D k s l -> depth_is c D k s (len l) = Ret tt.
  Proof. intros R. unfold depth_is. rewrite (raw_depth _ _ _ _ _ _ _ _ R), N.eqb_refl. reflexivity. Qed.
  Lemma level_ok s l i x : repr c D k s l -> nth_error l (N.to_nat i) = Some x -> level_is c D k s i x = Ret tt.
  Proof.
    intros H Hx. destruct (repr_shows c D k s l HD H) as [_ S]. unfold level_is. rewrite S, Hx. cbn [bind].
    rewrite cell_eqb_refl by exact HD. reflexivity.
  Qed.
  Lemma levels_ok s l tail : repr c D k s (l ++ tail) -> levels_are c D k s l = Ret tt.
  Proof.
    intros H. apply for_all_ok. intros [i x] Hin. cbn [fst snd]. apply in_enumerate in Hin. eapply level_ok; [exact H|].
    rewrite nth_error_app1; [exact Hin|]. apply nth_error_Some. congruence.
  Qed.
  Lemma collects_ok s l : repr c D k s l -> collects c D k s l = Ret tt.
  Proof.
    intros R. unfold collects. rewrite (collect_cells_ok c D k s l HD R). cbn [bind]. rewrite cells_eq_refl by exact HD. reflexivity.
  Qed.
  Lemma same_ok s s' l : canon c D k s l -> canon c D k s' l -> idx_eq k s s' = true.
  Proof. intros H H'. apply idx_eq_iff. eapply canon_unique; eassumption. Qed.
  Lemma is_some_ok r s s' l : r = Ret (Some s) -> canon c D k s l -> canon c D k s' l -> is_some k r s' = Ret tt.
  Proof. intros -> C C'. unfold is_some. cbn [bind]. rewrite (same_ok s' s l C' C). reflexivity. Qed.

  (* the path of an index made of as many cells as it has levels *)
  Definition whole (n : N) : Prop := match k with KFixed t => n = BITS c t / dim D | _ => fits c D k n end.
  Lemma whole_fits n : whole n -> fits c D k n.
  Proof. unfold whole, fits. destruct k as [t|t|]; intros H; [subst n; reflexivity|exact H|exact H]. Qed.
  Lemma whole_canon cells : whole (len cells) -> exists s, index_of c D L k cells = Ret s /\ canon c D k s cells.
  Proof.
    intros H. destruct (index_canon c D L k cells HL (whole_fits _ H)) as (s & E & C). exists s. split; [exact E|].
    revert s E C. revert H. unfold whole, shown. destruct k as [t|t|]; intros H s E C; [|exact C|exact C].
    rewrite H, N.sub_diag in C. cbn [N.to_nat repeat] in C. rewrite app_nil_r in C. exact C.
  Qed.

  Lemma from_cells_ok n r : whole n -> from_cells c D L k n r = Ret tt.
  Proof.
    intros H. unfold from_cells. draw L n r l Hl. destruct (whole_canon l) as (s & E & C); [rewrite Hl; exact H|]. rewrite E. cbn [bind].
    apply canon_repr in C. rewrite (depth_ok s l C). cbn [bind]. apply (levels_ok s l []). rewrite app_nil_r. exact C.
  Qed.
  Lemma cells_iter_ok n r : whole n -> cells_iter c D L k n r = Ret tt.
  Proof.
    intros H. unfold cells_iter. draw L n r l Hl. destruct (whole_canon l) as (s & E & C); [rewrite Hl; exact H|]. rewrite E. cbn [bind].
    exact (collects_ok s l (canon_repr _ _ _ _ _ C)).
  Qed.
  Lemma from_array_ok array : whole (len array) -> from_array c D L k array = Ret tt.
  Proof.
    intros H. unfold from_array. destruct (whole_canon array H) as (s & E & C). rewrite E. cbn [bind].
    apply canon_repr in C. rewrite (depth_ok s array C). cbn [bind]. exact (collects_ok s array C).
  Qed.

  (* set_cell *)
  Lemma set_all_ok e s l cells : writable c k -> rep c D k e s l -> len l = len cells ->
    exists s', set_all c D k s cells = Ret s' /\ rep c D k e s' cells.
  Proof.
    intros HW R Hl. unfold set_all, enumerate.
    assert (G : forall todo done s0, rep c D k e s0 (done ++ skipn (List.length done) l) -> done ++ todo = cells ->
      exists s', foldM (fun s p => set_cell_at_level (ops c D k) s (fst p) (snd p)) (enum_from (len done) todo) s0 = Ret s'
        /\ rep c D k e s' cells).
    { induction todo as [|x todo IH]; intros done s0 R0 Hc; cbn [enum_from foldM].
      - exists s0. split; [reflexivity|]. rewrite app_nil_r in Hc. subst done. rewrite skipn_all2 in R0 by (unfold len in Hl; lia).
        rewrite app_nil_r in R0. exact R0.
      - assert (Hd : (List.length done < List.length l)%nat).
        { unfold len in Hl. apply Nat2N.inj in Hl. rewrite Hl, <- Hc, app_length. cbn [List.length]. lia. }
        assert (Hi : len done < len (done ++ skipn (List.length done) l)).
        { unfold len. rewrite app_length, skipn_length. lia. }
        destruct (rep_set c D k e s0 _ (len done) x HD R0 Hi) as (s1 & E & R1). cbn [fst snd]. rewrite E. cbn [bind].
        rewrite stored_writable in R1 by exact HW. unfold len in R1 at 1 2. rewrite Nat2N.id in R1.
        rewrite firstn_app, firstn_all, Nat.sub_diag, firstn_O, app_nil_r in R1.
        replace (skipn (List.length done + 1) (done ++ skipn (List.length done) l)) with (skipn (List.length (done ++ [x])) l) in R1.
        2:{ rewrite app_length. cbn [List.length]. rewrite skipn_app, (skipn_all2 done), app_nil_l by lia.
            replace (List.length done + 1 - List.length done)%nat with 1%nat by lia.
            replace (List.length done + 1)%nat with (1 + List.length done)%nat by lia. symmetry. apply skipn_skipn. }
        change (x :: skipn (List.length (done ++ [x])) l) with ([x] ++ skipn (List.length (done ++ [x])) l) in R1. rewrite app_assoc in R1.
        destruct (IH (done ++ [x]) s1 R1) as (s' & E' & R'); [rewrite <- app_assoc; exact Hc|].
        exists s'. split; [|exact R']. rewrite <- E'. f_equal. f_equal. rewrite len_app. reflexivity. }
    exact (G cells [] s R eq_refl).
  Qed.
  Lemma set_cell_ok e start s n r : writable c k -> start = Ret s -> rep c D k e s (zero_cells D n) -> set_cell c D k start n r = Ret tt.
  Proof.
    intros HW -> R. unfold set_cell. draw L n r l Hl. destruct (set_all_ok e s _ l HW R) as (s' & E & R').
    { rewrite Hl. unfold zero_cells, len. rewrite repeat_length. apply N2Nat.id. }
    rewrite E. cbn [bind]. apply rep_repr in R'. apply (levels_ok s' l []). rewrite app_nil_r. exact R'.
  Qed.
  Lemma set_cell_oob_ok s l n : repr c D k s l -> len l <= n -> set_cell_oob c D k s n = Ret tt.
  Proof.
    intros R H. unfold set_cell_oob. destruct (try_total D HD 1) as (one & E1). { destruct HL; reflexivity. }
    rewrite E1. cbn [unwrap bind]. rewrite (set_panics c D k s l n one R H). reflexivity.
  Qed.

  (* inverted *)
  Lemma inverted_once_ok n r : writable c k -> whole n -> exists r', inverted_once c D L k n r = Ret r'.
  Proof.
    intros HW H. unfold inverted_once. destruct (draw_ok D L n r HL) as (l & r' & E & Hl). rewrite E. cbn [bind].
    destruct (whole_canon l) as (s & Es & C); [rewrite Hl; exact H|]. rewrite Es. cbn [bind].
    destruct (whole_canon (rev l)) as (s1 & Es1 & C1); [unfold len; rewrite rev_length; fold (len l); rewrite Hl; exact H|]. rewrite Es1. cbn [bind].
    destruct (rep_inverted c D k true s l HD C) as (s2 & E2 & C2). rewrite E2. cbn [bind]. cbn [rep] in C2.
    rewrite map_stored in C2 by exact HW. rewrite (same_ok s2 s1 _ C2 C1). exists r'. reflexivity.
  Qed.
  Lemma inverted_often_ok iterations m r : writable c k -> (forall n, n <= m -> whole n) -> inverted_often c D L k iterations m r = Ret tt.
  Proof.
    intros HW H. revert r. induction iterations as [|i IH]; intro r; cbn [inverted_often gen_range]; [reflexivity|].
    destruct (inverted_once_ok (numbers r (used r) mod (m + 1)) (Rng (numbers r) (used r + 1)) HW) as (r' & E).
    { apply H. pose proof (N.mod_lt (numbers r (used r)) (m + 1)). lia. }
    rewrite E. cbn [bind]. apply IH.
  Qed.

  (* ordering *)
  Definition shows_some (s : storage k) : Prop := exists l, canon c D k s l.
  Lemma draw_indices_ok levels m count r : (forall r, fst (levels r) <= m) -> (forall n, n <= m -> fits c D k n) ->
    exists l r', draw_indices c D L k levels count r = Ret (l, r') /\ List.length l = count /\ Forall shows_some l.
  Proof.
    intros Hlv Hf. revert r. induction count as [|n IH]; intro r; cbn [draw_indices].
    - exists [], r. repeat split. constructor.
    - pose proof (Hlv r) as Hr. destruct (levels r) as [lv r1]. cbn [fst] in Hr.
      destruct (draw_ok D L lv r1 HL) as (cells & r2 & E & Hl). rewrite E. cbn [bind].
      destruct (index_canon c D L k cells HL) as (s & Es & C); [rewrite Hl; apply Hf; exact Hr|]. rewrite Es. cbn [bind].
      destruct (IH r2) as (l & r' & E' & H1 & H2). rewrite E'. cbn [bind]. exists (s :: l), r'. repeat split.
      + cbn [List.length]. lia.
      + constructor; [exists (shown c D k cells); exact C|exact H2].
  Qed.
  (* a is not after b *)
  Definition le_index (a b : storage k) : Prop := exists la lb, canon c D k a la /\ canon c D k b lb /\ path_cmp la lb <> Gt.
  Lemma zip_in_order_ok (a b : list (cell D)) : path_cmp a b <> Gt -> zip_in_order D a b = Ret tt.
  Proof.
    revert b. induction a as [|x a IH]; intros b H; destruct b as [|y b]; cbn [zip_in_order]; try reflexivity.
    cbn [path_cmp] in H. rewrite (cmp_ok D HD). destruct (N.compare (cell_index D x) (cell_index D y)); [|reflexivity|congruence].
    cbn [check bind]. apply IH. exact H.
  Qed.
  Lemma insert_ok x l : shows_some x -> Forall shows_some l -> Sorted.Sorted le_index l ->
    exists l', insert c D k x l = Ret l' /\ List.length l' = S (List.length l) /\ Forall shows_some l' /\ Sorted.Sorted le_index l'
      /\ (forall a, le_index a x -> Sorted.HdRel le_index a l -> Sorted.HdRel le_index a l').
  Proof.
    intros Hx. induction l as [|y l IH]; intros Hl Hs; cbn [insert].
    - exists [x]. split; [reflexivity|]. split; [reflexivity|]. split; [constructor; [exact Hx|constructor]|].
      split; [constructor; constructor|]. intros a Ha _. constructor. exact Ha.
    - inversion Hl as [|y' l' Hy Hl']; subst. inversion Hs as [|y' l' Hs' Hd]; subst.
      destruct Hx as (lx & Cx). destruct Hy as (ly & Cy). rewrite (idx_cmp_canon c D k x y lx ly HD Cx Cy). cbn [bind].
      destruct (path_cmp lx ly) eqn:Ec.
      + exists (x :: y :: l). split; [reflexivity|]. split; [reflexivity|]. split; [constructor; [exists lx; exact Cx|exact Hl]|]. split.
        * constructor; [exact Hs|]. constructor. exists lx, ly. split; [exact Cx|]. split; [exact Cy|congruence].
        * intros a Ha _. constructor. exact Ha.
      + exists (x :: y :: l). split; [reflexivity|]. split; [reflexivity|]. split; [constructor; [exists lx; exact Cx|exact Hl]|]. split.
        * constructor; [exact Hs|]. constructor. exists lx, ly. split; [exact Cx|]. split; [exact Cy|congruence].
        * intros a Ha _. constructor. exact Ha.
      + destruct (IH Hl' Hs') as (r & E & Hlen & Hr & Hsr & Hhd). rewrite E. cbn [bind]. exists (y :: r).
        split; [reflexivity|]. split; [cbn [List.length]; lia|]. split; [constructor; [exists ly; exact Cy|exact Hr]|].
        split.
        * constructor; [exact Hsr|]. apply Hhd; [|exact Hd]. exists ly, lx. split; [exact Cy|]. split; [exact Cx|].
          rewrite (path_cmp_antisym lx ly), Ec. discriminate.
        * intros a _ Ha. inversion Ha. constructor. assumption.
  Qed.
  Lemma sort_ok l : Forall shows_some l ->
    exists l', sort c D k l = Ret l' /\ List.length l' = List.length l /\ Forall shows_some l' /\ Sorted.Sorted le_index l'.
  Proof.
    induction l as [|x l IH]; intros H; cbn [sort].
    - exists []. repeat split; constructor.
    - inversion H as [|x' l' Hx Hl]; subst. destruct (IH Hl) as (r & E & H1 & H2 & H3). rewrite E. cbn [bind].
      destruct (insert_ok x r Hx H2 H3) as (r' & E' & K1 & K2 & K3 & _). exists r'. split; [exact E'|]. split; [cbn [List.length]; lia|].
      split; assumption.
  Qed.
  Lemma sorted_nth l i a b : Sorted.Sorted le_index l -> nth_error l i = Some a -> nth_error l (S i) = Some b -> le_index a b.
  Proof.
    revert i. induction l as [|x l IH]; intros i Hs Ha Hb; [destruct i; discriminate|]. inversion Hs as [|x' l' Hs' Hd]; subst.
    destruct i as [|i]; cbn [nth_error] in *.
    - injection Ha as <-. destruct l as [|y l]; [discriminate|]. injection Hb as <-. inversion Hd. assumption.
    - exact (IH i Hs' Ha Hb).
  Qed.
  Lemma ordering_ok levels m count r : (forall r, fst (levels r) <= m) -> (forall n, n <= m -> fits c D k n) ->
    ordering c D L k levels count r = Ret tt.
  Proof.
    intros Hlv Hf. unfold ordering. destruct (draw_indices_ok levels m (N.to_nat count) r Hlv Hf) as (l & r' & E & Hl & Hs). rewrite E. cbn [bind].
    destruct (sort_ok l Hs) as (l' & E' & Hl' & _ & Hsort). rewrite E'. cbn [bind]. unfold all_in_order. apply for_all_ok.
    intros i Hi. apply in_range in Hi.
    assert (A : exists a, nth_error l' (N.to_nat i) = Some a).
    { destruct (nth_error l' (N.to_nat i)) eqn:N; [eauto|]. apply nth_error_None in N. lia. }
    assert (B : exists b, nth_error l' (S (N.to_nat i)) = Some b).
    { destruct (nth_error l' (S (N.to_nat i))) eqn:N; [eauto|]. apply nth_error_None in N. lia. }
    destruct A as (a & A). destruct B as (b & B). unfold vec_get. replace (N.to_nat (i + 1)) with (S (N.to_nat i)) by lia.
    rewrite A, B. cbn [unwrap_opt bind]. destruct (sorted_nth l' _ a b Hsort A B) as (la & lb & Ca & Cb & Hc).
    rewrite (collect_cells_ok c D k a la HD (canon_repr _ _ _ _ _ Ca)), (collect_cells_ok c D k b lb HD (canon_repr _ _ _ _ _ Cb)). cbn [bind].
    exact (zip_in_order_ok la lb Hc).
  Qed.

  (* ---------- variable depth ---------- *)
  Context (v : VarOps D (storage k)) (HV : var_ops c D L k = Some v).
  Lemma whole_var n : whole n <-> fits c D k n.
  Proof. unfold whole. destruct k; [discriminate HV|reflexivity|reflexivity]. Qed.
  Lemma descendant_ok s l cells : writable c k -> canon c D k s l -> fits c D k (len l + len cells) ->
    exists s', descendant v s cells = Ret (Some s') /\ canon c D k s' (l ++ cells).
  Proof.
    intros HW C Hf. revert s v HV C HW Hf. destruct k as [t|t|]; intros s v0 HV0 C HW Hf; cbn [var_ops] in HV0; [discriminate| |]; injection HV0 as <-;
      unfold descendant; cbn [vo_descendant static_vops dynamic_vops].
    - exact (rep_static_descendant c D t true s l cells HD C Hf).
    - destruct (rep_dynamic_descendant c D L true s l cells HL C (proj2 Hf)) as (s' & E & C'). exists s'. split; [exact E|].
      rewrite map_stored in C' by exact HW. exact C'.
  Qed.
  Lemma child_ok s l x : writable c k -> canon c D k s l -> fits c D k (len l + 1) ->
    exists s', child v s x = Ret (Some s') /\ canon c D k s' (l ++ [x]).
  Proof. intros HW C Hf. exact (descendant_ok s l [x] HW C Hf). Qed.
  Lemma ancestor_ok s l g : canon c D k s l -> g <= len l ->
    exists s', ancestor v s g = Ret (Some s') /\ canon c D k s' (firstn (N.to_nat (len l - g)) l).
  Proof. intros C Hg. exact (rep_ancestor c D L k v true s l g HL HV C Hg). Qed.
  Lemma nth_last {A} (l : list A) x : nth_error (l ++ [x]) (N.to_nat (len l)) = Some x.
  Proof. unfold len. rewrite Nat2N.id, nth_error_app2, Nat.sub_diag by lia. reflexivity. Qed.

  Lemma three_ok : exists x, cell_try_from D 3 = Ok x.
  Proof. apply (try_total D HD). destruct HL; reflexivity. Qed.
  Lemma child_of_root_ok root : writable c k -> canon c D k root [] -> fits c D k 1 -> child_of_root c D k v root = Ret tt.
  Proof.
    intros HW C Hf. unfold child_of_root. destruct three_ok as (x & E). rewrite E. cbn [unwrap bind]. unfold expect_some.
    destruct (child_ok root [] x HW C Hf) as (s & E' & C'). rewrite E'. cbn [bind unwrap_opt]. cbn [app] in C'. apply canon_repr in C'.
    rewrite (depth_ok s [x] C' : depth_is c D k s 1 = Ret tt). cbn [bind]. exact (level_ok s [x] 0 x C' eq_refl).
  Qed.
  Lemma child_at_ok n r : writable c k -> fits c D k n -> fits c D k (n + 1) -> child_at c D L k v n r = Ret tt.
  Proof.
    intros HW Hf Hf'. unfold child_at. draw L n r l Hl. destruct (whole_canon l) as (s & E & C); [apply whole_var; rewrite Hl; exact Hf|].
    rewrite E. cbn [bind]. destruct three_ok as (x & Ex). rewrite Ex. cbn [unwrap bind]. unfold expect_some.
    destruct (child_ok s l x HW C) as (s' & E' & C'); [rewrite Hl; exact Hf'|]. rewrite E'. cbn [bind unwrap_opt]. apply canon_repr in C'.
    pose proof (depth_ok s' _ C') as Q. rewrite len_app in Q. change (len [x]) with 1 in Q. rewrite Q. cbn [bind].
    exact (level_ok s' _ (len l) x C' (nth_last l x)).
  Qed.
  Lemma slice_ok {A} (l : list A) i j : i <= j -> j <= len l -> vec_slice l i j = Ret (firstn (N.to_nat (j - i)) (skipn (N.to_nat i) l)).
  Proof.
    intros H1 H2. unfold vec_slice. rewrite (proj2 (N.leb_le i j) H1), (proj2 (N.leb_le j (len l)) H2). reflexivity.
  Qed.
  Lemma descendant_multi_ok n rest r : writable c k -> fits c D k n -> (forall m, m <= n -> fits c D k m) -> rest <= n ->
    descendant_multi c D L k v n rest r = Ret tt.
  Proof.
    intros HW Hf Hm Hr. unfold descendant_multi. draw L n r l Hl.
    rewrite slice_ok by lia. cbn [bind]. rewrite N.sub_0_r. cbn [N.to_nat skipn].
    set (base := firstn (N.to_nat (n - rest)) l).
    assert (Hb : len base = n - rest) by (unfold base; rewrite len_firstn; lia).
    destruct (whole_canon base) as (s & E & C); [apply whole_var; rewrite Hb; apply Hm; lia|]. rewrite E. cbn [bind].
    rewrite slice_ok by lia. cbn [bind]. set (tail := firstn _ _).
    assert (Ht : tail = skipn (N.to_nat (n - rest)) l) by (unfold tail; apply firstn_all2; rewrite skipn_length; unfold len in Hl; lia).
    assert (Hbt : base ++ tail = l) by (rewrite Ht; apply firstn_skipn).
    destruct (descendant_ok s base tail HW C) as (s' & E' & C'); [rewrite <- len_app, Hbt, Hl; exact Hf|]. rewrite E'. cbn [bind].
    rewrite Hbt in C'. destruct (whole_canon l) as (s2 & E2 & C2); [apply whole_var; rewrite Hl; exact Hf|]. rewrite E2. cbn [bind].
    exact (is_some_ok _ s' s2 l eq_refl C' C2).
  Qed.
  Lemma ancestor_multi_ok n g r : (forall m, m <= n -> fits c D k m) -> g <= n -> ancestor_multi c D L k v n g r = Ret tt.
  Proof.
    intros Hm Hg. unfold ancestor_multi. draw L n r l Hl. rewrite slice_ok by lia. cbn [bind]. rewrite N.sub_0_r. cbn [N.to_nat skipn].
    destruct (whole_canon l) as (s & E & C); [apply whole_var; rewrite Hl; apply Hm; lia|]. rewrite E. cbn [bind].
    destruct (whole_canon (firstn (N.to_nat (n - g)) l)) as (s1 & E1 & C1); [apply whole_var; rewrite len_firstn by lia; apply Hm; lia|]. rewrite E1. cbn [bind].
    destruct (ancestor_ok s l g C) as (s2 & E2 & C2); [lia|]. rewrite Hl in C2. exact (is_some_ok _ s2 s1 _ E2 C2 C1).
  Qed.
  Lemma parent_of_ok n r : (forall m, m <= n -> fits c D k m) -> 1 <= n -> parent_of c D L k v n r = Ret tt.
  Proof. intros Hm Hn. exact (ancestor_multi_ok n 1 r Hm Hn). Qed.
  Lemma ancestor_to_root_ok n root r : (forall m, m <= n -> fits c D k m) -> canon c D k root [] -> ancestor_to_root c D L k v n root r = Ret tt.
  Proof.
    intros Hm CR. unfold ancestor_to_root. draw L n r l Hl. destruct (whole_canon l) as (s & E & C); [apply whole_var; rewrite Hl; apply Hm; lia|].
    rewrite E. cbn [bind]. destruct (ancestor_ok s l n C) as (s2 & E2 & C2); [lia|]. rewrite Hl, N.sub_diag in C2. cbn [N.to_nat firstn] in C2.
    exact (is_some_ok _ s2 root _ E2 C2 CR).
  Qed.
  Lemma ancestor_too_far_ok n r : fits c D k n -> ancestor_too_far c D L k v n r = Ret tt.
  Proof.
    intros Hf. unfold ancestor_too_far. draw L n r l Hl. destruct (whole_canon l) as (s & E & C); [apply whole_var; rewrite Hl; exact Hf|].
    rewrite E. cbn [bind]. unfold is_none. rewrite (ancestor_none c D L k v s l (n + 1) HV (canon_repr _ _ _ _ _ C)) by lia. reflexivity.
  Qed.
  Lemma parent_of_root_ok root : canon c D k root [] -> parent_of_root D k v root = Ret tt.
  Proof.
    intros C. unfold parent_of_root, is_none. unfold parent. change (len (@nil (cell D))) with 0.
    rewrite (ancestor_none c D L k v root [] 1 HV (canon_repr _ _ _ _ _ C)); reflexivity.
  Qed.
End AnyStorage.

(* ---------- the test modules ---------- *)
Lemma zero_cells_app D n x : n <= x -> zero_cells D n ++ zero_cells D (x - n) = zero_cells D x.
Proof. intros H. unfold zero_cells. rewrite <- repeat_app. f_equal. lia. Qed.
Lemma len_zero_cells D n : len (zero_cells D n) = n.
Proof. unfold zero_cells. rewrite len_repeat. lia. Qed.
Lemma nth_padding D (l : list (cell D)) n i : len l <= i -> i < len l + n -> nth_error (l ++ zero_cells D n) (N.to_nat i) = Some (cell_zero D).
Proof.
  intros H1 H2. rewrite nth_error_app2 by (unfold len in H1; lia). unfold zero_cells. apply nth_error_repeat. unfold len in *. lia.
Qed.

Lemma fixed_suite_ok c D L t m array r : is_dim D L -> BITS c t / dim D = m -> 2 <= m -> len array <= m ->
  Forall (fun test => snd test = Ret tt) (fixed_tests c D L t m array r).
Proof.
  intros HL Hm H2 Ha. pose proof (is_dim_ok _ _ HL) as HD. pose proof (fixed_default_canon c D t HD) as CD.
  change (MAX_LEVELS c D t) with (BITS c t / dim D) in CD. rewrite Hm in CD. fold (zero_cells D m) in CD.
  assert (W : whole c D (KFixed t) m) by (symmetry; exact Hm).
  unfold fixed_tests. repeat apply Forall_cons; try apply Forall_nil; cbn [snd].
  - unfold fixed_default_test. pose proof (depth_ok c D (KFixed t) _ _ (canon_repr _ _ _ _ _ CD)) as Q. rewrite len_zero_cells in Q. rewrite Q. cbn [bind].
    apply (levels_ok c D L (KFixed t) HL _ _ []). rewrite app_nil_r. exact (canon_repr _ _ _ _ _ CD).
  - exact (from_cells_ok c D L (KFixed t) HL m r W).
  - unfold fixed_from_array. destruct (index_canon c D L (KFixed t) array HL) as (s & E & C); [cbn [fits]; lia|]. rewrite E. cbn [bind].
    cbn [shown] in C. rewrite Hm in C. exact (collects_ok c D L (KFixed t) HL s _ (canon_repr _ _ _ _ _ C)).
  - unfold from_too_many. draw L (m + 1) r l Hl. unfold is_err, try_from_cells.
    rewrite (proj2 (proj1 (c03_fixed_try_from_err_lemma c D L t l HL))) by lia. reflexivity.
  - unfold fixed_from_fewer. draw L (m - 2) r l Hl. destruct (index_canon c D L (KFixed t) l HL) as (s & E & C); [cbn [fits]; lia|].
    rewrite E. cbn [bind]. cbn [shown] in C. rewrite Hm in C. apply canon_repr in C. fold (zero_cells D (m - len l)) in C.
    pose proof (depth_ok c D (KFixed t) _ _ C) as Q. rewrite len_app, len_zero_cells in Q. replace (len l + (m - len l)) with m in Q by lia. rewrite Q. cbn [bind].
    rewrite (levels_ok c D L (KFixed t) HL s l _ C). cbn [bind].
    rewrite (level_ok c D L (KFixed t) HL s _ (m - 2) _ C) by (apply nth_padding; lia). cbn [bind].
    apply (level_ok c D L (KFixed t) HL s _ (m - 1) _ C). apply nth_padding; lia.
  - exact (set_cell_ok c D L (KFixed t) HL true _ fixed_default m r I eq_refl CD).
  - apply (set_cell_oob_ok c D L (KFixed t) HL fixed_default _ m (canon_repr _ _ _ _ _ CD)). rewrite len_zero_cells. reflexivity.
  - exact (cells_iter_ok c D L (KFixed t) HL m r W).
  - apply (ordering_ok c D L (KFixed t) HL (always m) m 16 r); [intros; reflexivity|]. intros n Hn. cbn [fits]. lia.
  - destruct (inverted_once_ok c D L (KFixed t) HL m r I W) as (r' & E). rewrite E. reflexivity.
Qed.

Lemma static_suite_ok c D L t m array rest g r : is_dim D L -> BITS c t / dim D = m -> 2 <= m -> len array <= m -> rest <= m -> g <= m ->
  Forall (fun test => snd test = Ret tt) (static_tests c D L t m array rest g r).
Proof.
  intros HL Hm H2 Ha Hr Hg. pose proof (is_dim_ok _ _ HL) as HD.
  pose proof (static_zero_canon c D t 0 HD (N.le_0_l _)) as CD. change (MkStatic 0 0) with static_default in CD. cbn [N.to_nat repeat] in CD.
  assert (HV : var_ops c D L (KStatic t) = Some (static_vops c D t)) by reflexivity.
  assert (F : forall n, n <= m -> fits c D (KStatic t) n) by (intros n Hn; cbn [fits]; lia).
  assert (W : whole c D (KStatic t) m) by (apply F; lia).
  assert (B : m < 2 ^ 8). { pose proof (BITS_le c t). subst m. destruct HL; cbn [dim Dim2D Dim3D]; lia. }
  pose proof (usize_ge16 c) as H16.
  assert (U : 2 < 2 ^ (usize_bits c - 1)). { change 2 with (2 ^ 1) at 1. apply N.pow_lt_mono_r; lia. }
  unfold static_tests. repeat apply Forall_cons; try apply Forall_nil; cbn [snd].
  - exact (depth_ok c D (KStatic t) _ _ (canon_repr _ _ _ _ _ CD)).
  - exact (from_cells_ok c D L (KStatic t) HL m r W).
  - exact (from_array_ok c D L (KStatic t) HL array (F _ Ha)).
  - unfold from_too_many. draw L (m + 1) r l Hl. unfold is_err, try_from_cells.
    rewrite (proj2 (proj1 (c03_static_try_from_err_lemma c D L t l HL))) by lia. reflexivity.
  - unfold static_from_fewer. draw L (m - 2) r l Hl. destruct (index_canon c D L (KStatic t) l HL) as (s & E & C); [apply F; lia|].
    rewrite E. cbn [bind]. cbn [shown] in C. apply canon_repr in C. rewrite <- Hl. rewrite (depth_ok c D (KStatic t) _ _ C). cbn [bind].
    apply (levels_ok c D L (KStatic t) HL s l []). rewrite app_nil_r. exact C.
  - rewrite cast_small by exact B. rewrite (static_zeroed_ok c D t m HD B). change (MAX_LEVELS c D t) with (BITS c t / dim D).
    rewrite Hm, N.leb_refl. cbn [unwrap_opt].
    apply (set_cell_ok c D L (KStatic t) HL true _ _ m r I eq_refl). apply (static_zero_canon c D t m HD).
    change (MAX_LEVELS c D t) with (BITS c t / dim D). lia.
  - exact (set_cell_oob_ok c D L (KStatic t) HL static_default _ 0 (canon_repr _ _ _ _ _ CD) (N.le_refl 0)).
  - exact (cells_iter_ok c D L (KStatic t) HL m r W).
  - exact (child_of_root_ok c D L (KStatic t) HL _ HV static_default I CD (F 1 ltac:(lia))).
  - unfold child_oob. draw L m r l Hl. destruct (whole_canon c D L (KStatic t) HL l) as (s & E & C); [rewrite Hl; exact W|]. rewrite E. cbn [bind].
    unfold is_none. change (child (static_vops c D t) s (cell_zero D)) with (static_descendant c D t s [cell_zero D]).
    rewrite (static_descendant_none c D t s l [cell_zero D] HD (canon_repr _ _ _ _ _ C)); [reflexivity| |].
    + change (len [cell_zero D]) with 1. lia.
    + change (len [cell_zero D]) with 1. change (MAX_LEVELS c D t) with (BITS c t / dim D). lia.
  - exact (descendant_multi_ok c D L (KStatic t) HL _ HV m rest r I W F Hr).
  - unfold descendant_too_far. draw L m r l Hl. destruct (whole_canon c D L (KStatic t) HL l) as (s & E & C); [rewrite Hl; exact W|]. rewrite E. cbn [bind].
    unfold is_none. change (descendant (static_vops c D t) s [cell_zero D]) with (static_descendant c D t s [cell_zero D]).
    rewrite (static_descendant_none c D t s l [cell_zero D] HD (canon_repr _ _ _ _ _ C)); [reflexivity| |].
    + change (len [cell_zero D]) with 1. lia.
    + change (len [cell_zero D]) with 1. change (MAX_LEVELS c D t) with (BITS c t / dim D). lia.
  - exact (parent_of_ok c D L (KStatic t) HL _ HV m r F ltac:(lia)).
  - exact (parent_of_root_ok c D L (KStatic t) _ HV static_default CD).
  - exact (ancestor_multi_ok c D L (KStatic t) HL _ HV m g r F Hg).
  - exact (ancestor_to_root_ok c D L (KStatic t) HL _ HV m static_default r F CD).
  - exact (ancestor_too_far_ok c D L (KStatic t) HL _ HV m r W).
  - apply (ordering_ok c D L (KStatic t) HL (gen_range m) m 128 r); [|exact F].
    intros r0. cbn [gen_range fst]. pose proof (N.mod_lt (numbers r0 (used r0)) m). lia.
  - apply (inverted_often_ok c D L (KStatic t) HL 16 m r I). exact F.
Qed.

Lemma dynamic_suite_ok c D L zeroed array r e s8 : is_dim D L -> writable c KDynamic -> len array <= 4 ->
  zeroed 8 = Ret s8 -> rep c D KDynamic e s8 (zero_cells D 8) ->
  Forall (fun test => snd test = Ret tt) (dynamic_tests c D L zeroed array r).
Proof.
  intros HL HW Ha EZ CZ. pose proof (is_dim_ok _ _ HL) as HD. pose proof (pow2_usize_ge c) as HU.
  assert (CD : canon c D KDynamic dynamic_default []).
  { exact (proj2 (starts_rep _ _ _ _ _ _ _ (start_dynamic_default c D L HL))). }
  assert (HV : var_ops c D L KDynamic = Some (dynamic_vops c D L)) by reflexivity.
  assert (F : forall n, n <= 40 -> fits c D KDynamic n).
  { intros n Hn. split; [exact HW|]. destruct HL; cbn [dim Dim2D Dim3D]; lia. }
  assert (F' : forall n m, n <= 40 -> m <= n -> fits c D KDynamic m) by (intros n m Hn Hm; apply F; lia).
  unfold dynamic_tests. repeat apply Forall_cons; try apply Forall_nil; cbn [snd].
  - exact (depth_ok c D KDynamic _ _ (canon_repr _ _ _ _ _ CD)).
  - exact (from_cells_ok c D L KDynamic HL 8 r (F 8 ltac:(lia))).
  - exact (from_cells_ok c D L KDynamic HL 9 r (F 9 ltac:(lia))).
  - exact (from_array_ok c D L KDynamic HL array (F (len array) ltac:(lia))).
  - exact (set_cell_ok c D L KDynamic HL e _ s8 8 r HW EZ CZ).
  - exact (set_cell_oob_ok c D L KDynamic HL dynamic_default _ 0 (canon_repr _ _ _ _ _ CD) (N.le_refl 0)).
  - exact (cells_iter_ok c D L KDynamic HL 8 r (F 8 ltac:(lia))).
  - exact (child_of_root_ok c D L KDynamic HL _ HV dynamic_default HW CD (F 1 ltac:(lia))).
  - exact (child_at_ok c D L KDynamic HL _ HV 4 r HW (F 4 ltac:(lia)) (F 5 ltac:(lia))).
  - exact (descendant_multi_ok c D L KDynamic HL _ HV 6 2 r HW (F 6 ltac:(lia)) (fun m => F' 6 m ltac:(lia)) ltac:(lia)).
  - exact (parent_of_ok c D L KDynamic HL _ HV 4 r (fun m => F' 4 m ltac:(lia)) ltac:(lia)).
  - exact (parent_of_ok c D L KDynamic HL _ HV 5 r (fun m => F' 5 m ltac:(lia)) ltac:(lia)).
  - exact (parent_of_root_ok c D L KDynamic _ HV dynamic_default CD).
  - exact (ancestor_multi_ok c D L KDynamic HL _ HV 8 3 r (fun m => F' 8 m ltac:(lia)) ltac:(lia)).
  - exact (ancestor_to_root_ok c D L KDynamic HL _ HV 5 dynamic_default r (fun m => F' 5 m ltac:(lia)) CD).
  - exact (ancestor_too_far_ok c D L KDynamic HL _ HV 4 r (F 4 ltac:(lia))).
  - apply (ordering_ok c D L KDynamic HL (always 9) 9 16 r); [intros; reflexivity|]. exact (fun m => F' 9 m ltac:(lia)).
  - apply (inverted_often_ok c D L KDynamic HL 16 32 r HW). exact (fun m => F' 32 m ltac:(lia)).
Qed.

Lemma conversion_suite_ok c D L t m half fewer r : is_dim D L -> target_endian c = LittleEndian -> BITS c t / dim D = m -> 2 <= m ->
  half + m / 2 = m -> fewer <= m -> (dim D * m + 7) / 8 = num_size c t -> (dim D * (m - fewer) + 7) / 8 = num_size c t ->
  Forall (fun test => snd test = Ret tt) (conversion_tests c D L t m half fewer r).
Proof.
  intros HL HE Hm H2 Hh Hf S1 S2. pose proof (is_dim_ok _ _ HL) as HD. pose proof (pow2_usize_ge c) as HU.
  assert (HW : writable c KDynamic) by (left; exact HE).
  assert (B : m < 2 ^ 8). { pose proof (BITS_le c t). subst m. destruct HL; cbn [dim Dim2D Dim3D]; lia. }
  assert (FF : whole c D (KFixed t) m) by (symmetry; exact Hm).
  assert (FS : forall n, n <= m -> whole c D (KStatic t) n) by (intros n Hn; cbn [whole fits]; lia).
  assert (FD : forall n, n <= m -> whole c D KDynamic n).
  { intros n Hn. split; [exact HW|]. destruct HL; cbn [dim Dim2D Dim3D]; lia. }
  assert (SF : forall n pad, n + pad = m -> static_to_fixed c D L t r n pad = Ret tt).
  { intros n pad Hn. unfold static_to_fixed. draw L n r l Hl. destruct (whole_canon c D L (KStatic t) HL l) as (s & E & C); [rewrite Hl; apply FS; lia|].
    rewrite E. cbn [bind]. unfold cells_of. rewrite (collect_cells_ok c D (KStatic t) s l HD (canon_repr _ _ _ _ _ C)). cbn [bind].
    pose proof (fixed_from_static_canon c D t s l HD C) as C'. change (MAX_LEVELS c D t) with (BITS c t / dim D) in C'.
    rewrite Hm, Hl in C'. replace (m - n) with pad in C' by lia.
    exact (collects_ok c D L (KFixed t) HL _ _ (canon_repr _ _ _ _ _ C')). }
  assert (SD : forall n, n <= m -> static_to_dynamic c D L t r n = Ret tt).
  { intros n Hn. unfold static_to_dynamic. draw L n r l Hl. destruct (whole_canon c D L (KStatic t) HL l) as (s & E & C); [rewrite Hl; apply FS; lia|].
    rewrite E. cbn [bind]. destruct (dynamic_from_static_canon c D L t s l HL HW (canon_repr _ _ _ _ _ C)) as (j & Ej & C'). rewrite Ej. cbn [bind].
    rewrite (raw_depth _ _ _ _ _ _ _ _ C). rewrite (depth_ok c D KDynamic j l (canon_repr _ _ _ _ _ C')). cbn [bind].
    unfold cells_of. rewrite (collect_cells_ok c D (KStatic t) s l HD (canon_repr _ _ _ _ _ C)). cbn [bind].
    exact (collects_ok c D L KDynamic HL _ _ (canon_repr _ _ _ _ _ C')). }
  assert (DF : forall n pad, n + pad = m -> (dim D * n + 7) / 8 = num_size c t -> dynamic_to_fixed c D L t r n pad = Ret tt).
  { intros n pad Hn Hs. unfold dynamic_to_fixed. draw L n r l Hl. destruct (whole_canon c D L KDynamic HL l) as (s & E & C); [rewrite Hl; apply FD; lia|].
    rewrite E. cbn [bind]. destruct (fixed_from_dynamic_same c D t s l HD (canon_repr _ _ _ _ _ C)) as (j & Ej & _ & C').
    - change (MAX_LEVELS c D t) with (BITS c t / dim D). lia.
    - exact HE.
    - pose proof (raw_width _ _ _ _ _ _ _ _ C) as Q. cbn [width min_width] in Q. rewrite Hl, Hs in Q. lia.
    - rewrite Ej. cbn [bind unwrap]. specialize (C' C). change (MAX_LEVELS c D t) with (BITS c t / dim D) in C'.
      rewrite Hm, Hl in C'. replace (m - n) with pad in C' by lia.
      unfold cells_of. rewrite (collect_cells_ok c D KDynamic s l HD (canon_repr _ _ _ _ _ C)). cbn [bind].
      exact (collects_ok c D L (KFixed t) HL _ _ (canon_repr _ _ _ _ _ C')). }
  assert (DS : forall n, n <= m -> dynamic_to_static c D L t r n = Ret tt).
  { intros n Hn. unfold dynamic_to_static. draw L n r l Hl. destruct (whole_canon c D L KDynamic HL l) as (s & E & C); [rewrite Hl; apply FD; lia|].
    rewrite E. cbn [bind]. destruct (static_from_dynamic_ok c D t s l HD (canon_repr _ _ _ _ _ C)) as (j & Ej & C').
    { change (MAX_LEVELS c D t) with (BITS c t / dim D). lia. }
    unfold expect. rewrite Ej. cbn [bind unwrap].
    rewrite (raw_depth _ _ _ _ _ _ _ _ C). rewrite (depth_ok c D (KStatic t) j l (canon_repr _ _ _ _ _ C')). cbn [bind].
    unfold cells_of. rewrite (collect_cells_ok c D KDynamic s l HD (canon_repr _ _ _ _ _ C)). cbn [bind].
    exact (collects_ok c D L (KStatic t) HL _ _ (canon_repr _ _ _ _ _ C')). }
  unfold conversion_tests. repeat apply Forall_cons; try apply Forall_nil; cbn [snd].
  - unfold fixed_to_static. draw L m r l Hl. destruct (whole_canon c D L (KFixed t) HL l) as (s & E & C); [rewrite Hl; exact FF|].
    rewrite E. cbn [bind]. pose proof (rep_static_from_fixed c D t true s l HD C) as C'. cbn [rep] in C'. apply canon_repr in C'.
    pose proof (depth_ok c D (KStatic t) _ l C') as Q. rewrite Hl in Q. rewrite Q. cbn [bind].
    unfold cells_of. rewrite (collect_cells_ok c D (KFixed t) s l HD (canon_repr _ _ _ _ _ C)). cbn [bind].
    exact (collects_ok c D L (KStatic t) HL _ _ C').
  - unfold fixed_to_dynamic. draw L m r l Hl. destruct (whole_canon c D L (KFixed t) HL l) as (s & E & C); [rewrite Hl; exact FF|].
    rewrite E. cbn [bind]. pose proof (rep_dynamic_from_fixed c D L t true s l HL C) as C'. cbn [rep] in C'. apply canon_repr in C'.
    pose proof (depth_ok c D KDynamic _ l C') as Q. rewrite Hl in Q. rewrite Q. cbn [bind].
    unfold cells_of. rewrite (collect_cells_ok c D (KFixed t) s l HD (canon_repr _ _ _ _ _ C)). cbn [bind].
    exact (collects_ok c D L KDynamic HL _ _ C').
  - apply SF. lia.
  - apply SF. lia.
  - apply SD. lia.
  - apply SD. lia.
  - apply DF; [lia|exact S1].
  - apply DF; [lia|exact S2].
  - apply DS. lia.
  - apply DS. lia.
Qed.

(* ---------- grid indices ---------- *)
Lemma roundtrip_2d_ok c k n from r : fits c Dim2D k n ->
  (forall s l o, index_of c Dim2D layout2D k l = Ret s -> len l = n -> made c Dim2D layout2D k true s (shown c Dim2D k l) ->
    exists x y s', to_grid_index_2d c (ops c Dim2D k) s o = Ret (x, y) /\ from x y o = Ret s' /\ idx_eq k s' s = true) ->
  roundtrip_2d c k n from r = Ret tt.
Proof.
  intros Hf H. assert (HL : is_dim Dim2D layout2D) by constructor. unfold roundtrip_2d. draw layout2D n r l Hl.
  destruct (index_of_ok c Dim2D layout2D k l HL) as (s & E & St); [rewrite Hl; exact Hf|]. rewrite E. cbn [bind].
  apply for_all_ok. intros o _. destruct (H s l o E Hl (starts_made _ _ _ _ _ _ _ St)) as (x & y & s' & E1 & E2 & Q).
  rewrite E1. cbn [bind]. rewrite E2. cbn [bind]. apply idx_eq_iff in Q. subst s'.
  rewrite (proj2 (idx_eq_iff k s s) eq_refl). reflexivity.
Qed.
Lemma roundtrip_3d_ok c k n from r : fits c Dim3D k n ->
  (forall s l o, index_of c Dim3D layout3D k l = Ret s -> len l = n -> made c Dim3D layout3D k true s (shown c Dim3D k l) ->
    exists x y z s', to_grid_index_3d c (ops c Dim3D k) s o = Ret (x, y, z) /\ from x y z o = Ret s' /\ idx_eq k s' s = true) ->
  roundtrip_3d c k n from r = Ret tt.
Proof.
  intros Hf H. assert (HL : is_dim Dim3D layout3D) by constructor. unfold roundtrip_3d. draw layout3D n r l Hl.
  destruct (index_of_ok c Dim3D layout3D k l HL) as (s & E & St); [rewrite Hl; exact Hf|]. rewrite E. cbn [bind].
  apply for_all_ok. intros o _. destruct (H s l o E Hl (starts_made _ _ _ _ _ _ _ St)) as (x & y & z & s' & E1 & E2 & Q).
  rewrite E1. cbn [bind]. rewrite E2. cbn [bind]. apply idx_eq_iff in Q. subst s'.
  rewrite (proj2 (idx_eq_iff k s s) eq_refl). reflexivity.
Qed.
Lemma fixed_grid_2d_ok c t m r : BITS c t / 2 = m -> m <= usize_bits c ->
  Forall (fun test => snd test = Ret tt) (fixed_grid_tests_2d c t m r).
Proof.
  intros Hm HU. constructor; [|constructor]. apply roundtrip_2d_ok; [cbn [fits dim Dim2D]; lia|]. intros s l o _ _ HM.
  apply (c12_fixed_2d_lemma c layout2D t s _ o HM). lia.
Qed.
Lemma fixed_grid_3d_ok c t m r : BITS c t / 3 = m -> m <= usize_bits c -> 32 <= usize_bits c ->
  Forall (fun test => snd test = Ret tt) (fixed_grid_tests_3d c t m r).
Proof.
  intros Hm HU H32. constructor; [|constructor]. apply roundtrip_3d_ok; [cbn [fits dim Dim3D]; lia|]. intros s l o _ _ HM.
  apply (c12_fixed_3d_lemma c layout3D t s _ o HM H32). lia.
Qed.
Lemma static_depth c D L t s l e : made c D L (KStatic t) e s l -> sx_depth s = len l.
Proof. intros HM. destruct (made_repr _ _ _ _ _ _ _ HM) as [_ R]. exact (raw_depth _ _ _ _ _ _ _ _ R). Qed.
Lemma dynamic_depth c D L s l e : made c D L KDynamic e s l -> dy_depth s = len l.
Proof. intros HM. destruct (made_repr _ _ _ _ _ _ _ HM) as [_ R]. exact (raw_depth _ _ _ _ _ _ _ _ R). Qed.
Lemma static_grid_2d_ok c t m r : BITS c t / 2 = m -> 4 <= m -> m <= usize_bits c ->
  Forall (fun test => snd test = Ret tt) (static_grid_tests_2d c t m r).
Proof.
  intros Hm H4 HU.
  assert (T : forall n, 0 < n -> n <= m ->
    roundtrip_2d c (KStatic t) n (fun x y o => expect (static_from_grid_index_2d c t x y n o)) r = Ret tt).
  { intros n Hn Hnm. apply roundtrip_2d_ok; [cbn [fits dim Dim2D]; rewrite Hm; exact Hnm|]. intros s l o _ Hl HM. pose proof (static_depth _ _ _ _ _ _ _ HM) as Hd.
    cbn [shown] in Hd.
    destruct (c12_static_2d_lemma c layout2D t s _ o HM) as (x & y & s' & E1 & E2 & Q); [rewrite Hm; exact HU|left; rewrite Hd, Hl; clear - Hn; lia|].
    exists x, y, s'. split; [exact E1|]. split; [|exact Q]. rewrite Hd, Hl in E2. unfold expect. rewrite E2. reflexivity. }
  unfold static_grid_tests_2d. repeat apply Forall_cons; try apply Forall_nil; cbn [snd]; apply T; lia.
Qed.
Lemma static_grid_3d_ok c t m r : BITS c t / 3 = m -> 2 <= m -> m <= usize_bits c -> ((m + 7) / 8 = (m - 1 + 7) / 8) ->
  8 * ((m + 7) / 8 - 1) <= m - 1 -> Forall (fun test => snd test = Ret tt) (static_grid_tests_3d c t m r).
Proof.
  intros Hm H2 HU H7 H1.
  assert (T : forall n, n <= m -> 8 * ((m + 7) / 8 - (n + 7) / 8) <= m - n ->
    roundtrip_3d c (KStatic t) n (fun x y z o => expect (static_from_grid_index_3d c t x y z n o)) r = Ret tt).
  { intros n Hn Hlost. apply roundtrip_3d_ok; [cbn [fits dim Dim3D]; rewrite Hm; exact Hn|]. intros s l o _ Hl HM. pose proof (static_depth _ _ _ _ _ _ _ HM) as Hd.
    cbn [shown] in Hd.
    destruct (c12_static_3d_lemma c layout3D t s _ o HM) as (x & y & z & s' & E1 & E2 & Q); [rewrite Hm; exact HU|].
    exists x, y, z, s'. split; [exact E1|]. split; [|].
    - rewrite Hd, Hl in E2. unfold expect. rewrite E2. reflexivity.
    - apply Q. rewrite Hd, Hl, Hm. rewrite (proj2 (N.sub_0_le _ _) Hlost). rewrite !N.mod_1_r. repeat split. }
  unfold static_grid_tests_3d. repeat apply Forall_cons; try apply Forall_nil; cbn [snd]; apply T.
  - apply N.le_refl.
  - rewrite N.sub_diag, N.mul_0_r. apply N.le_0_l.
  - apply N.le_sub_l.
  - rewrite <- H7, N.sub_diag, N.mul_0_r. apply N.le_0_l.
  - clear - H2. lia.
  - exact H1.
Qed.
Lemma dynamic_grid_2d_ok c r : writable c KDynamic -> usize_bits c = 64 ->
  Forall (fun test => snd test = Ret tt) (dynamic_grid_tests_2d c r).
Proof.
  intros HW HU. pose proof (pow2_usize_ge c) as H16.
  assert (T : forall n, n <= 32 -> roundtrip_2d c KDynamic n (fun x y o => dynamic_from_grid_index_2d c x y n o) r = Ret tt).
  { intros n Hn. apply roundtrip_2d_ok; [split; [exact HW|cbn [dim Dim2D]; lia]|]. intros s l o _ Hl HM. pose proof (dynamic_depth _ _ _ _ _ _ HM) as Hd.
    cbn [shown] in Hd. destruct (c12_dynamic_2d_lemma c layout2D s _ o HM) as (x & y & s' & E1 & E2 & Q); [rewrite HU, Hd, Hl; exact Hn|].
    exists x, y, s'. split; [exact E1|]. split; [|exact Q]. rewrite Hd, Hl in E2. exact E2. }
  unfold dynamic_grid_tests_2d. repeat apply Forall_cons; try apply Forall_nil; cbn [snd]; apply T; lia.
Qed.
Lemma dynamic_grid_3d_ok c r : writable c KDynamic -> usize_bits c = 64 ->
  Forall (fun test => snd test = Ret tt) (dynamic_grid_tests_3d c r).
Proof.
  intros HW HU. pose proof (pow2_usize_ge c) as H16.
  assert (T : forall n, n <= 32 -> roundtrip_3d c KDynamic n (fun x y z o => dynamic_from_grid_index_3d c x y z n o) r = Ret tt).
  { intros n Hn. apply roundtrip_3d_ok; [split; [exact HW|cbn [dim Dim3D]; lia]|]. intros s l o _ Hl HM. pose proof (dynamic_depth _ _ _ _ _ _ HM) as Hd.
    cbn [shown] in Hd. destruct (c12_dynamic_3d_lemma c layout3D s _ o HM HW) as (x & y & z & s' & E1 & E2 & Q); [rewrite HU, Hd, Hl; exact Hn|].
    exists x, y, z, s'. split; [exact E1|]. split; [|exact Q]. rewrite Hd, Hl in E2. exact E2. }
  unfold dynamic_grid_tests_3d. repeat apply Forall_cons; try apply Forall_nil; cbn [snd]; apply T; lia.
Qed.

(* ---------- C76 ---------- *)
(* what the tests draw: the first four cells only *)
Lemma draw_is D L n r : is_dim D L ->
  exists l, draw D n r = Ret (l, Rng (numbers r) (used r + n))
    /\ map (cell_index D) l = map (fun i => numbers r i mod 4) (range (used r) (used r + n)).
Proof.
  intros HL. pose proof (is_dim_ok _ _ HL) as HD. unfold draw, range. replace (used r + n - used r) with n by lia.
  replace (used r + n) with (used r + N.of_nat (N.to_nat n)) by lia. generalize (N.to_nat n) as m. clear n. intros m. revert r.
  induction m as [|m IH]; intros [f u]; cbn [get_test_cells nrange map numbers used gen_range].
  - exists []. split; [|reflexivity]. rewrite N.add_0_r. reflexivity.
  - assert (B : f u mod 4 < 2 ^ dim D).
    { pose proof (N.mod_lt (f u) 4 ltac:(lia)). destruct HL; cbn [dim Dim2D Dim3D]; lia. }
    destruct (try_total D HD _ B) as (x & E). rewrite E. cbn [unwrap bind].
    destruct (IH (Rng f (u + 1))) as (l & E' & Hl). cbn [numbers used] in *. rewrite E'. cbn [bind]. exists (x :: l). split.
    + replace (u + 1 + N.of_nat m) with (u + N.of_nat (S m)) by lia. reflexivity.
    + cbn [map]. rewrite Hl. f_equal. exact (proj1 (try_ok D HD _ _) E).
Qed.
Lemma c76_drawn_cells_lemma : forall D L n r, is_dim D L ->
  exists l, draw D n r = Ret (l, Rng (numbers r) (used r + n))
    /\ map (cell_index D) l = map (fun i => numbers r i mod 4) (range (used r) (used r + n))
    /\ Forall (fun x => cell_index D x < 4) l.
Proof.
  intros D L n r HL. destruct (draw_is D L n r HL) as (l & E & Hl). exists l. split; [exact E|]. split; [exact Hl|].
  apply Forall_forall. intros x Hx. apply (in_map (cell_index D)) in Hx. rewrite Hl in Hx. apply in_map_iff in Hx.
  destruct Hx as (i & <- & _). apply N.mod_lt. discriminate.
Qed.

Ltac tested H := unfold tested_2d, tested_3d in H; cbn [In] in H;
  repeat (destruct H as [H|H]; [injection H as <- <-|]); [..|destruct H].
Lemma c76_fixed_2d_lemma : forall c t m r, In (t, m) tested_2d ->
  Forall (fun test => snd test = Ret tt) (fixed_tests_2d c t m r).
Proof.
  intros c t m r H. apply fixed_suite_ok; [constructor|..]; tested H; try reflexivity; discriminate.
Qed.
Lemma c76_fixed_3d_lemma : forall c t m r, In (t, m) tested_3d ->
  Forall (fun test => snd test = Ret tt) (fixed_tests_3d c t m r).
Proof.
  intros c t m r H. apply fixed_suite_ok; [constructor|..]; tested H; try reflexivity; discriminate.
Qed.
Lemma c76_static_2d_lemma : forall c t m r, In (t, m) tested_2d ->
  Forall (fun test => snd test = Ret tt) (static_tests_2d c t m r).
Proof.
  intros c t m r H. apply static_suite_ok; [constructor|..]; tested H; try reflexivity; discriminate.
Qed.
Lemma c76_static_3d_lemma : forall c t m r, In (t, m) tested_3d ->
  Forall (fun test => snd test = Ret tt) (static_tests_3d c t m r).
Proof.
  intros c t m r H. assert (HL : is_dim Dim3D layout3D) by constructor. apply Forall_cons; cbn [snd].
  - unfold just_one_octant. destruct (index_canon c Dim3D layout3D (KStatic t) [O7] HL) as (s & E & C).
    { cbn [fits]. tested H; discriminate. }
    rewrite E. cbn [bind]. cbn [shown] in C. apply canon_repr in C. pose proof (depth_ok c Dim3D (KStatic t) s [O7] C) as Q.
    change (len [O7]) with 1 in Q. rewrite Q. cbn [bind]. exact (level_ok c Dim3D layout3D (KStatic t) HL s [O7] 0 O7 C eq_refl).
  - apply static_suite_ok; [constructor|..]; tested H; try reflexivity; discriminate.
Qed.
Lemma c76_dynamic_2d_lemma : forall c r, writable c KDynamic ->
  Forall (fun test => snd test = Ret tt) (dynamic_tests_2d c r).
Proof.
  intros c r HW. pose proof (pow2_usize_ge c) as HU.
  apply (dynamic_suite_ok c Dim2D layout2D _ array_2d r (negb (8 mod 4 =? 0)) (dynamic_zeroed_2d 8)); [constructor|exact HW|discriminate|reflexivity|].
  apply dynamic_zeroed_2d_rep. lia.
Qed.
Lemma c76_dynamic_3d_lemma : forall c r, writable c KDynamic ->
  Forall (fun test => snd test = Ret tt) (dynamic_tests_3d c r).
Proof.
  intros c r HW. pose proof (pow2_usize_ge c) as HU. destruct (dynamic_zeroed_3d_ok c 8) as (s & E & C); [lia|].
  apply (dynamic_suite_ok c Dim3D layout3D _ array_3d r true s); [constructor|exact HW|discriminate|exact E|exact C].
Qed.
Lemma c76_conversions_2d_lemma : forall c t m r, target_endian c = LittleEndian -> In (t, m) tested_2d ->
  Forall (fun test => snd test = Ret tt) (conversion_tests_2d c t m r).
Proof.
  intros c t m r HE H. apply conversion_suite_ok; [constructor|exact HE|..]; tested H; try reflexivity; discriminate.
Qed.
Lemma c76_conversions_3d_lemma : forall c t m r, target_endian c = LittleEndian -> In (t, m) tested_3d ->
  Forall (fun test => snd test = Ret tt) (conversion_tests_3d c t m r).
Proof.
  intros c t m r HE H. apply conversion_suite_ok; [constructor|exact HE|..]; tested H; try reflexivity; discriminate.
Qed.

(* a test that cannot construct the index fails *)
Lemma roundtrip_2d_fails c k n from r : (forall x y o, from x y o = Panic) -> roundtrip_2d c k n from r <> Ret tt.
Proof.
  intros H. unfold roundtrip_2d. destruct (draw Dim2D n r) as [[l r']| |]; cbn [bind]; try discriminate.
  destruct (index_of c Dim2D layout2D k l) as [s| |]; cbn [bind]; try discriminate. unfold for_all. cbn [foldM].
  destruct (to_grid_index_2d c (ops c Dim2D k) s XY) as [[x y]| |]; cbn [bind]; try discriminate. rewrite H. discriminate.
Qed.
Lemma roundtrip_3d_fails c k n from r : (forall x y z o, from x y z o = Panic) -> roundtrip_3d c k n from r <> Ret tt.
Proof.
  intros H. unfold roundtrip_3d. destruct (draw Dim3D n r) as [[l r']| |]; cbn [bind]; try discriminate.
  destruct (index_of c Dim3D layout3D k l) as [s| |]; cbn [bind]; try discriminate. unfold for_all. cbn [foldM].
  destruct (to_grid_index_3d c (ops c Dim3D k) s XYZ) as [[[x y] z]| |]; cbn [bind]; try discriminate. rewrite H. discriminate.
Qed.
Lemma c76_fixed_grid_2d_lemma : forall c t m r, In (t, m) tested_2d ->
  (Forall (fun test => snd test = Ret tt) (fixed_grid_tests_2d c t m r) <-> m <= usize_bits c).
Proof.
  intros c t m r H. assert (Hm : BITS c t / 2 = m) by (tested H; reflexivity). split; [|exact (fixed_grid_2d_ok c t m r Hm)].
  intros F. inversion F as [|x l P _]; subst x l. cbn [snd] in P. destruct (N.le_gt_cases m (usize_bits c)) as [Q|Q]; [exact Q|exfalso].
  revert P. apply roundtrip_2d_fails. intros x y o. apply fixed_from_grid_2d_panic. change (MAX_LEVELS c Dim2D t) with (BITS c t / 2). lia.
Qed.
Lemma c76_fixed_grid_3d_lemma : forall c t m r, In (t, m) tested_3d -> 32 <= usize_bits c ->
  (Forall (fun test => snd test = Ret tt) (fixed_grid_tests_3d c t m r) <-> m <= usize_bits c).
Proof.
  intros c t m r H H32. assert (Hm : BITS c t / 3 = m) by (tested H; reflexivity). split; [|intro Q; exact (fixed_grid_3d_ok c t m r Hm Q H32)].
  intros F. inversion F as [|x l P _]; subst x l. cbn [snd] in P. destruct (N.le_gt_cases m (usize_bits c)) as [Q|Q]; [exact Q|exfalso].
  revert P. apply roundtrip_3d_fails. intros x y z o. apply fixed_from_grid_3d_panic. change (MAX_LEVELS c Dim3D t) with (BITS c t / 3). lia.
Qed.
Lemma c76_static_grid_2d_lemma : forall c t m r, In (t, m) tested_2d -> m <= usize_bits c ->
  Forall (fun test => snd test = Ret tt) (static_grid_tests_2d c t m r).
Proof.
  intros c t m r H HU. apply static_grid_2d_ok; [| |exact HU]; tested H; try reflexivity; discriminate.
Qed.
Lemma c76_static_grid_3d_lemma : forall c t m r, In (t, m) tested_3d -> m <= usize_bits c ->
  Forall (fun test => snd test = Ret tt) (static_grid_tests_3d c t m r).
Proof.
  intros c t m r H HU. apply static_grid_3d_ok; [| |exact HU| |]; tested H; try reflexivity; discriminate.
Qed.
Lemma c76_dynamic_grid_2d_lemma : forall c r, writable c KDynamic ->
  (Forall (fun test => snd test = Ret tt) (dynamic_grid_tests_2d c r) <-> usize_bits c = 64).
Proof.
  intros c r HW. split; [|exact (dynamic_grid_2d_ok c r HW)]. intros F. inversion F as [|x l P _]; subst x l. cbn [snd] in P.
  destruct (usize_bits_cases c) as [U|[U|U]]; [exfalso|exfalso|exact U];
    (revert P; apply roundtrip_2d_fails; intros x y o; apply dynamic_from_grid_2d_panic; rewrite U; reflexivity).
Qed.
Lemma c76_dynamic_grid_3d_lemma : forall c r, writable c KDynamic ->
  (Forall (fun test => snd test = Ret tt) (dynamic_grid_tests_3d c r) <-> usize_bits c = 64).
Proof.
  intros c r HW. split; [|exact (dynamic_grid_3d_ok c r HW)]. intros F. inversion F as [|x l P _]; subst x l. cbn [snd] in P.
  destruct (usize_bits_cases c) as [U|[U|U]]; [exfalso|exfalso|exact U];
    (revert P; apply roundtrip_3d_fails; intros x y z o; apply dynamic_from_grid_3d_panic; rewrite U; reflexivity).
Qed.
(* every test on the targets the library is used on *)
Lemma c76_all_tests_lemma : forall c r, target_endian c = LittleEndian -> usize_bits c = 64 ->
  (forall t m, In (t, m) tested_2d -> Forall (fun test => snd test = Ret tt)
     (fixed_tests_2d c t m r ++ fixed_grid_tests_2d c t m r ++ static_tests_2d c t m r ++ static_grid_tests_2d c t m r
        ++ conversion_tests_2d c t m r))
  /\ (forall t m, In (t, m) tested_3d -> Forall (fun test => snd test = Ret tt)
     (fixed_tests_3d c t m r ++ fixed_grid_tests_3d c t m r ++ static_tests_3d c t m r ++ static_grid_tests_3d c t m r
        ++ conversion_tests_3d c t m r))
  /\ Forall (fun test => snd test = Ret tt)
     (dynamic_tests_2d c r ++ dynamic_grid_tests_2d c r ++ dynamic_tests_3d c r ++ dynamic_grid_tests_3d c r).
Proof.
  intros c r HE HU. assert (HW : writable c KDynamic) by (left; exact HE). split; [|split].
  - intros t m H. assert (Q : m <= usize_bits c) by (rewrite HU; tested H; discriminate). repeat (apply Forall_app; split).
    + exact (c76_fixed_2d_lemma c t m r H).
    + exact (proj2 (c76_fixed_grid_2d_lemma c t m r H) Q).
    + exact (c76_static_2d_lemma c t m r H).
    + exact (c76_static_grid_2d_lemma c t m r H Q).
    + exact (c76_conversions_2d_lemma c t m r HE H).
  - intros t m H. assert (Q : m <= usize_bits c) by (rewrite HU; tested H; discriminate). repeat (apply Forall_app; split).
    + exact (c76_fixed_3d_lemma c t m r H).
    + refine (proj2 (c76_fixed_grid_3d_lemma c t m r H _) Q). rewrite HU. discriminate.
    + exact (c76_static_3d_lemma c t m r H).
    + exact (c76_static_grid_3d_lemma c t m r H Q).
    + exact (c76_conversions_3d_lemma c t m r HE H).
  - repeat (apply Forall_app; split).
    + exact (c76_dynamic_2d_lemma c r HW).
    + exact (proj2 (c76_dynamic_grid_2d_lemma c r HW) HU).
    + exact (c76_dynamic_3d_lemma c r HW).
    + exact (proj2 (c76_dynamic_grid_3d_lemma c r HW) HU).
Qed.

(* which depths the round trip test of static 3D indices could have used *)
Lemma coord_last {A} (off : A -> N) l x : coord off (l ++ [x]) = 2 * coord off l + off x.
Proof. unfold coord. rewrite fold_left_app. reflexivity. Qed.
Lemma c76_static_3d_depths_lemma : forall c t n, BITS c t / 3 <= usize_bits c -> 1 <= n -> n <= BITS c t / 3 ->
  ((forall r, roundtrip_3d c (KStatic t) n (fun x y z o => expect (static_from_grid_index_3d c t x y z n o)) r = Ret tt)
   <-> 8 * ((BITS c t / 3 + 7) / 8 - (n + 7) / 8) <= BITS c t / 3 - n).
Proof.
  intros c t n HU H1 Hn. assert (HL : is_dim Dim3D layout3D) by constructor. split.
  - intros H. apply N.sub_0_le. set (lost := _ - (_ - n)). destruct (N.eq_dec lost 0) as [Q|Q]; [exact Q|exfalso].
    specialize (H (Rng (fun _ => 3) 0)). unfold roundtrip_3d in H.
    destruct (draw_is Dim3D layout3D n (Rng (fun _ => 3) 0) HL) as (l & E & Hm). rewrite E in H. cbn [bind] in H. clear E.
    cbn [numbers used] in Hm. rewrite N.add_0_l in Hm.
    assert (Hl : len l = n).
    { apply (f_equal (@List.length N)) in Hm. rewrite !map_length in Hm. unfold range in Hm. rewrite nrange_length in Hm. unfold len. clear - Hm. lia. }
    destruct (index_of_ok c Dim3D layout3D (KStatic t) l HL) as (s & E & St); [cbn [fits dim Dim3D]; rewrite Hl; exact Hn|].
    rewrite E in H. cbn [bind] in H. clear E. apply starts_made in St. cbn [shown] in St. pose proof (static_depth _ _ _ _ _ _ _ St) as Hd.
    destruct (c12_static_3d_lemma c layout3D t s l XYZ St HU) as (x & y & z & s' & E1 & E2 & K). cbv zeta in K.
    rewrite Hd, Hl in E2, K. fold lost in K.
    assert (E1' : to_grid_index_3d c (ops c Dim3D (KStatic t)) s XYZ = Ret (x, y, z)) by exact E1.
    unfold for_all in H. cbn [foldM] in H. rewrite E1' in H. cbn [bind] in H.
    unfold expect in H. rewrite E2 in H. cbn [bind unwrap] in H.
    assert (Y : y mod 2 = 1).
    { destruct (made_canon _ _ _ _ _ _ St) as [_ C]. pose proof (to_grid_index_3d_ok c (KStatic t) s XYZ l (canon_repr _ _ _ _ _ C)) as G.
      rewrite E1' in G.
      assert (G' : Ret (x, y, z) = Ret (grid3 XYZ l)). { apply G. change (cell Dim3D) with octant in *. rewrite Hl. exact (N.le_trans _ _ _ Hn HU). }
      injection G' as _ Gy _. subst y. change (cell Dim3D) with octant in *.
      destruct (exists_last (l := l)) as (l0 & q & ->). { intros ->. unfold len in Hl. cbn in Hl. clear - Hl H1. lia. }
      rewrite coord_last. assert (Hq : cell_index Dim3D q = 3).
      { assert (I : In (cell_index Dim3D q) (map (cell_index Dim3D) (l0 ++ [q]))) by (apply in_map, in_or_app; right; left; reflexivity).
        change (In (cell_index Dim3D q) (map (cell_index Dim3D) (l0 ++ [q] : list octant))) in I.
        replace (map (cell_index Dim3D) (l0 ++ [q] : list octant)) with (map (fun _ : N => 3 mod 4) (range 0 n)) in I by (symmetry; exact Hm).
        apply in_map_iff in I. destruct I as (i & I & _). rewrite <- I. reflexivity. }
      destruct q; try discriminate Hq. change (oct_y XYZ O3) with 1. clear. lia. }
    destruct (idx_eq (KStatic t) s s') eqn:Q2.
    + apply idx_eq_iff in Q2. subst s'. destruct (proj1 K (proj2 (idx_eq_iff (KStatic t) s s) eq_refl)) as (_ & Ky & _).
      apply N.mod_divide in Ky; [|apply pow2_ne0]. destruct Ky as (a & Ka). replace lost with (1 + (lost - 1)) in Ka by (clear - Q; lia).
      rewrite N.pow_add_r in Ka. change (2 ^ 1) with 2 in Ka. generalize dependent (2 ^ (lost - 1)). clear - Y. intros p Ka.
      assert (Hy : y = (a * p) * 2) by (rewrite Ka; clear; nia). rewrite Hy, N.mod_mul in Y by discriminate. discriminate.
    + cbn [check bind] in H. discriminate.
  - intros Hlost r. apply roundtrip_3d_ok; [exact Hn|]. intros s l o _ Hl HM. pose proof (static_depth _ _ _ _ _ _ _ HM) as Hd.
    cbn [shown] in Hd. destruct (c12_static_3d_lemma c layout3D t s _ o HM) as (x & y & z & s' & E1 & E2 & Q); [exact HU|].
    exists x, y, z, s'. split; [exact E1|]. split.
    + rewrite Hd, Hl in E2. unfold expect. rewrite E2. reflexivity.
    + apply Q. rewrite Hd, Hl. rewrite (proj2 (N.sub_0_le _ _) Hlost). rewrite !N.mod_1_r. repeat split.
Qed.

(* big-endian targets: the test from_even_number_of_quadrants depends on luck *)
Lemma c76_big_endian_lemma : forall c D L n r, is_dim D L -> target_endian c = BigEndian -> usize_bits c <> 16 -> n <= 1000 ->
  (from_cells c D L KDynamic n r = Ret tt <-> forall i, i < n -> numbers r (used r + i) mod 4 = 0).
Proof.
  intros c D L n r HL HE HU Hn. pose proof (is_dim_ok _ _ HL) as HD. pose proof (pow2_usize_ge c) as H16.
  destruct (draw_is D L n r HL) as (l & E & Hm). unfold from_cells. rewrite E. cbn [bind]. clear E.
  assert (Hl : len l = n).
  { apply (f_equal (@List.length N)) in Hm. rewrite !map_length in Hm. unfold range in Hm. rewrite nrange_length in Hm. unfold len. clear - Hm. lia. }
  destruct (dynamic_try_from_w c D L l HL) as (s & E & C). { rewrite Hl. destruct HL; cbn [dim Dim2D Dim3D]; lia. }
  unfold index_of, try_from_cells, expect. rewrite E. cbn [bind unwrap]. clear E. apply canon_repr in C.
  assert (Hz : map (stored c D KDynamic) l = repeat (cell_zero D) (List.length l)).
  { clear - HE HU. induction l as [|x l IH]; [reflexivity|]. cbn [map repeat List.length]. rewrite IH. f_equal. unfold stored. rewrite HE.
    destruct (N.eqb_spec (usize_bits c) 16); [contradiction|reflexivity]. }
  rewrite Hz in C. pose proof (depth_ok c D KDynamic s _ C) as Q. rewrite len_repeat in Q. fold (len l) in Q. rewrite Q. cbn [bind]. clear Q.
  destruct (repr_shows c D KDynamic s _ HD C) as [_ Sh].
  assert (Lv : forall i x, nth_error l (N.to_nat i) = Some x -> level_is c D KDynamic s i x = check (cell_eqb D x (cell_zero D))).
  { intros i x Hx. unfold level_is. rewrite Sh, nth_error_repeat; [reflexivity|]. apply nth_error_Some. congruence. }
  assert (Nt : forall i, i < n -> exists x, nth_error l (N.to_nat i) = Some x /\ cell_index D x = numbers r (used r + i) mod 4).
  { intros i Hi. assert (A : nth_error (map (cell_index D) l) (N.to_nat i) = Some (numbers r (used r + i) mod 4)).
    { rewrite Hm. apply (map_nth_error (fun i => numbers r i mod 4)). rewrite nth_error_range by lia. f_equal. lia. }
    rewrite nth_error_map in A. destruct (nth_error l (N.to_nat i)) as [x|]; [|discriminate]. exists x. split; [reflexivity|].
    cbn [option_map] in A. congruence. }
  assert (Ze : forall x, cell_eqb D x (cell_zero D) = true <-> cell_index D x = 0).
  { intros x. unfold cell_eqb. rewrite (cmp_ok D HD), (zero_idx D HD).
    destruct (N.compare_spec (cell_index D x) 0); split; intro; (reflexivity || discriminate || lia). }
  split.
  - intros H i Hi. destruct (Nt i Hi) as (x & Hx & <-). apply Ze. unfold levels_are in H.
    pose proof (for_all_inv _ _ H (i, x)) as P. cbn [fst snd] in P. rewrite (Lv i x Hx) in P.
    destruct (cell_eqb D x (cell_zero D)); [reflexivity|]. discriminate P. apply enumerate_in. exact Hx.
  - intros H. unfold levels_are. apply for_all_ok. intros [i x] Hin. cbn [fst snd]. apply in_enumerate in Hin. rewrite (Lv i x Hin).
    assert (Hi : i < n). { assert (N.to_nat i < List.length l)%nat by (apply nth_error_Some; congruence). unfold len in Hl. lia. }
    destruct (Nt i Hi) as (y & Hy & Ey). rewrite Hin in Hy. injection Hy as <-. rewrite H in Ey by exact Hi.
    rewrite (proj2 (Ze x) Ey). reflexivity.
Qed.

(* `cargo test` checks for overflows: then the tests of grid indices that do not pass for every generator pass for none *)
Lemma roundtrip_2d_deep c k n from r : fits c Dim2D k n -> (match k with KFixed _ => False | _ => True end) -> overflow_checks c = true ->
  usize_bits c < n -> roundtrip_2d c k n from r <> Ret tt.
Proof.
  intros Hf Hk HO HU. assert (HL : is_dim Dim2D layout2D) by constructor. unfold roundtrip_2d. draw layout2D n r l Hl.
  destruct (index_canon c Dim2D layout2D k l HL) as (s & E & C); [rewrite Hl; exact Hf|]. rewrite E. cbn [bind]. unfold for_all. cbn [foldM].
  assert (Hs : shown c Dim2D k l = l) by (destruct k; [destruct Hk|reflexivity|reflexivity]). rewrite Hs in C.
  rewrite (to_grid_index_2d_deep c k s XY l (canon_repr _ _ _ _ _ C)); [discriminate| |exact HO].
  change (cell Dim2D) with quadrant in *. rewrite Hl. exact HU.
Qed.
Lemma roundtrip_3d_deep c k n from r : fits c Dim3D k n -> (match k with KFixed _ => False | _ => True end) -> overflow_checks c = true ->
  usize_bits c < n -> roundtrip_3d c k n from r <> Ret tt.
Proof.
  intros Hf Hk HO HU. assert (HL : is_dim Dim3D layout3D) by constructor. unfold roundtrip_3d. draw layout3D n r l Hl.
  destruct (index_canon c Dim3D layout3D k l HL) as (s & E & C); [rewrite Hl; exact Hf|]. rewrite E. cbn [bind]. unfold for_all. cbn [foldM].
  assert (Hs : shown c Dim3D k l = l) by (destruct k; [destruct Hk|reflexivity|reflexivity]). rewrite Hs in C.
  rewrite (to_grid_index_3d_deep c k s XYZ l (canon_repr _ _ _ _ _ C)); [discriminate| |exact HO].
  change (cell Dim3D) with octant in *. rewrite Hl. exact HU.
Qed.
Lemma c76_static_grid_checked_lemma : forall c r, overflow_checks c = true ->
  (forall t m, In (t, m) tested_2d -> (Forall (fun test => snd test = Ret tt) (static_grid_tests_2d c t m r) <-> m <= usize_bits c))
  /\ (forall t m, In (t, m) tested_3d -> (Forall (fun test => snd test = Ret tt) (static_grid_tests_3d c t m r) <-> m <= usize_bits c)).
Proof.
  intros c r HO. split; intros t m H; (split; [|first [exact (c76_static_grid_2d_lemma c t m r H) | exact (c76_static_grid_3d_lemma c t m r H)]]);
    intros F; inversion F as [|x l P _]; subst x l; cbn [snd] in P; destruct (N.le_gt_cases m (usize_bits c)) as [Q|Q]; [exact Q|exfalso|exact Q|exfalso];
    revert P.
  - apply roundtrip_2d_deep; [|exact I|exact HO|exact Q]. cbn [fits dim Dim2D]. tested H; discriminate.
  - apply roundtrip_3d_deep; [|exact I|exact HO|exact Q]. cbn [fits dim Dim3D]. tested H; discriminate.
Qed.
(* 16-bit targets: from_grid_index of fixed 3D indices panics or gives the first cell *)
Lemma c76_fixed_grid_3d_16_bit_lemma : forall c t m r, In (t, m) tested_3d -> usize_bits c = 16 ->
  (Forall (fun test => snd test = Ret tt) (fixed_grid_tests_3d c t m r)
   <-> overflow_checks c = false /\ m <= 16 /\ forall i, i < m -> numbers r (used r + i) mod 4 = 0).
Proof.
  intros c t m r H HU. assert (HL : is_dim Dim3D layout3D) by constructor. pose proof (is_dim_ok _ _ HL) as HD.
  assert (Hm : BITS c t / 3 = m) by (tested H; reflexivity).
  assert (G : forall x y z o, fixed_from_grid_index_3d c t x y z o = if overflow_checks c || (16 <? m) then Panic else Ret (MkFixed 0)).
  { intros x y z o. rewrite <- Hm. exact (c07_fixed_3d_16_bit_lemma c t x y z o HU). }
  destruct (overflow_checks c || (16 <? m)) eqn:B.
  - split.
    + intros F. inversion F as [|x l P _]; subst x l. cbn [snd] in P. exfalso. revert P. apply roundtrip_3d_fails. exact G.
    + intros (B1 & B2 & _). rewrite B1 in B. cbn [orb] in B. apply N.ltb_lt in B. lia.
  - apply orb_false_iff in B. destruct B as [B1 B2]. apply N.ltb_ge in B2.
    assert (K : roundtrip_3d c (KFixed t) m (fixed_from_grid_index_3d c t) r = Ret tt <-> forall i, i < m -> numbers r (used r + i) mod 4 = 0).
    { unfold roundtrip_3d. destruct (draw_is Dim3D layout3D m r HL) as (l & E & Hn). rewrite E. cbn [bind]. clear E.
      assert (Hl : len l = m).
      { apply (f_equal (@List.length N)) in Hn. rewrite !map_length in Hn. unfold range in Hn. rewrite nrange_length in Hn. unfold len. clear - Hn. lia. }
      destruct (whole_canon c Dim3D layout3D (KFixed t) HL l) as (s & E & C); [rewrite Hl; symmetry; exact Hm|]. rewrite E. cbn [bind]. clear E.
      pose proof (fixed_default_canon c Dim3D t HD) as CZ. change (MAX_LEVELS c Dim3D t) with (BITS c t / 3) in CZ. rewrite Hm in CZ.
      assert (Z : idx_eq (KFixed t) s (MkFixed 0) = true <-> forall i, i < m -> numbers r (used r + i) mod 4 = 0).
      { rewrite idx_eq_iff. transitivity (l = repeat (cell_zero Dim3D) (N.to_nat m)).
        - split.
          + intros Es. subst s. pose proof (collect_cells_ok c Dim3D (KFixed t) _ l HD (canon_repr _ _ _ _ _ C)) as E1.
            pose proof (collect_cells_ok c Dim3D (KFixed t) fixed_default _ HD (canon_repr _ _ _ _ _ CZ)) as E2.
            change fixed_default with (MkFixed 0) in E2. rewrite E1 in E2. injection E2 as E2. exact E2.
          + intros El. rewrite El in C. exact (canon_unique c Dim3D (KFixed t) s fixed_default _ HD C CZ).
        - split.
          + intros El i Hi. assert (A : nth_error (map (cell_index Dim3D) l) (N.to_nat i) = Some (numbers r (used r + i) mod 4)).
            { rewrite Hn. apply (map_nth_error (fun i => numbers r i mod 4)). rewrite nth_error_range by lia. f_equal. lia. }
            rewrite El, nth_error_map, nth_error_repeat in A by lia. cbn [option_map] in A. injection A as A. rewrite <- A. reflexivity.
          + intros Hz. apply nth_error_ext. intros j. destruct (Nat.lt_ge_cases j (N.to_nat m)) as [Hj|Hj].
            * rewrite nth_error_repeat by exact Hj. assert (A : nth_error (map (cell_index Dim3D) l) j = Some 0).
              { rewrite Hn. rewrite <- (Hz (N.of_nat j)) by lia. apply (map_nth_error (fun i => numbers r i mod 4)). apply nth_error_range. lia. }
              rewrite nth_error_map in A. destruct (nth_error l j) as [x|]; [|discriminate]. cbn [option_map] in A. injection A as A.
              f_equal. destruct x; try discriminate A. reflexivity.
            * transitivity (@None (cell Dim3D)); [|symmetry]; apply nth_error_None; [unfold len in Hl; lia|rewrite repeat_length; exact Hj]. }
      assert (T : forall o, exists xyz, to_grid_index_3d c (ops c Dim3D (KFixed t)) s o = Ret xyz).
      { intros o. eexists. apply (to_grid_index_3d_ok c (KFixed t) s o l (canon_repr _ _ _ _ _ C)). change (cell Dim3D) with octant in *.
        rewrite Hl, HU. exact B2. }
      rewrite <- Z. split.
      - intros P. pose proof (for_all_inv _ _ P XYZ (or_introl eq_refl)) as Q. cbv beta in Q. destruct (T XYZ) as ([[x y] z] & E). rewrite E in Q. cbn [bind] in Q.
        rewrite G in Q. cbn [bind] in Q. destruct (idx_eq (KFixed t) s (MkFixed 0)); [reflexivity|discriminate].
      - intros P. apply for_all_ok. intros o _. destruct (T o) as ([[x y] z] & E). rewrite E. cbn [bind]. rewrite G. cbn [bind]. rewrite P. reflexivity. }
    split.
    + intros F. inversion F as [|x l P _]; subst x l. cbn [snd] in P. split; [exact B1|]. split; [exact B2|]. apply K. exact P.
    + intros (_ & _ & P). constructor; [|constructor]. cbn [snd]. apply K. exact P.
Qed.

(* ---------- the benchmark ---------- *)
Lemma dummy_length m count : forall r, List.length (fst (dummy_grid_indices m count r)) = count.
Proof.
  induction count as [|count IH]; intros r; cbn [dummy_grid_indices gen_range]; [reflexivity|].
  specialize (IH (Rng (numbers r) (used r + 1 + 1 + 1))). cbn [numbers used] in *.
  destruct (dummy_grid_indices m count (Rng (numbers r) (used r + 1 + 1 + 1))) as [l r']. cbn [fst List.length] in *. rewrite IH. reflexivity.
Qed.
Lemma dummy_nth m count : forall r i, (i < count)%nat ->
  nth_error (fst (dummy_grid_indices m count r)) i
  = Some (numbers r (used r + 3 * N.of_nat i) mod m, numbers r (used r + 3 * N.of_nat i + 1) mod m, numbers r (used r + 3 * N.of_nat i + 2) mod m).
Proof.
  induction count as [|count IH]; intros r i Hi; [lia|]. cbn [dummy_grid_indices gen_range]. cbn [numbers used].
  specialize (IH (Rng (numbers r) (used r + 1 + 1 + 1))). cbn [numbers used] in IH.
  destruct (dummy_grid_indices m count (Rng (numbers r) (used r + 1 + 1 + 1))) as [l r']. cbn [fst] in *.
  destruct i as [|i]; cbn [nth_error].
  - change (N.of_nat 0) with 0. rewrite N.mul_0_r, N.add_0_r. replace (used r + 1 + 1) with (used r + 2) by lia. reflexivity.
  - rewrite IH by lia. replace (used r + 1 + 1 + 1 + 3 * N.of_nat i) with (used r + 3 * N.of_nat (S i)) by lia. reflexivity.
Qed.
Lemma mapM_total {A B} (f : A -> outcome B) l : (forall x, exists y, f x = Ret y) -> exists ys, mapM f l = Ret ys /\ List.length ys = List.length l.
Proof.
  intros F. induction l as [|x l (ys & E & IH)]; [exists []; split; reflexivity|]. destruct (F x) as (y & Ey). exists (y :: ys).
  cbn [mapM]. rewrite Ey. cbn [bind]. rewrite E. cbn [bind List.length]. rewrite IH. split; reflexivity.
Qed.
Lemma c76_benchmark_lemma : forall c r, 32 <= usize_bits c ->
  exists l, bench c r = Ret l /\ len l = 1024
    /\ forall i, i < 1024 -> exists s, nth_error l (N.to_nat i) = Some s /\ valid c Dim3D (KFixed U64) s
       /\ to_grid_index_3d c (fixed_ops c Dim3D U64) s XYZ
          = Ret (numbers r (used r + 3 * i) mod 2 ^ 21, numbers r (used r + 3 * i + 1) mod 2 ^ 21, numbers r (used r + 3 * i + 2) mod 2 ^ 21).
Proof.
  intros c r HU. unfold bench, get_dummy_grid_indices_64. replace (21 <? usize_bits c) with true by (symmetry; apply N.ltb_lt; lia).
  assert (E : shl c (usize_bits c) 1 21 = Ret (2 ^ 21)) by (destruct c as [b [] e]; [cbn in HU; lia|reflexivity|reflexivity]).
  rewrite E. cbn [bind]. clear E.
  pose proof (dummy_length (2 ^ 21) (N.to_nat 1024) r) as Hn. pose proof (dummy_nth (2 ^ 21) (N.to_nat 1024) r) as Hi.
  destruct (dummy_grid_indices (2 ^ 21) (N.to_nat 1024) r) as [g r']. cbn [fst] in *.
  assert (R : forall x y z, exists s, from_grid_index_fast c x y z XYZ = Ret s /\ valid c Dim3D (KFixed U64) s
    /\ to_grid_index_3d c (fixed_ops c Dim3D U64) s XYZ = Ret (x mod 2 ^ 21, y mod 2 ^ 21, z mod 2 ^ 21)).
  { intros x y z. rewrite c13_fast_equals_from_grid_index_lemma.
    exact (c07_fixed_3d_round_trip_partial_lemma c U64 x y z XYZ HU ltac:(change (BITS c U64 / 3) with 21; lia)). }
  destruct (mapM_total (fun idx : N * N * N => let '(x, y, z) := idx in from_grid_index_fast c x y z XYZ) g) as (l & E & El).
  { intros [[x y] z]. destruct (R x y z) as (s & E & _). exists s. exact E. }
  exists l. split; [exact E|]. split; [unfold len; rewrite El, Hn; apply N2Nat.id|].
  intros i H. specialize (Hi (N.to_nat i) ltac:(lia)). rewrite N2Nat.id in Hi.
  destruct (mapM_nth _ _ _ _ _ E Hi) as (s & E1 & E2). exists s.
  match type of Hi with _ = Some (?x, ?y, ?z) => destruct (R x y z) as (s' & R1 & R2 & R3) end.
  rewrite R1 in E2. injection E2 as <-. split; [exact E1|]. split; [exact R2|]. rewrite !N.mod_mod in R3 by discriminate. exact R3.
Qed.

(* ---------- static grid tests on narrow targets without overflow checks ---------- *)
Lemma folded_lt w v r : folded w v r -> r < 2 ^ w.
Proof.
  intros F. apply lt_pow2_testbit. intros j Hj. destruct (N.testbit r j) eqn:E; [|reflexivity].
  apply F in E. lia.
Qed.
Lemma draws_zero D L n r l : is_dim D L -> draw D n r = Ret (l, Rng (numbers r) (used r + n)) ->
  (l = repeat (cell_zero D) (N.to_nat n) <-> forall i, i < n -> numbers r (used r + i) mod 4 = 0).
Proof.
  intros HL E0. pose proof (is_dim_ok _ _ HL) as HD. destruct (draw_is D L n r HL) as (l' & E & Hn). rewrite E0 in E. injection E as <-.
  assert (Hl : List.length l = N.to_nat n).
  { apply (f_equal (@List.length N)) in Hn. rewrite !map_length in Hn. unfold range in Hn. rewrite nrange_length in Hn. rewrite Hn. f_equal. lia. }
  assert (Z : cell_index D (cell_zero D) = 0) by (destruct HL; reflexivity).
  split.
  - intros El i Hi. assert (A : nth_error (map (cell_index D) l) (N.to_nat i) = Some (numbers r (used r + i) mod 4)).
    { rewrite Hn. apply (map_nth_error (fun i => numbers r i mod 4)). rewrite nth_error_range by lia. f_equal. lia. }
    rewrite El, nth_error_map, nth_error_repeat in A by lia. cbn [option_map] in A. injection A as A. rewrite <- A. exact Z.
  - intros Hz. apply nth_error_ext. intros j. destruct (Nat.lt_ge_cases j (N.to_nat n)) as [Hj|Hj].
    + rewrite nth_error_repeat by exact Hj. assert (A : nth_error (map (cell_index D) l) j = Some 0).
      { rewrite Hn. rewrite <- (Hz (N.of_nat j)) by lia. apply (map_nth_error (fun i => numbers r i mod 4)). apply nth_error_range. lia. }
      rewrite nth_error_map in A. destruct (nth_error l j) as [x|]; [|discriminate]. cbn [option_map] in A. injection A as A.
      f_equal. destruct HL; destruct x; try discriminate A; reflexivity.
    + transitivity (@None (cell D)); [|symmetry]; apply nth_error_None; [lia|rewrite repeat_length; exact Hj].
Qed.
Lemma static_is_zero c D L t n r l s : is_dim D L -> draw D n r = Ret (l, Rng (numbers r) (used r + n)) -> n <= MAX_LEVELS c D t ->
  canon c D (KStatic t) s l -> (idx_eq (KStatic t) s (MkStatic 0 n) = true <-> forall i, i < n -> numbers r (used r + i) mod 4 = 0).
Proof.
  intros HL E Hn C. pose proof (is_dim_ok _ _ HL) as HD. rewrite <- (draws_zero D L n r l HL E), idx_eq_iff.
  pose proof (static_zero_canon c D t n HD Hn) as CZ. split.
  - intros Es. subst s. pose proof (collect_cells_ok c D (KStatic t) _ l HD (canon_repr _ _ _ _ _ C)) as E1.
    pose proof (collect_cells_ok c D (KStatic t) (MkStatic 0 n) _ HD (canon_repr _ _ _ _ _ CZ)) as E2. rewrite E1 in E2. injection E2 as E2. exact E2.
  - intros El. rewrite El in C. exact (canon_unique c D (KStatic t) s (MkStatic 0 n) _ HD C CZ).
Qed.
Lemma roundtrip_2d_unchecked c t n r : overflow_checks c = false -> usize_bits c < BITS c t / 2 -> n <= BITS c t / 2 ->
  (roundtrip_2d c (KStatic t) n (fun x y o => expect (static_from_grid_index_2d c t x y n o)) r = Ret tt
   <-> forall i, i < n -> numbers r (used r + i) mod 4 = 0).
Proof.
  intros HO HU Hn. assert (HL : is_dim Dim2D layout2D) by constructor. pose proof (is_dim_ok _ _ HL) as HD. unfold roundtrip_2d.
  destruct (draw_is Dim2D layout2D n r HL) as (l & E & Hm). rewrite E. cbn [bind].
  assert (Hl : len l = n).
  { apply (f_equal (@List.length N)) in Hm. rewrite !map_length in Hm. unfold range in Hm. rewrite nrange_length in Hm. unfold len. clear - Hm. lia. }
  destruct (index_canon c Dim2D layout2D (KStatic t) l HL) as (s & Es & C); [rewrite Hl; exact Hn|]. rewrite Es. cbn [bind]. cbn [shown] in C.
  rewrite <- (static_is_zero c Dim2D layout2D t n r l s HL E Hn C).
  assert (T : forall o, exists x y, to_grid_index_2d c (ops c Dim2D (KStatic t)) s o = Ret (x, y)
    /\ static_from_grid_index_2d c t x y n o = Ret (Ok (MkStatic 0 n))).
  { intros o. pose proof (canon_repr _ _ _ _ _ C) as R.
    destruct (c42_release_2d_folds_lemma c (KStatic t) s l o HO (repr_valid _ _ _ _ _ HD R) (repr_shows _ _ _ _ _ HD R)) as (x & y & T & Fx & Fy).
    exists x, y. split; [exact T|]. exact (c08_static_2d_wide_release_lemma c t x y n o HO HU (folded_lt _ _ _ Fx) (folded_lt _ _ _ Fy) Hn). }
  split.
  - intros P. pose proof (for_all_inv _ _ P XY (or_introl eq_refl)) as Q. cbv beta in Q. destruct (T XY) as (x & y & T1 & T2).
    rewrite T1 in Q. cbn [bind] in Q. unfold expect in Q. rewrite T2 in Q. cbn [bind unwrap] in Q. destruct (idx_eq (KStatic t) s (MkStatic 0 n)); [reflexivity|discriminate].
  - intros P. apply for_all_ok. intros o _. destruct (T o) as (x & y & T1 & T2). rewrite T1. cbn [bind]. unfold expect. rewrite T2. cbn [bind unwrap]. rewrite P. reflexivity.
Qed.
Lemma roundtrip_3d_unchecked c t n r : overflow_checks c = false -> usize_bits c < BITS c t / 3 -> n <= BITS c t / 3 ->
  usize_bits c < n \/ usize_bits c <= BITS c t / 3 - n ->
  (roundtrip_3d c (KStatic t) n (fun x y z o => expect (static_from_grid_index_3d c t x y z n o)) r = Ret tt
   <-> forall i, i < n -> numbers r (used r + i) mod 4 = 0).
Proof.
  intros HO HU Hn Hw. assert (HL : is_dim Dim3D layout3D) by constructor. pose proof (is_dim_ok _ _ HL) as HD. unfold roundtrip_3d.
  destruct (draw_is Dim3D layout3D n r HL) as (l & E & Hm). rewrite E. cbn [bind].
  assert (Hl : len l = n).
  { apply (f_equal (@List.length N)) in Hm. rewrite !map_length in Hm. unfold range in Hm. rewrite nrange_length in Hm. unfold len. clear - Hm. lia. }
  destruct (index_canon c Dim3D layout3D (KStatic t) l HL) as (s & Es & C); [rewrite Hl; exact Hn|]. rewrite Es. cbn [bind]. cbn [shown] in C.
  rewrite <- (static_is_zero c Dim3D layout3D t n r l s HL E Hn C).
  assert (T : forall o, exists x y z, to_grid_index_3d c (ops c Dim3D (KStatic t)) s o = Ret (x, y, z)
    /\ static_from_grid_index_3d c t x y z n o = Ret (Ok (MkStatic 0 n))).
  { intros o. pose proof (canon_repr _ _ _ _ _ C) as R.
    destruct (c42_release_3d_folds_lemma c (KStatic t) s l o HO (repr_valid _ _ _ _ _ HD R) (repr_shows _ _ _ _ _ HD R)) as (x & y & z & T & Fx & Fy & Fz).
    exists x, y, z. split; [exact T|].
    pose proof (c09_static_3d_wide_lemma c t x y z n o HU (folded_lt _ _ _ Fx) (folded_lt _ _ _ Fy) (folded_lt _ _ _ Fz) Hn) as G. cbv zeta in G.
    replace ((n <=? usize_bits c) && (BITS c t / 3 - n <? usize_bits c)) with false in G.
    - rewrite HO in G. exact G.
    - symmetry. apply andb_false_iff. destruct Hw as [Hw|Hw]; [left; apply N.leb_gt|right; apply N.ltb_ge]; exact Hw. }
  split.
  - intros P. pose proof (for_all_inv _ _ P XYZ (or_introl eq_refl)) as Q. cbv beta in Q. destruct (T XYZ) as (x & y & z & T1 & T2).
    rewrite T1 in Q. cbn [bind] in Q. unfold expect in Q. rewrite T2 in Q. cbn [bind unwrap] in Q. destruct (idx_eq (KStatic t) s (MkStatic 0 n)); [reflexivity|discriminate].
  - intros P. apply for_all_ok. intros o _. destruct (T o) as (x & y & z & T1 & T2). rewrite T1. cbn [bind]. unfold expect. rewrite T2. cbn [bind unwrap]. rewrite P. reflexivity.
Qed.
Lemma c76_static_grid_unchecked_lemma : forall c r, overflow_checks c = false ->
  (forall t m, In (t, m) tested_2d -> (Forall (fun test => snd test = Ret tt) (static_grid_tests_2d c t m r)
     <-> m <= usize_bits c \/ forall i, i < m -> numbers r (used r + i) mod 4 = 0))
  /\ (forall t m, In (t, m) tested_3d -> (Forall (fun test => snd test = Ret tt) (static_grid_tests_3d c t m r)
     <-> m <= usize_bits c \/ forall i, i < m -> numbers r (used r + i) mod 4 = 0)).
Proof.
  intros c r HO. split; intros t m H.
  - destruct (N.le_gt_cases m (usize_bits c)) as [Q|Q].
    { split; [intros _; left; exact Q|intros _; exact (c76_static_grid_2d_lemma c t m r H Q)]. }
    assert (Hm : BITS c t / 2 = m) by (tested H; first [reflexivity | destruct c as [b [] e]; reflexivity]).
    assert (H3 : 3 < m) by (tested H; reflexivity).
    unfold static_grid_tests_2d. cbv zeta. pose proof (roundtrip_2d_unchecked c t) as R. rewrite Hm in R. split.
    + intros F. inversion F as [|x l P _]; subst x l. cbn [snd] in P. right. exact (proj1 (R m r HO Q (N.le_refl m)) P).
    + intros [A|A]; [lia|]. repeat apply Forall_cons; try apply Forall_nil; cbn [snd]; (refine (proj2 (R _ r HO Q _) _); [lia|intros i Hi; apply A; lia]).
  - destruct (N.le_gt_cases m (usize_bits c)) as [Q|Q].
    { split; [intros _; left; exact Q|intros _; exact (c76_static_grid_3d_lemma c t m r H Q)]. }
    assert (Hm : BITS c t / 3 = m) by (tested H; first [reflexivity | destruct c as [b [] e]; reflexivity]).
    assert (H3 : usize_bits c < m - 1) by (tested H; destruct c as [b [] e]; cbn [usize_bits pointer] in *; lia).
    assert (H1 : 1 < m) by (clear - H3; lia).
    unfold static_grid_tests_3d. cbv zeta. pose proof (roundtrip_3d_unchecked c t) as R. rewrite Hm in R. split.
    + intros F. inversion F as [|x l P _]; subst x l. cbn [snd] in P. right. exact (proj1 (R m r HO Q (N.le_refl m) (or_introl Q)) P).
    + intros [A|A]; [lia|]. repeat apply Forall_cons; try apply Forall_nil; cbn [snd]; (refine (proj2 (R _ r HO Q _ _) _); [lia|clear - Q H3 H1; lia|intros i Hi; apply A; lia]).
Qed.
