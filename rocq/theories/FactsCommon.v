(* FactsCommon.v - lemmas behind PropCommon.v: nearest common ancestors (C79) *)
From Verif Require Import Base ModelNumber ModelDim ModelStorage Model2D Model3D Spec SpecCommon History
  BitProofs NumberProofs VecProofs CellProofs StorageProofs OrderProofs GridProofs HistoryProofs FactsHistory FactsOrder FactsGrid FactsMono FactsSpace FactsTraits ExampleTools.

Section Common.
  Context {A : Type} (dec : forall x y : A, {x = y} + {x <> y}).
  Lemma common_exists la : forall lb, exists p : list A, longest_common p la lb.
  Proof.
    induction la as [|x la IH]; intros lb.
    - exists []. repeat split; [exists []; reflexivity|exists lb; reflexivity|]. intros q H _. exact H.
    - destruct lb as [|y lb].
      + exists []. repeat split; [exists (x :: la); reflexivity|exists []; reflexivity|]. intros q _ H. exact H.
      + destruct (dec x y) as [<-|E].
        * destruct (IH lb) as (p & (r & P) & (r' & P') & M). exists (x :: p).
          split; [exists r; rewrite P; reflexivity|]. split; [exists r'; rewrite P'; reflexivity|].
          intros [|z q] (u & U) (u' & U'); [exists (x :: p); reflexivity|]. cbn [app] in U, U'. injection U as <- U. injection U' as U'.
          destruct (M q) as (w & W); [exists u; exact U|exists u'; exact U'|]. exists w. rewrite W. reflexivity.
        * exists []. split; [exists (x :: la); reflexivity|]. split; [exists (y :: lb); reflexivity|].
          intros [|z q] (u & U) (u' & U'); [exists []; reflexivity|]. cbn [app] in U, U'. congruence.
  Qed.
  Lemma prefix_anti (p q : list A) : is_prefix p q -> is_prefix q p -> p = q.
  Proof.
    intros (r & E) (r' & E'). rewrite E in E'. rewrite <- app_assoc in E'.
    assert (Z : r ++ r' = []) by (apply (app_inv_head p); rewrite app_nil_r; symmetry; exact E').
    apply app_eq_nil in Z. destruct Z as [-> _]. rewrite app_nil_r in E. symmetry. exact E.
  Qed.
  Lemma common_unique (p q la lb : list A) : longest_common p la lb -> longest_common q la lb -> p = q.
  Proof. intros (P1 & P2 & P3) (Q1 & Q2 & Q3). apply prefix_anti; auto. Qed.
  Lemma common_firstn (p la lb : list A) n : longest_common p la lb -> n <= len la -> n <= len lb ->
    (firstn (N.to_nat n) la = firstn (N.to_nat n) lb <-> n <= len p).
  Proof.
    intros ((r & P1) & (r' & P2) & P3) Na Nb. split.
    - intros E. destruct (P3 (firstn (N.to_nat n) la)) as (w & W).
      + exists (skipn (N.to_nat n) la). symmetry. apply firstn_skipn.
      + exists (skipn (N.to_nat n) lb). rewrite E. symmetry. apply firstn_skipn.
      + rewrite W, len_app. unfold len at 1. rewrite firstn_length. unfold len in *. lia.
    - intros H. rewrite P1, P2, !firstn_app. unfold len in *.
      replace (N.to_nat n - List.length p)%nat with 0%nat by lia. reflexivity.
  Qed.
  Lemma common_intro (p r r' : list A) x y : x <> y -> longest_common p (p ++ x :: r) (p ++ y :: r').
  Proof.
    intros E. split; [exists (x :: r); reflexivity|]. split; [exists (y :: r'); reflexivity|]. intros q. revert q.
    induction p as [|z p IH]; intros [|w q] (u & U) (u' & U'); cbn [app] in U, U'.
    - exists []. reflexivity.
    - congruence.
    - exists (z :: p). reflexivity.
    - injection U as <- U. injection U' as U'. destruct (IH q) as (v & V); [exists u; exact U|exists u'; exact U'|].
      exists v. rewrite V. reflexivity.
  Qed.
End Common.

Lemma c79_exists_lemma : forall c D L k e (a b : storage k) la lb, made c D L k e a la -> made c D L k e b lb ->
  exists p, longest_common p la lb /\ forall q, longest_common q la lb -> q = p.
Proof.
  intros c D L k e a b la lb Ma _. destruct (made_rep _ _ _ _ _ _ _ Ma) as [HL _]. pose proof (is_dim_ok _ _ HL) as HD.
  destruct (common_exists (cell_dec HD) la lb) as (p & P). exists p. split; [exact P|]. intros q Q. exact (common_unique _ _ _ _ Q P).
Qed.
Lemma c79_meet_lemma : forall c D L k v (a b : storage k) la lb p n,
  made c D L k true a la -> made c D L k true b lb -> var_ops c D L k = Some v -> longest_common p la lb -> n <= len la -> n <= len lb ->
  exists a' b', with_depth c v a n = Ret (Some a') /\ with_depth c v b n = Ret (Some b') /\ (idx_eq k a' b' = true <-> n <= len p)
  /\ (n = len p -> shows (ops c D k) a' p).
Proof.
  intros c D L k v a b la lb p n Ma Mb HV P Na Nb. destruct (made_rep _ _ _ _ _ _ _ Ma) as [HL Ca]. destruct (made_rep _ _ _ _ _ _ _ Mb) as [_ Cb].
  pose proof (is_dim_ok _ _ HL) as HD.
  destruct (rep_with_depth c D L k v true a la n HL HV Ca Na) as (a' & Ea & Ra). destruct (rep_with_depth c D L k v true b lb n HL HV Cb Nb) as (b' & Eb & Rb).
  cbn [rep] in Ra, Rb. exists a', b'. split; [exact Ea|]. split; [exact Eb|]. split.
  - rewrite (idx_eq_canon c D k a' b' _ _ HD Ra Rb). apply common_firstn; assumption.
  - intros ->. apply canon_repr in Ra. apply (repr_shows _ _ _ _ _ HD) in Ra. destruct P as ((r & ->) & _).
    unfold len in Ra. rewrite Nat2N.id, firstn_app, Nat.sub_diag, firstn_all, app_nil_r in Ra. exact Ra.
Qed.
Lemma c79_between_lemma : forall c D L k v (a m b : storage k) la lm lb p,
  made c D L k true a la -> made c D L k true m lm -> made c D L k true b lb -> var_ops c D L k = Some v -> longest_common p la lb ->
  idx_cmp c D k a m <> Ret Gt -> idx_cmp c D k m b <> Ret Gt ->
  exists s s', with_depth c v a (len p) = Ret (Some s) /\ with_depth c v m (len p) = Ret (Some s') /\ idx_eq k s s' = true.
Proof.
  intros c D L k v a m b la lm lb p Ma Mm Mb HV P H1 H2. destruct (made_rep _ _ _ _ _ _ _ Ma) as [HL Ca]. destruct (made_rep _ _ _ _ _ _ _ Mm) as [_ Cm].
  pose proof (is_dim_ok _ _ HL) as HD. destruct P as (Pa & Pb & _).
  destruct (made_facts _ _ _ _ _ _ _ Ma) as [Va Sa]. destruct (made_facts _ _ _ _ _ _ _ Mm) as [Vm Sm]. destruct (made_facts _ _ _ _ _ _ _ Mb) as [Vb Sb].
  pose proof (c20_subtree_is_contiguous_lemma c D L k a m b la lm lb p HL Va Vm Vb Sa Sm Sb H1 H2 Pa Pb) as Pm.
  destruct Pa as (r & ->), Pm as (r' & ->).
  destruct (rep_with_depth c D L k v true a (p ++ r) (len p) HL HV Ca) as (s & E & R); [rewrite len_app; lia|].
  destruct (rep_with_depth c D L k v true m (p ++ r') (len p) HL HV Cm) as (s' & E' & R'); [rewrite len_app; lia|].
  exists s, s'. split; [exact E|]. split; [exact E'|]. apply (idx_eq_canon c D k s s' _ _ HD R R').
  unfold len. rewrite Nat2N.id, !firstn_app, Nat.sub_diag. reflexivity.
Qed.
Lemma c79_first_difference_lemma : forall c D L k (a b : storage k) la lb p,
  made c D L k true a la -> made c D L k true b lb -> longest_common p la lb -> len p < len la -> len p < len lb ->
  exists x y, get_cell_at_level (ops c D k) a (len p) = Ret x /\ get_cell_at_level (ops c D k) b (len p) = Ret y
  /\ cell_index D x <> cell_index D y /\ idx_cmp c D k a b = Ret (N.compare (cell_index D x) (cell_index D y)).
Proof.
  intros c D L k a b la lb p Ma Mb P Na Nb. destruct (made_rep _ _ _ _ _ _ _ Ma) as [HL _]. pose proof (is_dim_ok _ _ HL) as HD.
  destruct (made_facts _ _ _ _ _ _ _ Ma) as [_ (_ & Sa)]. destruct (made_facts _ _ _ _ _ _ _ Mb) as [_ (_ & Sb)].
  assert (C : idx_cmp c D k a b = Ret (path_cmp la lb)) by (apply (made_cmp c D L k true true a b la lb); auto).
  destruct P as ((r & ->) & (r' & ->) & M). rewrite !len_app in *. destruct r as [|x r]; [cbn in Na; lia|]. destruct r' as [|y r']; [cbn in Nb; lia|].
  exists x, y. rewrite Sa, Sb, C, path_cmp_app. unfold len. rewrite Nat2N.id, !nth_error_app2, Nat.sub_diag by lia. cbn [nth_error path_cmp].
  assert (E : cell_index D x <> cell_index D y).
  { intros E. apply (idx_inj D x y HD) in E. subst y. destruct (M (p ++ [x])) as (w & W).
    - exists r. rewrite <- app_assoc. reflexivity.
    - exists r'. rewrite <- app_assoc. reflexivity.
    - apply (f_equal len) in W. rewrite !len_app in W. cbn in W. lia. }
  split; [reflexivity|]. split; [reflexivity|]. split; [exact E|]. destruct (N.compare_spec (cell_index D x) (cell_index D y)); [contradiction|reflexivity|reflexivity].
Qed.
Lemma common_grid2 o (p la lb : list quadrant) n : longest_common p la lb -> n <= len la -> n <= len lb ->
  (n <= len p <-> coord (quad_x o) la / 2 ^ (len la - n) = coord (quad_x o) lb / 2 ^ (len lb - n)
                  /\ coord (quad_y o) la / 2 ^ (len la - n) = coord (quad_y o) lb / 2 ^ (len lb - n)).
Proof.
  intros P Na Nb. rewrite <- (common_firstn p la lb n P Na Nb).
  assert (X : forall q, quad_x o q < 2) by (intro; apply quad_lt). assert (Y : forall q, quad_y o q < 2) by (intro; apply quad_lt).
  rewrite <- !coord_firstn by (first [assumption|lia]).
  replace (len la - (len la - n)) with n by lia. replace (len lb - (len lb - n)) with n by lia. split.
  - intros ->. split; reflexivity.
  - intros [E1 E2]. apply (c11_grid_index_2d_injective_lemma o); [unfold len in *; rewrite !firstn_length; lia|]. unfold grid2. congruence.
Qed.
Lemma common_grid3 o (p la lb : list octant) n : longest_common p la lb -> n <= len la -> n <= len lb ->
  (n <= len p <-> coord (oct_x o) la / 2 ^ (len la - n) = coord (oct_x o) lb / 2 ^ (len lb - n)
                  /\ coord (oct_y o) la / 2 ^ (len la - n) = coord (oct_y o) lb / 2 ^ (len lb - n)
                  /\ coord (oct_z o) la / 2 ^ (len la - n) = coord (oct_z o) lb / 2 ^ (len lb - n)).
Proof.
  intros P Na Nb. rewrite <- (common_firstn p la lb n P Na Nb).
  assert (X : forall q, oct_x o q < 2) by (intro; apply oct_x_lt). assert (Y : forall q, oct_y o q < 2) by (intro; apply oct_y_lt).
  assert (Z : forall q, oct_z o q < 2) by (intro; apply oct_z_lt).
  rewrite <- !coord_firstn by (first [assumption|lia]).
  replace (len la - (len la - n)) with n by lia. replace (len lb - (len lb - n)) with n by lia. split.
  - intros ->. repeat split; reflexivity.
  - intros (E1 & E2 & E3). apply (c11_grid_index_3d_injective_lemma o); [unfold len in *; rewrite !firstn_length; lia|]. unfold grid3. congruence.
Qed.
Lemma c79_grid_2d_lemma : forall c L k e e' (a b : storage k) la lb p o x y x' y' n,
  made c Dim2D L k e a la -> made c Dim2D L k e' b lb -> len la <= usize_bits c -> len lb <= usize_bits c -> longest_common p la lb ->
  to_grid_index_2d c (ops c Dim2D k) a o = Ret (x, y) -> to_grid_index_2d c (ops c Dim2D k) b o = Ret (x', y') ->
  n <= len la -> n <= len lb ->
  (n <= len p <-> x / 2 ^ (len la - n) = x' / 2 ^ (len lb - n) /\ y / 2 ^ (len la - n) = y' / 2 ^ (len lb - n)).
Proof.
  intros c L k e e' a b la lb p o x y x' y' n Ma Mb Wa Wb P Ga Gb Na Nb.
  destruct (made_repr _ _ _ _ _ _ _ Ma) as [HD Ra]. destruct (made_repr _ _ _ _ _ _ _ Mb) as [_ Rb].
  rewrite (to_grid_index_2d_ok c k a o la Ra Wa) in Ga. rewrite (to_grid_index_2d_ok c k b o lb Rb Wb) in Gb.
  injection Ga as <- <-. injection Gb as <- <-. exact (common_grid2 o p la lb n P Na Nb).
Qed.
Lemma c79_grid_3d_lemma : forall c L k e e' (a b : storage k) la lb p o x y z x' y' z' n,
  made c Dim3D L k e a la -> made c Dim3D L k e' b lb -> len la <= usize_bits c -> len lb <= usize_bits c -> longest_common p la lb ->
  to_grid_index_3d c (ops c Dim3D k) a o = Ret (x, y, z) -> to_grid_index_3d c (ops c Dim3D k) b o = Ret (x', y', z') ->
  n <= len la -> n <= len lb ->
  (n <= len p <-> x / 2 ^ (len la - n) = x' / 2 ^ (len lb - n) /\ y / 2 ^ (len la - n) = y' / 2 ^ (len lb - n)
                  /\ z / 2 ^ (len la - n) = z' / 2 ^ (len lb - n)).
Proof.
  intros c L k e e' a b la lb p o x y z x' y' z' n Ma Mb Wa Wb P Ga Gb Na Nb.
  destruct (made_repr _ _ _ _ _ _ _ Ma) as [HD Ra]. destruct (made_repr _ _ _ _ _ _ _ Mb) as [_ Rb].
  rewrite (to_grid_index_3d_ok c k a o la Ra Wa) in Ga. rewrite (to_grid_index_3d_ok c k b o lb Rb Wb) in Gb.
  injection Ga as <- <- <-. injection Gb as <- <- <-. exact (common_grid3 o p la lb n P Na Nb).
Qed.
