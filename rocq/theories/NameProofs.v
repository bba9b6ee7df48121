(* NameProofs.v - names of indices, displayable slices, align_to *)
From Coq Require Import DecimalString DecimalN DecimalFacts.
From Verif Require Import Base ModelNumber ModelAlign ModelDim ModelStorage Model2D Model3D ModelHelper Spec BitProofs NumberProofs CellProofs StorageProofs GridProofs.

(* ---------- strings ---------- *)
Lemma string_app_assoc (a b d : string) : (a ++ (b ++ d) = (a ++ b) ++ d)%string.
Proof. induction a as [|x a IH]; cbn [String.append]; [reflexivity|]. rewrite IH. reflexivity. Qed.
Lemma string_app_nil (a : string) : (a ++ "" = a)%string.
Proof. induction a as [|x a IH]; cbn [String.append]; [reflexivity|]. rewrite IH. reflexivity. Qed.
Fixpoint no_dash (s : string) : Prop :=
  match s with EmptyString => True | String a s' => a <> "-"%char /\ no_dash s' end.
Lemma split_dash a b a' b' : no_dash a -> no_dash a' -> (a ++ "-" ++ b = a' ++ "-" ++ b')%string -> a = a' /\ b = b'.
Proof.
  revert a'. induction a as [|x a IH]; intros [|x' a'] H H'; cbn [String.append no_dash] in *.
  - intros E. injection E as <-. auto.
  - intros E. injection E as <- _. tauto.
  - intros E. injection E as -> _. tauto.
  - intros E. injection E as <- E. destruct (IH a' (proj2 H) (proj2 H') E) as [-> ->]. auto.
Qed.
Lemma no_dash_uint d : no_dash (NilEmpty.string_of_uint d).
Proof. induction d; cbn; auto; split; auto; discriminate. Qed.
Lemma no_dash_decimal n : no_dash (decimal n).
Proof.
  unfold decimal, NilZero.string_of_uint. destruct (N.to_uint n); try apply no_dash_uint. cbn. split; [discriminate|exact I].
Qed.
Lemma decimal_inj n m : decimal n = decimal m -> n = m.
Proof.
  unfold decimal. intros E. apply DecimalN.Unsigned.to_uint_inj.
  assert (H : forall k, N.to_uint k <> Decimal.Nil) by (intro k; destruct k; [discriminate|apply DecimalPos.Unsigned.to_uint_nonnil]).
  pose proof (NilZero.usu (N.to_uint n) (H n)) as A. pose proof (NilZero.usu (N.to_uint m) (H m)) as B. congruence.
Qed.

(* ---------- cell concatenation ---------- *)
Lemma digit_decimal i : i < 8 -> exists a, from_digit10 (cast 32 i) = Some a /\ decimal i = String a EmptyString.
Proof.
  intros H. assert (i = 0 \/ i = 1 \/ i = 2 \/ i = 3 \/ i = 4 \/ i = 5 \/ i = 6 \/ i = 7) as E by lia.
  repeat (destruct E as [E|E]; [subst; eexists; split; vm_compute; reflexivity|]). subst; eexists; split; vm_compute; reflexivity.
Qed.
Lemma concat_nil_cons a l : String.concat "" (a :: l) = (a ++ String.concat "" l)%string.
Proof. destruct l; cbn [String.concat]; [rewrite string_app_nil; reflexivity|reflexivity]. Qed.
Lemma cell_name_cons {D} (x : cell D) l : cell_name (x :: l) = (decimal (cell_index D x) ++ cell_name l)%string.
Proof. unfold cell_name. cbn [map]. apply concat_nil_cons. Qed.

Lemma cell_chars c D k s (l : list (cell D)) : dim_ok D -> repr c D k s l ->
  exists chars, mapM (fun level => let! x := st_get (ops c D k) s level in unwrap_opt (from_digit10 (cast 32 (cell_index D x))))
    (range 0 (len l)) = Ret chars /\ string_of_list_ascii chars = cell_name l.
Proof.
  intros HD H.
  set (f := fun level => let! x := st_get (ops c D k) s level in unwrap_opt (from_digit10 (cast 32 (cell_index D x)))).
  assert (F : forall i x, nth_error l (N.to_nat i) = Some x -> exists a, f i = Ret a /\ decimal (cell_index D x) = String a EmptyString).
  { intros i x Hi. destruct (digit_decimal (cell_index D x) (idx_lt8 D x HD)) as (a & A & B). exists a. split; [|exact B].
    unfold f. rewrite (raw_get _ _ _ _ _ _ _ _ _ _ HD H Hi), bind_ret, A. reflexivity. }
  clearbody f. clear H.
  assert (G : forall l2 i, (forall j x, nth_error l2 (N.to_nat j) = Some x -> exists a, f (i + j) = Ret a /\ decimal (cell_index D x) = String a EmptyString) ->
    exists chars, mapM f (range i (i + len l2)) = Ret chars /\ string_of_list_ascii chars = cell_name l2).
  { induction l2 as [|x l2 IH]; intros i Hi.
    - exists []. change (len (@nil (cell D))) with 0. rewrite N.add_0_r, range_nil by lia. split; reflexivity.
    - destruct (Hi 0 x eq_refl) as (a & A & B). rewrite N.add_0_r in A.
      destruct (IH (i + 1)) as (cs & C1 & C2).
      { intros j y Hj. destruct (Hi (j + 1) y) as (b & B1 & B2).
        - replace (N.to_nat (j + 1)) with (S (N.to_nat j)) by lia. exact Hj.
        - exists b. split; [|exact B2]. rewrite <- B1. f_equal. lia. }
      exists (a :: cs). replace (i + len (x :: l2)) with (i + 1 + len l2) by (rewrite len_cons; lia).
      rewrite range_cons by lia. cbn [mapM]. rewrite A, bind_ret. rewrite C1, bind_ret. split; [reflexivity|].
      cbn [string_of_list_ascii]. rewrite cell_name_cons, B, C2. reflexivity. }
  destruct (G l 0) as (cs & C1 & C2).
  - intros j x Hj. rewrite N.add_0_l. apply F. exact Hj.
  - exists cs. rewrite N.add_0_l in C1. auto.
Qed.
Lemma cell_concatenation_ok c D k s l : dim_ok D -> repr c D k s l -> cell_concatenation (ops c D k) s = Ret (cell_name l).
Proof.
  intros HD H. unfold cell_concatenation. rewrite (raw_depth _ _ _ _ _ _ _ _ H).
  destruct (cell_chars c D k s l HD H) as (cs & -> & E). rewrite bind_ret, E. reflexivity.
Qed.
Lemma cell_name_inj D (l l' : list (cell D)) : dim_ok D -> cell_name l = cell_name l' -> l = l'.
Proof.
  intros HD. revert l'. induction l as [|x l IH]; intros [|y l']; rewrite ?cell_name_cons.
  - auto.
  - destruct (digit_decimal _ (idx_lt8 D y HD)) as (b & _ & B). rewrite B. discriminate.
  - destruct (digit_decimal _ (idx_lt8 D x HD)) as (b & _ & B). rewrite B. discriminate.
  - intros E. assert (EE : decimal (cell_index D x) = decimal (cell_index D y) /\ cell_name l = cell_name l').
    { destruct (digit_decimal _ (idx_lt8 D x HD)) as (a & _ & A). destruct (digit_decimal _ (idx_lt8 D y HD)) as (b & _ & B).
      rewrite A, B in *. cbn [String.append] in E. injection E as -> E. auto. }
    destruct EE as [E1 E2]. apply decimal_inj in E1. apply (idx_inj D x y HD) in E1. subst y. f_equal. apply IH. exact E2.
Qed.

(* ---------- grid names ---------- *)
Lemma grid_name2_text l : grid_name2 l
  = (decimal (len l) ++ "-" ++ decimal (fst (grid2 XY l)) ++ "-" ++ decimal (snd (grid2 XY l)))%string.
Proof. unfold grid_name2. destruct (grid2 XY l) as [x y]. reflexivity. Qed.
Lemma grid_name3_text l : grid_name3 l
  = (decimal (len l) ++ "-" ++ decimal (fst (fst (grid3 XYZ l))) ++ "-" ++ decimal (snd (fst (grid3 XYZ l))) ++ "-" ++ decimal (snd (grid3 XYZ l)))%string.
Proof. unfold grid_name3. destruct (grid3 XYZ l) as [[x y] z]. reflexivity. Qed.
Lemma grid_name2_inj l l' : grid_name2 l = grid_name2 l' -> l = l'.
Proof.
  rewrite !grid_name2_text. intros E. apply split_dash in E; [|apply no_dash_decimal..]. destruct E as [E1 E].
  apply split_dash in E; [|apply no_dash_decimal..]. destruct E as [E2 E3].
  apply decimal_inj in E1. apply decimal_inj in E2. apply decimal_inj in E3.
  apply (path_to2_unique XY (len l) (fst (grid2 XY l)) (snd (grid2 XY l))); [apply path_to2_own|].
  rewrite E1, E2, E3. apply path_to2_own.
Qed.
Lemma grid_name3_inj l l' : grid_name3 l = grid_name3 l' -> l = l'.
Proof.
  rewrite !grid_name3_text. intros E. apply split_dash in E; [|apply no_dash_decimal..]. destruct E as [E1 E].
  apply split_dash in E; [|apply no_dash_decimal..]. destruct E as [E2 E]. apply split_dash in E; [|apply no_dash_decimal..]. destruct E as [E3 E4].
  apply decimal_inj in E1. apply decimal_inj in E2. apply decimal_inj in E3. apply decimal_inj in E4.
  apply (path_to3_unique XYZ (len l) (fst (fst (grid3 XYZ l))) (snd (fst (grid3 XYZ l))) (snd (grid3 XYZ l))); [apply path_to3_own|].
  rewrite E1, E2, E3, E4. apply path_to3_own.
Qed.
Lemma to_string_2d_ok c k s l n : repr c Dim2D k s l -> (n = GridIndex -> len l <= usize_bits c) ->
  to_string_2d c (ops c Dim2D k) s n = Ret (match n with
    | CellConcatenation => cell_name (D:=Dim2D) l | CellConcatenationWithRoot => "r" ++ cell_name (D:=Dim2D) l
    | GridIndex => grid_name2 l end)%string.
Proof.
  intros H Hn. destruct n; cbn [to_string_2d].
  - apply (cell_concatenation_ok c Dim2D k s l dim2_ok H).
  - rewrite (cell_concatenation_ok c Dim2D k s l dim2_ok H). reflexivity.
  - change quadrant_ordering_default with XY. rewrite (to_grid_index_2d_ok c k s XY l H (Hn eq_refl)), bind_ret.
    rewrite (raw_depth _ _ _ _ _ _ _ _ H). rewrite grid_name2_text. destruct (grid2 XY l) as [x y]. reflexivity.
Qed.
Lemma to_string_3d_ok c k s l n : repr c Dim3D k s l -> (n = GridIndex -> len l <= usize_bits c) ->
  to_string_3d c (ops c Dim3D k) s n = Ret (match n with
    | CellConcatenation => cell_name (D:=Dim3D) l | CellConcatenationWithRoot => "r" ++ cell_name (D:=Dim3D) l
    | GridIndex => grid_name3 l end)%string.
Proof.
  intros H Hn. destruct n; cbn [to_string_3d].
  - apply (cell_concatenation_ok c Dim3D k s l dim3_ok H).
  - rewrite (cell_concatenation_ok c Dim3D k s l dim3_ok H). reflexivity.
  - change octant_ordering_default with XYZ. rewrite (to_grid_index_3d_ok c k s XYZ l H (Hn eq_refl)), bind_ret.
    rewrite (raw_depth _ _ _ _ _ _ _ _ H). rewrite grid_name3_text. destruct (grid3 XYZ l) as [[x y] z]. reflexivity.
Qed.

(* ---------- displayable slices ---------- *)
Section Display.
  Context {T : Type}.
  Variable c : cfg.
  Variable to_string : T -> naming -> outcome string.
  Variable name : T -> naming -> string.
  Lemma display_loop n (total : N) (l : list T) i out :
    (forall x, In x l -> to_string x n = Ret (name x n)) -> i + len l = total ->
    foldM (fun out im => let '(idx, morton) := im in
      let! nm := to_string morton n in
      let out := (out ++ nm)%string in
      let! last := sub c (usize_bits c) total 1 in
      Ret (if idx <? last then (out ++ ", ")%string else out)) (enum_from i l) out
    = Ret (out ++ String.concat ", " (map (fun x => name x n) l))%string.
  Proof.
    set (f := fun (out : string) (im : N * T) => _).
    revert i out. induction l as [|x l IH]; intros i out HN Ht.
    - cbn. rewrite string_app_nil. reflexivity.
    - rewrite len_cons in Ht. cbn [enum_from foldM].
      assert (E : f out (i, x) = Ret (if (i <? total - 1)%N then (out ++ name x n) ++ ", " else out ++ name x n)%string).
      { unfold f. rewrite HN by (left; reflexivity). rewrite bind_ret. cbv zeta. rewrite sub_ok by lia. reflexivity. }
      rewrite E, bind_ret.
      rewrite IH by (try lia; intros y Hy; apply HN; right; exact Hy). f_equal. destruct l as [|y l].
      + change (len (@nil T)) with 0 in *. destruct (N.ltb_spec i (total - 1)); [lia|]. cbn. rewrite string_app_nil. reflexivity.
      + rewrite len_cons in Ht. destruct (N.ltb_spec i (total - 1)); [|lia]. cbn [map String.concat]. rewrite <- !string_app_assoc. reflexivity.
  Qed.
  Lemma display_ok l n : (forall x, In x l -> to_string x n = Ret (name x n)) ->
    display_fmt c to_string (make_displayable l n) = Ret ("[" ++ String.concat ", " (map (fun x => name x n) l) ++ "]")%string.
  Proof.
    intros HN. unfold display_fmt, make_displayable. cbn [di_indices di_naming]. unfold enumerate.
    assert (E := display_loop n (len l) l 0 "["%string HN ltac:(lia)). cbv zeta in E |- *. rewrite E, bind_ret, string_app_assoc. reflexivity.
  Qed.
End Display.
Lemma slice_eq_iff {T} (eqb : T -> T -> bool) (l l' : list T) :
  slice_eq eqb l l' = true <-> Forall2 (fun x y => eqb x y = true) l l'.
Proof.
  revert l'. induction l as [|x l IH]; intros [|y l']; cbn [slice_eq]; split; intros H; try discriminate; try (inversion H; fail); auto.
  - apply andb_true_iff in H. constructor; [tauto|]. apply IH. tauto.
  - inversion H; subst. apply andb_true_iff. split; [assumption|]. apply IH. assumption.
Qed.

(* ---------- align_to ---------- *)
Lemma align_ok c t x a : x < 2 ^ BITS c t -> 0 < a -> x + a <= 2 ^ BITS c t - 1 -> 
  exists r, align_to c t x a = Ret r /\ rounded_up x a r.
Proof.
  intros Hx Ha Hxa. unfold align_to. destruct (N.eqb_spec a 0); [lia|].
  rewrite add_ok by lia. rewrite bind_ret. rewrite sub_ok by lia. rewrite bind_ret.
  set (q := (x + a - 1) / a). assert (Hq : q * a <= x + a - 1 /\ x + a - 1 < q * a + a).
  { unfold q. pose proof (N.div_mod (x + a - 1) a). pose proof (N.mod_lt (x + a - 1) a). nia. }
  rewrite mul_ok by nia. exists (q * a). split; [reflexivity|]. split; [exists q; reflexivity|]. split; [lia|].
  intros q' Hq'. destruct (N.le_gt_cases q q'); [nia|]. assert (q' + 1 <= q) by lia. nia.
Qed.
Lemma align_zero c t x : align_to c t x 0 = Ret x.
Proof. reflexivity. Qed.
(* with overflow checks align_to panics as soon as x + alignment does not fit *)
Lemma align_panic c t x a : 0 < a -> 2 ^ BITS c t <= x + a -> overflow_checks c = true -> align_to c t x a = Panic.
Proof.
  intros Ha H Hc. unfold align_to. destruct (N.eqb_spec a 0); [lia|]. unfold add at 1. rewrite Hc.
  destruct (N.ltb_spec (x + a) (2 ^ BITS c t)); [lia|reflexivity].
Qed.
