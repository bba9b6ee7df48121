(* HistoryProofs.v - every history of API calls behaves like a list of cells *)
From Verif Require Import Base ModelNumber ModelDim ModelStorage Model2D Model3D Spec History BitProofs NumberProofs VecProofs CellProofs StorageProofs OrderProofs ConvProofs GridProofs Grid2DProofs Grid3DProofs.

Local Notation zero_cells D n := (repeat (cell_zero D) (N.to_nat n)).

(* s represents l; exactly (e = true), or with arbitrary bits behind the path and at most one superfluous byte *)
Definition rep (c : cfg) (D : Dimension) (k : kind) (e : bool) (s : storage k) (l : list (cell D)) : Prop :=
  if e then canon c D k s l else repr c D k s l /\ width c k s <= min_width D k c (len l) + 8.

Lemma rep_repr c D k e s l : rep c D k e s l -> repr c D k s l.
Proof. destruct e; cbn [rep]; [apply canon_repr|tauto]. Qed.
Lemma rep_width c D k e s l : rep c D k e s l -> width c k s <= min_width D k c (len l) + 8.
Proof. destruct e; cbn [rep]; [|tauto]. intros H. rewrite (raw_width _ _ _ _ _ _ _ _ H). lia. Qed.
Lemma rep_raw c D k e s l : rep c D k e s l ->
  exists w r, raw c D k (len l) w r s l
    /\ forall s' l', len l' = len l -> raw c D k (len l) w r s' l' -> rep c D k e s' l'.
Proof.
  destruct e; cbn [rep].
  - intros H. exists (min_width D k c (len l)), 0. split; [exact H|]. intros s' l' E R. unfold canon. rewrite E. exact R.
  - intros [H W]. exists (width c k s), (rest D (width c k s) (num k s) (len l)). split; [exact H|].
    intros s' l' E R. rewrite <- E in R at 1. split; [eapply raw_repr; exact R|]. rewrite (raw_width _ _ _ _ _ _ _ _ R), E. exact W.
Qed.
Lemma update_firstn_skipn {A} (l : list A) i x : (i < List.length l)%nat -> update l i x = firstn i l ++ x :: skipn (i + 1) l.
Proof.
  revert i. induction l as [|y l IH]; intros i Hi; cbn [List.length] in Hi; [lia|].
  destruct i; cbn [update firstn skipn Nat.add app]; [reflexivity|]. f_equal. apply IH. lia.
Qed.
Lemma len_update_at {A} (l : list A) i (x : A) : i < len l -> len (firstn (N.to_nat i) l ++ x :: skipn (N.to_nat i + 1) l) = len l.
Proof.
  intros H. unfold len in *. rewrite app_length. cbn [List.length]. rewrite firstn_length, skipn_length. lia.
Qed.

(* ---------- single calls ---------- *)
Lemma rep_set c D k e s l i x : dim_ok D -> rep c D k e s l -> i < len l ->
  exists s', set_cell_at_level (ops c D k) s i x = Ret s'
    /\ rep c D k e s' (firstn (N.to_nat i) l ++ stored c D k x :: skipn (N.to_nat i + 1) l).
Proof.
  intros HD H Hi. destruct (rep_raw _ _ _ _ _ _ H) as (w & r & R & K).
  destruct (raw_set_w c D k _ _ _ s l i x HD R Hi) as (s' & E & R').
  exists s'. unfold set_cell_at_level. rewrite (raw_depth _ _ _ _ _ _ _ _ R).
  destruct (N.leb_spec (len l) i); [lia|]. split; [exact E|].
  rewrite <- update_firstn_skipn by (unfold len in Hi; lia). apply K; [|exact R'].
  rewrite update_firstn_skipn by (unfold len in Hi; lia). apply len_update_at. exact Hi.
Qed.
Lemma set_panics c D k s l i x : repr c D k s l -> len l <= i -> set_cell_at_level (ops c D k) s i x = Panic.
Proof.
  intros R Hi. unfold set_cell_at_level. rewrite (raw_depth _ _ _ _ _ _ _ _ R). destruct (N.leb_spec (len l) i); [reflexivity|lia].
Qed.
Lemma rep_inverted c D k e s l : dim_ok D -> rep c D k e s l ->
  exists s', inverted c (ops c D k) s = Ret s' /\ rep c D k e s' (rev (map (stored c D k) l)).
Proof.
  intros HD H. destruct (rep_raw _ _ _ _ _ _ H) as (w & r & R & K).
  destruct (inverted_raw_w c D k w r s l HD R) as (s' & E & R'). exists s'. split; [exact E|].
  apply K; [|exact R']. unfold len. rewrite rev_length, map_length. reflexivity.
Qed.

Lemma static_min_width c D t n : min_width D (KStatic t) c n = BITS c t.
Proof. reflexivity. Qed.
Lemma rep_static_false c D t s l : repr c D (KStatic t) s l -> rep c D (KStatic t) false s l.
Proof. intros H. split; [exact H|]. cbn [width min_width]. lia. Qed.
Lemma rep_fixed_false c D t s l : repr c D (KFixed t) s l -> rep c D (KFixed t) false s l.
Proof. intros H. split; [exact H|]. cbn [width min_width]. lia. Qed.

Lemma static_room c D t s l : dim_ok D -> repr c D (KStatic t) s l -> len l <= MAX_LEVELS c D t.
Proof.
  intros HD H. apply max_levels_ge; [exact HD|]. destruct (raw_holds _ _ _ _ _ _ _ _ H) as (_ & B & _). exact B.
Qed.

(* ancestor *)
Lemma rep_ancestor c D L k v e s l g : is_dim D L -> var_ops c D L k = Some v -> rep c D k e s l -> g <= len l ->
  exists s', ancestor v s g = Ret (Some s') /\ rep c D k e s' (firstn (N.to_nat (len l - g)) l).
Proof.
  intros HD HV H Hg. pose proof (is_dim_ok _ _ HD) as HO. destruct k as [t|t|]; cbn [var_ops] in HV; [discriminate| |]; injection HV as <-;
    unfold ancestor; cbn [vo_ancestor static_vops dynamic_vops].
  - destruct e.
    + apply static_ancestor_canon; assumption.
    + destruct (static_ancestor_repr c D t s l g HO (rep_repr _ _ _ _ _ _ H) Hg) as (s' & E & R).
      exists s'. split; [exact E|]. apply rep_static_false. exact R.
  - destruct e.
    + apply (dynamic_ancestor_canon c D); assumption.
    + destruct (dynamic_ancestor_gen c D L s l g HD (rep_repr _ _ _ _ _ _ H) Hg) as (s' & E & R & B & _).
      exists s'. split; [exact E|]. split; [exact R|]. destruct H as [_ W]. cbn [width min_width] in *.
      rewrite len_firstn by lia. fold (nbytes D (len l)) in W. fold (nbytes D (len l - g)).
      pose proof (nbytes_le D (len l - g) (len l)). lia.
Qed.
Lemma ancestor_none c D L k v s l g : var_ops c D L k = Some v -> repr c D k s l -> len l < g -> ancestor v s g = Ret None.
Proof.
  intros HV H Hg. pose proof (raw_depth _ _ _ _ _ _ _ _ H) as Hd. destruct k as [t|t|]; cbn [var_ops] in HV; [discriminate| |]; injection HV as <-;
    unfold ancestor; cbn [vo_ancestor static_vops dynamic_vops]; cbn [st_depth ops static_ops dynamic_ops] in Hd.
  - unfold static_ancestor. rewrite Hd. destruct (N.ltb_spec (len l) g); [reflexivity|lia].
  - unfold dynamic_ancestor. rewrite Hd. destruct (N.ltb_spec (len l) g); [reflexivity|lia].
Qed.
Lemma rep_with_depth c D L k v e s l n : is_dim D L -> var_ops c D L k = Some v -> rep c D k e s l -> n <= len l ->
  exists s', with_depth c v s n = Ret (Some s') /\ rep c D k e s' (firstn (N.to_nat n) l).
Proof.
  intros HD HV H Hn. pose proof (rep_repr _ _ _ _ _ _ H) as R. pose proof (raw_depth _ _ _ _ _ _ _ _ R) as Hd.
  assert (E : st_depth (vo_ops v) s = len l).
  { destruct k as [t|t|]; cbn [var_ops] in HV; [discriminate| |]; injection HV as <-; exact Hd. }
  unfold with_depth. rewrite E. destruct (N.ltb_spec (len l) n); [lia|]. rewrite sub_ok by lia. rewrite bind_ret.
  destruct (N.eqb_spec (len l - n) 0) as [Z|Z].
  - exists s. split; [reflexivity|]. assert (n = len l) by lia. subst n. rewrite to_nat_len, firstn_all. exact H.
  - destruct (rep_ancestor c D L k v e s l (len l - n) HD HV H) as (s' & E' & R'); [lia|].
    exists s'. split; [exact E'|]. replace (len l - (len l - n)) with n in R' by lia. exact R'.
Qed.
Lemma with_depth_none c D L k v s l n : var_ops c D L k = Some v -> repr c D k s l -> len l < n -> with_depth c v s n = Ret None.
Proof.
  intros HV R Hn. pose proof (raw_depth _ _ _ _ _ _ _ _ R) as Hd.
  assert (E : st_depth (vo_ops v) s = len l).
  { destruct k as [t|t|]; cbn [var_ops] in HV; [discriminate| |]; injection HV as <-; exact Hd. }
  unfold with_depth. rewrite E. destruct (N.ltb_spec (len l) n); [reflexivity|lia].
Qed.

(* descendant *)
Lemma rep_static_descendant c D t e s l cells : dim_ok D -> rep c D (KStatic t) e s l ->
  len l + len cells <= MAX_LEVELS c D t ->
  exists s', static_descendant c D t s cells = Ret (Some s') /\ rep c D (KStatic t) e s' (l ++ cells).
Proof.
  intros HD H Hn. destruct e.
  - destruct (static_descendant_gen c D t s l cells 0 HD Hn H) as (s' & E & _ & C). exists s'. split; [exact E|]. apply C. reflexivity.
  - destruct (static_descendant_gen c D t s l cells _ HD Hn (rep_repr _ _ _ _ _ _ H)) as (s' & E & R & _).
    exists s'. split; [exact E|]. apply rep_static_false. exact R.
Qed.
Lemma static_descendant_none c D t s l cells : dim_ok D -> repr c D (KStatic t) s l -> len cells < 2 ^ (usize_bits c - 1) ->
  MAX_LEVELS c D t < len l + len cells -> static_descendant c D t s cells = Ret None.
Proof.
  intros HD H Hc Hn. pose proof (static_room _ _ _ _ _ HD H) as Hl. pose proof (max_levels_le c D t HD) as H128.
  pose proof (raw_depth _ _ _ _ _ _ _ _ H) as Hd. cbn [st_depth ops static_ops] in Hd.
  unfold static_descendant. rewrite Hd. rewrite add_ok.
  - rewrite bind_ret. destruct (N.ltb_spec (MAX_LEVELS c D t) (len l + len cells)); [reflexivity|lia].
  - assert (E : 2 ^ usize_bits c = 2 * 2 ^ (usize_bits c - 1)).
    { pose proof (usize_ge16 c). rewrite <- N.pow_succ_r'. f_equal. lia. }
    assert (2 ^ 15 <= 2 ^ (usize_bits c - 1)) by (apply pow2_le_mono; pose proof (usize_ge16 c); lia).
    change (2 ^ 15) with 32768 in *. lia.
Qed.
Lemma rep_dynamic_descendant c D L e s l cells : is_dim D L -> rep c D KDynamic e s l ->
  dim D * (len l + len cells) + 24 <= 2 ^ usize_bits c ->
  exists s', dynamic_descendant c D L s cells = Ret (Some s') /\ rep c D KDynamic e s' (l ++ map (stored c D KDynamic) cells).
Proof.
  intros HD H Hn. pose proof (rep_width _ _ _ _ _ _ H) as W. cbn [width min_width] in W. fold (nbytes D (len l)) in W.
  pose proof (nbytes_le D (len l) (len l + len cells)) as NL. destruct (nbytes_fit D (len l + len cells)) as [F1 F2].
  destruct (dynamic_descendant_w c D L s l cells HD) as (s' & E & R & C & B).
  - clear - W NL F1 F2 Hn. assert (nbytes D (len l) <= nbytes D (len l + len cells)) by (apply NL; lia). clear NL. lia.
  - exact (rep_repr _ _ _ _ _ _ H).
  - exists s'. split; [exact E|]. destruct e; [apply C; exact H|].
    split; [exact R|]. cbn [width min_width]. rewrite len_app, len_map. fold (nbytes D (len l + len cells)).
    rewrite B. clear - W NL. assert (nbytes D (len l) <= nbytes D (len l + len cells)) by (apply NL; lia). clear NL. lia.
Qed.

(* ---------- conversions ---------- *)
Lemma rep_static_from_fixed c D t e s l : dim_ok D -> rep c D (KFixed t) e s l -> rep c D (KStatic t) e (static_from_fixed c D t s) l.
Proof.
  intros HD H. destruct e.
  - apply static_from_fixed_canon; assumption.
  - apply rep_static_false. apply static_from_fixed_repr; [exact HD|]. exact (rep_repr _ _ _ _ _ _ H).
Qed.
Lemma rep_dynamic_from_fixed c D L t e s l : is_dim D L -> rep c D (KFixed t) e s l -> rep c D KDynamic e (dynamic_from_fixed c D t s) l.
Proof.
  intros HD H. destruct (dynamic_from_fixed_repr c D L t s l HD (rep_repr _ _ _ _ _ _ H)) as [R C].
  destruct e; [apply C; exact H|]. split; [exact R|].
  pose proof (rep_repr _ _ _ _ _ _ H) as R0.
  assert (B : len (dy_bits (dynamic_from_fixed c D t s)) = num_size c t).
  { rewrite dynamic_from_fixed_bits by exact (raw_sane _ _ _ _ _ _ _ _ R0). rewrite len_to_le_bytes. apply num_size_of. }
  cbn [width min_width]. rewrite B. fold (nbytes D (len l)).
  pose proof (raw_depth _ _ _ _ _ _ _ _ R0) as Hd. cbn [st_depth ops fixed_ops] in Hd. rewrite <- Hd.
  rewrite (max_levels_bytes c D L t HD). lia.
Qed.

(* ---------- one call ---------- *)
Lemma uty_eqb_eq a b : uty_eqb a b = true -> a = b.
Proof. destruct a, b; cbn; congruence. Qed.
Lemma little_endian_ok c : little_endian c = true -> target_endian c = LittleEndian.
Proof. unfold little_endian. destruct (target_endian c); [discriminate|reflexivity]. Qed.

Definition ok_step (c : cfg) (D : Dimension) (r : outcome (index * answer D)) (x : expect (view D * answer D)) : Prop :=
  match x with
  | Done (v, a) => exists s, r = Ret (pack (v_kind v) s, a) /\ rep c D (v_kind v) (v_exact v) s (v_path v)
  | MustPanic => r = Panic
  | NoClaim => True
  end.

Lemma step_append c D L k e s l cells : is_dim D L -> rep c D k e s l ->
  ok_step c D (with_var c L k s (fun v => descendant v s cells)) (spec_append c (View k e l) cells).
Proof.
  intros HD H. pose proof (is_dim_ok _ _ HD) as HO. unfold spec_append. cbn [v_kind v_path v_exact]. destruct k as [t|t|]; [exact I| |].
  - destruct (N.leb_spec (2 ^ (usize_bits c - 1)) (len cells)); [exact I|].
    unfold room, capacity. fold (MAX_LEVELS c D t). destruct (N.leb_spec (len l + len cells) (MAX_LEVELS c D t)) as [F|F].
    + destruct (rep_static_descendant c D t e s l cells HO H F) as (s' & E & R).
      unfold with_var, var_ops, on_option, descendant. cbn [vo_descendant static_vops storage]. rewrite E.
      exists s'. split; [reflexivity|exact R].
    + unfold with_var, var_ops, on_option, descendant. cbn [vo_descendant static_vops storage].
      rewrite (static_descendant_none c D t s l cells HO (rep_repr _ _ _ _ _ _ H)) by assumption.
      exists s. split; [reflexivity|exact H].
  - unfold room, capacity.
    destruct (N.leb_spec (dim D * (len l + len cells) + 24) (2 ^ usize_bits c)) as [F|F]; [|exact I].
    destruct (rep_dynamic_descendant c D L e s l cells HD H F) as (s' & E & R).
    unfold with_var, var_ops, on_option, descendant. cbn [vo_descendant dynamic_vops storage andb]. rewrite E.
    exists s'. split; [reflexivity|exact R].
Qed.
Lemma step_up c D L k e s l g : is_dim D L -> rep c D k e s l ->
  ok_step c D (with_var c L k s (fun v => ancestor v s g)) (spec_up (View k e l) g).
Proof.
  intros HD H. unfold spec_up, spec_truncate, with_var. cbn [v_kind v_path].
  destruct (var_ops c D L k) as [v|] eqn:HV; [|destruct k; cbn in HV; try discriminate; exact I].
  assert (G : ok_step c D (on_option s (ancestor v s g)) (if g =? 0 then NoClaim else if len l <? g then rejected (View k e l)
     else changed (View k e l) (firstn (N.to_nat (len l - g)) l))).
  { destruct (g =? 0); [exact I|]. destruct (N.ltb_spec (len l) g) as [F|F].
    - unfold on_option. rewrite (ancestor_none c D L k v s l g HV (rep_repr _ _ _ _ _ _ H) F). exists s. split; [reflexivity|exact H].
    - destruct (rep_ancestor c D L k v e s l g HD HV H F) as (s' & E & R). unfold on_option. rewrite E.
      exists s'. split; [reflexivity|exact R]. }
  destruct k; [exact I|exact G|exact G].
Qed.
Lemma step_with_depth c D L k e s l n : is_dim D L -> rep c D k e s l ->
  ok_step c D (with_var c L k s (fun v => with_depth c v s n)) (step_spec c (View k e l) (CWithDepth n)).
Proof.
  intros HD H. unfold step_spec, spec_truncate, with_var. cbn [v_kind v_path].
  destruct (var_ops c D L k) as [v|] eqn:HV; [|destruct k; cbn in HV; try discriminate; exact I].
  assert (G : ok_step c D (on_option s (with_depth c v s n)) (if len l <? n then rejected (View k e l)
     else changed (View k e l) (firstn (N.to_nat n) l))).
  { destruct (N.ltb_spec (len l) n) as [F|F].
    - unfold on_option. rewrite (with_depth_none c D L k v s l n HV (rep_repr _ _ _ _ _ _ H) F). exists s. split; [reflexivity|exact H].
    - destruct (rep_with_depth c D L k v e s l n HD HV H F) as (s' & E & R). unfold on_option. rewrite E.
      exists s'. split; [reflexivity|exact R]. }
  destruct k; [exact I|exact G|exact G].
Qed.
Lemma num_size_8' c t : BITS c t / 8 = num_size c t.
Proof. reflexivity. Qed.

Lemma step_to_fixed c D L k e s l t : is_dim D L -> rep c D k e s l ->
  ok_step c D (to_fixed c t k s) (step_spec c (View k e l) (CToFixed t)).
Proof.
  intros HD H. pose proof (is_dim_ok _ _ HD) as HO. unfold step_spec. cbn [v_kind v_path v_exact].
  destruct k as [t'|t'|]; cbn [to_fixed]; [exact I| |].
  - destruct (uty_eqb t t') eqn:E; [|exact I]. apply uty_eqb_eq in E. subst t'. cbn [andb]. destruct e; [|exact I].
    exists (fixed_from_static s). split; [reflexivity|]. apply fixed_from_static_canon; assumption.
  - fold (MAX_LEVELS c D t). destruct (N.ltb_spec (MAX_LEVELS c D t) (len l)) as [F|F].
    + pose proof (raw_depth _ _ _ _ _ _ _ _ (rep_repr _ _ _ _ _ _ H)) as Hd. cbn [st_depth ops dynamic_ops] in Hd.
      unfold fixed_from_dynamic. rewrite Hd. destruct (N.ltb_spec (MAX_LEVELS c D t) (len l)); [|lia].
      exists s. split; [reflexivity|exact H].
    + destruct e; [|exact I]. destruct (little_endian c) eqn:HW; [|exact I]. cbn [andb].
      destruct (N.eqb_spec ((dim D * len l + 7) / 8) (BITS c t / 8)) as [B|B]; [|exact I].
      apply little_endian_ok in HW. cbn [rep] in H.
      destruct (fixed_from_dynamic_same c D t s l HO (canon_repr _ _ _ _ _ H) F HW) as (s' & E & _ & C).
      { pose proof (raw_width _ _ _ _ _ _ _ _ H) as W. cbn [width min_width] in W. rewrite num_size_8' in B. lia. }
      rewrite E. exists s'. split; [reflexivity|]. apply C. exact H.
Qed.
Lemma step_to_static c D L k e s l t : is_dim D L -> rep c D k e s l ->
  ok_step c D (to_static c t k s) (step_spec c (View k e l) (CToStatic t)).
Proof.
  intros HD H. pose proof (is_dim_ok _ _ HD) as HO. unfold step_spec. cbn [v_kind v_path v_exact].
  destruct k as [t'|t'|]; cbn [to_static]; [|exact I|].
  - destruct (uty_eqb t t') eqn:E; [|exact I]. apply uty_eqb_eq in E. subst t'.
    exists (static_from_fixed c D t s). split; [reflexivity|]. apply rep_static_from_fixed; assumption.
  - fold (MAX_LEVELS c D t). destruct (N.ltb_spec (MAX_LEVELS c D t) (len l)) as [F|F].
    + pose proof (raw_depth _ _ _ _ _ _ _ _ (rep_repr _ _ _ _ _ _ H)) as Hd. cbn [st_depth ops dynamic_ops] in Hd.
      unfold static_from_dynamic. rewrite Hd. destruct (N.ltb_spec (MAX_LEVELS c D t) (len l)); [|lia].
      exists s. split; [reflexivity|exact H].
    + destruct (static_from_dynamic_ok c D t s l HO (rep_repr _ _ _ _ _ _ H) F) as (s' & E & C).
      rewrite E. exists s'. split; [reflexivity|exact C].
Qed.
Lemma step_to_dynamic c D L k e s l : is_dim D L -> rep c D k e s l ->
  ok_step c D (to_dynamic c L k s) (step_spec c (View k e l) CToDynamic).
Proof.
  intros HD H. unfold step_spec. cbn [v_kind v_path v_exact]. destruct k as [t'|t'|]; cbn [to_dynamic]; [| |exact I].
  - exists (dynamic_from_fixed c D t' s). split; [reflexivity|]. apply (rep_dynamic_from_fixed c D L); assumption.
  - destruct (dynamic_from_static_w c D L t' s l HD (rep_repr _ _ _ _ _ _ H)) as (s' & E & C).
    rewrite E. exists s'. split; [reflexivity|exact C].
Qed.

Lemma step_ok c D L k e s l o : is_dim D L -> rep c D k e s l ->
  ok_step c D (step_model c L (pack k s) o) (step_spec c (View k e l) o).
Proof.
  intros HD H. pose proof (is_dim_ok _ _ HD) as HO. pose proof (rep_repr _ _ _ _ _ _ H) as R.
  pose proof (repr_shows c D k s l HO R) as [Sd Sg].
  unfold step_model. cbn [projT1 projT2 pack]. destruct o; cbn [step_spec v_path v_kind v_exact].
  - rewrite Sg. destruct (nth_error l (N.to_nat level)) as [x|]; cbn [ok_step]; [|reflexivity].
    exists s. split; [reflexivity|exact H].
  - destruct (N.ltb_spec level (len l)) as [F|F].
    + destruct (rep_set c D k e s l level x HO H F) as (s' & E & R'). rewrite E. exists s'. split; [reflexivity|exact R'].
    + cbn [ok_step]. rewrite (set_panics c D k s l level x R F). reflexivity.
  - rewrite (collect_cells_ok c D k s l HO R). exists s. split; [reflexivity|exact H].
  - apply step_append; assumption.
  - apply step_append; assumption.
  - apply step_up; assumption.
  - apply step_up; assumption.
  - apply step_with_depth; assumption.
  - destruct (rep_inverted c D k e s l HO H) as (s' & E & R'). rewrite E. exists s'. split; [reflexivity|exact R'].
  - apply (step_to_fixed c D L); assumption.
  - apply (step_to_static c D L); assumption.
  - apply step_to_dynamic; assumption.
Qed.

(* ---------- histories ---------- *)
Lemma run_rep c D L h : is_dim D L -> forall k e s l, rep c D k e s l ->
  match run_spec c (View k e l) h with
  | Done (v, answers) => exists s', run_model c L (pack k s) h = Ret (pack (v_kind v) s', answers)
      /\ rep c D (v_kind v) (v_exact v) s' (v_path v)
  | MustPanic => run_model c L (pack k s) h = Panic
  | NoClaim => True
  end.
Proof.
  intros HD. induction h as [|o h IH]; intros k e s l H.
  - cbn [run_spec run_model]. exists s. split; [reflexivity|exact H].
  - cbn [run_spec run_model]. pose proof (step_ok c D L k e s l o HD H) as S.
    destruct (step_spec c (View k e l) o) as [[v a]| |]; cbn [ok_step] in S; [| |exact I].
    + destruct S as (s1 & E & R). rewrite E, bind_ret. cbn [fst snd]. destruct v as [k1 e1 l1]. cbn [v_kind v_exact v_path] in *.
      specialize (IH k1 e1 s1 l1 R). destruct (run_spec c (View k1 e1 l1) h) as [[v2 al]| |]; [| |exact I].
      * destruct IH as (s2 & E2 & R2). rewrite E2. exists s2. split; [reflexivity|exact R2].
      * rewrite IH. reflexivity.
    + rewrite S. reflexivity.
Qed.

(* ---------- constructors ---------- *)
Lemma fixed_default_canon c D t : dim_ok D -> canon c D (KFixed t) fixed_default (zero_cells D (MAX_LEVELS c D t)).
Proof.
  intros HD. destruct (fixed_try_from_ok c D t [] HD) as (s & E & C); [apply N.le_0_l|].
  unfold fixed_try_from in E. change (len (@nil (cell D))) with 0 in *. destruct (N.ltb_spec (MAX_LEVELS c D t) 0); [lia|].
  cbn in E. injection E as <-. rewrite N.sub_0_r in C. exact C.
Qed.
Lemma static_zero_canon c D t d : dim_ok D -> d <= MAX_LEVELS c D t -> canon c D (KStatic t) (MkStatic 0 d) (zero_cells D d).
Proof.
  intros HD Hd. assert (L : len (zero_cells D d) = d) by (rewrite len_repeat; lia).
  unfold canon. rewrite L. apply (raw_zero c D (KStatic t) (MkStatic 0 d) d HD).
  - apply pow2_pos.
  - reflexivity.
  - cbn [width]. apply max_levels_fit; assumption.
Qed.
Lemma static_zeroed_ok c D t d : dim_ok D -> d < 2 ^ 8 ->
  static_zeroed c D t d = if d <=? MAX_LEVELS c D t then Some (MkStatic 0 d) else None.
Proof.
  intros HD Hd. unfold static_zeroed. rewrite cast_small.
  - destruct (N.ltb_spec (MAX_LEVELS c D t) d), (N.leb_spec d (MAX_LEVELS c D t)); lia || reflexivity.
  - pose proof (pow2_usize_ge c). lia.
Qed.
Lemma dynamic_zeroed_2d_raw c d : 2 * d + 24 <= 2 ^ usize_bits c ->
  raw c Dim2D KDynamic d (8 * (d / 4 + 1)) 0 (dynamic_zeroed_2d d) (zero_cells Dim2D d).
Proof.
  intros H. apply dynamic_zero_raw; [exact dim2_ok| |]; cbn [dim Dim2D]; lia.
Qed.
Lemma dynamic_zeroed_2d_rep c d : 2 * d + 24 <= 2 ^ usize_bits c ->
  rep c Dim2D KDynamic (negb (d mod 4 =? 0)) (dynamic_zeroed_2d d) (zero_cells Dim2D d).
Proof.
  intros H. pose proof (dynamic_zeroed_2d_raw c d H) as R. assert (L : len (zero_cells Dim2D d) = d) by (rewrite len_repeat; lia).
  destruct (N.eqb_spec (d mod 4) 0) as [E|E]; cbn [negb rep].
  - rewrite <- L in R at 1. split; [eapply raw_repr; exact R|]. rewrite (raw_width _ _ _ _ _ _ _ _ R), L. cbn [min_width dim Dim2D]. lia.
  - unfold canon. rewrite L. cbn [min_width dim Dim2D]. replace ((2 * d + 7) / 8) with (d / 4 + 1) by lia. exact R.
Qed.
Lemma dynamic_zeroed_3d_ok c d : 3 * d + 24 <= 2 ^ usize_bits c ->
  exists s, dynamic_zeroed_3d c d = Ret s /\ canon c Dim3D KDynamic s (zero_cells Dim3D d).
Proof.
  intros H. unfold dynamic_zeroed_3d. rewrite mul_ok by lia. rewrite bind_ret. rewrite add_ok by lia. rewrite bind_ret.
  eexists. split; [reflexivity|]. assert (L : len (zero_cells Dim3D d) = d) by (rewrite len_repeat; lia).
  unfold canon. rewrite L. cbn [min_width dim Dim3D]. replace (d * 3) with (3 * d) by lia.
  apply dynamic_zero_raw; [exact dim3_ok| |]; cbn [dim Dim3D]; lia.
Qed.

Lemma ret_inj {A} (a b : A) : Ret a = Ret b -> a = b.
Proof. congruence. Qed.
Lemma ok_inj {A} (a b : A) : Ret (Ok a) = Ret (Ok b) -> a = b.
Proof. congruence. Qed.

Lemma starts_rep c D L k e s l : starts c D L k e s l -> is_dim D L /\ rep c D k e s l.
Proof.
  intros H. destruct H as [D L t HD|D L t HD|D L HD|D L t cells s HD E|D L t cells s HD E|D L cells s HD HW E
    |D L t d s HD Hd E|d Hd|d s Hd E|t x y o s l Hx Hy E P|t x y d o s l Hx Hy HM Hd E P|x y d o s l Hx Hy E P
    |t x y z o s l Hx Hy Hz HW HM E P|t x y z d o s l Hx Hy Hz HM E P|x y z d o s l Hx Hy Hz E P|t b l Hb P|t b d l Hb Hd P].
  - split; [exact HD|]. apply fixed_default_canon. exact (is_dim_ok _ _ HD).
  - split; [exact HD|]. apply (static_zero_canon c D t 0 (is_dim_ok _ _ HD)). apply N.le_0_l.
  - split; [exact HD|]. exact (canon_dynamic_default c D L HD).
  - split; [exact HD|]. pose proof (is_dim_ok _ _ HD) as HO.
    destruct (N.le_gt_cases (len cells) (MAX_LEVELS c D t)) as [F|F].
    + destruct (fixed_try_from_ok c D t cells HO F) as (s' & E' & C). rewrite E' in E. apply ok_inj in E. subst s'. exact C.
    + unfold fixed_try_from in E. destruct (N.ltb_spec (MAX_LEVELS c D t) (len cells)); [discriminate|lia].
  - split; [exact HD|]. pose proof (is_dim_ok _ _ HD) as HO.
    destruct (N.le_gt_cases (len cells) (MAX_LEVELS c D t)) as [F|F].
    + destruct (static_try_from_ok c D t cells HO F) as (s' & E' & C). rewrite E' in E. apply ok_inj in E. subst s'. exact C.
    + unfold static_try_from in E. destruct (N.ltb_spec (MAX_LEVELS c D t) (len cells)); [discriminate|lia].
  - split; [exact HD|]. destruct (dynamic_try_from_w c D L cells HD) as (s' & E' & C); [lia|].
    rewrite E' in E. apply ok_inj in E. subst s'. exact C.
  - split; [exact HD|]. pose proof (is_dim_ok _ _ HD) as HO. rewrite static_zeroed_ok in E by assumption.
    destruct (N.leb_spec d (MAX_LEVELS c D t)); [|discriminate]. injection E as <-. apply static_zero_canon; assumption.
  - split; [constructor|]. apply dynamic_zeroed_2d_rep; assumption.
  - split; [constructor|]. destruct (dynamic_zeroed_3d_ok c d Hd) as (s' & E' & C). rewrite E' in E. apply ret_inj in E. subst s'. exact C.
  - split; [constructor|]. destruct (N.le_gt_cases (MAX_LEVELS c Dim2D t) (usize_bits c)) as [F|F].
    + destruct (fixed_from_grid_2d_ok c t x y o F Hx Hy) as (s' & l' & E' & C & P').
      rewrite E' in E. apply ret_inj in E. subst s'. rewrite (path_to2_unique _ _ _ _ _ _ P P'). exact C.
    + rewrite fixed_from_grid_2d_panic in E by exact F. discriminate.
  - split; [constructor|]. destruct (N.le_gt_cases d (MAX_LEVELS c Dim2D t)) as [F|F].
    + destruct (static_from_grid_2d_ok c t x y d o HM Hx Hy F Hd) as (s' & l' & E' & C & P').
      rewrite E' in E. apply ok_inj in E. subst s'. rewrite (path_to2_unique _ _ _ _ _ _ P P'). exact C.
    + rewrite static_from_grid_2d_err in E by exact F. discriminate.
  - split; [constructor|]. destruct (N.le_gt_cases d (usize_bits c / 2)) as [F|F].
    + destruct (dynamic_from_grid_2d_ok c x y d o F Hx Hy) as (s' & l' & E' & C & P').
      rewrite E' in E. apply ret_inj in E. subst s'. rewrite (path_to2_unique _ _ _ _ _ _ P P'). exact C.
    + rewrite dynamic_from_grid_2d_panic in E by exact F. discriminate.
  - split; [constructor|]. destruct (fixed_from_grid_3d_ok c t x y z o HW HM) as (s' & l' & E' & C & P').
    rewrite E' in E. apply ret_inj in E. subst s'. rewrite (path_to3_unique _ _ _ _ _ _ _ P P'). exact C.
  - split; [constructor|]. destruct (N.le_gt_cases d (MAX_LEVELS c Dim3D t)) as [F|F].
    + destruct (static_from_grid_3d_gen c t x y z d o HM Hx Hy Hz F) as (s' & l' & E' & C & P').
      rewrite E' in E. apply ok_inj in E. subst s'.
      assert (Q : l = l'). { eapply (shows_unique (static_ops c Dim3D t)); [exact P|].
        apply (repr_shows c Dim3D (KStatic t) s l' dim3_ok). apply canon_repr. exact C. }
      rewrite Q. exact C.
    + rewrite static_from_grid_3d_err in E by exact F. discriminate.
  - split; [constructor|]. destruct (N.le_gt_cases d (usize_bits c / 2)) as [F|F].
    + destruct (dynamic_from_grid_3d_w c x y z d o F Hx Hy Hz) as (s' & l' & E' & C & P').
      rewrite E' in E. apply ret_inj in E. subst s'. rewrite (path_to3_unique _ _ _ _ _ _ _ P P'). exact C.
    + rewrite dynamic_from_grid_3d_panic in E by exact F. discriminate.
  - split; [constructor|]. apply rep_fixed_false. apply (valid_shows c Dim3D (KFixed t)); [exact dim3_ok|exact Hb|exact P].
  - split; [constructor|]. apply rep_static_false. apply (valid_shows c Dim3D (KStatic t)); [exact dim3_ok|split; assumption|exact P].
Qed.

Lemma made_rep c D L k e s l : made c D L k e s l -> is_dim D L /\ rep c D k e s l.
Proof.
  intros (k0 & e0 & s0 & l0 & h & answers & H0 & H1 & H2). destruct (starts_rep _ _ _ _ _ _ _ H0) as [HD R0].
  split; [exact HD|]. pose proof (run_rep c D L h HD k0 e0 s0 l0 R0) as Q. rewrite H1 in Q. cbn [v_kind v_exact v_path] in Q.
  destruct Q as (s' & E & R). rewrite E in H2. injection H2 as H2. apply Eqdep_dec.inj_pair2_eq_dec in H2.
  - subst s'. exact R.
  - decide equality; decide equality.
Qed.
Lemma made_repr c D L k e s l : made c D L k e s l -> dim_ok D /\ repr c D k s l.
Proof. intros H. destruct (made_rep _ _ _ _ _ _ _ H) as [HD R]. split; [exact (is_dim_ok _ _ HD)|exact (rep_repr _ _ _ _ _ _ R)]. Qed.
Lemma made_canon c D L k s l : made c D L k true s l -> dim_ok D /\ canon c D k s l.
Proof. intros H. destruct (made_rep _ _ _ _ _ _ _ H) as [HD R]. split; [exact (is_dim_ok _ _ HD)|exact R]. Qed.

(* every history of API calls behaves like a list of cells *)
Lemma history_ok c D L k0 e0 s0 l0 h : starts c D L k0 e0 s0 l0 ->
  match run_spec c (View k0 e0 l0) h with
  | Done (v, answers) => exists s, run_model c L (pack k0 s0) h = Ret (pack (v_kind v) s, answers)
      /\ valid c D (v_kind v) s /\ shows (ops c D (v_kind v)) s (v_path v)
  | MustPanic => run_model c L (pack k0 s0) h = Panic
  | NoClaim => True
  end.
Proof.
  intros H. destruct (starts_rep _ _ _ _ _ _ _ H) as [HD R]. pose proof (is_dim_ok _ _ HD) as HO.
  pose proof (run_rep c D L h HD k0 e0 s0 l0 R) as Q. destruct (run_spec c (View k0 e0 l0) h) as [[v a]| |]; auto.
  destruct Q as (s & E & R'). exists s. split; [exact E|]. pose proof (rep_repr _ _ _ _ _ _ R') as R2.
  split; [exact (repr_valid _ _ _ _ _ HO R2)|exact (repr_shows _ _ _ _ _ HO R2)].
Qed.
