(* FactsUserBits.v - proofs of the theorems stated in PropUserBits.v: types of bits implemented outside the crate *)
From Coq Require Import Bool ZifyBool ZifyNat ZifyN.
From Verif Require Import Base ModelNumber ModelDim ModelStorage ModelBits ModelUser Spec SpecUser SpecUserBits BitProofs NumberProofs CellProofs StorageProofs OrderProofs FactsBits FactsUser.

(* ---------- storages that hold lists of cells, some of them below the depth ---------- *)
Definition sets {D S} (o : StorageOps D S) (R : S -> list (cell D) -> Prop) : Prop :=
  forall s l i x, R s l -> i < len l -> exists s', st_set o s i x = Ret s' /\ R s' (update l (N.to_nat i) x).
Lemma sets_loop {D S} (o : StorageOps D S) R f s a b cells : sets o R -> R s (a ++ b) -> len b = len cells ->
  (forall r i x, i < len cells -> f r (i, x) = st_set o r (len a + i) x) ->
  exists s', foldM f (enumerate cells) s = Ret s' /\ R s' (a ++ cells).
Proof.
  intros W H Hb Hf.
  destruct (foldM_enum_inv (fun i s1 => R s1 (a ++ (firstn (N.to_nat i) cells) ++ skipn (N.to_nat i) b))
    f cells s) as (s' & E & H').
  - exact H.
  - intros i x s1 Hx H1. pose proof (nth_error_len _ _ _ Hx) as Hi. rewrite Hf by exact Hi.
    destruct (W s1 _ (len a + N.of_nat i) x H1) as (s2 & E2 & H2).
    + rewrite !len_app. unfold len in *. rewrite skipn_length, firstn_length. lia.
    + exists s2. split; [exact E2|]. revert H2.
      replace (N.to_nat (len a + N.of_nat i)) with (List.length (a ++ (firstn i cells)))
        by (rewrite app_length, firstn_length; unfold len in *; lia).
      rewrite Nat2N.id. rewrite app_assoc.
      destruct (skipn i b) as [|y r'] eqn:Er.
      { exfalso. assert (List.length (skipn i b) = O) by (rewrite Er; reflexivity). rewrite skipn_length in *.
        unfold len in *; lia. }
      rewrite update_app_last. intros H2.
      replace (N.to_nat (N.of_nat i + 1)) with (Datatypes.S i) by lia.
      replace (skipn (Datatypes.S i) b) with r'.
      2:{ change (Datatypes.S i) with (1 + i)%nat. rewrite <- skipn_skipn, Er. reflexivity. }
      apply nth_error_split in Hx. destruct Hx as (p & q & Ec & Ep). subst cells i.
      rewrite firstn_app, firstn_all, Nat.sub_diag in H2. cbn [firstn] in H2. rewrite app_nil_r in H2.
      replace (firstn (Datatypes.S (List.length p)) (p ++ x :: q)) with (p ++ [x]).
      2:{ rewrite firstn_app. rewrite firstn_all2 by lia. replace (Datatypes.S (List.length p) - List.length p)%nat with 1%nat by lia.
          reflexivity. }
      rewrite <- !app_assoc in *. exact H2.
  - exists s'. split; [exact E|]. rewrite to_nat_len in H'. rewrite firstn_all in H'.
    rewrite skipn_all2 in H' by (unfold len in Hb; lia). rewrite app_nil_r in H'. exact H'.
Qed.
Lemma sets_from {D S} c (o : StorageOps D S) R s a b cells : sets o R -> R s (a ++ b) -> len b = len cells -> len a + len cells < 2 ^ usize_bits c ->
  exists s', set_cells_from c o (len a) s cells = Ret s' /\ R s' (a ++ cells).
Proof.
  intros W H Hb Hlen. apply (sets_loop o R _ s a b cells W H Hb). intros r i x Hi. cbn [fst snd]. rewrite add_ok by lia. reflexivity.
Qed.
Lemma sets_all {D S} (o : StorageOps D S) R s b cells : sets o R -> R s b -> len b = len cells ->
  exists s', set_cells o s cells = Ret s' /\ R s' cells.
Proof. intros W H Hb. apply (sets_loop o R _ s [] b cells W H Hb). intros r i x Hi. reflexivity. Qed.
Lemma sets_zero {D S} (o : StorageOps D S) R s l lo : sets o R -> R s l -> lo <= len l ->
  exists s', foldM (fun r level => st_set o r level (cell_zero D)) (range lo (len l)) s = Ret s'
    /\ R s' (firstn (N.to_nat lo) l ++ repeat (cell_zero D) (N.to_nat (len l - lo))).
Proof.
  intros W H Hlo.
  destruct (foldM_range_inv (fun i s1 => R s1
     (firstn (N.to_nat lo) l ++ repeat (cell_zero D) (N.to_nat (i - lo)) ++ skipn (N.to_nat i) l))
    (fun r level => st_set o r level (cell_zero D)) lo (len l) s) as (s' & E & H').
  - exact Hlo.
  - rewrite N.sub_diag. change (N.to_nat 0) with O. cbn [repeat app].
    rewrite firstn_skipn. exact H.
  - intros i s1 Hi H1.
    destruct (W s1 _ i (cell_zero D) H1) as (s2 & E2 & H2).
    + rewrite !len_app, len_repeat, len_firstn by lia. unfold len in *. rewrite skipn_length. lia.
    + exists s2. split; [exact E2|]. revert H2.
      rewrite app_assoc.
      destruct (skipn (N.to_nat i) l) as [|y r'] eqn:Er.
      { exfalso. assert (List.length (skipn (N.to_nat i) l) = O) by (rewrite Er; reflexivity). rewrite skipn_length in *.
        unfold len in *; lia. }
      replace (N.to_nat i) with (List.length (firstn (N.to_nat lo) l ++ repeat (cell_zero D) (N.to_nat (i - lo)))) at 1
        by (rewrite app_length, firstn_length, repeat_length; unfold len in *; lia).
      rewrite update_app_last. intros H2.
      replace (N.to_nat (i + 1 - lo)) with (N.to_nat (i - lo) + 1)%nat by lia.
      replace (skipn (N.to_nat (i + 1)) l) with r'.
      2:{ replace (N.to_nat (i + 1)) with (1 + N.to_nat i)%nat by lia. rewrite <- skipn_skipn, Er. reflexivity. }
      rewrite repeat_app. cbn [repeat]. rewrite <- !app_assoc in *. exact H2.
  - exists s'. split; [exact E|]. rewrite skipn_all2 in H' by (unfold len; lia). rewrite app_nil_r in H'. exact H'.
Qed.

(* ---------- one type of bits ---------- *)
Lemma user_positions {T} c D (B : FixedType T) i {A} (f : N -> N -> outcome A) : dim_ok D -> (i + 1) * dim D <= ft_BITS B -> ft_BITS B < 2 ^ usize_bits c ->
  (let! l1 := add c (usize_bits c) i 1 in
   let! off := mul c (usize_bits c) l1 (dim D) in
   let! start_bit := sub c (usize_bits c) (ft_BITS B) off in
   let! end_bit := add c (usize_bits c) start_bit (dim D) in f start_bit end_bit)
  = f (field D (ft_BITS B) i) (field D (ft_BITS B) i + dim D).
Proof.
  intros HD Hi Hn. pose proof (dim_ge D HD) as Hd. rewrite (positions c (ft_BITS B) (dim D) i f) by (try assumption; lia).
  unfold field. replace (ft_BITS B - dim D * (i + 1)) with (ft_BITS B - (i + 1) * dim D) by lia.
  replace (ft_BITS B - dim D * i) with (ft_BITS B - (i + 1) * dim D + dim D) by lia. reflexivity.
Qed.
Lemma user_get_num {T} c D (B : FixedType T) inv val v k : dim_ok D -> fixed_type_laws c B inv val -> inv v -> (k + 1) * dim D <= ft_BITS B ->
  user_fixed_get c D B v k = unwrap (cell_try_from D (bits_of (val v) (field D (ft_BITS B) k) (dim D))).
Proof.
  intros HD L Hv Hk. unfold user_fixed_get. cbv zeta.
  rewrite (user_positions c D B k (fun s e => let! b := bo_get_bits (ft_bits B) v s e in let! u := bo_as_u8 (ft_bits B) b in unwrap (cell_try_from D (cast (usize_bits c) u))) HD Hk (law_usize _ _ _ _ L)).
  destruct (law_get _ _ _ _ L v (field D (ft_BITS B) k) (field D (ft_BITS B) k + dim D) Hv ltac:(lia)) as (r & Er & Hr & Vr).
  { unfold field. lia. }
  rewrite Er, bind_ret, (law_as_u8 _ _ _ _ L r Hr), bind_ret. f_equal. f_equal. rewrite Vr. replace (field D (ft_BITS B) k + dim D - field D (ft_BITS B) k) with (dim D) by lia.
  assert (S : bits_of (val v) (field D (ft_BITS B) k) (dim D) < 256).
  { unfold bits_of. eapply N.lt_le_trans; [apply N.mod_lt, pow2_ne0|]. apply (N.pow_le_mono_r 2 _ 8); [discriminate|]. pose proof (dim_le D HD). lia. }
  rewrite N.mod_small by exact S. unfold cast. apply N.mod_small. pose proof (usize_big c). lia.
Qed.
Lemma user_set_num {T} c D (B : FixedType T) inv val v k x : dim_ok D -> fixed_type_laws c B inv val -> inv v -> (k + 1) * dim D <= ft_BITS B ->
  exists v', user_fixed_set c D B v k x = Ret v' /\ inv v' /\ val v' = put (val v) (field D (ft_BITS B) k) (dim D) (cell_index D x).
Proof.
  intros HD L Hv Hk. unfold user_fixed_set. cbv zeta.
  rewrite (user_positions c D B k (fun s e => bo_set_bits (ft_bits B) v s e (bo_from_u8 (ft_bits B) (cast 8 (cell_index D x)))) HD Hk (law_usize _ _ _ _ L)).
  pose proof (idx_lt8 D x HD) as H8. unfold cast. change (2 ^ 8) with 256. rewrite N.mod_small by lia.
  destruct (law_from_u8 _ _ _ _ L (cell_index D x) ltac:(lia)) as [If Vf].
  pose proof (dim_ge D HD) as Hd.
  destruct (law_set _ _ _ _ L v (field D (ft_BITS B) k) (field D (ft_BITS B) k + dim D) _ Hv If ltac:(lia)) as (r & Er & Hr & Vr).
  - unfold field. lia.
  - replace (field D (ft_BITS B) k + dim D - field D (ft_BITS B) k) with (dim D) by lia. rewrite Vf. apply (idx_lt D HD).
  - exists r. split; [exact Er|]. split; [exact Hr|]. replace (field D (ft_BITS B) k + dim D - field D (ft_BITS B) k) with (dim D) in Vr by lia. rewrite Vf in Vr.
    apply bits_replaced_put. exact Vr.
Qed.
(* the bits v hold the cells l, and r is what is behind them *)
Definition keeps {T} (D : Dimension) (B : FixedType T) (inv : T -> Prop) (val : T -> N) (r : N) (v : T) (l : list (cell D)) : Prop :=
  inv v /\ holds (ft_BITS B) (val v) l /\ rest D (ft_BITS B) (val v) (len l) = r.
Lemma level_fits {D : Dimension} w (l : list (cell D)) v i : holds w v l -> i < len l -> (i + 1) * dim D <= w.
Proof. intros (_ & Hl & _) Hi. transitivity (len l * dim D); [apply N.mul_le_mono_r; lia|lia]. Qed.
Lemma keeps_set {T} c D (B : FixedType T) inv val r : dim_ok D -> fixed_type_laws c B inv val -> forall v l i x, keeps D B inv val r v l -> i < len l ->
  exists v', user_fixed_set c D B v i x = Ret v' /\ keeps D B inv val r v' (update l (N.to_nat i) x).
Proof.
  intros HD L v l i x (Hv & Hh & Hr) Hi. destruct (user_set_num c D B inv val v i x HD L Hv (level_fits _ _ _ _ Hh Hi)) as (v' & E & Hv' & V).
  exists v'. split; [exact E|]. split; [exact Hv'|]. rewrite V. split; [apply holds_put; assumption|]. rewrite len_update, rest_put; [exact Hr|exact Hi|apply Hh].
Qed.
Lemma keeps_get {T} c D (B : FixedType T) inv val r v l i x : dim_ok D -> fixed_type_laws c B inv val -> keeps D B inv val r v l -> nth_error l (N.to_nat i) = Some x ->
  user_fixed_get c D B v i = Ret x.
Proof.
  intros HD L (Hv & Hh & _) Hx. destruct (holds_get HD _ _ _ _ _ Hh Hx) as [Hf Hb]. rewrite (user_get_num c D B inv val) by assumption.
  rewrite Hb. rewrite (proj2 (try_ok D HD _ x) eq_refl). reflexivity.
Qed.
Lemma fixed_sets {T} c D (B : FixedType T) inv val r : dim_ok D -> fixed_type_laws c B inv val -> sets (user_fixed_ops c D B) (keeps D B inv val r).
Proof. intros HD L v l i x H Hi. exact (keeps_set c D B inv val r HD L v l i x H Hi). Qed.
Definition keeps_at {T} (D : Dimension) (B : FixedType T) (inv : T -> Prop) (val : T -> N) (n r : N) (s : user_static T) (l : list (cell D)) : Prop :=
  us_depth s = n /\ keeps D B inv val r (us_bits s) l.
Lemma static_sets {T} c D (B : FixedType T) inv val n r : dim_ok D -> fixed_type_laws c B inv val -> sets (user_static_ops c D B) (keeps_at D B inv val n r).
Proof.
  intros HD L s l i x [Hn H] Hi. destruct (keeps_set c D B inv val r HD L _ l i x H Hi) as (v' & E & H').
  exists (MkUserStatic v' (us_depth s)). split; [|split; [exact Hn|exact H']]. cbn [user_static_ops st_set].
  change (user_static_set c D B (us_bits s) i x) with (user_fixed_set c D B (us_bits s) i x). rewrite E. reflexivity.
Qed.
Lemma keeps_exists {T} c D (B : FixedType T) inv val v n : dim_ok D -> fixed_type_laws c B inv val -> inv v -> n <= ft_BITS B / dim D ->
  exists l, len l = n /\ keeps D B inv val (rest D (ft_BITS B) (val v) n) v l.
Proof.
  intros HD L Hv Hn. assert (F : dim D * n <= ft_BITS B).
  { pose proof (N.div_mod' (ft_BITS B) (dim D)). assert (dim D * n <= dim D * (ft_BITS B / dim D)) by (apply N.mul_le_mono_l; lia). lia. }
  destruct (holds_exists HD (ft_BITS B) (val v) n (law_range _ _ _ _ L v Hv) F) as (l & El & Hl). exists l. split; [exact El|]. split; [exact Hv|]. split; [exact Hl|]. rewrite El. reflexivity.
Qed.
Lemma keeps_prefix {T} D (B : FixedType T) inv val r v a b : dim_ok D -> keeps D B inv val r v (a ++ b) -> keeps D B inv val (rest D (ft_BITS B) (val v) (len a)) v a.
Proof. intros HD (Hv & Hh & _). split; [exact Hv|]. split; [eapply holds_prefix; eassumption|reflexivity]. Qed.
Lemma keeps_unique {T} D (B : FixedType T) inv val r r' v a b : dim_ok D -> keeps D B inv val r v a -> keeps D B inv val r' v b -> len a = len b -> a = b.
Proof. intros HD (_ & Ha & _) (_ & Hb & _). eapply holds_unique; eassumption. Qed.
Lemma keeps_default {T} c D (B : FixedType T) inv val n : dim_ok D -> fixed_type_laws c B inv val -> n <= ft_BITS B / dim D ->
  keeps D B inv val 0 (ft_default B) (repeat (cell_zero D) (N.to_nat n)).
Proof.
  intros HD L Hn. destruct (law_default _ _ _ _ L) as [Hi Hz]. destruct (holds_0 D (ft_BITS B) n HD) as [H0 H1].
  { pose proof (N.div_mod' (ft_BITS B) (dim D)). assert (dim D * n <= dim D * (ft_BITS B / dim D)) by (apply N.mul_le_mono_l; lia). lia. }
  split; [exact Hi|]. rewrite Hz. split; [exact H0|]. rewrite len_repeat, N2Nat.id. exact H1.
Qed.
Lemma levels_shows {D S} (o : StorageOps D S) s l : st_depth o s = len l -> (forall i x, nth_error l (N.to_nat i) = Some x -> st_get o s i = Ret x) -> shows o s l.
Proof.
  intros Hd G. split; [exact Hd|]. intro i. unfold get_cell_at_level. rewrite Hd. destruct (nth_error l (N.to_nat i)) as [x|] eqn:E.
  - pose proof (nth_error_len _ _ _ E). destruct (N.leb_spec (len l) i); [lia|]. exact (G i x E).
  - apply nth_error_None in E. destruct (N.leb_spec (len l) i); [reflexivity|]. unfold len in *; lia.
Qed.
Lemma fixed_shows {T} c D (B : FixedType T) inv val r v l : dim_ok D -> fixed_type_laws c B inv val -> keeps D B inv val r v l -> len l = ft_BITS B / dim D ->
  shows (user_fixed_ops c D B) v l.
Proof. intros HD L H E. apply levels_shows; [symmetry; exact E|]. intros i x Hx. exact (keeps_get c D B inv val r v l i x HD L H Hx). Qed.
Lemma static_shows {T} c D (B : FixedType T) inv val r s l : dim_ok D -> fixed_type_laws c B inv val -> keeps D B inv val r (us_bits s) l -> us_depth s = len l ->
  shows (user_static_ops c D B) s l.
Proof. intros HD L H E. apply levels_shows; [exact E|]. intros i x Hx. exact (keeps_get c D B inv val r _ l i x HD L H Hx). Qed.
Lemma fixed_shows_keeps {T} c D (B : FixedType T) inv val v l : dim_ok D -> fixed_type_laws c B inv val -> inv v -> shows (user_fixed_ops c D B) v l ->
  len l = ft_BITS B / dim D /\ keeps D B inv val (rest D (ft_BITS B) (val v) (len l)) v l.
Proof.
  intros HD L Hv H. destruct (keeps_exists c D B inv val v (ft_BITS B / dim D) HD L Hv (N.le_refl _)) as (l' & El & K).
  assert (l = l') as -> by (eapply shows_unique; [exact H|eapply fixed_shows; eassumption]). split; [exact El|]. rewrite El. exact K.
Qed.
Lemma static_shows_keeps {T} c D (B : FixedType T) inv val s l : dim_ok D -> fixed_type_laws c B inv val -> user_static_valid D B inv s -> shows (user_static_ops c D B) s l ->
  us_depth s = len l /\ keeps D B inv val (rest D (ft_BITS B) (val (us_bits s)) (len l)) (us_bits s) l.
Proof.
  intros HD L (Hv & _ & Hd) H. destruct (keeps_exists c D B inv val (us_bits s) (us_depth s) HD L Hv Hd) as (l' & El & K).
  assert (l = l') as -> by (eapply shows_unique; [exact H|eapply static_shows; eauto]). split; [symmetry; exact El|]. rewrite El. exact K.
Qed.
Lemma update_replaced {A} (l : list A) i x : i < len l -> update l (N.to_nat i) x = replaced l i x.
Proof.
  intro H. apply nth_error_ext. intro j. rewrite <- (Nat2N.id j). rewrite (replaced_nth l i x (N.of_nat j) H). rewrite nth_error_update, Nat2N.id.
  destruct (N.eqb_spec (N.of_nat j) i) as [E|E].
  - subst i. rewrite Nat2N.id, Nat.eqb_refl. destruct (Nat.ltb_spec j (List.length l)) as [K|K]; [reflexivity|unfold len in H; lia].
  - destruct (Nat.eqb_spec (N.to_nat i) j) as [E'|E']; [lia|reflexivity].
Qed.

Lemma update_app {A} (p r : list A) i x : (i < List.length p)%nat -> update (p ++ r) i x = update p i x ++ r.
Proof.
  revert i. induction p as [|y p IH]; intros i H; [cbn in H; lia|]. destruct i as [|i]; cbn [update app]; [reflexivity|].
  f_equal. apply IH. cbn in H. lia.
Qed.

(* ---------- C68 ---------- *)
Lemma c68_every_width_lemma : forall c n, 8 <= n -> n < 2 ^ usize_bits c -> fixed_type_laws c (wide_type n) (fun v => v < 2 ^ n) (fun v => v) /\ ft_BITS (wide_type n) = n.
Proof.
  intros c n H8 Hn. split; [|reflexivity]. constructor; cbn [wide_type ft_BITS ft_default ft_cmp ft_eq ft_bits bo_get_bits bo_set_bits bo_as_u8 bo_from_u8].
  - exact Hn.
  - auto.
  - split; [|reflexivity]. apply pow2_pos.
  - reflexivity.
  - reflexivity.
  - intros v s e Hv Hs He. rewrite (proj2 (N.leb_le _ _) Hs), (proj2 (N.leb_le _ _) He). eexists. split; [reflexivity|]. split; [|reflexivity].
    unfold bits_of. eapply N.lt_le_trans; [apply N.mod_lt, pow2_ne0|]. apply N.pow_le_mono_r; [discriminate|lia].
  - intros v s e x Hv Hx Hs He Hlt. rewrite (proj2 (N.leb_le s e)) by lia. rewrite (proj2 (N.leb_le _ _) He), (proj2 (N.ltb_lt _ _) Hlt). cbn [andb].
    exists (put_bits v s e x). split; [reflexivity|]. assert (E : put_bits v s e x = put v s (e - s) x) by (unfold put_bits, put; rewrite (N.mod_small x) by exact Hlt; reflexivity).
    rewrite E. split; [apply put_lt; [exact Hv|lia]|]. apply put_bits_replaced.
  - reflexivity.
  - intros m Hm. split; [|reflexivity]. eapply N.lt_le_trans; [exact Hm|]. apply (N.pow_le_mono_r 2 8); [discriminate|exact H8].
Qed.
Lemma c68_integers_lemma : forall c t, fixed_type_laws c (num_type c t) (fun v => v < 2 ^ BITS c t) (fun v => v).
Proof.
  intros c t. destruct (BITS_small c t) as [B1 B2]. pose proof (usize_big c) as U.
  constructor; cbn [num_type ft_BITS ft_default ft_cmp ft_eq ft_bits num_bits bo_get_bits bo_set_bits bo_as_u8 bo_from_u8].
  - lia.
  - auto.
  - split; [|reflexivity]. apply pow2_pos.
  - reflexivity.
  - reflexivity.
  - intros v s e Hv Hs He. rewrite c30_get_bits_lemma by assumption. eexists. split; [reflexivity|]. split; [|reflexivity].
    eapply N.lt_le_trans; [apply N.mod_lt, pow2_ne0|]. apply N.pow_le_mono_r; [discriminate|lia].
  - intros v s e x Hv Hx Hs He Hlt. destruct (c30_set_bits_lemma c t v s e x) as (v' & E & Hv' & R & _); [assumption|lia|assumption|lia|assumption|].
    exists v'. auto.
  - reflexivity.
  - intros n Hn. assert (n < 2 ^ BITS c t) by (eapply N.lt_le_trans; [exact Hn|apply (N.pow_le_mono_r 2 8); [discriminate|exact B1]]).
    unfold num_from, cast. rewrite N.mod_small by assumption. auto.
Qed.
Lemma c68_fixed_storage_lemma : forall T c D L (B : FixedType T) inv val, is_dim D L -> fixed_type_laws c B inv val ->
  writes_cells (user_fixed_ops c D B) inv
  /\ forall v, inv v -> exists l, shows (user_fixed_ops c D B) v l /\ len l = ft_BITS B / dim D
       /\ forall i x, nth_error l (N.to_nat i) = Some x -> bits_of (val v) (ft_BITS B - (i + 1) * dim D) (dim D) = cell_index D x.
Proof.
  intros T c D Ly B inv val HDL L. pose proof (is_dim_ok D Ly HDL) as HD. split.
  - intros v l i x Hv Hs Hi. destruct (fixed_shows_keeps c D B inv val v l HD L Hv Hs) as [El K].
    destruct (keeps_set c D B inv val _ HD L v l i x K Hi) as (v' & E & K'). exists v'. split; [exact E|]. split; [exact (proj1 K')|].
    rewrite <- update_replaced by exact Hi. eapply fixed_shows; [exact HD|exact L|exact K'|]. rewrite len_update. exact El.
  - intros v Hv. destruct (keeps_exists c D B inv val v (ft_BITS B / dim D) HD L Hv (N.le_refl _)) as (l & El & K). exists l.
    split; [eapply fixed_shows; eassumption|]. split; [exact El|]. intros i x Hx. destruct K as (_ & Hh & _). exact (proj2 (holds_get HD _ _ _ _ _ Hh Hx)).
Qed.
Lemma c68_static_storage_lemma : forall T c D L (B : FixedType T) inv val, is_dim D L -> fixed_type_laws c B inv val ->
  writes_cells (user_static_ops c D B) (user_static_valid D B inv)
  /\ forall s, user_static_valid D B inv s -> exists l, shows (user_static_ops c D B) s l /\ len l = us_depth s
       /\ forall i x, nth_error l (N.to_nat i) = Some x -> bits_of (val (us_bits s)) (ft_BITS B - (i + 1) * dim D) (dim D) = cell_index D x.
Proof.
  intros T c D Ly B inv val HDL L. pose proof (is_dim_ok D Ly HDL) as HD. split.
  - intros s l i x Hv Hs Hi. destruct (static_shows_keeps c D B inv val s l HD L Hv Hs) as [El K].
    destruct (static_sets c D B inv val (us_depth s) _ HD L s l i x (conj eq_refl K) Hi) as (s' & E & Hd & K'). exists s'. split; [exact E|].
    split; [split; [exact (proj1 K')|rewrite Hd; exact (proj2 Hv)]|].
    rewrite <- update_replaced by exact Hi. eapply static_shows; [exact HD|exact L|exact K'|]. rewrite len_update, Hd. exact El.
  - intros s (Hv & _ & Hd). destruct (keeps_exists c D B inv val (us_bits s) (us_depth s) HD L Hv Hd) as (l & El & K). exists l.
    split; [eapply static_shows; eauto|]. split; [exact El|]. intros i x Hx. destruct K as (_ & Hh & _). exact (proj2 (holds_get HD _ _ _ _ _ Hh Hx)).
Qed.
Lemma c68_fixed_try_from_lemma : forall T c D L (B : FixedType T) inv val cells, is_dim D L -> fixed_type_laws c B inv val ->
  if len cells <=? ft_BITS B / dim D
  then exists v, user_fixed_try_from c D B cells = Ret (Ok v) /\ inv v
         /\ shows (user_fixed_ops c D B) v (cells ++ repeat (cell_zero D) (N.to_nat (ft_BITS B / dim D - len cells)))
  else user_fixed_try_from c D B cells = Ret (Err (DepthLimitedExceeded (ft_BITS B / dim D))).
Proof.
  intros T c D Ly B inv val cells HDL L. pose proof (is_dim_ok D Ly HDL) as HD. unfold user_fixed_try_from, user_MAX. rewrite N.ltb_antisym.
  destruct (N.leb_spec (len cells) (ft_BITS B / dim D)) as [H|H]; cbn [negb]; [|reflexivity].
  pose proof (keeps_default c D B inv val (ft_BITS B / dim D) HD L (N.le_refl _)) as K.
  replace (N.to_nat (ft_BITS B / dim D)) with (N.to_nat (len cells) + N.to_nat (ft_BITS B / dim D - len cells))%nat in K by lia. rewrite repeat_app in K.
  destruct (sets_loop (user_fixed_ops c D B) (fun v l => keeps D B inv val 0 v (l ++ repeat (cell_zero D) (N.to_nat (ft_BITS B / dim D - len cells))))
    (fun r lc => st_set (user_fixed_ops c D B) r (fst lc) (snd lc)) (ft_default B) [] (repeat (cell_zero D) (N.to_nat (len cells))) cells) as (v & E & K').
  - intros v l i x Hk Hi. destruct (keeps_set c D B inv val 0 HD L v _ i x Hk ltac:(rewrite len_app; lia)) as (v' & E & K'). exists v'. split; [exact E|].
    rewrite update_app in K' by (unfold len in Hi; lia). exact K'.
  - exact K.
  - rewrite len_repeat. lia.
  - intros r i x Hi. reflexivity.
  - unfold set_cells. rewrite E, bind_ret. exists v. split; [reflexivity|]. split; [exact (proj1 K')|]. eapply fixed_shows; [exact HD|exact L|exact K'|].
    rewrite len_app, len_repeat. lia.
Qed.
Lemma fit_below {T} (B : FixedType T) D n : dim_ok D -> n <= ft_BITS B / dim D -> n <= ft_BITS B.
Proof. intros HD H. etransitivity; [exact H|]. apply N.div_le_upper_bound; [pose proof (dim_ge D HD); lia|]. pose proof (dim_ge D HD). nia. Qed.
Lemma shows_first {T} c D (B : FixedType T) inv val r v l n : dim_ok D -> fixed_type_laws c B inv val -> keeps D B inv val r v l -> n <= len l ->
  shows (user_static_ops c D B) (MkUserStatic v n) (firstn (N.to_nat n) l).
Proof.
  intros HD L K Hn. rewrite <- (firstn_skipn (N.to_nat n) l) in K. apply keeps_prefix in K; [|exact HD].
  eapply static_shows; [exact HD|exact L|exact K|]. cbn [us_depth]. rewrite len_firstn by exact Hn. reflexivity.
Qed.
Lemma c68_static_try_from_lemma : forall T c D L (B : FixedType T) inv val cells, is_dim D L -> fixed_type_laws c B inv val ->
  if len cells <=? ft_BITS B / dim D
  then exists s, user_static_try_from c D B cells = Ret (Ok s) /\ user_static_valid D B inv s
         /\ shows (user_static_ops c D B) s (firstn (N.to_nat (len cells mod 256)) cells)
  else user_static_try_from c D B cells = Ret (Err (DepthLimitedExceeded (ft_BITS B / dim D))).
Proof.
  intros T c D Ly B inv val cells HDL L. pose proof (is_dim_ok D Ly HDL) as HD. unfold user_static_try_from, user_MAX. rewrite N.ltb_antisym.
  destruct (N.leb_spec (len cells) (ft_BITS B / dim D)) as [H|H]; cbn [negb]; [|reflexivity].
  destruct (sets_all (user_static_ops c D B) (keeps_at D B inv val 0 0) (user_static_default B) (repeat (cell_zero D) (N.to_nat (len cells))) cells) as (s & E & Hd & K).
  - apply static_sets; assumption.
  - split; [reflexivity|]. apply (keeps_default c D B inv val (len cells) HD L H).
  - rewrite len_repeat. lia.
  - rewrite E, bind_ret. assert (M : len cells mod 256 <= len cells) by (apply N.mod_le; discriminate).
    eexists. split; [reflexivity|]. split.
    + split; [exact (proj1 K)|]. cbn [us_depth]. unfold cast. split; [apply N.mod_lt; discriminate|]. change (2 ^ 8) with 256. lia.
    + eapply shows_first; [exact HD|exact L|exact K|exact M].
Qed.
Lemma c68_static_ancestor_lemma : forall T c D L (B : FixedType T) inv val s l g, is_dim D L -> fixed_type_laws c B inv val ->
  user_static_valid D B inv s -> shows (user_static_ops c D B) s l ->
  if g <=? len l
  then exists s', user_static_ancestor c D B s g = Ret (Some s') /\ user_static_valid D B inv s'
         /\ shows (user_static_ops c D B) s' (firstn (N.to_nat (len l - g)) l)
  else user_static_ancestor c D B s g = Ret None.
Proof.
  intros T c D Ly B inv val s l g HDL L Hv Hs. pose proof (is_dim_ok D Ly HDL) as HD. destruct (static_shows_keeps c D B inv val s l HD L Hv Hs) as [El K].
  unfold user_static_ancestor. rewrite El, N.ltb_antisym. destruct (N.leb_spec g (len l)) as [Hg|Hg]; cbn [negb]; [|reflexivity].
  destruct Hv as (Hi & H256 & Hm). rewrite El in H256, Hm.
  rewrite (cast_small 8 g) by (change (2 ^ 8) with 256; lia). rewrite sub_ok by exact Hg. rewrite bind_ret.
  destruct (sets_zero (user_static_ops c D B) (keeps_at D B inv val (us_depth s) (rest D (ft_BITS B) (val (us_bits s)) (len l))) s l (len l - g)) as (s' & E & Hd' & K').
  - apply static_sets; assumption.
  - split; [reflexivity|exact K].
  - lia.
  - rewrite E, bind_ret. eexists. split; [reflexivity|]. split.
    + split; [exact (proj1 K')|]. cbn [us_depth]. split; lia.
    + apply keeps_prefix in K'; [|exact HD]. eapply static_shows; [exact HD|exact L|exact K'|]. cbn [us_depth]. rewrite len_firstn by lia. reflexivity.
Qed.
Lemma c68_static_descendant_lemma : forall T c D L (B : FixedType T) inv val s l cells, is_dim D L -> fixed_type_laws c B inv val ->
  user_static_valid D B inv s -> shows (user_static_ops c D B) s l -> len l + len cells < 2 ^ usize_bits c ->
  if len l + len cells <=? ft_BITS B / dim D
  then exists s', user_static_descendant c D B s cells = Ret (Some s') /\ user_static_valid D B inv s'
         /\ shows (user_static_ops c D B) s' (firstn (N.to_nat ((len l + len cells) mod 256)) (l ++ cells))
  else user_static_descendant c D B s cells = Ret None.
Proof.
  intros T c D Ly B inv val s l cells HDL L Hv Hs Hlen. pose proof (is_dim_ok D Ly HDL) as HD. destruct (static_shows_keeps c D B inv val s l HD L Hv Hs) as [El _].
  unfold user_static_descendant, user_MAX. rewrite El. rewrite add_ok by exact Hlen. rewrite bind_ret. rewrite N.ltb_antisym.
  destruct (N.leb_spec (len l + len cells) (ft_BITS B / dim D)) as [H|H]; cbn [negb]; [|reflexivity].
  destruct (keeps_exists c D B inv val (us_bits s) (len l + len cells) HD L (proj1 Hv) H) as (l2 & E2 & K2).
  assert (Ef : firstn (N.to_nat (len l)) l2 = l).
  { pose proof K2 as K3. rewrite <- (firstn_skipn (N.to_nat (len l)) l2) in K3. apply keeps_prefix in K3; [|exact HD].
    destruct (static_shows_keeps c D B inv val s l HD L Hv Hs) as [_ K]. refine (keeps_unique _ _ _ _ _ _ _ _ _ HD K3 K _). rewrite len_firstn; lia. }
  rewrite <- (firstn_skipn (N.to_nat (len l)) l2) in K2. rewrite Ef in K2.
  destruct (sets_from c (user_static_ops c D B) (keeps_at D B inv val (us_depth s) (rest D (ft_BITS B) (val (us_bits s)) (len l + len cells))) s l (skipn (N.to_nat (len l)) l2) cells) as (s' & E & Hd' & K').
  - apply static_sets; assumption.
  - split; [reflexivity|exact K2].
  - rewrite len_skipn. lia.
  - exact Hlen.
  - rewrite E, bind_ret. assert (M : (len l + len cells) mod 256 <= len l + len cells) by (apply N.mod_le; discriminate).
    eexists. split; [reflexivity|]. split.
    + split; [exact (proj1 K')|]. cbn [us_depth]. unfold cast. split; [apply N.mod_lt; discriminate|]. change (2 ^ 8) with 256. lia.
    + eapply shows_first; [exact HD|exact L|exact K'|rewrite len_app; exact M].
Qed.
Lemma c68_static_walks_lemma : forall T c D L (B : FixedType T) inv val, is_dim D L -> fixed_type_laws c B inv val -> ft_BITS B / dim D < 256 ->
  walks c (user_static_vops c D B) (user_static_valid D B inv) (fun n => n <=? ft_BITS B / dim D).
Proof.
  intros T c D Ly B inv val HDL L H256. split.
  - intros s l g Hv Hs _. exact (c68_static_ancestor_lemma T c D Ly B inv val s l g HDL L Hv Hs).
  - intros s l cells Hv Hs Hlen. pose proof (is_dim_ok D Ly HDL) as HD. destruct (static_shows_keeps c D B inv val s l HD L Hv Hs) as [El _].
    assert (U : 65536 <= 2 ^ usize_bits c) by apply usize_big.
    assert (U2 : 2 ^ usize_bits c = 2 * 2 ^ (usize_bits c - 1)) by (destruct (usize_bits_cases c) as [E|[E|E]]; rewrite E; reflexivity).
    assert (Hsum : len l + len cells < 2 ^ usize_bits c) by (destruct Hv as (_ & K & _); rewrite El in K; lia).
    pose proof (c68_static_descendant_lemma T c D Ly B inv val s l cells HDL L Hv Hs Hsum) as P. cbv beta.
    destruct (N.leb_spec (len l + len cells) (ft_BITS B / dim D)) as [H|H]; [|exact P]. rewrite N.mod_small in P by lia. rewrite <- len_app, to_nat_len, firstn_all in P. exact P.
Qed.
Lemma prefix_bits {T} c D (B : FixedType T) inv val r v l m : dim_ok D -> fixed_type_laws c B inv val -> keeps D B inv val r v l -> m <= len l ->
  exists b, bo_get_bits (ft_bits B) v (ft_BITS B - m * dim D) (ft_BITS B) = Ret b /\ inv b /\ val b = enc (firstn (N.to_nat m) l).
Proof.
  intros HD L (Hv & Hh & _) Hm. rewrite <- (firstn_skipn (N.to_nat m) l) in Hh. apply (holds_prefix HD) in Hh.
  destruct Hh as (Hlt & Hl & He). rewrite len_firstn in * by exact Hm.
  destruct (law_get _ _ _ _ L v (ft_BITS B - m * dim D) (ft_BITS B) Hv ltac:(lia) ltac:(lia)) as (b & Eb & Ib & Vb). exists b. split; [exact Eb|]. split; [exact Ib|].
  rewrite Vb. unfold bits_of. rewrite <- He. replace (ft_BITS B - (ft_BITS B - m * dim D)) with (m * dim D) by lia.
  replace (ft_BITS B - m * dim D) with (ft_BITS B - dim D * m) by lia.
  apply N.mod_small. apply N.div_lt_upper_bound; [apply pow2_ne0|]. rewrite <- N.pow_add_r.
  replace (ft_BITS B - dim D * m + m * dim D) with (ft_BITS B) by lia. exact Hlt.
Qed.
Lemma c68_static_cmp_lemma : forall T c D L (B : FixedType T) inv val a b la lb, is_dim D L -> fixed_type_laws c B inv val ->
  user_static_valid D B inv a -> user_static_valid D B inv b -> shows (user_static_ops c D B) a la -> shows (user_static_ops c D B) b lb ->
  user_static_cmp c D B a b = Ret (path_cmp la lb).
Proof.
  intros T c D Ly B inv val a b la lb HDL L Va Vb Sa Sb. pose proof (is_dim_ok D Ly HDL) as HD.
  destruct (static_shows_keeps c D B inv val a la HD L Va Sa) as [Da Ka]. destruct (static_shows_keeps c D B inv val b lb HD L Vb Sb) as [Db Kb].
  pose proof (law_usize _ _ _ _ L) as U. pose proof Ka as (_ & (_ & La & _) & _). pose proof Kb as (_ & (_ & Lb & _) & _).
  unfold user_static_cmp. rewrite Da, Db. cbn zeta. clear Va Vb Sa Sb.
  rewrite mul_ok by lia. rewrite bind_ret. rewrite sub_ok by lia. rewrite bind_ret.
  rewrite mul_ok by lia. rewrite bind_ret. rewrite sub_ok by lia. rewrite bind_ret.
  destruct (N.compare_spec (len la) (len lb)) as [E|E|E].
  - destruct (prefix_bits c D B inv val _ _ _ (len la) HD L Ka (N.le_refl _)) as (x & Ex & Ix & Vx).
    destruct (prefix_bits c D B inv val _ _ _ (len lb) HD L Kb (N.le_refl _)) as (y & Ey & Iy & Vy).
    rewrite Ex, bind_ret, Ey, bind_ret. rewrite (law_cmp _ _ _ _ L) by assumption. rewrite Vx, Vy, !to_nat_len, !firstn_all. rewrite (compare_enc HD) by exact E. reflexivity.
  - destruct (prefix_bits c D B inv val _ _ _ (len la) HD L Ka (N.le_refl _)) as (x & Ex & Ix & Vx).
    destruct (prefix_bits c D B inv val _ _ _ (len la) HD L Kb ltac:(lia)) as (y & Ey & Iy & Vy).
    rewrite Ex, bind_ret, Ey, bind_ret. rewrite (law_cmp _ _ _ _ L) by assumption. rewrite Vx, Vy.
    rewrite (to_nat_len la), firstn_all.
    rewrite <- (firstn_skipn (List.length la) lb) at 2.
    assert (Lf : len (firstn (List.length la) lb) = len la) by (rewrite <- to_nat_len; apply len_firstn; lia).
    rewrite path_cmp_longer.
    + rewrite <- (compare_enc HD) by (symmetry; exact Lf). destruct (N.compare (enc la) (enc (firstn (List.length la) lb))); reflexivity.
    + symmetry; exact Lf.
    + intros F. assert (len (skipn (N.to_nat (len la)) lb) = 0) by (rewrite to_nat_len, F; reflexivity). rewrite len_skipn in *. lia.
  - destruct (prefix_bits c D B inv val _ _ _ (len lb) HD L Ka ltac:(lia)) as (x & Ex & Ix & Vx).
    destruct (prefix_bits c D B inv val _ _ _ (len lb) HD L Kb (N.le_refl _)) as (y & Ey & Iy & Vy).
    rewrite Ex, bind_ret, Ey, bind_ret. rewrite (law_cmp _ _ _ _ L) by assumption. rewrite Vx, Vy.
    rewrite (to_nat_len lb), firstn_all.
    rewrite <- (firstn_skipn (List.length lb) la) at 2.
    assert (Lf : len (firstn (List.length lb) la) = len lb) by (rewrite <- to_nat_len; apply len_firstn; lia).
    rewrite path_cmp_antisym. rewrite path_cmp_longer.
    + rewrite <- (compare_enc HD) by (symmetry; exact Lf). rewrite N.compare_antisym.
      destruct (N.compare (enc lb) (enc (firstn (List.length lb) la))); reflexivity.
    + symmetry; exact Lf.
    + intros F. assert (len (skipn (N.to_nat (len lb)) la) = 0) by (rewrite to_nat_len, F; reflexivity). rewrite len_skipn in *. lia.
Qed.
Lemma c68_fixed_cmp_lemma : forall T c D L (B : FixedType T) inv val a b la lb, is_dim D L -> fixed_type_laws c B inv val ->
  inv a -> inv b -> shows (user_fixed_ops c D B) a la -> shows (user_fixed_ops c D B) b lb ->
  user_fixed_cmp B a b = match path_cmp la lb with
                         | Eq => N.compare (val a mod 2 ^ (ft_BITS B mod dim D)) (val b mod 2 ^ (ft_BITS B mod dim D))
                         | r => r
                         end.
Proof.
  intros T c D Ly B inv val a b la lb HDL L Va Vb Sa Sb. pose proof (is_dim_ok D Ly HDL) as HD.
  destruct (fixed_shows_keeps c D B inv val a la HD L Va Sa) as [Da (_ & Ha & _)]. destruct (fixed_shows_keeps c D B inv val b lb HD L Vb Sb) as [Db (_ & Hb & _)].
  assert (R : ft_BITS B - dim D * (ft_BITS B / dim D) = ft_BITS B mod dim D).
  { pose proof (N.div_mod' (ft_BITS B) (dim D)). lia. }
  unfold user_fixed_cmp. rewrite (law_cmp _ _ _ _ L) by assumption.
  pose proof (holds_value _ _ _ Ha) as Ea. pose proof (holds_value _ _ _ Hb) as Eb. rewrite Ea, Eb at 1. unfold rest. rewrite Da, Db, R.
  rewrite compare_digits by (apply N.mod_lt, pow2_ne0). rewrite (compare_enc HD) by congruence. reflexivity.
Qed.
Lemma c68_equal_lemma : forall T c D L (B : FixedType T) inv val la lb a b, is_dim D L -> fixed_type_laws c B inv val ->
  (len la < 256 -> len lb < 256 -> user_static_try_from c D B la = Ret (Ok a) -> user_static_try_from c D B lb = Ret (Ok b) ->
   (user_static_eq B a b = true <-> la = lb)).
Proof.
  intros T c D Ly B inv val la lb a b HDL L Ha Hb Ea Eb. pose proof (is_dim_ok D Ly HDL) as HD.
  assert (K : forall l s, len l < 256 -> user_static_try_from c D B l = Ret (Ok s) -> us_depth s = len l /\ keeps D B inv val 0 (us_bits s) l).
  { intros l s Hl E. unfold user_static_try_from, user_MAX in E. rewrite N.ltb_antisym in E.
    destruct (N.leb_spec (len l) (ft_BITS B / dim D)) as [H|H]; cbn [negb] in E; [|discriminate].
    destruct (sets_all (user_static_ops c D B) (keeps_at D B inv val 0 0) (user_static_default B) (repeat (cell_zero D) (N.to_nat (len l))) l) as (s1 & E1 & Hd & K).
    - apply static_sets; assumption.
    - split; [reflexivity|]. apply (keeps_default c D B inv val (len l) HD L H).
    - rewrite len_repeat. lia.
    - rewrite E1, bind_ret in E. injection E as <-. split; [cbn [us_depth]; apply cast_small; exact Hl|exact K]. }
  destruct (K la a Ha Ea) as [Da Ka]. destruct (K lb b Hb Eb) as [Db Kb]. unfold user_static_eq. rewrite (law_eq _ _ _ _ L) by (apply Ka || apply Kb).
  rewrite andb_true_iff, !N.eqb_eq, Da, Db. split; [|intros ->].
  - intros [Ev El]. destruct Ka as (_ & Hka & _). destruct Kb as (_ & Hkb & _). rewrite Ev in Hka. exact (holds_unique HD _ _ _ _ Hka Hkb El).
  - split; [|reflexivity]. destruct Ka as (_ & Hka & Ra). destruct Kb as (_ & Hkb & Rb). rewrite (holds_value _ _ _ Hka), (holds_value _ _ _ Hkb), Ra, Rb. reflexivity.
Qed.
Lemma c68_conversions_lemma : forall T c D L (B : FixedType T) inv val, is_dim D L -> fixed_type_laws c B inv val ->
  (forall v l, inv v -> shows (user_fixed_ops c D B) v l ->
     user_static_valid D B inv (user_static_from_fixed D B v)
     /\ shows (user_static_ops c D B) (user_static_from_fixed D B v) (firstn (N.to_nat (len l mod 256)) l))
  /\ (forall s l, user_static_valid D B inv s -> shows (user_static_ops c D B) s l ->
     exists r, inv (user_fixed_from_static s) /\ shows (user_fixed_ops c D B) (user_fixed_from_static s) (l ++ r)).
Proof.
  intros T c D Ly B inv val HDL L. pose proof (is_dim_ok D Ly HDL) as HD. split.
  - intros v l Hv Hs. destruct (fixed_shows_keeps c D B inv val v l HD L Hv Hs) as [El K].
    assert (M : len l mod 256 <= len l) by (apply N.mod_le; discriminate).
    split; [|unfold user_static_from_fixed, user_MAX, cast; change (2 ^ 8) with 256; rewrite <- El; exact (shows_first c D B inv val _ v l _ HD L K M)].
    split; [exact Hv|]. cbn [user_static_from_fixed us_depth]. unfold cast, user_MAX. change (2 ^ 8) with 256. rewrite <- El. split; [apply N.mod_lt; discriminate|exact M].
  - intros s l Hv Hs. destruct (static_shows_keeps c D B inv val s l HD L Hv Hs) as [El K]. destruct Hv as (Hi & _ & Hm).
    destruct (keeps_exists c D B inv val (us_bits s) (ft_BITS B / dim D) HD L Hi (N.le_refl _)) as (l2 & E2 & K2).
    exists (skipn (N.to_nat (len l)) l2). split; [exact Hi|]. assert (Ef : firstn (N.to_nat (len l)) l2 = l).
    { pose proof K2 as K3. rewrite <- (firstn_skipn (N.to_nat (len l)) l2) in K3. apply keeps_prefix in K3; [|exact HD].
      refine (keeps_unique _ _ _ _ _ _ _ _ _ HD K3 K _). rewrite len_firstn; lia. }
    rewrite <- Ef at 1. rewrite firstn_skipn. eapply fixed_shows; eassumption.
Qed.
Lemma c68_zeroed_lemma : forall T c D L (B : FixedType T) inv val n, is_dim D L -> fixed_type_laws c B inv val -> n < 256 ->
  if n <=? ft_BITS B / dim D
  then exists s, user_static_zeroed c D B n = Some s /\ user_static_valid D B inv s /\ shows (user_static_ops c D B) s (repeat (cell_zero D) (N.to_nat n))
  else user_static_zeroed c D B n = None.
Proof.
  intros T c D Ly B inv val n HDL L Hn. pose proof (is_dim_ok D Ly HDL) as HD. unfold user_static_zeroed, user_MAX. pose proof (usize_big c).
  rewrite cast_small by lia. rewrite N.ltb_antisym. destruct (N.leb_spec n (ft_BITS B / dim D)) as [H'|H']; cbn [negb]; [|reflexivity].
  eexists. split; [reflexivity|]. pose proof (keeps_default c D B inv val n HD L H') as K. split; [split; [exact (proj1 K)|split; assumption]|].
  eapply static_shows; [exact HD|exact L|exact K|]. cbn [us_depth]. rewrite len_repeat. lia.
Qed.
Lemma c68_depth_refuted_lemma : ~ (forall T c D L (B : FixedType T) inv val cells s, is_dim D L -> fixed_type_laws c B inv val ->
  user_static_try_from c D B cells = Ret (Ok s) -> us_depth s = len cells).
Proof.
  intro H. set (c := Cfg true PW64 LittleEndian). destruct (c68_every_width_lemma c 512 ltac:(discriminate) ltac:(vm_compute; reflexivity)) as [L _].
  pose proof (c68_static_try_from_lemma N c Dim2D layout2D (wide_type 512) _ _ (repeat (cell_zero Dim2D) 256) is_dim2 L) as P.
  assert (E256 : len (repeat (cell_zero Dim2D) 256) = 256) by (rewrite len_repeat; reflexivity).
  rewrite E256 in P. change (256 <=? ft_BITS (wide_type 512) / dim Dim2D) with true in P. cbv iota in P. destruct P as (s & E & _ & S).
  pose proof (H N c Dim2D layout2D (wide_type 512) _ _ _ s is_dim2 L E) as F. rewrite E256 in F. destruct S as [S _]. cbn [user_static_ops st_depth] in S. rewrite F in S. discriminate.
Qed.

(* ---------- for the integers of the crate these definitions are those of ModelStorage.v ---------- *)
Definition to_static (s : user_static N) : static_storage := MkStatic (us_bits s) (us_depth s).
Definition carry {A B} (f : A -> B) (o : outcome A) : outcome B := let! x := o in Ret (f x).
Definition carry_ok {A B} (f : A -> B) (r : result A) : result B := match r with Ok x => Ok (f x) | Err e => Err e end.
Lemma carry_foldM {A S S'} (f : S -> S') (g : S -> A -> outcome S) (h : S' -> A -> outcome S') l : (forall s x, h (f s) x = carry f (g s x)) ->
  forall s, foldM h l (f s) = carry f (foldM g l s).
Proof.
  intros H. induction l as [|x l IH]; intro s; cbn [foldM]; [reflexivity|]. rewrite H. unfold carry at 1. destruct (g s x) as [s1| |]; cbn [bind]; [apply IH|reflexivity|reflexivity].
Qed.
Lemma integers_fixed_get c D t : user_fixed_get c D (num_type c t) = fixed_get_cell c D t.
Proof. reflexivity. Qed.
Lemma integers_fixed_set c D t : user_fixed_set c D (num_type c t) = fixed_set_cell c D t.
Proof. reflexivity. Qed.
Lemma integers_static_get c D t : user_static_get c D (num_type c t) = static_get_cell c D t.
Proof. reflexivity. Qed.
Lemma integers_static_set c D t : user_static_set c D (num_type c t) = static_set_cell c D t.
Proof. reflexivity. Qed.
Lemma integers_fixed_try_from c D t cells : fixed_try_from c D t cells = carry (carry_ok MkFixed) (user_fixed_try_from c D (num_type c t) cells).
Proof.
  unfold fixed_try_from, user_fixed_try_from. change (user_MAX D (num_type c t)) with (MAX_LEVELS c D t). destruct (MAX_LEVELS c D t <? len cells); [reflexivity|].
  unfold set_cells. change fixed_default with (MkFixed (ft_default (num_type c t))).
  rewrite (carry_foldM MkFixed (fun r lc => st_set (user_fixed_ops c D (num_type c t)) r (fst lc) (snd lc))); [|intros; reflexivity].
  unfold carry. destruct (foldM _ _ _); reflexivity.
Qed.
Lemma integers_static_step c D t s i x : st_set (static_ops c D t) (to_static s) i x = carry to_static (st_set (user_static_ops c D (num_type c t)) s i x).
Proof.
  cbn [static_ops user_static_ops st_set]. rewrite integers_static_set. unfold carry, to_static. cbn [sx_bits sx_depth].
  destruct (static_set_cell c D t (us_bits s) i x); reflexivity.
Qed.
Lemma integers_static_try_from c D t cells : static_try_from c D t cells = carry (carry_ok to_static) (user_static_try_from c D (num_type c t) cells).
Proof.
  unfold static_try_from, user_static_try_from. change (user_MAX D (num_type c t)) with (MAX_LEVELS c D t). destruct (MAX_LEVELS c D t <? len cells); [reflexivity|].
  unfold set_cells. change static_default with (to_static (user_static_default (num_type c t))).
  rewrite (carry_foldM to_static (fun r lc => st_set (user_static_ops c D (num_type c t)) r (fst lc) (snd lc))); [|intros; apply integers_static_step].
  unfold carry. destruct (foldM _ _ _); reflexivity.
Qed.
Lemma integers_static_ancestor c D t s g : static_ancestor c D t (to_static s) g = carry (option_map to_static) (user_static_ancestor c D (num_type c t) s g).
Proof.
  unfold static_ancestor, user_static_ancestor. cbn [to_static sx_depth]. destruct (us_depth s <? g); [reflexivity|].
  destruct (sub c 8 (us_depth s) (cast 8 g)) as [n| |]; cbn [bind]; [|reflexivity|reflexivity].
  rewrite (carry_foldM to_static (fun r i => st_set (user_static_ops c D (num_type c t)) r i (cell_zero D))); [|intros; apply integers_static_step].
  unfold carry. destruct (foldM _ _ _); reflexivity.
Qed.
Lemma integers_static_descendant c D t s cells : static_descendant c D t (to_static s) cells = carry (option_map to_static) (user_static_descendant c D (num_type c t) s cells).
Proof.
  unfold static_descendant, user_static_descendant. cbn [to_static sx_depth]. destruct (add c (usize_bits c) (us_depth s) (len cells)) as [n| |]; cbn [bind]; [|reflexivity|reflexivity].
  change (user_MAX D (num_type c t)) with (MAX_LEVELS c D t). destruct (MAX_LEVELS c D t <? n); [reflexivity|]. unfold set_cells_from.
  rewrite (carry_foldM to_static (fun r lc => let! level := add c (usize_bits c) (us_depth s) (fst lc) in st_set (user_static_ops c D (num_type c t)) r level (snd lc))).
  - unfold carry. destruct (foldM _ _ _); reflexivity.
  - intros r lc. destruct (add c (usize_bits c) (us_depth s) (fst lc)); cbn [bind]; [apply integers_static_step|reflexivity|reflexivity].
Qed.
Lemma integers_static_cmp c D t a b : static_cmp c D t (to_static a) (to_static b) = user_static_cmp c D (num_type c t) a b.
Proof.
  unfold static_cmp, user_static_cmp. cbn zeta. cbn [to_static sx_depth sx_bits num_type ft_BITS ft_bits num_bits bo_get_bits ft_cmp].
  destruct (mul c (usize_bits c) (us_depth a) (dim D)) as [m| |]; cbn [bind]; try reflexivity.
  destruct (sub c (usize_bits c) (BITS c t) m) as [n| |]; cbn [bind]; try reflexivity.
  destruct (mul c (usize_bits c) (us_depth b) (dim D)) as [p| |]; cbn [bind]; try reflexivity.
  destruct (sub c (usize_bits c) (BITS c t) p) as [q| |]; cbn [bind]; try reflexivity.
  destruct (N.compare (us_depth a) (us_depth b)); [reflexivity| |];
    (destruct (num_get_bits c t (us_bits a) _ _) as [x| |]; cbn [bind]; try reflexivity;
     destruct (num_get_bits c t (us_bits b) _ _) as [y| |]; cbn [bind]; try reflexivity; f_equal).
  - rewrite N.ltb_compare, N.compare_antisym. destruct (N.compare x y); reflexivity.
  - rewrite N.leb_compare, N.compare_antisym. destruct (N.compare x y); reflexivity.
Qed.
Lemma integers_rest c D t a b s n :
  static_eq (to_static a) (to_static b) = user_static_eq (num_type c t) a b
  /\ static_zeroed c D t n = option_map to_static (user_static_zeroed c D (num_type c t) n)
  /\ static_from_fixed c D t (MkFixed s) = to_static (user_static_from_fixed D (num_type c t) s)
  /\ fixed_from_static (to_static a) = MkFixed (user_fixed_from_static a)
  /\ fixed_eq (MkFixed s) (MkFixed n) = user_fixed_eq (num_type c t) s n /\ fixed_cmp (MkFixed s) (MkFixed n) = user_fixed_cmp (num_type c t) s n.
Proof.
  repeat split. unfold static_zeroed, user_static_zeroed. change (user_MAX D (num_type c t)) with (MAX_LEVELS c D t). destruct (MAX_LEVELS c D t <? _); reflexivity.
Qed.
