(* FactsTrips.v - proofs of the theorems stated in PropTrips.v *)
From Coq Require Import Strings.String.
From Verif Require Import Base ModelNumber ModelDim ModelStorage Model2D Model3D ModelError Spec History BitProofs NumberProofs VecProofs CellProofs
  StorageProofs OrderProofs ConvProofs HistoryProofs NameProofs FactsCells FactsOrder FactsConv FactsBits FactsGrid FactsWide SpecText TextProofs.

(* ---------- C55 ---------- *)
Lemma c55_fixed_dynamic_fixed_partial_lemma : forall c D L t (s : storage (KFixed t)),
  is_dim D L -> valid c D (KFixed t) s ->
  let nb := BITS c t / 8 in let byte v k := v / 2 ^ (8 * k) mod 256 in
  exists s', fixed_from_dynamic c D t (dynamic_from_fixed c D t s) = Ok s' /\ valid c D (KFixed t) s'
    /\ (forall k, k < nb -> byte (fx_bits s') k = byte (fx_bits s) (match target_endian c with LittleEndian => k | BigEndian => nb - 1 - k end))
    /\ (target_endian c = LittleEndian -> idx_eq (KFixed t) s' s = true).
Proof.
  intros c D L t s HL V nb byte. pose proof (is_dim_ok _ _ HL) as HD. cbn in V.
  assert (F : 8 * nb = BITS c t) by (unfold nb; rewrite num_size_8'; apply num_size_8).
  pose proof (dynamic_from_fixed_bits c D t s V) as E.
  assert (B : bytes_ok (dy_bits (dynamic_from_fixed c D t s))) by (rewrite E; apply bytes_ok_to_le).
  assert (Ln : len (dy_bits (dynamic_from_fixed c D t s)) = nb).
  { rewrite E. rewrite len_to_le_bytes. unfold nb. rewrite num_size_8'. lia. }
  unfold fixed_from_dynamic. change (dy_depth (dynamic_from_fixed c D t s)) with (MAX_LEVELS c D t).
  destruct (N.ltb_spec (MAX_LEVELS c D t) (MAX_LEVELS c D t)); [lia|].
  rewrite num_from_u8_slice_spec by exact B. unfold padded. rewrite <- num_size_8'. fold nb. rewrite Ln, N.sub_diag.
  change (zeros 0) with (@nil N). rewrite app_nil_r.
  rewrite firstn_all2 by (unfold len in Ln; lia).
  assert (VE : bytes_value (dy_bits (dynamic_from_fixed c D t s)) = fx_bits s).
  { rewrite E. apply bytes_value_to_le. rewrite N2Nat.id, num_size_8. exact V. }
  set (l := dy_bits (dynamic_from_fixed c D t s)) in *. clearbody l.
  assert (BL : from_bytes (target_endian c) l < 2 ^ BITS c t).
  { rewrite <- F, <- Ln. apply from_bytes_lt. exact B. }
  eexists. split; [reflexivity|]. split; [exact BL|]. cbn [fx_bits]. unfold byte, from_bytes, from_be_bytes. split.
  - intros k Hk. destruct (target_endian c); rewrite from_le_bytes_value.
    + rewrite byte_of_list by (apply bytes_ok_rev; exact B). rewrite rev_nth by (unfold len in Ln; lia).
      rewrite <- VE, byte_of_list by exact B. f_equal. unfold len in Ln. lia.
    + rewrite VE. reflexivity.
  - intros ->. apply idx_eq_iff. rewrite from_le_bytes_value, VE. destruct s; reflexivity.
Qed.
Lemma c55_fixed_dynamic_fixed_refuted_lemma :
  ~ (forall c D L t (s : storage (KFixed t)), is_dim D L -> valid c D (KFixed t) s ->
     exists s', fixed_from_dynamic c D t (dynamic_from_fixed c D t s) = Ok s' /\ idx_eq (KFixed t) s' s = true).
Proof.
  intro H. destruct (H (Cfg true PW64 BigEndian) Dim2D layout2D U16 (MkFixed 1)) as (s & E & I); [constructor|reflexivity|].
  vm_compute in E. injection E as <-. vm_compute in I. discriminate.
Qed.
(* fixed -> dynamic -> static and fixed -> static agree on every target *)
Lemma c55_fixed_dynamic_static_lemma : forall c D L t (s : storage (KFixed t)) l, made c D L (KFixed t) true s l ->
  exists s', static_from_dynamic c D t (dynamic_from_fixed c D t s) = Ret (Ok s')
    /\ idx_eq (KStatic t) s' (static_from_fixed c D t s) = true.
Proof.
  intros c D L t s l HM. destruct (made_rep _ _ _ _ _ _ _ HM) as [HL C]. pose proof (is_dim_ok _ _ HL) as HD. cbn [rep] in C.
  pose proof (canon_repr _ _ _ _ _ C) as R. pose proof (raw_depth _ _ _ _ _ _ _ _ C) as Hd. cbn [st_depth ops fixed_ops] in Hd.
  destruct (dynamic_from_fixed_repr c D L t s l HL R) as [Rd _].
  destruct (static_from_dynamic_ok c D t _ l HD Rd) as (s' & E & C'); [lia|].
  exists s'. split; [exact E|]. apply idx_eq_iff. apply (canon_unique c D (KStatic t) _ _ l HD C'). apply static_from_fixed_canon; assumption.
Qed.
Lemma c55_dynamic_static_dynamic_lemma : forall c D L t (s : storage KDynamic) l, made c D L KDynamic true s l ->
  writable c KDynamic -> len l <= BITS c t / dim D ->
  exists s' d, static_from_dynamic c D t s = Ret (Ok s') /\ dynamic_from_static c D L t s' = Ret d /\ idx_eq KDynamic d s = true.
Proof.
  intros c D L t s l HM HW H. destruct (made_rep _ _ _ _ _ _ _ HM) as [HL C]. pose proof (is_dim_ok _ _ HL) as HD. cbn [rep] in C.
  destruct (static_from_dynamic_ok c D t s l HD (canon_repr _ _ _ _ _ C) H) as (s' & E & C').
  destruct (dynamic_from_static_canon c D L t s' l HL HW (canon_repr _ _ _ _ _ C')) as (d & E' & Cd).
  exists s', d. split; [exact E|]. split; [exact E'|]. apply idx_eq_iff. exact (canon_unique c D KDynamic _ _ l HD Cd C).
Qed.
(* the depth is lost on the way through a fixed index *)
Lemma c55_static_fixed_static_lemma : forall c D L t (s : storage (KStatic t)) l, made c D L (KStatic t) true s l ->
  let s' := static_from_fixed c D t (fixed_from_static s) in
  valid c D (KStatic t) s' /\ shows (static_ops c D t) s' (l ++ repeat (cell_zero D) (N.to_nat (BITS c t / dim D - len l)))
  /\ (idx_eq (KStatic t) s' s = true <-> len l = BITS c t / dim D).
Proof.
  intros c D L t s l HM s'. destruct (made_rep _ _ _ _ _ _ _ HM) as [HL C]. pose proof (is_dim_ok _ _ HL) as HD. cbn [rep] in C.
  pose proof (fixed_from_static_canon c D t s l HD C) as CF.
  pose proof (static_from_fixed_canon c D t _ _ HD CF) as CS. pose proof (canon_repr _ _ _ _ _ CS) as R.
  split; [eapply (repr_valid c D (KStatic t)); eassumption|]. split; [apply (repr_shows c D (KStatic t)); assumption|].
  assert (LM : len l <= MAX_LEVELS c D t) by (eapply static_room; [exact HD|eapply canon_repr; exact C]).
  rewrite idx_eq_iff. split; intro E.
  - fold s' in CS. rewrite E in CS. pose proof (raw_depth _ _ _ _ _ _ _ _ CS) as D1. pose proof (raw_depth _ _ _ _ _ _ _ _ C) as D2.
    rewrite D1 in D2. rewrite len_app, len_repeat in D2. unfold MAX_LEVELS in *. lia.
  - apply (canon_unique c D (KStatic t) _ _ l HD); [|exact C]. fold s' in CS. unfold MAX_LEVELS in CS. rewrite E, N.sub_diag in CS.
    cbn [N.to_nat repeat] in CS. rewrite app_nil_r in CS. exact CS.
Qed.

(* ---------- C56 ---------- *)
Lemma string_app_inv_head (p a b : string) : (p ++ a = p ++ b)%string -> a = b.
Proof. induction p as [|x p IH]; cbn [String.append]; intro E; [exact E|]. injection E as E. exact (IH E). Qed.
Lemma length_append (a b : string) : String.length (a ++ b)%string = (String.length a + String.length b)%nat.
Proof. induction a as [|x a IH]; cbn [String.append String.length]; [reflexivity|]. rewrite IH. reflexivity. Qed.
Lemma string_app_inv_tail (a b p : string) : (a ++ p = b ++ p)%string -> a = b.
Proof.
  revert b. induction a as [|x a IH]; intros [|y b] E; cbn [String.append] in E.
  - reflexivity.
  - exfalso. apply (f_equal String.length) in E. cbn [String.length] in E. rewrite length_append in E. lia.
  - exfalso. apply (f_equal String.length) in E. cbn [String.length] in E. rewrite length_append in E. lia.
  - injection E as <- E. f_equal. exact (IH b E).
Qed.
Lemma c56_error_texts_lemma : forall e,
  match e with
  | DepthLimitedExceeded m => forall s,
      (numeral m s <-> error_display e = ("Exceeded the depth limit of " ++ s ++ " levels for this Morton index type")%string)
      /\ (numeral m s <-> error_debug e = ("DepthLimitedExceeded { max_depth: " ++ s ++ " }")%string)
  | CellIndexOutOfRange => error_display e = "Cell index is out of range"%string /\ error_debug e = "CellIndexOutOfRange"%string
  end.
Proof.
  intros [m|]; [|split; reflexivity]. intro s. split; (split; intro H;
    [apply numeral_unique in H; rewrite H; reflexivity|
     apply string_app_inv_head in H; apply string_app_inv_tail in H; rewrite <- H; exact (numeral_decimal m)]).
Qed.
Lemma c56_error_texts_distinguish_lemma : forall e e',
  (error_display e = error_display e' <-> e = e') /\ (error_debug e = error_debug e' <-> e = e').
Proof.
  intros [m|] [m'|]; split; split; intro E; try reflexivity; try (subst; reflexivity); try congruence; try (cbn in E; discriminate).
  - unfold error_display in E. apply string_app_inv_head in E. apply string_app_inv_tail in E. apply decimal_inj in E. subst. reflexivity.
  - unfold error_debug in E. apply string_app_inv_head in E. apply string_app_inv_tail in E. apply decimal_inj in E. subst. reflexivity.
Qed.
(* the text names the exact limit of the type whose constructor failed *)
Lemma c56_fixed_try_from_text_lemma : forall c D L t cells e, is_dim D L -> fixed_try_from c D t cells = Ret (Err e) ->
  exists s, numeral (BITS c t / dim D) s
    /\ error_display e = ("Exceeded the depth limit of " ++ s ++ " levels for this Morton index type")%string
    /\ BITS c t / dim D < len cells.
Proof.
  intros c D L t cells e HL E. destruct (N.le_gt_cases (len cells) (BITS c t / dim D)) as [H|H].
  - destruct (proj2 (proj2 (c03_fixed_try_from_err_lemma c D L t cells HL)) H) as (s & E'). congruence.
  - rewrite (proj2 (proj1 (c03_fixed_try_from_err_lemma c D L t cells HL)) H) in E. injection E as <-.
    exists (decimal (BITS c t / dim D)). split; [apply numeral_decimal|]. split; [reflexivity|exact H].
Qed.
Lemma c56_static_try_from_text_lemma : forall c D L t cells e, is_dim D L -> static_try_from c D t cells = Ret (Err e) ->
  exists s, numeral (BITS c t / dim D) s
    /\ error_display e = ("Exceeded the depth limit of " ++ s ++ " levels for this Morton index type")%string
    /\ BITS c t / dim D < len cells.
Proof.
  intros c D L t cells e HL E. destruct (N.le_gt_cases (len cells) (BITS c t / dim D)) as [H|H].
  - destruct (proj2 (proj2 (c03_static_try_from_err_lemma c D L t cells HL)) H) as (s & E'). congruence.
  - rewrite (proj2 (proj1 (c03_static_try_from_err_lemma c D L t cells HL)) H) in E. injection E as <-.
    exists (decimal (BITS c t / dim D)). split; [apply numeral_decimal|]. split; [reflexivity|exact H].
Qed.
Lemma c56_cell_text_lemma : forall n, error_display CellIndexOutOfRange = "Cell index is out of range"%string
  /\ (quadrant_try_from n = Err CellIndexOutOfRange <-> 4 <= n) /\ (octant_try_from n = Err CellIndexOutOfRange <-> 8 <= n).
Proof.
  intro n. split; [reflexivity|]. split.
  - destruct (c28_quadrant_numbering_lemma n) as [H1 H2]. destruct (N.lt_ge_cases n 4) as [L|L].
    + destruct (H1 L) as (q & E & _). rewrite E. split; [discriminate|lia].
    + split; auto.
  - destruct (c28_octant_numbering_lemma n) as [H1 H2]. destruct (N.lt_ge_cases n 8) as [L|L].
    + destruct (H1 L) as (q & E & _). rewrite E. split; [discriminate|lia].
    + split; auto.
Qed.

(* ---------- C27 ---------- *)
Lemma c27_decimal_is_the_numeral_lemma : forall n s, numeral n s <-> s = decimal n.
Proof. intros n s. split; [apply numeral_unique|]. intros ->. apply numeral_decimal. Qed.
