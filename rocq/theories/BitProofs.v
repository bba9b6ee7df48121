(* BitProofs.v - facts about bit fields of natural numbers, machine operators and loops *)
From Coq Require Export Lia ZArith ZifyBool ZifyNat ZifyN.
From Verif Require Import Base Spec.

Ltac Zify.zify_post_hook ::= Z.div_mod_to_equations.
Global Arguments N.add : simpl never.
Global Arguments N.sub : simpl never.
Global Arguments N.mul : simpl never.
Global Arguments N.div : simpl never.
Global Arguments N.modulo : simpl never.
Global Arguments N.pow : simpl never.
Global Arguments N.testbit : simpl never.
Global Arguments N.land : simpl never.
Global Arguments N.lor : simpl never.
Global Arguments N.shiftl : simpl never.
Global Arguments N.shiftr : simpl never.

(* ---------- powers of two ---------- *)
Lemma pow2_pos n : 0 < 2 ^ n.
Proof. assert (2 ^ n <> 0) by (apply N.pow_nonzero; lia). lia. Qed.
Lemma pow2_ne0 n : 2 ^ n <> 0.
Proof. apply N.pow_nonzero; lia. Qed.
Global Hint Resolve pow2_pos pow2_ne0 : core.
Lemma pow2_lt_mono a b : a < b -> 2 ^ a < 2 ^ b.
Proof. intros H; apply N.pow_lt_mono_r; lia. Qed.
Lemma pow2_le_mono a b : a <= b -> 2 ^ a <= 2 ^ b.
Proof. intros H; apply N.pow_le_mono_r; lia. Qed.
Lemma lt_pow2 n : n < 2 ^ n.
Proof. apply N.pow_gt_lin_r; lia. Qed.
Lemma pow2_S n : 2 ^ (n + 1) = 2 * 2 ^ n.
Proof. rewrite N.add_1_r, N.pow_succ_r'; reflexivity. Qed.

(* ---------- testbit ---------- *)
Lemma testbit_high v w i : v < 2 ^ w -> w <= i -> N.testbit v i = false.
Proof.
  intros Hv Hi. rewrite <- (N.mod_small v (2 ^ w)) by exact Hv.
  apply N.mod_pow2_bits_high; lia.
Qed.
Lemma lt_pow2_testbit v w : (forall i, w <= i -> N.testbit v i = false) -> v < 2 ^ w.
Proof.
  intros H. assert (E : v = v mod 2 ^ w).
  { apply N.bits_inj; intro i. destruct (N.lt_ge_cases i w) as [Hi|Hi].
    - rewrite N.mod_pow2_bits_low by lia; reflexivity.
    - rewrite N.mod_pow2_bits_high by lia. apply H; lia. }
  rewrite E. apply N.mod_lt, pow2_ne0.
Qed.
Lemma testbit_mod v n i : N.testbit (v mod 2 ^ n) i = (i <? n) && N.testbit v i.
Proof.
  destruct (N.ltb_spec i n).
  - rewrite N.mod_pow2_bits_low by lia; reflexivity.
  - rewrite N.mod_pow2_bits_high by lia; reflexivity.
Qed.
Lemma testbit_shiftr v s i : N.testbit (N.shiftr v s) i = N.testbit v (i + s).
Proof. apply N.shiftr_spec; lia. Qed.
Lemma testbit_shiftl v s i : N.testbit (N.shiftl v s) i = (s <=? i) && N.testbit v (i - s).
Proof.
  destruct (N.leb_spec s i).
  - rewrite N.shiftl_spec_high' by lia; reflexivity.
  - rewrite N.shiftl_spec_low by lia; reflexivity.
Qed.
Lemma testbit_ones n i : N.testbit (N.ones n) i = (i <? n).
Proof.
  destruct (N.ltb_spec i n).
  - apply N.ones_spec_low; lia.
  - apply N.ones_spec_high; lia.
Qed.
Lemma testbit_0 i : N.testbit 0 i = false.
Proof. apply N.bits_0. Qed.
Lemma testbit_lnot w v i : v < 2 ^ w -> N.testbit (lnot w v) i = (i <? w) && negb (N.testbit v i).
Proof.
  intros Hv. unfold lnot. rewrite N.lxor_spec, testbit_ones.
  destruct (N.ltb_spec i w).
  - destruct (N.testbit v i); reflexivity.
  - rewrite (testbit_high v w) by lia; reflexivity.
Qed.
Lemma testbit_div_pow2 v s i : N.testbit (v / 2 ^ s) i = N.testbit v (i + s).
Proof. rewrite <- N.shiftr_div_pow2. apply testbit_shiftr. Qed.
Lemma testbit_mul_pow2 v s i : N.testbit (v * 2 ^ s) i = (s <=? i) && N.testbit v (i - s).
Proof. rewrite <- N.shiftl_mul_pow2. apply testbit_shiftl. Qed.
Lemma testbit_cast w v i : N.testbit (cast w v) i = (i <? w) && N.testbit v i.
Proof. apply testbit_mod. Qed.
Lemma testbit_bits_of v s n i : N.testbit (bits_of v s n) i = (i <? n) && N.testbit v (i + s).
Proof. unfold bits_of. rewrite testbit_mod, testbit_div_pow2. reflexivity. Qed.
Lemma testbit_b2n b i : N.testbit (N.b2n b) i = (i =? 0) && b.
Proof.
  destruct b; simpl N.b2n.
  - destruct (N.eqb_spec i 0) as [->|Hi]; [reflexivity|].
    rewrite (testbit_high 1 1); [reflexivity| reflexivity | lia].
  - rewrite testbit_0. destruct (i =? 0); reflexivity.
Qed.
Lemma testbit_1 i : N.testbit 1 i = (i =? 0).
Proof. change 1 with (N.b2n true) at 1. rewrite testbit_b2n. destruct (i =? 0); reflexivity. Qed.

Ltac tb :=
  repeat (rewrite ?N.lor_spec, ?N.land_spec, ?N.ldiff_spec, ?N.lxor_spec, ?testbit_mod, ?testbit_shiftr, ?testbit_shiftl,
    ?testbit_ones, ?testbit_0, ?testbit_div_pow2, ?testbit_mul_pow2, ?testbit_cast, ?testbit_bits_of, ?testbit_b2n).

Lemma cast_small w v : v < 2 ^ w -> cast w v = v.
Proof. intros; apply N.mod_small; assumption. Qed.
Lemma cast_lt w v : cast w v < 2 ^ w.
Proof. apply N.mod_lt, pow2_ne0. Qed.
Lemma bits_of_lt v s n : bits_of v s n < 2 ^ n.
Proof. apply N.mod_lt, pow2_ne0. Qed.
Lemma lor_lt a b w : a < 2 ^ w -> b < 2 ^ w -> N.lor a b < 2 ^ w.
Proof.
  intros Ha Hb. apply lt_pow2_testbit; intros i Hi.
  rewrite N.lor_spec, (testbit_high a w), (testbit_high b w) by lia; reflexivity.
Qed.
Lemma land_lt a b w : a < 2 ^ w -> N.land a b < 2 ^ w.
Proof.
  intros Ha. apply lt_pow2_testbit; intros i Hi.
  rewrite N.land_spec, (testbit_high a w) by lia; reflexivity.
Qed.
Lemma shiftr_lt a s w : a < 2 ^ w -> N.shiftr a s < 2 ^ w.
Proof.
  intros Ha. apply lt_pow2_testbit; intros i Hi.
  rewrite testbit_shiftr. apply (testbit_high a w); lia.
Qed.

(* put v s n x: v with the n bits at s replaced by the bits of x *)
Definition put (v s n x : N) : N := N.lor (N.ldiff v (N.shiftl (N.ones n) s)) (N.shiftl (x mod 2 ^ n) s).
Lemma testbit_put v s n x i :
  N.testbit (put v s n x) i = if (s <=? i) && (i <? s + n) then N.testbit x (i - s) else N.testbit v i.
Proof.
  unfold put. tb.
  destruct (N.leb_spec s i), (N.ltb_spec i (s + n)), (N.ltb_spec (i - s) n); cbn [andb negb orb]; try lia;
    destruct (N.testbit v i); cbn [andb negb orb]; try reflexivity;
    destruct (N.testbit x (i - s)); reflexivity.
Qed.
Lemma put_lt v s n x w : v < 2 ^ w -> s + n <= w -> put v s n x < 2 ^ w.
Proof.
  intros Hv Hs. apply lt_pow2_testbit; intros i Hi. rewrite testbit_put.
  destruct (N.leb_spec s i), (N.ltb_spec i (s + n)); cbn [andb]; try lia; apply (testbit_high v w); lia.
Qed.
Lemma bits_of_put_same v s n x : bits_of (put v s n x) s n = x mod 2 ^ n.
Proof.
  apply N.bits_inj; intro i. rewrite testbit_bits_of, testbit_put, testbit_mod.
  destruct (N.ltb_spec i n); [|reflexivity].
  destruct (N.leb_spec s (i + s)), (N.ltb_spec (i + s) (s + n)); cbn [andb]; try lia.
  f_equal; f_equal; lia.
Qed.
Lemma bits_of_put_other v s n x s' n' :
  s' + n' <= s \/ s + n <= s' -> bits_of (put v s n x) s' n' = bits_of v s' n'.
Proof.
  intros H. apply N.bits_inj; intro i. rewrite !testbit_bits_of, testbit_put.
  destruct (N.ltb_spec i n'); [|reflexivity].
  destruct (N.leb_spec s (i + s')), (N.ltb_spec (i + s') (s + n)); cbn [andb]; try lia; reflexivity.
Qed.
Lemma bits_of_mod v s n w : s + n <= w -> bits_of (v mod 2 ^ w) s n = bits_of v s n.
Proof.
  intros H. apply N.bits_inj; intro i. rewrite !testbit_bits_of, testbit_mod.
  destruct (N.ltb_spec i n); [|reflexivity]. destruct (N.ltb_spec (i + s) w); [reflexivity|lia].
Qed.
Lemma mod_put_low v s n x m : m <= s -> put v s n x mod 2 ^ m = v mod 2 ^ m.
Proof.
  intros H. apply N.bits_inj; intro i. rewrite !testbit_mod, testbit_put.
  destruct (N.ltb_spec i m); [|reflexivity].
  destruct (N.leb_spec s i); cbn [andb]; [lia|reflexivity].
Qed.
Lemma bits_replaced_put v s n x v' : bits_replaced v s n x v' -> v' = put v s n x.
Proof. intros H; apply N.bits_inj; intro i. rewrite testbit_put. apply H. Qed.
Lemma put_bits_replaced v s n x : bits_replaced v s n x (put v s n x).
Proof. intro i; apply testbit_put. Qed.

(* ---------- machine operators ---------- *)
Lemma add_ok c w a b : a + b < 2 ^ w -> add c w a b = Ret (a + b).
Proof. intros H. unfold add. destruct (N.ltb_spec (a + b) (2 ^ w)); [reflexivity|lia]. Qed.
Lemma sub_ok c w a b : b <= a -> sub c w a b = Ret (a - b).
Proof. intros H. unfold sub. destruct (N.leb_spec b a); [reflexivity|lia]. Qed.
Lemma mul_ok c w a b : a * b < 2 ^ w -> mul c w a b = Ret (a * b).
Proof. intros H. unfold mul. destruct (N.ltb_spec (a * b) (2 ^ w)); [reflexivity|lia]. Qed.
Lemma shl_ok c w a s : s < w -> shl c w a s = Ret (cast w (N.shiftl a s)).
Proof. intros H. unfold shl. destruct (N.ltb_spec s w); [reflexivity|lia]. Qed.
Lemma shr_ok c w a s : s < w -> shr c w a s = Ret (N.shiftr a s).
Proof. intros H. unfold shr. destruct (N.ltb_spec s w); [reflexivity|lia]. Qed.
Lemma bind_ret {A B} (a : A) (k : A -> outcome B) : bind (Ret a) k = k a.
Proof. reflexivity. Qed.
Lemma bind_inv {A B} (m : outcome A) (k : A -> outcome B) b :
  bind m k = Ret b -> exists a, m = Ret a /\ k a = Ret b.
Proof. destruct m; cbn; intros H; [eauto|discriminate|discriminate]. Qed.

Lemma usize_bits_cases c : usize_bits c = 16 \/ usize_bits c = 32 \/ usize_bits c = 64.
Proof. unfold usize_bits; destruct (pointer c); auto. Qed.
Lemma BITS_cases c t : BITS c t = 8 \/ BITS c t = 16 \/ BITS c t = 32 \/ BITS c t = 64 \/ BITS c t = 128.
Proof. destruct t; cbn [BITS]; auto. destruct (usize_bits_cases c) as [-> | [-> | ->]]; auto. Qed.
Lemma pow2_usize_ge c : 65536 <= 2 ^ usize_bits c.
Proof.
  change 65536 with (2 ^ 16). apply pow2_le_mono.
  destruct (usize_bits_cases c) as [-> | [-> | ->]]; lia.
Qed.
Lemma usize_ge16 c : 16 <= usize_bits c.
Proof. destruct (usize_bits_cases c) as [-> | [-> | ->]]; lia. Qed.
Lemma usize_le64 c : usize_bits c <= 64.
Proof. destruct (usize_bits_cases c) as [-> | [-> | ->]]; lia. Qed.
Lemma BITS_le c t : BITS c t <= 128.
Proof. destruct (BITS_cases c t) as [-> | [-> | [-> | [-> | ->]]]]; lia. Qed.
Lemma BITS_ge c t : 8 <= BITS c t.
Proof. destruct (BITS_cases c t) as [-> | [-> | [-> | [-> | ->]]]]; lia. Qed.
Lemma BITS_mod8 c t : BITS c t mod 8 = 0.
Proof. destruct (BITS_cases c t) as [-> | [-> | [-> | [-> | ->]]]]; reflexivity. Qed.

(* ---------- lists ---------- *)
Lemma len_app {A} (a b : list A) : len (a ++ b) = len a + len b.
Proof. unfold len. rewrite app_length. lia. Qed.
Lemma len_cons {A} (x : A) l : len (x :: l) = len l + 1.
Proof. unfold len. cbn [List.length]. lia. Qed.
Lemma len_nil {A} : len (@nil A) = 0.
Proof. reflexivity. Qed.
Lemma len_rev {A} (l : list A) : len (rev l) = len l.
Proof. unfold len. rewrite rev_length. reflexivity. Qed.
Lemma len_zeros n : len (zeros n) = n.
Proof. unfold len, zeros. rewrite repeat_length. lia. Qed.
Lemma len_0_nil {A} (l : list A) : len l = 0 -> l = [].
Proof. destruct l; [reflexivity|]. rewrite len_cons. lia. Qed.
Lemma update_length {A} (l : list A) i x : List.length (update l i x) = List.length l.
Proof. revert i; induction l as [|y l IH]; intros [|i]; cbn; auto. Qed.
Lemma len_update {A} (l : list A) i x : len (update l i x) = len l.
Proof. unfold len. rewrite update_length. reflexivity. Qed.
Lemma nth_error_update {A} (l : list A) i j x :
  nth_error (update l i x) j = if (Nat.eqb i j) && (Nat.ltb i (List.length l)) then Some x else nth_error l j.
Proof.
  revert i j; induction l as [|y l IH]; intros i j.
  - replace (Nat.ltb i (List.length (@nil A))) with false by (destruct i; reflexivity).
    rewrite andb_false_r. destruct i; reflexivity.
  - destruct i, j; cbn; try reflexivity. rewrite IH. reflexivity.
Qed.
Lemma nth_error_update_same {A} (l : list A) i x : (i < List.length l)%nat -> nth_error (update l i x) i = Some x.
Proof.
  intros H. rewrite nth_error_update, Nat.eqb_refl.
  destruct (Nat.ltb_spec i (List.length l)); [reflexivity|lia].
Qed.
Lemma nth_error_update_other {A} (l : list A) i j x : i <> j -> nth_error (update l i x) j = nth_error l j.
Proof. intros H. rewrite nth_error_update. destruct (Nat.eqb_spec i j); [contradiction|reflexivity]. Qed.
Lemma nth_error_ext {A} (l l' : list A) : (forall i, nth_error l i = nth_error l' i) -> l = l'.
Proof.
  revert l'; induction l as [|x l IH]; intros [|y l'] H.
  - reflexivity.
  - specialize (H O); discriminate.
  - specialize (H O); discriminate.
  - pose proof (H O) as H0; cbn in H0; injection H0 as ->. f_equal. apply IH. intro i. exact (H (S i)).
Qed.
Lemma nth_error_len {A} (l : list A) i x : nth_error l i = Some x -> N.of_nat i < len l.
Proof. intros H. apply nth_error_Some_length in H || (assert (nth_error l i <> None) as H' by congruence; apply nth_error_Some in H'); unfold len; lia. Qed.
Lemma nth_error_lt {A} (l : list A) i : (i < List.length l)%nat -> exists x, nth_error l i = Some x.
Proof. intros H. destruct (nth_error l i) eqn:E; [eauto|]. apply nth_error_None in E; lia. Qed.
Lemma nth_error_N_lt {A} (l : list A) i : i < len l -> exists x, nth_error l (N.to_nat i) = Some x.
Proof. unfold len; intros H. apply nth_error_lt; lia. Qed.
Lemma vec_get_ok {A} (l : list A) i x : nth_error l (N.to_nat i) = Some x -> vec_get l i = Ret x.
Proof. unfold vec_get. intros ->. reflexivity. Qed.
Lemma vec_set_ok {A} (l : list A) i x : i < len l -> vec_set l i x = Ret (update l (N.to_nat i) x).
Proof. unfold vec_set. intros H. destruct (N.ltb_spec i (len l)); [reflexivity|lia]. Qed.
Lemma Forall_update {A} (P : A -> Prop) l i x : Forall P l -> P x -> Forall P (update l i x).
Proof.
  intros Hl Hx. revert i; induction Hl as [|y l Hy Hl IH]; intros [|i]; cbn; constructor; auto.
Qed.
Lemma update_app_last {A} (l : list A) x y r : update (l ++ y :: r) (List.length l) x = l ++ x :: r.
Proof. induction l as [|z l IH]; cbn; [reflexivity|]. f_equal; exact IH. Qed.

(* ---------- loops ---------- *)
Lemma nrange_length lo n : List.length (nrange lo n) = n.
Proof. revert lo; induction n; intro lo; cbn; auto. Qed.
Lemma len_range lo hi : len (range lo hi) = hi - lo.
Proof. unfold len, range. rewrite nrange_length. lia. Qed.
Lemma nth_error_nrange lo n i : (i < n)%nat -> nth_error (nrange lo n) i = Some (lo + N.of_nat i).
Proof.
  revert lo i; induction n as [|n IH]; intros lo i H; [lia|].
  destruct i as [|i]; cbn [nrange nth_error].
  - f_equal; lia.
  - rewrite IH by lia. f_equal; lia.
Qed.
Lemma nth_error_range lo hi i : lo + N.of_nat i < hi -> nth_error (range lo hi) i = Some (lo + N.of_nat i).
Proof. intros H. apply nth_error_nrange. lia. Qed.
Lemma in_nrange lo n x : In x (nrange lo n) <-> lo <= x < lo + N.of_nat n.
Proof.
  revert lo; induction n as [|n IH]; intro lo; cbn [nrange In].
  - lia.
  - rewrite IH. lia.
Qed.
Lemma in_range lo hi x : In x (range lo hi) <-> lo <= x < hi.
Proof. unfold range. rewrite in_nrange. lia. Qed.
Lemma range_cons lo hi : lo < hi -> range lo hi = lo :: range (lo + 1) hi.
Proof.
  intros H. unfold range. replace (N.to_nat (hi - lo)) with (S (N.to_nat (hi - (lo + 1)))) by lia. reflexivity.
Qed.
Lemma range_nil lo hi : hi <= lo -> range lo hi = [].
Proof. intros H. unfold range. replace (N.to_nat (hi - lo)) with O by lia. reflexivity. Qed.
Lemma nrange_snoc lo n : nrange lo (S n) = nrange lo n ++ [lo + N.of_nat n].
Proof.
  revert lo; induction n as [|n IH]; intro lo.
  - cbn. f_equal. lia.
  - change (nrange lo (S (S n))) with (lo :: nrange (lo + 1) (S n)). rewrite IH.
    cbn [nrange app]. f_equal. f_equal. f_equal. lia.
Qed.
Lemma range_snoc lo hi : lo <= hi -> range lo (hi + 1) = range lo hi ++ [hi].
Proof.
  intros H. unfold range. replace (N.to_nat (hi + 1 - lo)) with (S (N.to_nat (hi - lo))) by lia.
  rewrite nrange_snoc. do 2 f_equal. lia.
Qed.

Lemma foldM_app {A S} (f : S -> A -> outcome S) l1 l2 s :
  foldM f (l1 ++ l2) s = let! s' := foldM f l1 s in foldM f l2 s'.
Proof.
  revert s; induction l1 as [|x l1 IH]; intro s; cbn [foldM app].
  - reflexivity.
  - destruct (f s x); cbn [bind]; auto.
Qed.

(* ascending loop with an invariant indexed by the next loop index *)
Lemma foldM_range_inv {S} (P : N -> S -> Prop) (f : S -> N -> outcome S) lo hi s :
  lo <= hi -> P lo s ->
  (forall i s, lo <= i < hi -> P i s -> exists s', f s i = Ret s' /\ P (i + 1) s') ->
  exists s', foldM f (range lo hi) s = Ret s' /\ P hi s'.
Proof.
  intros Hle H0 Hstep. unfold range.
  remember (N.to_nat (hi - lo)) as n eqn:Hn. revert lo s Hle H0 Hstep Hn.
  induction n as [|n IH]; intros lo s Hle H0 Hstep Hn; cbn [nrange foldM].
  - exists s. split; [reflexivity|]. replace hi with lo by lia. exact H0.
  - destruct (Hstep lo s) as (s1 & E1 & H1); [lia|exact H0|]. rewrite E1; cbn [bind].
    apply IH; try lia; auto. intros i s' Hi Hs. apply Hstep; [lia|exact Hs].
Qed.

(* descending loop: the invariant P i holds when the indices >= i have been processed *)
Lemma foldM_rev_range_inv {S} (P : N -> S -> Prop) (f : S -> N -> outcome S) lo hi s :
  lo <= hi -> P hi s ->
  (forall i s, lo <= i < hi -> P (i + 1) s -> exists s', f s i = Ret s' /\ P i s') ->
  exists s', foldM f (rev (range lo hi)) s = Ret s' /\ P lo s'.
Proof.
  intros Hle H0 Hstep.
  remember (N.to_nat (hi - lo)) as n eqn:Hn. revert hi s Hle H0 Hstep Hn.
  induction n as [|n IH]; intros hi s Hle H0 Hstep Hn.
  - rewrite range_nil by lia. exists s. split; [reflexivity|]. replace lo with hi by lia. exact H0.
  - assert (E : hi = (hi - 1) + 1) by lia. rewrite E, range_snoc by lia.
    rewrite rev_app_distr. cbn [rev app foldM].
    destruct (Hstep (hi - 1) s) as (s1 & E1 & H1); [lia| rewrite <- E; exact H0 |].
    rewrite E1; cbn [bind]. apply IH; try lia; auto.
    intros i s' Hi Hs. apply Hstep; [lia|exact Hs].
Qed.

(* loop over an enumerated list *)
Lemma foldM_enum_inv {A S} (P : N -> S -> Prop) (f : S -> N * A -> outcome S) (l : list A) s :
  P 0 s ->
  (forall i x s, nth_error l i = Some x -> P (N.of_nat i) s ->
                 exists s', f s (N.of_nat i, x) = Ret s' /\ P (N.of_nat i + 1) s') ->
  exists s', foldM f (enumerate l) s = Ret s' /\ P (len l) s'.
Proof.
  intros H0 Hstep. unfold enumerate.
  assert (G : forall l2 l1 s, l = l1 ++ l2 -> P (len l1) s ->
              exists s', foldM f (enum_from (len l1) l2) s = Ret s' /\ P (len l) s').
  { clear s H0. induction l2 as [|x l2 IH]; intros l1 s E H; cbn [enum_from foldM].
    - exists s. split; [reflexivity|]. rewrite E, app_nil_r. exact H.
    - destruct (Hstep (List.length l1) x s) as (s1 & E1 & H1).
      + rewrite E, nth_error_app2, Nat.sub_diag by lia. reflexivity.
      + exact H.
      + fold (len l1) in E1, H1. rewrite E1. cbn [bind].
        assert (E2 : len l1 + 1 = len (l1 ++ [x])) by (rewrite len_app, len_cons, len_nil; lia).
        rewrite E2. apply IH.
        * rewrite <- app_assoc. exact E.
        * rewrite <- E2. exact H1. }
  apply (G l []); [reflexivity|exact H0].
Qed.

Lemma mapM_ok {A B} (f : A -> outcome B) (l : list A) (g : A -> B) :
  (forall x, In x l -> f x = Ret (g x)) -> mapM f l = Ret (map g l).
Proof.
  induction l as [|x l IH]; intros H; cbn [mapM map]; [reflexivity|].
  rewrite (H x) by (left; reflexivity). cbn [bind]. rewrite IH by (intros; apply H; right; assumption). reflexivity.
Qed.

(* discharge machine operators that do not overflow *)
Ltac mstep :=
  first [ rewrite bind_ret
        | rewrite add_ok by lia | rewrite sub_ok by lia | rewrite mul_ok by lia
        | rewrite shl_ok by lia | rewrite shr_ok by lia ].
