(* VecSetProofs.v - set_bits on byte vectors for every target and every length of the new value *)
From Coq Require Import Lia ZifyBool ZifyNat ZifyN.
From Verif Require Import Base ModelNumber Spec BitProofs NumberProofs VecProofs.
Ltac Zify.zify_post_hook ::= Z.div_mod_to_equations.

(* ---------- numbers given by their bits ---------- *)
Fixpoint number_of (f : N -> bool) (n : nat) : N :=
  match n with O => 0 | S n' => N.b2n (f 0) + 2 * number_of (fun i => f (i + 1)) n' end.
Lemma testbit_number_of f n i : N.testbit (number_of f n) i = (i <? N.of_nat n) && f i.
Proof.
  revert f i. induction n as [|n IH]; intros f i; [cbn [number_of]; rewrite N.bits_0; destruct (N.ltb_spec i (N.of_nat 0)); [lia|reflexivity]|]. cbn [number_of].
  rewrite N.add_comm. destruct (N.eq_dec i 0) as [->|Hi].
  - rewrite N.testbit_0_r. reflexivity.
  - replace i with (N.succ (i - 1)) by lia. rewrite N.testbit_succ_r, IH.
    replace (N.succ (i - 1)) with (i - 1 + 1) by lia.
    destruct (N.ltb_spec (i - 1) (N.of_nat n)), (N.ltb_spec (i - 1 + 1) (N.of_nat (S n))); try lia; reflexivity.
Qed.

Lemma testbit_byte b i : b < 256 -> 8 <= i -> N.testbit b i = false.
Proof. intros Hb Hi. apply testbit_high with (w := 8); [exact Hb|exact Hi]. Qed.

(* ---------- one read ---------- *)
(* bit j of what is read at bit position p *)
Definition read_bit (en : endianness) (nv : list N) (p j : N) : bool :=
  let k := p / 8 in
  let q := p mod 8 + j in
  match en with
  | LittleEndian => N.testbit (bytes_value nv) (p + j)
  | BigEndian =>
      if k + 1 =? len nv then N.testbit (nth (N.to_nat k) nv 0) q
      else if q <? 8 then N.testbit (nth (N.to_nat (k + 1)) nv 0) q
      else N.testbit (nth (N.to_nat k) nv 0) (q - 8)
  end.

Lemma read_new_ok c nv p n : bytes_ok nv -> p / 8 < len nv -> n <= 8 -> p + n < 2 ^ usize_bits c ->
  exists y, read_new c nv p n = Ret y /\ y < 2 ^ n
    /\ forall j, N.testbit y j = (j <? n) && read_bit (target_endian c) nv p j.
Proof.
  intros Hnv Hp Hn HW. unfold read_new. cbn zeta. pose proof (pow2_usize_ge c).
  rewrite sub_ok by lia. rewrite bind_ret.
  destruct (nth_error_N_lt nv (p / 8)) as [a Ha]; [lia|]. pose proof (bytes_ok_nth _ _ _ Hnv Ha) as Ha'.
  assert (Na : nth (N.to_nat (p / 8)) nv 0 = a) by (apply nth_error_nth; exact Ha).
  destruct (N.eqb_spec (p / 8) (len nv - 1)) as [E|E].
  - rewrite add_ok by lia. rewrite bind_ret. rewrite (vec_get_ok _ _ _ Ha), bind_ret.
    rewrite num_get_bits_gen by (cbn [BITS]; try change (2 ^ 8) with 256; try change (2 ^ 32) with 4294967296; lia).
    replace (p mod 8 + n - p mod 8) with n by lia.
    eexists. split; [reflexivity|]. split; [apply bits_of_lt|]. intro j. rewrite testbit_bits_of.
    destruct (N.ltb_spec j n); [|reflexivity]. cbn [andb]. unfold read_bit. cbn zeta. destruct (target_endian c).
    + replace (p / 8 + 1 =? len nv) with true by lia. rewrite Na. f_equal; lia.
    + rewrite testbit_bytes_value by assumption. destruct (N.lt_ge_cases (p mod 8 + j) 8) as [L|L].
      * replace ((p + j) / 8) with (p / 8) by lia. rewrite Ha. f_equal; lia.
      * rewrite testbit_byte by lia. replace ((p + j) / 8) with (p / 8 + 1) by lia.
        destruct (nth_error nv (N.to_nat (p / 8 + 1))) eqn:F; [|reflexivity]. apply nth_error_len in F. lia.
  - unfold read_u16. destruct (nth_error_N_lt nv (p / 8 + 1)) as [b Hb]; [lia|].
    pose proof (bytes_ok_nth _ _ _ Hnv Hb) as Hb'.
    assert (Nb : nth (N.to_nat (p / 8 + 1)) nv 0 = b) by (apply nth_error_nth; exact Hb).
    rewrite Ha, Hb, bind_ret. repeat mstep.
    set (l := match target_endian c with LittleEndian => [a; b] | BigEndian => [b; a] end).
    assert (Hl : bytes_ok l) by (unfold l; destruct (target_endian c); repeat constructor; assumption).
    assert (El : from_bytes (target_endian c) [a; b] = bytes_value l).
    { unfold l. destruct (target_endian c); cbn [from_bytes rev app]; apply from_le_bytes_value. }
    assert (Hv : bytes_value l < 2 ^ BITS c U16).
    { pose proof (bytes_value_lt l Hl) as B. replace (len l) with 2 in B by (unfold l; destruct (target_endian c); reflexivity). exact B. }
    rewrite El. rewrite num_get_bits_gen by (cbn [BITS] in *; try change (2 ^ 16) with 65536 in *; try change (2 ^ 32) with 4294967296; lia).
    rewrite bind_ret. replace (p + n - p / 8 * 8 - (p - p / 8 * 8)) with n by lia.
    rewrite cast_small.
    2:{ eapply N.lt_le_trans; [apply bits_of_lt|]. apply pow2_le_mono. lia. }
    eexists. split; [reflexivity|]. split; [apply bits_of_lt|]. intro j. rewrite testbit_bits_of.
    destruct (N.ltb_spec j n); [|reflexivity]. cbn [andb]. rewrite testbit_bytes_value by assumption.
    replace (p - p / 8 * 8) with (p mod 8) by lia.
    unfold read_bit. cbn zeta. unfold l. destruct (target_endian c).
    + replace (p / 8 + 1 =? len nv) with false by lia. rewrite Na, Nb.
      destruct (N.ltb_spec (p mod 8 + j) 8) as [L|L].
      * replace (N.to_nat ((j + p mod 8) / 8)) with O by lia. cbn [nth_error]. f_equal; lia.
      * replace (N.to_nat ((j + p mod 8) / 8)) with 1%nat by lia. cbn [nth_error]. f_equal; lia.
    + rewrite testbit_bytes_value by assumption. destruct (N.lt_ge_cases (p mod 8 + j) 8) as [L|L].
      * replace (N.to_nat ((j + p mod 8) / 8)) with O by lia. replace ((p + j) / 8) with (p / 8) by lia. rewrite Ha.
        cbn [nth_error]. f_equal; lia.
      * replace (N.to_nat ((j + p mod 8) / 8)) with 1%nat by lia. replace ((p + j) / 8) with (p / 8 + 1) by lia. rewrite Hb.
        cbn [nth_error]. f_equal; lia.
Qed.

Lemma read_new_ub c nv p n : len nv <= p / 8 -> p + n < 2 ^ usize_bits c ->
  read_new c nv p n = if (len nv =? 0) && overflow_checks c then Panic else UB.
Proof.
  intros Hp HW. unfold read_new. cbn zeta. pose proof (pow2_usize_ge c).
  assert (R : read_u16 c nv (p / 8) = UB).
  { unfold read_u16. destruct (nth_error nv (N.to_nat (p / 8))) eqn:F; [|reflexivity]. apply nth_error_len in F. lia. }
  destruct (N.eqb_spec (len nv) 0) as [E|E].
  - rewrite E. unfold sub. cbn [N.leb N.compare]. destruct (overflow_checks c); [reflexivity|]. cbn [andb bind].
    match goal with |- (if ?b then _ else _) = _ => destruct b eqn:B end; [|rewrite R; reflexivity].
    apply N.eqb_eq in B. exfalso. rewrite (cast_small (usize_bits c)) in B by lia. lia.
  - rewrite sub_ok by lia. rewrite bind_ret. replace (p / 8 =? len nv - 1) with false by lia. rewrite R.
    reflexivity.
Qed.

(* ---------- the whole write ---------- *)
Lemma source_read en nv s e i : s <= e -> s / 8 <= i < (e + 7) / 8 ->
  let ss := N.max s (8 * i) in
  let n := N.min (8 * (i + 1)) e - ss in
  forall j, j < n -> read_bit en nv (ss - s) j = source_bit en nv s (ss - s + j).
Proof.
  intros Hse Hi ss n j Hj. unfold read_bit, source_bit, chunk_start. cbn zeta.
  assert (E : 8 * ((s + (ss - s + j)) / 8) - s = ss - s) by lia. rewrite E. clear E.
  replace (ss - s + j - 8 * ((ss - s) / 8)) with ((ss - s) mod 8 + j) by lia. reflexivity.
Qed.

Lemma reads_source c nv s e : bytes_ok nv -> s <= e -> e < 2 ^ usize_bits c -> last_source_byte s e < len nv ->
  reads_chunks c nv s e (number_of (source_bit (target_endian c) nv s) (N.to_nat (e - s))).
Proof.
  intros Hnv Hse He Hl i Hi ss en. unfold last_source_byte in Hl.
  assert (A : (ss - s) / 8 < len nv).
  { assert (8 * i <= 8 * ((e + 7) / 8 - 1)) by (clear - Hi; lia). unfold ss. clear - Hl H Hi Hse. lia. }
  assert (B : s <= ss /\ ss <= en /\ en <= e /\ en - ss <= 8) by (unfold ss, en; clear - Hi Hse; lia).
  destruct (read_new_ok c nv (ss - s) (en - ss)) as (y & E & Hy & T); [exact Hnv|exact A|lia|lia|].
  rewrite E. f_equal. apply N.bits_inj; intro j. rewrite T, testbit_bits_of, testbit_number_of.
  destruct (N.ltb_spec j (en - ss)) as [L|L]; [|reflexivity]. cbn [andb].
  replace (j + (ss - s) <? N.of_nat (N.to_nat (e - s))) with true by (clear - L B; lia). cbn [andb].
  unfold ss, en in *. rewrite (source_read _ _ s e i) by assumption. f_equal. clear; lia.
Qed.

Lemma set_vec_u8_bits_source c vec s e nv :
  bytes_ok nv -> last_source_byte s e < len nv ->
  bytes_ok vec -> s <= e -> e <= 8 * len vec -> 8 * len vec + 8 <= 2 ^ usize_bits c ->
  exists vec', set_vec_u8_bits c vec s e nv = Ret vec' /\ bytes_ok vec' /\ len vec' = len vec
    /\ forall i, N.testbit (bytes_value vec') i
        = if (s <=? i) && (i <? e) then source_bit (target_endian c) nv s (i - s) else N.testbit (bytes_value vec) i.
Proof.
  intros Hnv Hl Hvec Hse He HW.
  destruct (set_vec_u8_bits_chunks c vec s e nv (number_of (source_bit (target_endian c) nv s) (N.to_nat (e - s))))
    as (vec' & E & A & B & C); try assumption; try lia.
  { apply reads_source; try assumption. lia. }
  exists vec'. split; [exact E|]. split; [exact A|]. split; [exact B|]. intro i.
  rewrite C, testbit_put, testbit_number_of.
  destruct (N.leb_spec s i), (N.ltb_spec i (s + (e - s))), (N.ltb_spec i e); cbn [andb]; try lia; try reflexivity.
  replace (i - s <? N.of_nat (N.to_nat (e - s))) with true by lia. reflexivity.
Qed.

(* ---------- new values that are too short ---------- *)
Definition fails {A} (m : outcome A) : option bool := match m with Ret _ => None | Panic => Some false | UB => Some true end.
Definition failed {A} (b : bool) : outcome A := if b then UB else Panic.
Lemma fails_failed {A} (m : outcome A) b : fails m = Some b -> m = failed b.
Proof. destruct m; cbn; intro H; try discriminate; injection H as <-; reflexivity. Qed.
Lemma bind_failed {A B} (k : A -> outcome B) b : bind (failed b) k = failed b.
Proof. destruct b; reflexivity. Qed.

Lemma step_fails c s e nv b vec i :
  let ss := N.max s (8 * i) in
  let en := N.min (8 * (i + 1)) e in
  read_new c nv (ss - s) (en - ss) = failed b ->
  s <= e -> e <= 8 * len vec -> 8 * len vec < 2 ^ usize_bits c ->
  s / 8 <= i -> i < (e + 7) / 8 ->
  set_vec_u8_bits_step c e nv (vec, ss, ss - s) i = failed b.
Proof.
  intros ss en R Hse He HW Hi1 Hi2.
  assert (Hss : s <= ss /\ 8 * i <= ss /\ ss <= en /\ (ss < en \/ ss = s) /\ ss < 8 * (i + 1) /\ en <= e /\ en <= 8 * (i + 1)
                /\ (i < len vec)) by lia.
  clearbody ss. unfold set_vec_u8_bits_step.
  rewrite add_ok by lia. rewrite bind_ret. rewrite mul_ok by lia. rewrite bind_ret.
  replace (N.min ((i + 1) * 8) e) with en by lia. clearbody en.
  rewrite (sub_ok _ _ en ss) by lia. rewrite bind_ret.
  rewrite (add_ok _ _ (ss - s) (en - ss)) by lia. rewrite bind_ret.
  unfold read_new in R. cbn zeta in R.
  destruct (sub c (usize_bits c) (len nv) 1) as [last| |]; cbn [bind] in *; [|destruct b; (discriminate || reflexivity)..].
  rewrite R. apply bind_failed.
Qed.

Lemma set_vec_u8_bits_short c vec s e nv :
  bytes_ok nv -> s / 8 < (e + 7) / 8 -> len nv <= last_source_byte s e ->
  bytes_ok vec -> s <= e -> e <= 8 * len vec -> 8 * len vec + 8 <= 2 ^ usize_bits c ->
  set_vec_u8_bits c vec s e nv = if (len nv =? 0) && overflow_checks c then Panic else UB.
Proof.
  intros Hnv Hne Hl Hvec Hse He HW. unfold last_source_byte in Hl.
  set (b := negb ((len nv =? 0) && overflow_checks c)).
  replace (if (len nv =? 0) && overflow_checks c then Panic else UB) with (@failed (list N) b)
    by (unfold b; destruct ((len nv =? 0) && overflow_checks c); reflexivity).
  assert (G : forall n i vec1, (0 < n)%nat -> i + N.of_nat n = (e + 7) / 8 -> s / 8 <= i -> bytes_ok vec1 -> len vec1 = len vec ->
     foldM (set_vec_u8_bits_step c e nv) (nrange i n) (vec1, N.max s (8 * i), N.max s (8 * i) - s) = failed b).
  { induction n as [|n IH]; intros i vec1 Hn Hi Hsi Hv1 Hlen; [lia|]. cbn [nrange foldM].
    destruct (N.lt_ge_cases ((N.max s (8 * i) - s) / 8) (len nv)) as [L|L].
    - destruct (read_new_ok c nv (N.max s (8 * i) - s) (N.min (8 * (i + 1)) e - N.max s (8 * i))) as (y & E & Hy & _);
        [exact Hnv|exact L|clear - Hsi Hi Hse; lia|clear - Hsi Hi Hse HW He; lia|].
      destruct (set_vec_step_base c s e nv y vec1 i) as (vec2 & E2 & A & B & _); try assumption; try lia.
      rewrite E2, bind_ret.
      assert (N1 : (0 < n)%nat).
      { destruct n; [exfalso|lia]. replace ((e + 7) / 8 - 1) with i in Hl by lia. clear - L Hl. lia. }
      replace (N.min (8 * (i + 1)) e) with (N.max s (8 * (i + 1))) by (clear - N1 Hi Hsi; lia).
      apply IH; try assumption; try lia.
    - rewrite (step_fails c s e nv b); [apply bind_failed|..]; try assumption; try lia.
      rewrite read_new_ub; [|exact L|clear - Hsi Hi Hse HW He; lia].
      unfold b. destruct ((len nv =? 0) && overflow_checks c); reflexivity. }
  unfold set_vec_u8_bits. cbn zeta. rewrite add_ok by lia. rewrite bind_ret. unfold range.
  pose proof (G (N.to_nat ((e + 7) / 8 - s / 8)) (s / 8) vec) as G'.
  replace (N.max s (8 * (s / 8))) with s in G' by (clear; lia). rewrite N.sub_diag in G'.
  rewrite G'; [apply bind_failed|..]; try assumption; try reflexivity; clear - Hne; lia.
Qed.

Lemma set_vec_u8_bits_nothing c vec s e nv : s / 8 = (e + 7) / 8 -> e + 7 < 2 ^ usize_bits c -> set_vec_u8_bits c vec s e nv = Ret vec.
Proof.
  intros H He. unfold set_vec_u8_bits. cbn zeta. rewrite add_ok by lia. rewrite bind_ret. unfold range.
  rewrite H, N.sub_diag. reflexivity.
Qed.
