(* FactsFlags.v - lemmas behind PropFlags.v: Debug texts with formatting flags (C75) *)
From Coq Require Import Strings.String Strings.Ascii Hexadecimal HexadecimalFacts HexadecimalN HexadecimalString ZifyBool ZifyNat ZifyN.
From Verif Require Import Base ModelNumber ModelDim ModelStorage Model2D Model3D ModelHelper ModelStd ModelError ModelDebug ModelFlags
  Spec SpecStd SpecText SpecDebug SpecFlags History BitProofs NumberProofs CellProofs
  StorageProofs OrderProofs GridProofs HistoryProofs NameProofs TextProofs FactsCells FactsName FactsHistory FactsStd FactsDebug.
Local Open Scope string_scope.

(* ---------- numerals in base 16 ---------- *)
Ltac digit_step :=
  match goal with |- context [digit_of ?h ?a] => let r := eval vm_compute in (digit_of h a) in change (digit_of h a) with r end;
  cbn iota beta; change (base_of LowerHex) with 16%N.
Lemma read_pos_hex d : forall p, read_in LowerHex (Npos p) (HexadecimalString.NilEmpty.string_of_uint d) = Some (Npos (Pos.of_hex_uint_acc d p)).
Proof.
  induction d; intro p; cbn [HexadecimalString.NilEmpty.string_of_uint read_in Pos.of_hex_uint_acc]; [reflexivity| ..];
  digit_step; rewrite <- IHd; f_equal; lia.
Qed.
Lemma read_hex d : read_in LowerHex 0 (HexadecimalString.NilEmpty.string_of_uint d) = Some (N.of_hex_uint d).
Proof.
  unfold N.of_hex_uint. induction d; cbn [HexadecimalString.NilEmpty.string_of_uint read_in Pos.of_hex_uint]; [reflexivity| exact IHd |..];
  digit_step; exact (read_pos_hex d _).
Qed.
Lemma unorm_to_hex n : unorm (N.to_hex_uint n) = N.to_hex_uint n.
Proof. rewrite <- HexadecimalN.Unsigned.to_of, HexadecimalN.Unsigned.of_to. reflexivity. Qed.
Lemma hex_unorm_nonnil d : unorm d <> Nil.
Proof. unfold unorm. destruct (nzhead d); discriminate. Qed.
Lemma hex_nzhead_no_zero d : forall d', nzhead d <> D0 d'.
Proof. induction d; intros d'; cbn [nzhead]; [discriminate|apply IHd|discriminate ..]. Qed.
Lemma hex_unorm_zero d d' : unorm d = D0 d' -> d' = Nil.
Proof.
  unfold unorm. pose proof (hex_nzhead_no_zero d) as H. destruct (nzhead d) eqn:E; intro Q; try discriminate Q.
  - injection Q as <-. reflexivity.
  - exfalso. exact (H _ eq_refl).
Qed.
Lemma lower_hex_digits n : lower_hex n = HexadecimalString.NilEmpty.string_of_uint (N.to_hex_uint n).
Proof.
  unfold lower_hex. pose proof (hex_unorm_nonnil (N.to_hex_uint n)) as H. rewrite unorm_to_hex in H.
  destruct (N.to_hex_uint n); [congruence|reflexivity ..].
Qed.
Lemma numeral_lower n : numeral_in LowerHex n (lower_hex n).
Proof.
  rewrite lower_hex_digits. split; [|split].
  - pose proof (hex_unorm_nonnil (N.to_hex_uint n)) as H. rewrite unorm_to_hex in H.
    destruct (N.to_hex_uint n); [congruence|discriminate ..].
  - rewrite read_hex, HexadecimalN.Unsigned.of_to. reflexivity.
  - intros s' E. destruct (N.to_hex_uint n) as [|d|d|d|d|d|d|d|d|d|d|d|d|d|d|d|d] eqn:U; cbn in E; try discriminate E.
    injection E as <-. replace d with Nil; [reflexivity|]. symmetry. apply (hex_unorm_zero (N.to_hex_uint n)). rewrite unorm_to_hex. exact U.
Qed.
Definition upper_char (a : ascii) : ascii :=
  let n := N_of_ascii a in if (97 <=? n)%N && (n <=? 122)%N then ascii_of_N (n - 32) else a.
Lemma upper_digit a v : digit_of LowerHex a = Some v -> digit_of UpperHex (upper_char a) = Some v.
Proof.
  destruct a as [b0 b1 b2 b3 b4 b5 b6 b7].
  destruct b0, b1, b2, b3, b4, b5, b6, b7; vm_compute; intro H; try discriminate H; exact H.
Qed.
Lemma upper_zero a v : digit_of LowerHex a = Some v -> upper_char a = "0"%char -> a = "0"%char.
Proof.
  destruct a as [b0 b1 b2 b3 b4 b5 b6 b7].
  destruct b0, b1, b2, b3, b4, b5, b6, b7; vm_compute; intros H K; try discriminate H; try discriminate K; reflexivity.
Qed.
Lemma read_upper s : forall acc v, read_in LowerHex acc s = Some v -> read_in UpperHex acc (to_upper s) = Some v.
Proof.
  induction s as [|a s IH]; intros acc v; [auto|]. cbn [read_in to_upper]. fold (upper_char a).
  destruct (digit_of LowerHex a) as [x|] eqn:E; [|discriminate]. rewrite (upper_digit _ _ E). apply IH.
Qed.
Lemma numeral_upper n : numeral_in UpperHex n (to_upper (lower_hex n)).
Proof.
  destruct (numeral_lower n) as (A & B & C). split; [|split].
  - destruct (lower_hex n); [congruence|discriminate].
  - apply read_upper. exact B.
  - destruct (lower_hex n) as [|a s]; [congruence|]. cbn [to_upper]. fold (upper_char a). intros s' E. injection E as E <-.
    cbn [read_in] in B. destruct (digit_of LowerHex a) as [x|] eqn:F; [|discriminate B]. rewrite (upper_zero a x F E) in C.
    rewrite (C s eq_refl). reflexivity.
Qed.
Lemma read_decimal s : forall acc, read_in NoHex acc s = read_digits acc s.
Proof. induction s as [|a s IH]; intro acc; [reflexivity|]. cbn [read_in read_digits digit_of]. destruct (digit_value a); [apply IH|reflexivity]. Qed.
Definition digits_text (h : hex_flag) (n : N) : string :=
  match h with NoHex => display_usize n | LowerHex => lower_hex n | UpperHex => to_upper (lower_hex n) end.
Lemma numeral_digits h n : numeral_in h n (digits_text h n).
Proof.
  destruct h; cbn [digits_text]; [|apply numeral_lower|apply numeral_upper].
  change (display_usize n) with (decimal n). destruct (numeral_decimal n) as (A & B & C). split; [exact A|]. split; [|exact C].
  rewrite read_decimal. exact B.
Qed.
(* numerals are unique *)
Lemma digit_bound h a v : digit_of h a = Some v -> (v < base_of h)%N.
Proof.
  destruct a as [b0 b1 b2 b3 b4 b5 b6 b7].
  destruct h, b0, b1, b2, b3, b4, b5, b6, b7; vm_compute; intro H; try discriminate H; injection H as <-; reflexivity.
Qed.
Lemma digit_inj h a a' v : digit_of h a = Some v -> digit_of h a' = Some v -> a = a'.
Proof.
  assert (K : exists l, (forall x w, digit_of h x = Some w -> In (x, w) l)
              /\ forallb (fun p => forallb (fun q => negb (snd p =? snd q)%N || Ascii.eqb (fst p) (fst q)) l) l = true).
  { exists (List.concat (map (fun n => match digit_of h (ascii_of_N (N.of_nat n)) with Some w => [(ascii_of_N (N.of_nat n), w)] | None => [] end) (seq 0 256))).
    split; [|destruct h; vm_compute; reflexivity]. intros x w E. apply in_concat.
    exists [(x, w)]. split; [|left; reflexivity]. apply in_map_iff. exists (nat_of_ascii x).
    unfold nat_of_ascii. rewrite N2Nat.id, ascii_N_embedding, E. split; [reflexivity|].
    apply in_seq. pose proof (N_ascii_bounded x). lia. }
  destruct K as (l & H & U). intros A B. apply H in A, B. rewrite forallb_forall in U. specialize (U _ A). rewrite forallb_forall in U.
  specialize (U _ B). cbn [fst snd] in U. rewrite N.eqb_refl in U. apply Ascii.eqb_eq. exact U.
Qed.
Lemma read_bounds h s : forall acc v, read_in h acc s = Some v ->
  (acc * base_of h ^ N.of_nat (String.length s) <= v < (acc + 1) * base_of h ^ N.of_nat (String.length s))%N.
Proof.
  induction s as [|a s IH]; intros acc v; cbn [read_in String.length].
  - intro E. injection E as <-. cbn. lia.
  - destruct (digit_of h a) as [d|] eqn:Ed; [|discriminate]. intro E. apply IH in E. apply digit_bound in Ed.
    rewrite Nat2N.inj_succ, N.pow_succ_r'. set (p := (base_of h ^ N.of_nat (String.length s))%N) in *. clearbody p.
    set (b := base_of h) in *. clearbody b. split; nia.
Qed.
Lemma read_same_length h s : forall s' acc v, String.length s = String.length s' -> read_in h acc s = Some v -> read_in h acc s' = Some v -> s = s'.
Proof.
  induction s as [|a s IH]; intros [|a' s'] acc v L; try discriminate L; [reflexivity|]. injection L as L. cbn [read_in].
  destruct (digit_of h a) as [d|] eqn:Ed; [|discriminate]. destruct (digit_of h a') as [d'|] eqn:Ed'; [|discriminate].
  intros E E'. assert (Q : d = d').
  { pose proof (read_bounds _ _ _ _ E) as B. pose proof (read_bounds _ _ _ _ E') as B'. rewrite <- L in B'.
    set (p := (base_of h ^ N.of_nat (String.length s))%N) in *. clearbody p. clear - B B'.
    destruct (N.lt_trichotomy d d') as [H|[H|H]]; [exfalso|exact H|exfalso]; nia. }
  subst d'. rewrite (digit_inj _ _ _ _ Ed Ed'). f_equal. exact (IH s' _ v L E E').
Qed.
Lemma zero_char h : digit_of h "0"%char = Some 0%N.
Proof. destruct h; reflexivity. Qed.
Lemma base_pos h : (1 < base_of h)%N.
Proof. destruct h; reflexivity. Qed.
(* a numeral of several digits is at least a power of the base *)
Lemma numeral_bounds h n s : numeral_in h n s ->
  (n < base_of h ^ N.of_nat (String.length s))%N /\ (s = "0" \/ base_of h ^ N.of_nat (pred (String.length s)) <= n)%N.
Proof.
  intros (A & B & C). split; [apply read_bounds in B; lia|]. destruct s as [|a s]; [congruence|]. cbn [read_in String.length pred] in *.
  destruct (digit_of h a) as [d|] eqn:Ed; [|discriminate B]. apply read_bounds in B. destruct (N.eq_dec d 0) as [->|D].
  - left. assert (a = "0"%char) by (eapply digit_inj; [exact Ed|apply zero_char]). subst a. rewrite (C s eq_refl). reflexivity.
  - right. set (p := (base_of h ^ N.of_nat (String.length s))%N) in *. clearbody p. nia.
Qed.
Lemma numeral_in_unique h n s s' : numeral_in h n s -> numeral_in h n s' -> s = s'.
Proof.
  intros H H'. destruct (numeral_bounds h n s H) as [U L]. destruct (numeral_bounds h n s' H') as [U' L'].
  apply (read_same_length h s s' 0 n); [|apply H|apply H'].
  assert (Z : forall t t', numeral_in h n t -> t = "0" -> numeral_in h n t' -> String.length t = String.length t').
  { intros t t' T -> T'. assert (N0 : n = 0%N) by (destruct T as (_ & T & _); cbn [read_in] in T; rewrite zero_char in T; injection T as T; lia). subst n.
    destruct (numeral_bounds h 0 t' T') as [_ [->|K]]; [reflexivity|]. exfalso. pose proof (base_pos h).
    assert (base_of h ^ N.of_nat (pred (String.length t')) <> 0)%N by (apply N.pow_nonzero; lia). lia. }
  destruct L as [->|L]; [apply Z; auto|]. destruct L' as [->|L']; [symmetry; apply Z; auto|].
  assert (M : forall x y : nat, (0 < y)%nat -> (base_of h ^ N.of_nat (pred x) <= n)%N -> (n < base_of h ^ N.of_nat y)%N -> (x <= y)%nat).
  { intros x y Y P Q. assert (R : (base_of h ^ N.of_nat (pred x) < base_of h ^ N.of_nat y)%N) by lia.
    apply N.pow_lt_mono_r_iff in R; [lia|apply base_pos]. }
  assert (String.length s <> 0)%nat by (destruct H as (H & _); destruct s; [congruence|discriminate]).
  assert (String.length s' <> 0)%nat by (destruct H' as (H' & _); destruct s'; [congruence|discriminate]).
  apply Nat.le_antisymm; apply M; auto; lia.
Qed.

(* ---------- padding ---------- *)
Lemma copies_repeat s n : copies s n (repeat_text n s).
Proof.
  unfold repeat_text. induction n using N.peano_ind; [constructor|]. rewrite N.iter_succ, <- N.add_1_r. constructor. exact IHn.
Qed.
Lemma copies_zero s t : copies s 0 t -> t = "".
Proof. intro H. inversion H; [reflexivity|]. exfalso. lia. Qed.
Lemma copies_fun s n t : copies s n t -> forall t', copies s n t' -> t = t'.
Proof.
  induction 1 as [|n t H IH]; intros t' K.
  - symmetry. exact (copies_zero _ _ K).
  - inversion K as [|m u K' E]; [exfalso; lia|]. assert (m = n) by lia. subst m. rewrite (IH u K'). reflexivity.
Qed.
Lemma debug_number_pad fl n : debug_number fl n = pad_integral fl (match fl_hex fl with NoHex => "" | _ => "0x" end) (digits_text (fl_hex fl) n).
Proof. unfold debug_number. destruct (fl_hex fl); reflexivity. Qed.
Lemma length_app a b : String.length (a ++ b) = (String.length a + String.length b)%nat.
Proof. induction a as [|x a IH]; [reflexivity|]. cbn [String.append String.length]. rewrite IH. reflexivity. Qed.
Lemma half_cases p : (p / 2 = p - p / 2 \/ p / 2 + 1 = p - p / 2)%N.
Proof. pose proof (N.div_mod p 2). pose proof (N.mod_lt p 2). lia. Qed.
Lemma number_text_number fl n : number_text fl n (debug_number fl n).
Proof.
  rewrite debug_number_pad. unfold pad_integral.
  set (h0 := (if fl_plus fl then "+" else "") ++ (match fl_hex fl with NoHex => "" | _ => if fl_alternate fl then "0x" else "" end)).
  replace ((if fl_plus fl then "+" else "") ++ (if fl_alternate fl then match fl_hex fl with NoHex => "" | _ => "0x" end else "")) with h0
    by (unfold h0; destruct (fl_hex fl), (fl_alternate fl); reflexivity).
  set (ds := digits_text (fl_hex fl) n). cbv zeta. rewrite <- length_app.
  pose proof (numeral_digits (fl_hex fl) n : numeral_in (fl_hex fl) n ds) as ND.
  assert (PLAIN : match fl_width fl with None => 0 | Some w => w - N.of_nat (String.length (h0 ++ ds)) end = 0%N ->
                  number_text fl n (h0 ++ ds)).
  { intro W. exists ds, h0, "", "", "", 0%N, 0%N, 0%N. split; [exact ND|]. split; [reflexivity|]. repeat (split; [constructor|]).
    split; [cbn [String.append]; rewrite append_nil; reflexivity|]. split; [rewrite W; reflexivity|].
    destruct (fl_zero fl); [auto|]. split; [reflexivity|]. destruct (fl_align fl) as [[]|]; auto. }
  destruct (fl_width fl) as [w|] eqn:W; [|apply PLAIN; reflexivity].
  destruct (N.leb_spec w (N.of_nat (String.length (h0 ++ ds)))) as [H|H]; [apply PLAIN; lia|]. clear PLAIN.
  destruct (fl_zero fl) eqn:Z.
  - eexists ds, h0, _, "", "", _, 0%N, 0%N. split; [exact ND|]. split; [reflexivity|]. split; [apply copies_repeat|].
    repeat (split; [constructor|]). split; [cbn [String.append]; rewrite append_nil; reflexivity|]. rewrite W, Z. split; [lia|auto].
  - eexists ds, h0, "", _, _, 0%N, _, _. split; [exact ND|]. split; [reflexivity|]. split; [constructor|].
    split; [apply copies_repeat|]. split; [apply copies_repeat|]. split; [reflexivity|]. rewrite W, Z.
    set (p := (w - N.of_nat (String.length (h0 ++ ds)))%N).
    pose proof (half_cases p) as HC. pose proof (N.div_le_upper_bound p 2 p). destruct (fl_align fl) as [[]|]; (split; [|split; [reflexivity|]]); lia.
Qed.
Lemma number_text_unique fl n t t' : number_text fl n t -> number_text fl n t' -> t = t'.
Proof.
  intros (ds & h & zs & lt & rt & z & l & r & A & B & C & D & E & F & G & H)
         (ds' & h' & zs' & lt' & rt' & z' & l' & r' & A' & B' & C' & D' & E' & F' & G' & H').
  assert (ds = ds') by (eapply numeral_in_unique; [exact A|exact A']). subst ds'. rewrite <- B' in B. subst h'.
  assert (Q : z = z' /\ l = l' /\ r = r').
  { rewrite <- G' in G. clear - G H H'. destruct (fl_zero fl); [lia|]. destruct (fl_align fl) as [[]|]; lia. }
  destruct Q as (-> & -> & ->). rewrite (copies_fun _ _ _ C _ C'), (copies_fun _ _ _ D _ D'), (copies_fun _ _ _ E _ E') in F.
  rewrite F, F'. reflexivity.
Qed.

(* ---------- reading a padded number ---------- *)
(* reads the digits and skips everything else *)
Fixpoint skim (h : hex_flag) (acc : N) (s : string) : N :=
  match s with
  | EmptyString => acc
  | String a s' => skim h (match digit_of h a with Some d => base_of h * acc + d | None => acc end)%N s'
  end.
Lemma skim_app h a b : forall acc, skim h acc (a ++ b) = skim h (skim h acc a) b.
Proof. induction a as [|x a IH]; intro acc; [reflexivity|]. cbn [String.append skim]. apply IH. Qed.
Lemma skim_read h s : forall acc v, read_in h acc s = Some v -> skim h acc s = v.
Proof.
  induction s as [|a s IH]; intros acc v; cbn [read_in skim]; [congruence|]. destruct (digit_of h a); [apply IH|discriminate].
Qed.
Lemma skim_skip h s acc : every (fun a => digit_of h a = None) s -> skim h acc s = acc.
Proof. revert acc. induction s as [|a s IH]; intro acc; [reflexivity|]. intros [A B]. cbn [skim]. rewrite A. auto. Qed.
Lemma every_app P a b : every P a -> every P b -> every P (a ++ b).
Proof. induction a as [|x a IH]; [auto|]. intros [A B] C. split; auto. Qed.
Lemma every_copies P s n t : every P s -> copies s n t -> every P t.
Proof. intro H. induction 1; [exact I|]. apply every_app; assumption. Qed.
Lemma every_impl (P Q : ascii -> Prop) s : (forall a, P a -> Q a) -> every P s -> every Q s.
Proof. intro H. induction s as [|a s IH]; [auto|]. intros [A B]. split; auto. Qed.
Lemma skim_zeros h n t : copies "0" n t -> skim h 0 t = 0%N.
Proof. induction 1; [reflexivity|]. cbn [String.append skim]. rewrite zero_char, N.mul_0_r. exact IHcopies. Qed.
Lemma skim_head h (p a : bool) acc : acc = 0%N ->
  skim h acc ((if p then "+" else "") ++ match h with NoHex => "" | _ => if a then "0x" else "" end) = 0%N.
Proof. intros ->. destruct h, p, a; reflexivity. Qed.
Lemma skim_number fl n :
  (fl_width fl = None \/ fl_zero fl = true \/ (fl_fill fl = "0" /\ right_aligned fl) \/ every (fun a => digit_of (fl_hex fl) a = None) (fl_fill fl)) ->
  skim (fl_hex fl) 0 (debug_number fl n) = n.
Proof.
  intro HC. destruct (number_text_number fl n) as (ds & h & zs & lt & rt & z & l & r & A & B & C & D & E & F & G & H).
  assert (KH : skim (fl_hex fl) 0 h = 0%N) by (rewrite B; apply skim_head; reflexivity).
  rewrite F. assert (K : skim (fl_hex fl) 0 lt = 0%N /\ forall v, skim (fl_hex fl) v rt = v).
  { destruct HC as [W|[Z|[[X Y]|X]]].
    - rewrite W in G. assert (l = 0 /\ r = 0)%N as [-> ->] by lia. rewrite (copies_zero _ _ D), (copies_zero _ _ E). split; reflexivity.
    - rewrite Z in H. destruct H as [-> ->]. rewrite (copies_zero _ _ D), (copies_zero _ _ E). split; reflexivity.
    - rewrite X in *. split; [eapply skim_zeros; exact D|].
      assert (R : r = 0%N) by (destruct (fl_zero fl); [lia|]; destruct Y as [Y|Y]; rewrite Y in H; lia).
      subst r. rewrite (copies_zero _ _ E). reflexivity.
    - split; [|intro v]; apply skim_skip; eapply every_copies; eassumption. }
  destruct K as [K1 K2]. rewrite !skim_app, K1, KH.
  rewrite (skim_zeros _ _ _ C). rewrite K2. apply skim_read. apply A.
Qed.
(* the last mark of a text *)
Lemma split_last x a b a' b' : lacks x b -> lacks x b' -> a ++ String x b = a' ++ String x b' -> b = b'.
Proof.
  intros H H'. revert a'. induction a as [|y a IH]; intros [|y' a'] E; cbn [String.append] in E.
  - injection E as E. exact E.
  - exfalso. injection E as -> E. rewrite E in H. clear - H. induction a' as [|z a' IH]; cbn in H; tauto.
  - exfalso. injection E as -> E. rewrite <- E in H'. clear - H'. induction a as [|z a IH]; cbn in H'; tauto.
  - injection E as -> E. exact (IH a' E).
Qed.
Lemma read_every h s : forall acc v, read_in h acc s = Some v -> every (fun a => digit_of h a <> None) s.
Proof.
  induction s as [|a s IH]; intros acc v; cbn [read_in every]; [auto|]. destruct (digit_of h a) eqn:E; [|discriminate]. intro K.
  split; [discriminate|]. eapply IH. exact K.
Qed.
Lemma every_lacks x s : every (fun a => a <> x) s -> lacks x s.
Proof. induction s as [|a s IH]; [auto|]. intros [A B]. split; auto. Qed.
Lemma numeral_lacks h n s x : numeral_in h n s -> digit_of h x = None -> lacks x s.
Proof.
  intros (_ & A & _) H. apply every_lacks. eapply every_impl; [|eapply read_every; exact A]. cbn beta. intros a Q ->. exact (Q H).
Qed.
Lemma marked_inj fl n n' : right_aligned fl -> marked fl -> fl_zero fl = false -> debug_number fl n = debug_number fl n' -> n = n'.
Proof.
  intros R M Z E.
  destruct (number_text_number fl n) as (ds & h & zs & lt & rt & z & l & r & A & B & C & D & E1 & F & G & H).
  destruct (number_text_number fl n') as (ds' & h' & zs' & lt' & rt' & z' & l' & r' & A' & B' & C' & D' & E1' & F' & G' & H').
  rewrite Z in H, H'. assert (Q : z = 0%N /\ r = 0%N) by (destruct R as [R|R]; rewrite R in H; exact H).
  assert (Q' : z' = 0%N /\ r' = 0%N) by (destruct R as [R|R]; rewrite R in H'; exact H').
  destruct Q as [-> ->], Q' as [-> ->]. rewrite (copies_zero _ _ C), (copies_zero _ _ E1), append_nil in F.
  rewrite (copies_zero _ _ C'), (copies_zero _ _ E1'), append_nil in F'. rewrite F, F' in E. rewrite <- B' in B. subst h'. cbn [String.append] in E.
  assert (X : exists p x, h = p ++ String x "" /\ digit_of (fl_hex fl) x = None).
  { clear - M B'. destruct M as [M|[M1 M2]].
    - rewrite M in B'. destruct (fl_hex fl); [exists "", "+"%char|..]; [split; [exact B'|reflexivity]| |];
        destruct (fl_alternate fl); [exists "+0", "x"%char|exists "", "+"%char|exists "+0", "x"%char|exists "", "+"%char]; split; [exact B'|reflexivity|exact B'|reflexivity|exact B'|reflexivity|exact B'|reflexivity].
    - rewrite M1 in B'. destruct (fl_hex fl); [congruence| |]; destruct (fl_plus fl);
        [exists "+0", "x"%char|exists "0", "x"%char|exists "+0", "x"%char|exists "0", "x"%char]; split; try exact B'; reflexivity. }
  destruct X as (p & x & -> & X). rewrite <- !(string_app_assoc p) in E. cbn [String.append] in E. rewrite !string_app_assoc in E.
  apply split_last in E; [|eapply numeral_lacks; eassumption|eapply numeral_lacks; eassumption]. subst ds'.
  destruct A as (_ & A & _), A' as (_ & A' & _). congruence.
Qed.
Lemma debug_number_inj fl n n' : clear_padding fl -> debug_number fl n = debug_number fl n' -> n = n'.
Proof.
  intros H E. destruct (fl_zero fl) eqn:Z.
  - rewrite <- (skim_number fl n), <- (skim_number fl n'), E by auto. reflexivity.
  - destruct H as [W|[Z'|[_ [X|[R [X|M]]]]]]; [|congruence| | |exact (marked_inj fl n n' R M Z E)];
      rewrite <- (skim_number fl n), <- (skim_number fl n'), E by auto; reflexivity.
Qed.
Lemma number_lacks fl n x : In x ["010"; ","; "]"]%char -> (fl_width fl = None \/ fl_zero fl = true \/ every (fun a => a <> x) (fl_fill fl)) ->
  lacks x (debug_number fl n).
Proof.
  intros HX HF. destruct (number_text_number fl n) as (ds & h & zs & lt & rt & z & l & r & A & B & C & D & E & F & G & H).
  assert (ND : digit_of (fl_hex fl) x = None) by (destruct (fl_hex fl); destruct HX as [<-|[<-|[<-|[]]]]; reflexivity).
  assert (K : every (fun a => a <> x) lt /\ every (fun a => a <> x) rt).
  { destruct HF as [W|[Z|X]].
    - rewrite W in G. assert (l = 0 /\ r = 0)%N as [-> ->] by lia. rewrite (copies_zero _ _ D), (copies_zero _ _ E). split; exact I.
    - rewrite Z in H. destruct H as [-> ->]. rewrite (copies_zero _ _ D), (copies_zero _ _ E). split; exact I.
    - split; eapply every_copies; eassumption. }
  apply every_lacks. rewrite F, B. apply every_app; [apply K|]. apply every_app; [|apply every_app; [|apply every_app; [|apply K]]].
  - destruct (fl_plus fl), (fl_hex fl), (fl_alternate fl); cbn; destruct HX as [<-|[<-|[<-|[]]]]; repeat split; discriminate.
  - apply (every_copies _ "0" z); [|exact C]. split; [|exact I]. intros <-. rewrite zero_char in ND. discriminate ND.
  - eapply every_impl; [|eapply read_every; apply A]. cbn beta. intros a Q ->. exact (Q ND).
Qed.
Lemma clear_lacks fl n x : In x ["010"; ","; "]"]%char -> clear_padding fl -> lacks x (debug_number fl n).
Proof.
  intros HX H. apply number_lacks; [exact HX|]. destruct H as [W|[Z|[X _]]]; [auto|auto|right; right].
  eapply every_impl; [|exact X]. cbn beta. intros a Q ->. exact (Q HX).
Qed.
Lemma debug_number_nonempty fl n : debug_number fl n <> "".
Proof.
  destruct (number_text_number fl n) as (ds & h & zs & lt & rt & z & l & r & A & _ & _ & _ & _ & -> & _).
  intro E. apply (f_equal String.length) in E. rewrite !length_app in E. destruct A as (A & _). destruct ds; [congruence|]. cbn in E. lia.
Qed.

(* ---------- texts of several lines, for any way to write numbers on one line ---------- *)
Section Lines.
Variable f : N -> string.
Hypothesis f_line : forall n, line_ok (f n).
Ltac f_line_tac := first [ apply line_ok_app; [discriminate|repeat split; discriminate|f_line_tac]
                       | apply lacks_app; [f_line_tac|f_line_tac]
                       | apply (proj2 (f_line _))
                       | repeat split; discriminate
                       | assumption ].
Definition f_fixed_pretty (d : string) (s : fixed_storage) : string := pretty_struct ("FixedDepthStorage" ++ d) [("bits", f (fx_bits s))].
Definition f_static_pretty (d : string) (s : static_storage) : string :=
  pretty_struct ("StaticStorage" ++ d) [("bits", f (sx_bits s)); ("depth", f (sx_depth s))].
Definition f_dynamic_pretty (d : string) (s : dynamic_storage) : string :=
  pretty_struct ("DynamicStorage" ++ d) [("bits", pretty_list (map f (dy_bits s))); ("depth", f (dy_depth s))].
Definition f_storage_pretty (d : string) (k : kind) : storage k -> string :=
  match k with KFixed _ => f_fixed_pretty d | KStatic _ => f_static_pretty d | KDynamic => f_dynamic_pretty d end.
Definition f_idx_pretty (d : string) (k : kind) (s : storage k) : string := index_pretty d (f_storage_pretty d k s).
Definition f_fixed_lines (d : string) (s : fixed_storage) : list string :=
  [("FixedDepthStorage" ++ d) ++ " {"; "    bits: " ++ f (fx_bits s) ++ ","; "}"].
Definition f_static_lines (d : string) (s : static_storage) : list string :=
  [("StaticStorage" ++ d) ++ " {"; "    bits: " ++ f (sx_bits s) ++ ","; "    depth: " ++ f (sx_depth s) ++ ","; "}"].
Definition f_bytes_lines (l : list N) : list string :=
  match l with
  | [] => ["    bits: [],"]
  | _ => "    bits: [" :: app (map (fun b => "        " ++ f b ++ ",") l) ["    ],"]
  end.
Definition f_dynamic_lines (d : string) (s : dynamic_storage) : list string :=
  (("DynamicStorage" ++ d) ++ " {") :: app (f_bytes_lines (dy_bits s)) ["    depth: " ++ f (dy_depth s) ++ ","; "}"].
Definition f_storage_lines (d : string) (k : kind) : storage k -> list string :=
  match k with KFixed _ => f_fixed_lines d | KStatic _ => f_static_lines d | KDynamic => f_dynamic_lines d end.
Lemma f_decimal_field n v : n <> "" -> lacks newline n -> pretty_field (n, f v) = block ["    " ++ n ++ ": " ++ f v ++ ","].
Proof.
  intros A B. apply field_line. apply line_ok_app; [exact A|exact B|]. f_line_tac.
Qed.
Lemma f_bytes_field l : pretty_field ("bits", pretty_list (map f l)) = block (f_bytes_lines l).
Proof.
  destruct l as [|x l].
  - cbn [map pretty_list f_bytes_lines]. apply field_line. f_line_tac.
  - cbn [map]. rewrite list_lines.
    2:{ change (f x :: map f l) with (map f (x :: l)). apply Forall_map. apply Forall_forall. intros y _. apply f_line. }
    rewrite field_lines.
    + unfold f_bytes_lines. cbn [map app]. rewrite map_app, !map_map. cbn [map].
      reflexivity.
    + f_line_tac.
    + change (f x :: map f l) with (map f (x :: l)). rewrite map_map. apply Forall_map. apply Forall_forall. intros y _.
      apply line_ok_indent. destruct (f_line y) as [H1 H2]. apply line_ok_app; [exact H1|exact H2|repeat split; discriminate].
    + f_line_tac.
Qed.
Lemma f_storage_pretty_lines d k (s : storage k) : f_storage_pretty d k s = lines (f_storage_lines d k s).
Proof.
  destruct k; cbn [f_storage_pretty f_storage_lines].
  - destruct s as [b]. unfold f_fixed_pretty. cbn [fx_bits].
    erewrite struct_lines; [|constructor; [apply f_decimal_field; [discriminate|repeat split; discriminate]|constructor]]. reflexivity.
  - destruct s as [b n]. unfold f_static_pretty. cbn [sx_bits sx_depth].
    erewrite struct_lines; [|repeat (constructor; [apply f_decimal_field; [discriminate|repeat split; discriminate]|]); constructor]. reflexivity.
  - destruct s as [b n]. unfold f_dynamic_pretty. cbn [dy_bits dy_depth].
    erewrite struct_lines; [|constructor; [apply f_bytes_field|constructor;
      [apply f_decimal_field; [discriminate|repeat split; discriminate]|constructor]]].
    unfold f_dynamic_lines. cbn [List.concat app]. rewrite <- app_assoc. reflexivity.
Qed.
Lemma f_storage_lines_shape d k (s : storage k) : lacks newline d ->
  exists first l, f_storage_lines d k s = first :: app l ["}"] /\ lacks newline first /\ Forall line_ok l.
Proof.
  intro H. destruct k; cbn [f_storage_lines].
  - eexists _, [_]. split; [reflexivity|]. split; [f_line_tac|]. repeat (constructor; [f_line_tac|]). constructor.
  - eexists _, [_; _]. split; [reflexivity|]. split; [f_line_tac|]. repeat (constructor; [f_line_tac|]). constructor.
  - eexists _, (app (f_bytes_lines (dy_bits s)) [_]). unfold f_dynamic_lines. rewrite <- app_assoc. split; [reflexivity|]. split; [f_line_tac|].
    apply Forall_app. split; [|repeat (constructor; [f_line_tac|]); constructor].
    unfold f_bytes_lines. destruct (dy_bits s) as [|x l]; [repeat (constructor; [f_line_tac|]); constructor|].
    constructor; [f_line_tac|]. apply Forall_app. split; [|repeat (constructor; [f_line_tac|]); constructor].
    apply Forall_map. apply Forall_forall. intros y _. f_line_tac.
Qed.
(* the lines of the text of an index *)
Definition f_index_lines (d : string) (k : kind) (s : storage k) : list string :=
  match f_storage_lines d k s with
  | [] => []
  | first :: rest =>
      (("MortonIndex" ++ d) ++ " {") :: ("    storage: " ++ first) :: app (map indent (app (removelast rest) ["},"])) ["}"]
  end.
Lemma f_idx_pretty_lines d k (s : storage k) : lacks newline d -> f_idx_pretty d k s = lines (f_index_lines d k s).
Proof.
  intro H. destruct (f_storage_lines_shape d k s H) as (first & l & E & A & B).
  unfold f_idx_pretty, index_pretty. rewrite f_storage_pretty_lines. unfold f_index_lines. rewrite E.
  rewrite removelast_last. erewrite struct_lines.
  2:{ constructor; [|constructor]. apply field_lines; [|exact B|f_line_tac]. apply line_ok_app; [discriminate|repeat split; discriminate|].
      apply lacks_app; [repeat split; discriminate|exact A]. }
  cbn [List.concat map]. rewrite app_nil_r. reflexivity.
Qed.
Lemma f_index_lines_ok d k (s : storage k) : lacks newline d ->
  exists l, f_index_lines d k s = app l ["}"] /\ Forall (lacks newline) (app l ["}"]).
Proof.
  intro H. destruct (f_storage_lines_shape d k s H) as (first & l & E & A & B). unfold f_index_lines. rewrite E, removelast_last.
  eexists (_ :: _ :: _). split; [reflexivity|]. cbn [app]. constructor; [f_line_tac|]. constructor; [apply lacks_app; [repeat split; discriminate|exact A]|].
  apply Forall_app. split; [|repeat (constructor; [f_line_tac|]); constructor]. apply Forall_map. apply Forall_app. split.
  - eapply Forall_impl; [|exact B]. intros y K. exact (proj2 (line_ok_indent y K)).
  - repeat (constructor; [f_line_tac|]); constructor.
Qed.
Lemma f_index_lines_inj d k (s s' : storage k) : lacks newline d -> f_idx_pretty d k s = f_idx_pretty d k s' -> f_storage_lines d k s = f_storage_lines d k s'.
Proof.
  intros H E. rewrite !f_idx_pretty_lines in E by exact H.
  destruct (f_index_lines_ok d k s H) as (l & X & F). destruct (f_index_lines_ok d k s' H) as (l' & X' & F').
  rewrite X, X' in E. apply lines_inj in E; [|exact F|exact F']. rewrite <- X, <- X' in E.
  destruct (f_storage_lines_shape d k s H) as (a & m & Y & _). destruct (f_storage_lines_shape d k s' H) as (a' & m' & Y' & _).
  unfold f_index_lines in E. rewrite Y, Y' in *. rewrite !removelast_last in E.
  injection E as E1 E2. apply app_inj_tail in E2. destruct E2 as [E2 _].
  rewrite !map_app in E2. apply app_inj_tail in E2. destruct E2 as [E2 _].
  assert (M : m = m').
  { clear - E2. revert m' E2. induction m as [|x m IH]; intros [|x' m'] E; try discriminate E; [reflexivity|].
    cbn [map] in E. injection E as E1 E2. rewrite (IH m' E2), E1. reflexivity. }
  rewrite E1, M. reflexivity.
Qed.

Lemma f_pretty_text d : lacks newline d ->
  (forall t s, f_idx_pretty d (KFixed t) s = lines ["MortonIndex" ++ d ++ " {"; "    storage: FixedDepthStorage" ++ d ++ " {"; "        bits: " ++ f (fx_bits s) ++ ",";
       "    },"; "}"])
  /\ (forall t s, f_idx_pretty d (KStatic t) s = lines ["MortonIndex" ++ d ++ " {"; "    storage: StaticStorage" ++ d ++ " {"; "        bits: " ++ f (sx_bits s) ++ ",";
       "        depth: " ++ f (sx_depth s) ++ ","; "    },"; "}"])
  /\ (forall s, f_idx_pretty d KDynamic s = lines (List.concat [
       ["MortonIndex" ++ d ++ " {"; "    storage: DynamicStorage" ++ d ++ " {"];
       match map f (dy_bits s) with
       | [] => ["        bits: [],"]
       | bs => List.concat [["        bits: ["]; map (fun b => "            " ++ b ++ ",") bs; ["        ],"]]
       end;
       ["        depth: " ++ f (dy_depth s) ++ ","; "    },"; "}"]])).
Proof.
  intros H. split; [|split].
  - intros t s. rewrite (f_idx_pretty_lines d _ _ H). unfold f_index_lines, f_storage_lines, f_fixed_lines.
    cbn [removelast app map]. unfold indent. rewrite <- !string_app_assoc. reflexivity.
  - intros t s. rewrite (f_idx_pretty_lines d _ _ H).
    unfold f_index_lines, f_storage_lines, f_static_lines. cbn [removelast app map]. unfold indent. rewrite <- !string_app_assoc. reflexivity.
  - intros s. rewrite (f_idx_pretty_lines d _ _ H). cbn [List.concat].
    unfold f_index_lines, f_storage_lines, f_dynamic_lines.
    change ["    depth: " ++ f (dy_depth s) ++ ","; "}"] with (app ["    depth: " ++ f (dy_depth s) ++ ","] ["}"]).
    rewrite app_assoc, removelast_last. rewrite <- app_assoc, map_app. unfold f_bytes_lines. destruct (dy_bits s) as [|x l].
    + cbn [map app]. unfold indent. rewrite <- !string_app_assoc. reflexivity.
    + change (map indent ("    bits: [" :: app (map (fun b => "        " ++ f b ++ ",") (x :: l)) ["    ],"]))
        with (app ["        bits: ["] (map indent (app (map (fun b => "        " ++ f b ++ ",") (x :: l)) ["    ],"]))).
      rewrite map_app, map_map. cbn [map app]. rewrite map_map. unfold indent. rewrite <- !string_app_assoc. rewrite <- !app_assoc. reflexivity.
Qed.
Hypothesis f_inj : forall n n', f n = f n' -> n = n'.
Lemma suffix_cancel (a b s : string) : a ++ s = b ++ s -> a = b.
Proof.
  revert b. induction a as [|x a IH]; intros [|y b] E.
  - reflexivity.
  - exfalso. apply (f_equal String.length) in E. cbn [String.append String.length] in E. rewrite length_app in E. lia.
  - exfalso. apply (f_equal String.length) in E. cbn [String.append String.length] in E. rewrite length_app in E. lia.
  - cbn [String.append] in E. injection E as -> E. rewrite (IH b E). reflexivity.
Qed.
Lemma f_item n n' s : f n ++ s = f n' ++ s -> n = n'.
Proof. intro E. apply f_inj. exact (suffix_cancel _ _ _ E). Qed.
Lemma f_pretty_inj d k (s s' : storage k) : lacks newline d -> f_idx_pretty d k s = f_idx_pretty d k s' -> s = s'.
Proof.
  intros H E. apply f_index_lines_inj in E; [|exact H]. destruct k; cbn [f_storage_lines] in E.
  - destruct s as [b], s' as [b']. unfold f_fixed_lines in E. cbn [fx_bits] in E.
    injection E as E. apply f_item in E. rewrite E. reflexivity.
  - destruct s as [b n], s' as [b' n']. unfold f_static_lines in E. cbn [sx_bits sx_depth] in E.
    injection E as E E'. apply f_item in E, E'. rewrite E, E'. reflexivity.
  - destruct s as [b n], s' as [b' n']. unfold f_dynamic_lines in E. cbn [dy_bits dy_depth] in E. injection E as E.
    change (app (f_bytes_lines b) (app ["    depth: " ++ f n ++ ","] ["}"]) = app (f_bytes_lines b') (app ["    depth: " ++ f n' ++ ","] ["}"])) in E.
    rewrite !app_assoc in E. apply app_inj_tail in E. destruct E as [E _]. apply app_inj_tail in E. destruct E as [E E'].
    apply (append_cancel "    depth: ") in E'. apply f_item in E'. rewrite E'.
    f_equal. unfold f_bytes_lines in E. destruct b as [|x b], b' as [|x' b']; try discriminate E; [reflexivity|].
    injection E as E0 E. apply f_item in E0. rewrite E0. f_equal.
    apply app_inj_tail in E. destruct E as [E _]. clear E0. revert b' E. induction b as [|y b IH]; intros [|y' b'] E; try discriminate E; [reflexivity|].
    cbn [map] in E. injection E as E0 E. apply f_item in E0. rewrite E0, (IH b' E). reflexivity.
Qed.
(* texts of one line *)
Hypothesis f_comma : forall n, lacks ","%char (f n).
Hypothesis f_bracket : forall n, lacks "]"%char (f n).
Lemma f_lacks_list (l : list N) : lacks "]"%char (String.concat ", " (map f l)).
Proof.
  induction l as [|n l IH]; [exact I|]. destruct l as [|m l]; [apply f_bracket|].
  change (lacks "]"%char (f n ++ ", " ++ String.concat ", " (map f (m :: l)))).
  apply lacks_app; [apply f_bracket|]. apply lacks_app; [repeat split; discriminate|exact IH].
Qed.
Lemma f_list_inj (l l' : list N) : String.concat ", " (map f l) = String.concat ", " (map f l') -> l = l'.
Proof.
  revert l'. induction l as [|n l IH]; intros [|n' l'] E.
  - reflexivity.
  - exfalso. destruct l' as [|m' l']; cbn [map String.concat] in E.
    + exact (proj1 (f_line n') (eq_sym E)).
    + destruct (f n') eqn:F; [exact (proj1 (f_line n') F)|discriminate E].
  - exfalso. destruct l as [|m l]; cbn [map String.concat] in E.
    + exact (proj1 (f_line n) E).
    + destruct (f n) eqn:F; [exact (proj1 (f_line n) F)|discriminate E].
  - destruct l as [|m l], l' as [|m' l'].
    + cbn [map String.concat] in E. apply f_inj in E. subst. reflexivity.
    + exfalso. change (f n = f n' ++ String "," (" " ++ String.concat ", " (map f (m' :: l')))) in E.
      pose proof (f_comma n) as K. rewrite E in K. clear - K. induction (f n') as [|a s IHs]; cbn in K; tauto.
    + exfalso. change (f n ++ String "," (" " ++ String.concat ", " (map f (m :: l))) = f n') in E.
      pose proof (f_comma n') as K. rewrite <- E in K. clear - K. induction (f n) as [|a s IHs]; cbn in K; tauto.
    + change (f n ++ String "," (" " ++ String.concat ", " (map f (m :: l)))
              = f n' ++ String "," (" " ++ String.concat ", " (map f (m' :: l')))) in E.
      apply split_at in E; [|apply f_comma|apply f_comma]. destruct E as [E0 E]. apply f_inj in E0. subst n'.
      apply append_cancel in E. rewrite (IH _ E). reflexivity.
Qed.
Definition f_flat (d : string) (k : kind) : storage k -> string :=
  match k with
  | KFixed _ => fun s => "MortonIndex" ++ d ++ " { storage: FixedDepthStorage" ++ d ++ " { bits: " ++ f (fx_bits s) ++ " } }"
  | KStatic _ => fun s => "MortonIndex" ++ d ++ " { storage: StaticStorage" ++ d ++ " { bits: " ++ f (sx_bits s) ++ ", depth: " ++ f (sx_depth s) ++ " } }"
  | KDynamic => fun s => "MortonIndex" ++ d ++ " { storage: DynamicStorage" ++ d ++ " { bits: [" ++ String.concat ", " (map f (dy_bits s)) ++ "], depth: " ++ f (dy_depth s) ++ " } }"
  end.
Lemma f_flat_inj d k (s s' : storage k) : f_flat d k s = f_flat d k s' -> s = s'.
Proof.
  destruct k; cbn [f_flat]; intro E; do 5 apply append_cancel in E.
  - destruct s as [b], s' as [b']. cbn [fx_bits] in E. apply f_item in E. rewrite E. reflexivity.
  - destruct s as [b n], s' as [b' n']. cbn [sx_bits sx_depth] in E. apply split_at in E; [|apply f_comma|apply f_comma].
    destruct E as [E0 E]. apply f_inj in E0. apply (append_cancel " depth: ") in E. apply f_item in E. rewrite E0, E. reflexivity.
  - destruct s as [b n], s' as [b' n']. cbn [dy_bits dy_depth] in E. apply split_at in E; [|apply f_lacks_list|apply f_lacks_list].
    destruct E as [E0 E]. apply f_list_inj in E0. apply (append_cancel ", depth: ") in E. apply f_item in E. rewrite E0, E. reflexivity.
Qed.
End Lines.

(* ---------- the texts with flags ---------- *)
Lemma idx_fmt_cases fl d k (s : storage k) :
  idx_fmt fl d k s = if fl_alternate fl then f_idx_pretty (debug_number fl) d k s else f_flat (debug_number fl) d k s.
Proof.
  unfold idx_fmt, index_fmt, storage_fmt. destruct k; unfold fixed_fmt, static_fmt, dynamic_fmt, debug_struct, debug_list;
    destruct (fl_alternate fl); try reflexivity; unfold flat_struct; cbn [map fst snd String.concat f_flat];
    rewrite <- !string_app_assoc; reflexivity.
Qed.
Lemma number_line fl n : (fl_width fl = None \/ fl_zero fl = true \/ every (fun a => a <> "010"%char) (fl_fill fl)) -> line_ok (debug_number fl n).
Proof. intro H. split; [apply debug_number_nonempty|apply number_lacks; [left; reflexivity|exact H]]. Qed.

(* ---------- C75 ---------- *)
Lemma c75_without_flags_lemma : forall d k (s : storage k) e,
  idx_fmt no_flags d k s = idx_debug d k s /\ idx_fmt alternate_flag d k s = idx_pretty d k s
  /\ error_fmt no_flags e = error_debug e /\ error_fmt alternate_flag e = error_pretty e.
Proof.
  intros d k s e. split; [|split; [|split]].
  - rewrite idx_fmt_cases. cbn [fl_alternate no_flags]. unfold idx_debug, index_debug. destruct k; cbn [f_flat storage_debug];
      unfold fixed_debug, static_debug, dynamic_debug, debug_bytes; rewrite <- !string_app_assoc; reflexivity.
  - rewrite idx_fmt_cases. cbn [fl_alternate alternate_flag]. destruct k; reflexivity.
  - destruct e; reflexivity.
  - destruct e; reflexivity.
Qed.
Lemma c75_numbers_lemma : forall fl n t, number_text fl n t <-> t = debug_number fl n.
Proof.
  intros fl n t. split; [|intros ->; apply number_text_number]. intro H. eapply number_text_unique; [exact H|apply number_text_number].
Qed.
Lemma c75_width_lemma : forall fl n w, fl_width fl = Some w -> String.length (fl_fill fl) = 1%nat ->
  (w <= N.of_nat (String.length (debug_number fl n)))%N.
Proof.
  intros fl n w W F. destruct (number_text_number fl n) as (ds & h & zs & lt & rt & z & l & r & A & B & C & D & E & -> & G & H).
  rewrite W in G. rewrite !length_app in *.
  assert (K : forall s m t, String.length s = 1%nat -> copies s m t -> N.of_nat (String.length t) = m).
  { intros s m t S. induction 1; [reflexivity|]. rewrite length_app, S. lia. }
  apply K in C; [|reflexivity]. apply K in D; [|exact F]. apply K in E; [|exact F]. lia.
Qed.
Lemma texts_map fl l bs : Forall2 (number_text fl) l bs -> map (debug_number fl) l = bs.
Proof. induction 1 as [|x y l l' X B IH]; [reflexivity|]. cbn [map]. apply c75_numbers_lemma in X. rewrite IH, X. reflexivity. Qed.
Lemma c75_flat_text_lemma : forall fl d, fl_alternate fl = false ->
  (forall t s b, number_text fl (fx_bits s) b ->
     idx_fmt fl d (KFixed t) s = ("MortonIndex" ++ d ++ " { storage: FixedDepthStorage" ++ d ++ " { bits: " ++ b ++ " } }")%string)
  /\ (forall t s b n, number_text fl (sx_bits s) b -> number_text fl (sx_depth s) n ->
     idx_fmt fl d (KStatic t) s
     = ("MortonIndex" ++ d ++ " { storage: StaticStorage" ++ d ++ " { bits: " ++ b ++ ", depth: " ++ n ++ " } }")%string)
  /\ (forall s bs n, Forall2 (number_text fl) (dy_bits s) bs -> number_text fl (dy_depth s) n ->
     idx_fmt fl d KDynamic s
     = ("MortonIndex" ++ d ++ " { storage: DynamicStorage" ++ d ++ " { bits: [" ++ String.concat ", " bs ++ "], depth: " ++ n ++ " } }")%string).
Proof.
  intros fl d A. split; [|split].
  - intros t s b B. rewrite idx_fmt_cases, A. apply c75_numbers_lemma in B. rewrite B. reflexivity.
  - intros t s b n B K. rewrite idx_fmt_cases, A. apply c75_numbers_lemma in B, K. rewrite B, K. reflexivity.
  - intros s bs n B K. rewrite idx_fmt_cases, A. apply texts_map in B. apply c75_numbers_lemma in K. rewrite <- B, K. reflexivity.
Qed.
Lemma c75_pretty_text_lemma : forall fl d, In d ["2D"; "3D"]%string -> fl_alternate fl = true ->
  (fl_width fl = None \/ fl_zero fl = true \/ every (fun a => a <> "010"%char) (fl_fill fl)) ->
  (forall t s b, number_text fl (fx_bits s) b ->
     idx_fmt fl d (KFixed t) s = lines ["MortonIndex" ++ d ++ " {"; "    storage: FixedDepthStorage" ++ d ++ " {"; "        bits: " ++ b ++ ",";
       "    },"; "}"]%string)
  /\ (forall t s b n, number_text fl (sx_bits s) b -> number_text fl (sx_depth s) n ->
     idx_fmt fl d (KStatic t) s = lines ["MortonIndex" ++ d ++ " {"; "    storage: StaticStorage" ++ d ++ " {"; "        bits: " ++ b ++ ",";
       "        depth: " ++ n ++ ","; "    },"; "}"]%string)
  /\ (forall s bs n, Forall2 (number_text fl) (dy_bits s) bs -> number_text fl (dy_depth s) n ->
     idx_fmt fl d KDynamic s = lines (List.concat [
       ["MortonIndex" ++ d ++ " {"; "    storage: DynamicStorage" ++ d ++ " {"];
       match bs with
       | [] => ["        bits: [],"]
       | _ => List.concat [["        bits: ["]; map (fun b => "            " ++ b ++ ",") bs; ["        ],"]]
       end;
       ["        depth: " ++ n ++ ","; "    },"; "}"]])%string).
Proof.
  intros fl d HD A P. destruct (f_pretty_text (debug_number fl) (fun n => number_line fl n P) d (lacks_dim d HD)) as (X & Y & Z).
  split; [|split].
  - intros t s b B. rewrite idx_fmt_cases, A, X. apply c75_numbers_lemma in B. rewrite B. reflexivity.
  - intros t s b n B K. rewrite idx_fmt_cases, A, Y. apply c75_numbers_lemma in B, K. rewrite B, K. reflexivity.
  - intros s bs n B K. rewrite idx_fmt_cases, A, Z. apply texts_map in B. apply c75_numbers_lemma in K. rewrite B, K. destruct bs; reflexivity.
Qed.
Lemma clear_line fl n : clear_padding fl -> line_ok (debug_number fl n).
Proof. intro H. split; [apply debug_number_nonempty|apply clear_lacks; [left; reflexivity|exact H]]. Qed.
Lemma c75_same_text_same_value_lemma : forall fl d k (s s' : storage k), In d ["2D"; "3D"]%string -> clear_padding fl ->
  (idx_fmt fl d k s = idx_fmt fl d k s' <-> idx_eq k s s' = true).
Proof.
  intros fl d k s s' HD H. rewrite idx_eq_iff. split; [|intros ->; reflexivity]. rewrite !idx_fmt_cases. destruct (fl_alternate fl).
  - apply f_pretty_inj; [intro n; apply clear_line; exact H|intros n n'; apply debug_number_inj; exact H|apply lacks_dim; exact HD].
  - apply f_flat_inj; [intro n; apply clear_line; exact H|intros n n'; apply debug_number_inj; exact H| |];
      intro n; apply clear_lacks; cbn; auto.
Qed.
Lemma c75_same_text_same_value_refuted_lemma : exists fl d (s s' : fixed_storage), idx_fmt fl d (KFixed U8) s = idx_fmt fl d (KFixed U8) s'
  /\ valid (Cfg true PW64 LittleEndian) Dim2D (KFixed U8) s /\ valid (Cfg true PW64 LittleEndian) Dim2D (KFixed U8) s' /\ idx_eq (KFixed U8) s s' = false.
Proof.
  exists (MkFlags NoHex false false false (Some 5%N) "0" (Some AlignLeft)), "2D", (MkFixed 5), (MkFixed 50).
  vm_compute. repeat split; reflexivity.
Qed.
Lemma repeat_more a m : repeat_text (m + 1) (String a "") = String a (repeat_text m (String a "")).
Proof. unfold repeat_text. rewrite N.add_1_r, N.iter_succ. reflexivity. Qed.
Lemma repeat_snoc a m : repeat_text m (String a "") ++ String a "" = repeat_text (m + 1) (String a "").
Proof.
  induction m using N.peano_ind; [reflexivity|]. rewrite <- N.add_1_r, !repeat_more. cbn [String.append]. rewrite IHm, repeat_more. reflexivity.
Qed.
Lemma one_char h : digit_of h "1"%char = Some 1%N.
Proof. destruct h; reflexivity. Qed.
Lemma ambiguous_number fl w a v : fl_width fl = Some w -> (6 <= w)%N -> fl_zero fl = false -> fl_fill fl = String a "" ->
  digit_of (fl_hex fl) a = Some v -> ~ (right_aligned fl /\ (v = 0%N \/ marked fl)) ->
  exists n n', n <> n' /\ (n < 2 ^ 16)%N /\ (n' < 2 ^ 16)%N /\ debug_number fl n = debug_number fl n'.
Proof.
  intros W Hw Z F V NR. set (b := base_of (fl_hex fl)).
  assert (Vb : (v < b)%N) by (eapply digit_bound; exact V).
  assert (Bb : (10 <= b <= 16)%N) by (unfold b; destruct (fl_hex fl); cbn; lia).
  set (h := (if fl_plus fl then "+" else "") ++ (match fl_hex fl with NoHex => "" | _ => if fl_alternate fl then "0x" else "" end)).
  assert (Hh : (String.length h <= 3)%nat) by (unfold h; destruct (fl_plus fl), (fl_hex fl), (fl_alternate fl); cbn; lia).
  assert (N1 : numeral_in (fl_hex fl) 1 "1").
  { split; [discriminate|]. split; [cbn [read_in]; rewrite one_char; f_equal; lia|intros s' E; discriminate E]. }
  assert (N2 : forall c x, digit_of (fl_hex fl) c = Some x -> numeral_in (fl_hex fl) (b + x) (String "1" (String c ""))).
  { intros c x X. split; [discriminate|]. split; [|intros s' E; discriminate E]. cbn [read_in]. rewrite one_char, X. f_equal. fold b. lia. }
  assert (N3 : numeral_in (fl_hex fl) (b * b + v) (String "1" (String "0" (String a "")))).
  { split; [discriminate|]. split; [|intros s' E; discriminate E]. cbn [read_in]. rewrite one_char, zero_char, V. f_equal. fold b. lia. }
  set (rep := fun m => repeat_text m (String a "")).
  assert (T : forall n ds l r, numeral_in (fl_hex fl) n ds -> (l + r = w - N.of_nat (String.length (h ++ ds)))%N ->
              match fl_align fl with Some AlignLeft => l = 0 | Some AlignCenter => l = r \/ l + 1 = r | Some AlignRight | None => r = 0 end%N ->
              debug_number fl n = rep l ++ h ++ ds ++ rep r).
  { intros n ds l r ND S AL. apply number_text_unique with (fl := fl) (n := n); [apply number_text_number|].
    exists ds, h, "", (rep l), (rep r), 0%N, l, r. rewrite W, Z, F. split; [exact ND|]. split; [reflexivity|]. split; [constructor|].
    split; [apply copies_repeat|]. split; [apply copies_repeat|]. split; [reflexivity|]. split; [exact S|]. split; [reflexivity|exact AL]. }
  assert (LEFT : fl_align fl = Some AlignLeft -> debug_number fl 1 = debug_number fl (b + v)).
  { intro AL. set (m := (w - N.of_nat (String.length (h ++ String "1" (String a ""))))%N).
    rewrite (T 1%N "1" 0%N (m + 1)%N N1), (T (b + v)%N _ 0%N m (N2 a v V)); try (rewrite AL; reflexivity);
      try (unfold m; rewrite !length_app; cbn [String.length]; lia).
    unfold rep. rewrite repeat_more. reflexivity. }
  assert (REP : forall m, rep (m + 1)%N = String a (rep m)).
  { intro m. apply repeat_more. }
  assert (RIGHT : right_aligned fl -> exists n n', n <> n' /\ (n < 2 ^ 16)%N /\ (n' < 2 ^ 16)%N /\ debug_number fl n = debug_number fl n').
  { intros R. assert (NV : v <> 0%N) by auto. assert (H0 : h = "").
    { unfold h. destruct (fl_plus fl) eqn:P; [exfalso; apply NR; split; [exact R|right; left; exact P]|].
      destruct (fl_alternate fl) eqn:A; [|destruct (fl_hex fl); reflexivity].
      destruct (fl_hex fl) eqn:X; [reflexivity|exfalso; apply NR; split; [exact R|right; right; split; [exact A|rewrite X; discriminate]]..]. }
    assert (N4 : numeral_in (fl_hex fl) (b * v + 1) (String a (String "1" ""))).
    { split; [discriminate|]. split; [cbn [read_in]; rewrite V, one_char; f_equal; fold b; lia|].
      intros s' E. injection E as -> _. rewrite zero_char in V. congruence. }
    exists 1%N, (b * v + 1)%N. split; [nia|]. split; [reflexivity|]. split; [nia|].
    assert (RA : forall l r : N, r = 0%N -> match fl_align fl with Some AlignLeft => l = 0 | Some AlignCenter => l = r \/ l + 1 = r | Some AlignRight | None => r = 0 end%N)
      by (intros l r X; destruct R as [R|R]; rewrite R; exact X).
    rewrite (T 1%N "1" (w - 2 + 1)%N 0%N N1), (T (b * v + 1)%N _ (w - 2)%N 0%N N4); try (apply RA; reflexivity);
      try (rewrite H0; cbn [String.append String.length]; lia).
    unfold rep. rewrite <- repeat_snoc, <- string_app_assoc, H0. reflexivity. }
  destruct (fl_align fl) as [[]|] eqn:AL.
  - exists 1%N, (b + v)%N. split; [lia|]. split; [reflexivity|]. split; [lia|]. apply LEFT. reflexivity.
  - set (k := (w - N.of_nat (String.length h))%N).
    assert (K : exists q, k = (2 * q)%N \/ k = (2 * q + 1)%N).
    { exists (k / 2)%N. pose proof (N.div_mod k 2). pose proof (N.mod_lt k 2). lia. }
    destruct K as [q [K|K]].
    + exists 1%N, (b + v)%N. split; [lia|]. split; [reflexivity|]. split; [lia|].
      rewrite (T 1%N "1" (q - 1)%N (q - 1 + 1)%N N1), (T (b + v)%N _ (q - 1)%N (q - 1)%N (N2 a v V));
        try (rewrite !length_app; cbn [String.length]; lia); try lia.
      rewrite REP. reflexivity.
    + exists (b + 0)%N, (b * b + v)%N. split; [nia|]. split; [lia|]. split; [nia|].
      rewrite (T (b + 0)%N _ (q - 1)%N (q - 1 + 1)%N (N2 "0"%char 0%N (zero_char _))), (T (b * b + v)%N _ (q - 1)%N (q - 1)%N N3);
        try (rewrite !length_app; cbn [String.length]; lia); try lia.
      rewrite REP. reflexivity.
  - apply RIGHT. right. exact AL.
  - apply RIGHT. left. exact AL.
Qed.
Lemma c75_digit_padding_lemma : forall fl d w a v, fl_width fl = Some w -> (6 <= w)%N -> fl_zero fl = false ->
  fl_fill fl = String a "" -> digit_of (fl_hex fl) a = Some v -> ~ (right_aligned fl /\ (v = 0%N \/ marked fl)) ->
  exists s s' : fixed_storage, (fx_bits s < 2 ^ 16)%N /\ (fx_bits s' < 2 ^ 16)%N /\ idx_eq (KFixed U16) s s' = false
    /\ idx_fmt fl d (KFixed U16) s = idx_fmt fl d (KFixed U16) s'.
Proof.
  intros fl d w a v W Hw Z F V NR. destruct (ambiguous_number fl w a v W Hw Z F V NR) as (n & n' & NE & B & B' & E).
  exists (MkFixed n), (MkFixed n'). split; [exact B|]. split; [exact B'|]. split.
  - destruct (idx_eq (KFixed U16) (MkFixed n) (MkFixed n')) eqn:Q; [|reflexivity]. apply idx_eq_iff in Q. injection Q as Q. exfalso. exact (NE Q).
  - unfold idx_fmt, storage_fmt, fixed_fmt. cbn [fx_bits]. rewrite E. reflexivity.
Qed.
Lemma c75_text_tells_type_lemma : forall fl d d' k k' (s : storage k) (s' : storage k'),
  In d ["2D"; "3D"]%string -> In d' ["2D"; "3D"]%string -> idx_fmt fl d k s = idx_fmt fl d' k' s' -> d = d' /\ same_type k k'.
Proof.
  intros fl d d' k k' s s' H H' E. rewrite !idx_fmt_cases in E.
  destruct (fl_alternate fl), H as [<-|[<-|[]]], H' as [<-|[<-|[]]], k, k'; try (split; [reflexivity|exact I]);
    exfalso; cbn in E; discriminate E.
Qed.
Lemma c75_text_tells_cells_lemma : forall fl c D L k d (a b : storage k) la lb, In d ["2D"; "3D"]%string -> clear_padding fl ->
  made c D L k true a la -> made c D L k true b lb -> (idx_fmt fl d k a = idx_fmt fl d k b <-> la = lb).
Proof.
  intros fl c D L k d a b la lb H P A B. rewrite (c75_same_text_same_value_lemma fl d k a b H P). exact (proj1 (proj2 (c38_relations_lemma c D L k a b la lb A B))).
Qed.
Lemma c75_errors_lemma : forall fl,
  (forall n b, fl_alternate fl = false -> number_text fl n b ->
     error_fmt fl (DepthLimitedExceeded n) = ("DepthLimitedExceeded { max_depth: " ++ b ++ " }")%string)
  /\ error_fmt fl CellIndexOutOfRange = "CellIndexOutOfRange"%string
  /\ (clear_padding fl -> forall e e', error_fmt fl e = error_fmt fl e' <-> e = e').
Proof.
  intro fl. split; [|split].
  - intros n b A B. apply c75_numbers_lemma in B. rewrite B. unfold error_fmt, debug_struct. rewrite A. reflexivity.
  - reflexivity.
  - intros H e e'. split; [|intros ->; reflexivity]. unfold error_fmt, debug_struct. destruct (fl_alternate fl).
    + assert (X : forall n, pretty_struct "DepthLimitedExceeded" [("max_depth", debug_number fl n)]
                  = lines ["DepthLimitedExceeded {"; "    max_depth: " ++ debug_number fl n ++ ","; "}"]).
      { intro n. erewrite struct_lines; [|constructor; [apply f_decimal_field;
          [intro m; apply clear_line; exact H|discriminate|repeat split; discriminate]|constructor]]. reflexivity. }
      destruct e as [n|], e' as [n'|]; rewrite ?X; intro E; try discriminate E; [|reflexivity]. f_equal.
      apply (debug_number_inj fl n n' H).
      change (("DepthLimitedExceeded {" ++ String newline "    max_depth: ") ++ (debug_number fl n ++ ",") ++ String newline "}"
              = ("DepthLimitedExceeded {" ++ String newline "    max_depth: ") ++ (debug_number fl n' ++ ",") ++ String newline "}") in E.
      apply append_cancel in E. apply suffix_cancel in E. apply suffix_cancel in E. exact E.
    + destruct e as [n|], e' as [n'|]; intro E; try discriminate E; [|reflexivity]. f_equal. apply (debug_number_inj fl n n' H).
      unfold flat_struct in E. do 2 apply append_cancel in E. cbn [map fst snd String.concat] in E.
      apply suffix_cancel in E. apply (append_cancel "max_depth: ") in E. exact E.
Qed.
Lemma c75_displayable_lemma : forall fl T c (to_string : T -> naming -> outcome string) l n names,
  Forall2 (fun x name => to_string x n = Ret name) l names ->
  displayable_fmt fl c to_string (make_displayable l n) = Ret ("[" ++ String.concat ", " names ++ "]")%string.
Proof. intros fl T c to_string l n names F. exact (proj1 (c35_display_lemma T c to_string l n names F)). Qed.
