(* TextProofs.v - the numerals of the standard library are the decimal numerals of SpecText.v *)
From Coq Require Import Lia Strings.String Strings.Ascii Decimal DecimalFacts DecimalPos DecimalN DecimalString.
From Verif Require Import Base Spec SpecText.

Lemma read_pos_digits d : forall p, read_digits (Npos p) (NilEmpty.string_of_uint d) = Some (Npos (Pos.of_uint_acc d p)).
Proof.
  induction d; intro p; cbn [NilEmpty.string_of_uint read_digits Pos.of_uint_acc]; [reflexivity| ..];
  (match goal with |- context [digit_value ?a] => let r := eval vm_compute in (digit_value a) in change (digit_value a) with r end);
  cbn iota beta; rewrite <- IHd; f_equal; lia.
Qed.
Lemma read_uint_digits d : read_digits 0 (NilEmpty.string_of_uint d) = Some (N.of_uint d).
Proof.
  unfold N.of_uint. induction d; cbn [NilEmpty.string_of_uint read_digits Pos.of_uint]; [reflexivity| exact IHd |..];
  (match goal with |- context [digit_value ?a] => let r := eval vm_compute in (digit_value a) in change (digit_value a) with r end);
  cbn iota beta; exact (read_pos_digits d _).
Qed.
Lemma digit_ascii a v : digit_value a = Some v -> In a (list_ascii_of_string "0123456789").
Proof.
  destruct a as [b0 b1 b2 b3 b4 b5 b6 b7].
  destruct b0, b1, b2, b3, b4, b5, b6, b7; vm_compute; intro H; try discriminate H; tauto.
Qed.
Lemma read_uint s : forall acc n, read_digits acc s = Some n -> exists d, NilEmpty.string_of_uint d = s.
Proof.
  induction s as [|a s IH]; intros acc n E; cbn [read_digits] in E.
  - exists Nil. reflexivity.
  - destruct (digit_value a) as [v|] eqn:Ea; [|discriminate]. destruct (IH _ _ E) as (d & <-).
    apply digit_ascii in Ea. cbn in Ea.
    repeat destruct Ea as [<-|Ea];
      [exists (D0 d)|exists (D1 d)|exists (D2 d)|exists (D3 d)|exists (D4 d)|exists (D5 d)|exists (D6 d)|exists (D7 d)|exists (D8 d)|exists (D9 d)|destruct Ea]; reflexivity.
Qed.
Lemma nilzero_cases d : NilZero.string_of_uint d = match d with Nil => "0"%string | _ => NilEmpty.string_of_uint d end.
Proof. destruct d; reflexivity. Qed.
Lemma nonempty_digits d : d <> Nil -> NilEmpty.string_of_uint d <> EmptyString.
Proof. destruct d; [congruence|discriminate ..]. Qed.
Lemma unorm_to_uint n : unorm (N.to_uint n) = N.to_uint n.
Proof. rewrite <- Unsigned.to_of, Unsigned.of_to. reflexivity. Qed.
Lemma unorm_nonnil d : unorm d <> Nil.
Proof. unfold unorm. destruct (nzhead d); discriminate. Qed.
Lemma nzhead_no_zero d : forall d', nzhead d <> D0 d'.
Proof. induction d; intros d'; cbn [nzhead]; [discriminate|apply IHd|discriminate ..]. Qed.
Lemma unorm_zero d d' : unorm d = D0 d' -> d' = Nil.
Proof.
  unfold unorm. pose proof (nzhead_no_zero d) as H. destruct (nzhead d) eqn:E; intro Q; try discriminate Q.
  - injection Q as <-. reflexivity.
  - exfalso. exact (H _ eq_refl).
Qed.
Lemma decimal_digits n : decimal n = NilEmpty.string_of_uint (N.to_uint n).
Proof.
  unfold decimal. rewrite nilzero_cases. pose proof (unorm_nonnil (N.to_uint n)) as H. rewrite unorm_to_uint in H.
  destruct (N.to_uint n); [congruence|reflexivity ..].
Qed.
Lemma numeral_decimal n : numeral n (decimal n).
Proof.
  rewrite decimal_digits. split; [|split].
  - apply nonempty_digits. rewrite <- unorm_to_uint. apply unorm_nonnil.
  - rewrite read_uint_digits, Unsigned.of_to. reflexivity.
  - intros s' E. destruct (N.to_uint n) as [|d|d|d|d|d|d|d|d|d|d] eqn:U; cbn in E; try discriminate E.
    injection E as <-. replace d with Nil; [reflexivity|]. symmetry. apply (unorm_zero (N.to_uint n)). rewrite unorm_to_uint. exact U.
Qed.
Lemma numeral_unique n s : numeral n s -> s = decimal n.
Proof.
  intros (Hne & Hr & Hz). destruct (read_uint s 0 n Hr) as (d & <-). rewrite read_uint_digits in Hr. injection Hr as <-.
  rewrite decimal_digits. f_equal. rewrite Unsigned.to_of.
  destruct d as [|d|d|d|d|d|d|d|d|d|d]; try reflexivity.
  - exfalso. apply Hne. reflexivity.
  - specialize (Hz _ eq_refl). destruct d; [reflexivity|discriminate Hz ..].
Qed.
