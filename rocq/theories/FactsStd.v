(* FactsStd.v - lemmas behind PropStd.v: Debug texts (C62), formatters that can fail (C63), provided iterator methods (C64) *)
From Coq Require Import Strings.String Strings.Ascii DecimalString DecimalN DecimalFacts ZifyBool ZifyNat ZifyN.
From Verif Require Import Base ModelNumber ModelDim ModelStorage Model2D Model3D ModelHelper ModelStd Spec SpecStd SpecText History BitProofs NumberProofs CellProofs
  StorageProofs OrderProofs GridProofs HistoryProofs NameProofs TextProofs FactsCells FactsName FactsHistory.

(* ---------- strings ---------- *)
Local Open Scope string_scope.
Lemma append_cancel (a b b' : string) : a ++ b = a ++ b' -> b = b'.
Proof. induction a as [|x a IH]; cbn [String.append]; [auto|]. intro E. injection E as E. auto. Qed.
Fixpoint lacks (x : ascii) (s : string) : Prop :=
  match s with EmptyString => True | String a s' => a <> x /\ lacks x s' end.
Lemma lacks_app x a b : lacks x a -> lacks x b -> lacks x (a ++ b).
Proof. induction a as [|y a IH]; cbn [String.append lacks]; [auto|]. intros [A B] C. auto. Qed.
Lemma split_at x a b a' b' : lacks x a -> lacks x a' -> a ++ String x b = a' ++ String x b' -> a = a' /\ b = b'.
Proof.
  revert a'. induction a as [|y a IH]; intros [|y' a'] H H'; cbn [String.append lacks] in *.
  - intros E. injection E as <-. auto.
  - intros E. injection E as <- _. tauto.
  - intros E. injection E as -> _. tauto.
  - intros E. injection E as <- E. destruct (IH a' (proj2 H) (proj2 H') E) as [-> ->]. auto.
Qed.
Lemma lacks_uint x d : digit_value x = None -> lacks x (NilEmpty.string_of_uint d).
Proof. intro H. induction d; cbn [NilEmpty.string_of_uint lacks]; auto; split; auto; intros <-; discriminate H. Qed.
Lemma lacks_decimal x n : digit_value x = None -> lacks x (decimal n).
Proof. intro H. rewrite decimal_digits. apply lacks_uint. exact H. Qed.
Lemma decimal_split x n m b b' : digit_value x = None -> decimal n ++ String x b = decimal m ++ String x b' -> n = m /\ b = b'.
Proof.
  intros H E. destruct (split_at x (decimal n) b (decimal m) b' (lacks_decimal x n H) (lacks_decimal x m H) E) as [A B].
  split; [apply decimal_inj; exact A|exact B].
Qed.
Lemma decimal_nonempty n : decimal n <> "".
Proof. exact (proj1 (numeral_decimal n)). Qed.
Lemma lacks_list x (l : list N) : digit_value x = None -> x <> ","%char -> x <> " "%char -> lacks x (String.concat ", " (map decimal l)).
Proof.
  intros H1 H2 H3. induction l as [|n l IH]; [exact I|]. destruct l as [|m l]; [apply lacks_decimal; exact H1|].
  change (lacks x (decimal n ++ ", " ++ String.concat ", " (map decimal (m :: l)))).
  apply lacks_app; [apply lacks_decimal; exact H1|]. apply lacks_app; [cbn; auto|exact IH].
Qed.
Lemma list_text_inj (l l' : list N) : String.concat ", " (map decimal l) = String.concat ", " (map decimal l') -> l = l'.
Proof.
  revert l'. induction l as [|n l IH]; intros [|n' l'] E.
  - reflexivity.
  - exfalso. destruct l' as [|m' l']; cbn [map String.concat] in E.
    + exact (decimal_nonempty n' (eq_sym E)).
    + destruct (decimal n') eqn:F; [exact (decimal_nonempty n' F)|discriminate E].
  - exfalso. destruct l as [|m l]; cbn [map String.concat] in E.
    + exact (decimal_nonempty n E).
    + destruct (decimal n) eqn:F; [exact (decimal_nonempty n F)|discriminate E].
  - assert (C : digit_value ","%char = None) by reflexivity.
    destruct l as [|m l], l' as [|m' l'].
    + cbn [map String.concat] in E. apply decimal_inj in E. subst. reflexivity.
    + exfalso. change (decimal n = decimal n' ++ String "," (" " ++ String.concat ", " (map decimal (m' :: l')))) in E.
      pose proof (lacks_decimal ","%char n C) as K. rewrite E in K. clear - K. induction (decimal n') as [|a s IHs]; cbn in K; tauto.
    + exfalso. change (decimal n ++ String "," (" " ++ String.concat ", " (map decimal (m :: l))) = decimal n') in E.
      pose proof (lacks_decimal ","%char n' C) as K. rewrite <- E in K. clear - K. induction (decimal n) as [|a s IHs]; cbn in K; tauto.
    + change (decimal n ++ String "," (" " ++ String.concat ", " (map decimal (m :: l)))
              = decimal n' ++ String "," (" " ++ String.concat ", " (map decimal (m' :: l')))) in E.
      apply decimal_split in E; [|exact C]. destruct E as [-> E]. apply append_cancel in E. rewrite (IH _ E). reflexivity.
Qed.
Lemma debug_bytes_split (l l' : list N) b b' : debug_bytes l ++ b = debug_bytes l' ++ b' -> l = l' /\ b = b'.
Proof.
  unfold debug_bytes. rewrite <- !string_app_assoc. intro E. apply append_cancel in E.
  destruct (split_at "]"%char _ _ _ _ (lacks_list "]"%char l eq_refl ltac:(discriminate) ltac:(discriminate))
              (lacks_list "]"%char l' eq_refl ltac:(discriminate) ltac:(discriminate)) E) as [A B].
  split; [exact (list_text_inj l l' A)|exact B].
Qed.

(* ---------- C62 ---------- *)
Lemma c62_debug_text_lemma : forall d,
  (forall t s b, numeral (fx_bits s) b ->
     idx_debug d (KFixed t) s = ("MortonIndex" ++ d ++ " { storage: FixedDepthStorage" ++ d ++ " { bits: " ++ b ++ " } }")%string)
  /\ (forall t s b n, numeral (sx_bits s) b -> numeral (sx_depth s) n ->
     idx_debug d (KStatic t) s
     = ("MortonIndex" ++ d ++ " { storage: StaticStorage" ++ d ++ " { bits: " ++ b ++ ", depth: " ++ n ++ " } }")%string)
  /\ (forall s bs n, Forall2 numeral (dy_bits s) bs -> numeral (dy_depth s) n ->
     idx_debug d KDynamic s
     = ("MortonIndex" ++ d ++ " { storage: DynamicStorage" ++ d ++ " { bits: [" ++ String.concat ", " bs ++ "], depth: " ++ n ++ " } }")%string).
Proof.
  intro d. unfold idx_debug, index_debug, storage_debug, fixed_debug, static_debug, dynamic_debug, debug_bytes. change display_usize with decimal.
  split; [|split].
  - intros t s b B. rewrite (numeral_unique _ _ B). rewrite <- !string_app_assoc. reflexivity.
  - intros t s b n B H. rewrite (numeral_unique _ _ B), (numeral_unique _ _ H). rewrite <- !string_app_assoc. reflexivity.
  - intros s bs n B H. rewrite (numeral_unique _ _ H).
    replace (map decimal (dy_bits s)) with bs; [rewrite <- !string_app_assoc; reflexivity|].
    induction B as [|x y l l' X B IH]; [reflexivity|]. cbn [map]. rewrite <- IH, (numeral_unique _ _ X). reflexivity.
Qed.
Lemma c62_same_text_same_value_lemma : forall d k (s s' : storage k), idx_debug d k s = idx_debug d k s' <-> idx_eq k s s' = true.
Proof.
  intros d k s s'. rewrite idx_eq_iff. split; [|intros ->; reflexivity]. intro E. unfold idx_debug, index_debug in E.
  do 3 apply append_cancel in E. destruct k; cbn [storage_debug] in E.
  - destruct s as [b], s' as [b']. unfold fixed_debug in E. rewrite <- !string_app_assoc in E. do 3 apply append_cancel in E.
    cbn [fx_bits] in E. apply (decimal_split " "%char) in E; [|reflexivity]. destruct E as [-> _]. reflexivity.
  - destruct s as [b n], s' as [b' n']. unfold static_debug in E. rewrite <- !string_app_assoc in E. do 3 apply append_cancel in E.
    cbn [sx_bits sx_depth] in E. apply (decimal_split ","%char) in E; [|reflexivity]. destruct E as [-> E].
    do 1 apply (append_cancel " depth: ") in E. apply (decimal_split " "%char) in E; [|reflexivity]. destruct E as [-> _]. reflexivity.
  - destruct s as [b n], s' as [b' n']. unfold dynamic_debug in E. rewrite <- !string_app_assoc in E. do 3 apply append_cancel in E.
    cbn [dy_bits dy_depth] in E. apply debug_bytes_split in E. destruct E as [-> E].
    apply append_cancel in E. apply (decimal_split " "%char) in E; [|reflexivity]. destruct E as [-> _]. reflexivity.
Qed.
Lemma c62_text_tells_type_lemma : forall d d' k k' (s : storage k) (s' : storage k'),
  In d ["2D"; "3D"]%string -> In d' ["2D"; "3D"]%string -> idx_debug d k s = idx_debug d' k' s' -> d = d' /\ same_type k k'.
Proof.
  intros d d' k k' s s' H H' E. unfold idx_debug, index_debug in E. apply append_cancel in E.
  assert (A : d = d').
  { destruct H as [<-|[<-|[]]]; destruct H' as [<-|[<-|[]]]; try reflexivity; discriminate E. }
  split; [exact A|]. subst d'. do 2 apply append_cancel in E.
  destruct k, k'; try exact I; cbn [storage_debug] in E; discriminate E.
Qed.
Lemma c62_text_tells_cells_lemma : forall c D L k d (a b : storage k) la lb,
  made c D L k true a la -> made c D L k true b lb -> (idx_debug d k a = idx_debug d k b <-> la = lb).
Proof.
  intros c D L k d a b la lb A B. rewrite c62_same_text_same_value_lemma. exact (proj1 (proj2 (c38_relations_lemma c D L k a b la lb A B))).
Qed.
Lemma c62_enum_names_lemma :
  (forall q q', quadrant_debug q = quadrant_debug q' <-> q = q')
  /\ (forall q q', octant_debug q = octant_debug q' <-> q = q')
  /\ (forall o o', quadrant_ordering_debug o = quadrant_ordering_debug o' <-> o = o')
  /\ (forall o o', octant_ordering_debug o = octant_ordering_debug o' <-> o = o')
  /\ (forall n n', naming_debug n = naming_debug n' <-> n = n').
Proof. repeat split; try (intros ->; reflexivity); [destruct q, q'|destruct q, q'|destruct o, o'|destruct o, o'|destruct n, n']; intro E; try reflexivity; discriminate E. Qed.

Lemma c62_naming_names_lemma : forall n, In (n, naming_debug n)
  [(GridIndex, "GridIndex"%string); (CellConcatenationWithRoot, "CellConcatenationWithRoot"%string); (CellConcatenation, "CellConcatenation"%string)].
Proof. intros []; cbn; tauto. Qed.

(* ---------- C63 ---------- *)
Lemma feed_app {W} (write : writer W) a b w :
  feed write (app a b) w = let (w', ok) := feed write a w in if ok then feed write b w' else (w', false).
Proof.
  revert w. induction a as [|t a IH]; intro w; cbn [feed app]; [reflexivity|].
  destruct (write w t) as [w' []]; [apply IH|reflexivity].
Qed.
Lemma display_items_ok {T W} c (to_string : T -> naming -> outcome string) (write : writer W) n total l names :
  Forall2 (fun x name => to_string x n = Ret name) l names -> forall i w, (i + len l = total)%N ->
  display_items c to_string write n total (enum_from i l) w = Ret (feed write (separated names) w).
Proof.
  intro F. induction F as [|x name l names H F IH]; intros i w Ht; [reflexivity|].
  rewrite len_cons in Ht. cbn [enum_from display_items]. rewrite H, bind_ret.
  assert (S1 : sub c (usize_bits c) total 1 = Ret (total - 1)%N) by (apply sub_ok; lia).
  destruct F as [|y name' l names H' F].
  - change (len (@nil T)) with 0%N in Ht. cbn [separated feed]. destruct (write w name) as [w' []]; cbn [negb]; [|reflexivity].
    rewrite S1, bind_ret. destruct (N.ltb_spec i (total - 1)); [lia|]. reflexivity.
  - rewrite len_cons in Ht. change (separated (name :: name' :: names)) with (name :: ", " :: separated (name' :: names)). cbn [feed].
    destruct (write w name) as [w' []]; cbn [negb]; [|reflexivity].
    rewrite S1, bind_ret. destruct (N.ltb_spec i (total - 1)); [|lia].
    destruct (write w' ", ") as [w2 []]; cbn [negb]; [|reflexivity]. apply IH. rewrite len_cons. lia.
Qed.
Lemma c63_texts_in_order_lemma : forall T W c (to_string : T -> naming -> outcome string) (write : writer W) l n names w,
  Forall2 (fun x name => to_string x n = Ret name) l names ->
  display_to c to_string write (make_displayable l n) w = Ret (feed write (slice_texts names) w)
  /\ debug_to c to_string write (make_displayable l n) w = Ret (feed write (slice_texts names) w)
  /\ display_fmt c to_string (make_displayable l n) = Ret (String.concat "" (slice_texts names)).
Proof.
  intros T W c to_string write l n names w F.
  assert (E : display_to c to_string write (make_displayable l n) w = Ret (feed write (slice_texts names) w)).
  { unfold display_to, make_displayable, slice_texts, enumerate. cbn [di_indices di_naming feed].
    destruct (write w "[") as [w1 []]; cbn [negb]; [|reflexivity].
    rewrite (display_items_ok c to_string write n (len l) l names F 0 w1) by lia. rewrite bind_ret, feed_app.
    destruct (feed write (separated names) w1) as [w2 []]; cbn [negb feed]; [|reflexivity]. destruct (write w2 "]") as [w3 []]; reflexivity. }
  split; [exact E|]. split; [exact E|]. rewrite (proj1 (c35_display_lemma T c to_string l n names F)). f_equal. unfold slice_texts.
  rewrite concat_nil_cons. f_equal. clear. induction names as [|x names IH]; [reflexivity|].
  destruct names as [|y names]; [reflexivity|].
  change (separated (x :: y :: names)) with (x :: ", " :: separated (y :: names)). cbn [app]. rewrite !concat_nil_cons, <- IH.
  change (String.concat ", " (x :: y :: names)) with (x ++ ", " ++ String.concat ", " (y :: names)). rewrite <- !string_app_assoc. reflexivity.
Qed.
Lemma length_app a b : String.length (a ++ b) = (String.length a + String.length b)%nat.
Proof. induction a as [|x a IH]; cbn [String.append String.length]; [reflexivity|]. rewrite IH. reflexivity. Qed.
Lemma concat_length_cons t l : String.length (String.concat "" (t :: l)) = (String.length t + String.length (String.concat "" l))%nat.
Proof. rewrite concat_nil_cons. apply length_app. Qed.
Lemma feed_buffer cap texts : forall w, exists w' ok, feed (buffer cap) texts w = (w', ok) /\ begins w' (w ++ String.concat "" texts)
  /\ (ok = true -> w' = w ++ String.concat "" texts)
  /\ (N.of_nat (String.length w) <= cap -> (ok = true <-> N.of_nat (String.length (w ++ String.concat "" texts)) <= cap))%N.
Proof.
  induction texts as [|t texts IH]; intro w; cbn [feed].
  - exists w, true. cbn [String.concat]. rewrite string_app_nil. repeat split; auto. exists "". rewrite string_app_nil. reflexivity.
  - unfold buffer at 1. destruct (N.leb_spec (N.of_nat (String.length (w ++ t))) cap) as [H|H].
    + destruct (IH (w ++ t)) as (w' & ok & E & B & C & G). exists w', ok. rewrite concat_nil_cons, string_app_assoc.
      split; [exact E|]. split; [exact B|]. split; [exact C|]. intros _. apply G. exact H.
    + exists w, false. split; [reflexivity|]. split; [eexists; reflexivity|]. split; [discriminate|].
      intro H0. split; [discriminate|]. intro K. exfalso. rewrite length_app, concat_length_cons in K. rewrite length_app in H. lia.
Qed.
Lemma c63_buffer_lemma : forall T c (to_string : T -> naming -> outcome string) l n text cap names,
  Forall2 (fun x name => to_string x n = Ret name) l names ->
  display_fmt c to_string (make_displayable l n) = Ret text ->
  exists w ok, display_to c to_string (buffer cap) (make_displayable l n) "" = Ret (w, ok)
    /\ begins w text /\ (ok = true <-> N.of_nat (String.length text) <= cap)%N /\ (ok = true -> w = text).
Proof.
  intros T c to_string l n text cap names F E.
  destruct (c63_texts_in_order_lemma T string c to_string (buffer cap) l n names "" F) as (A & _ & B). rewrite B in E. apply ret_inj in E.
  destruct (feed_buffer cap (slice_texts names) "") as (w & ok & K & P & Q & R). cbn [String.append] in P, Q, R. rewrite E in P, Q, R.
  exists w, ok. rewrite A, K. split; [reflexivity|]. split; [exact P|]. split; [|exact Q]. apply R. cbn. lia.
Qed.
Lemma substring_begins t : forall n, begins (String.substring 0 n t) t.
Proof.
  induction t as [|a t IH]; intros [|n]; cbn [String.substring]; try (eexists; reflexivity).
  destruct (IH n) as (r & E). exists r. cbn [String.append]. rewrite <- E. reflexivity.
Qed.
Lemma substring_length t : forall n, (n <= String.length t)%nat -> String.length (String.substring 0 n t) = n.
Proof.
  induction t as [|a t IH]; intros [|n] H; cbn [String.substring String.length] in *; try reflexivity; [lia|]. rewrite IH by lia. reflexivity.
Qed.
Lemma feed_greedy cap texts : forall w, (N.of_nat (String.length w) <= cap)%N ->
  exists w' ok, feed (greedy_buffer cap) texts w = (w', ok) /\ begins w' (w ++ String.concat "" texts)
  /\ N.of_nat (String.length w') = N.min cap (N.of_nat (String.length (w ++ String.concat "" texts)))
  /\ (ok = true <-> N.of_nat (String.length (w ++ String.concat "" texts)) <= cap)%N.
Proof.
  induction texts as [|t texts IH]; intros w Hw; cbn [feed].
  - exists w, true. cbn [String.concat]. rewrite string_app_nil. repeat split; auto; [exists ""; rewrite string_app_nil; reflexivity|lia].
  - unfold greedy_buffer at 1. destruct (N.leb_spec (N.of_nat (String.length (w ++ t))) cap) as [H|H].
    + destruct (IH (w ++ t) H) as (w' & ok & E & B & C & G). exists w', ok. rewrite concat_nil_cons, string_app_assoc. auto.
    + rewrite length_app in H. set (n := (N.to_nat cap - String.length w)%nat).
      exists (w ++ String.substring 0 n t), false. split; [reflexivity|].
      assert (Hn : (n <= String.length t)%nat) by (unfold n; lia). pose proof (substring_length t n Hn) as L.
      split; [|split].
      * destruct (substring_begins t n) as (r & E). exists (r ++ String.concat "" texts). rewrite concat_nil_cons. rewrite E at 1.
        rewrite <- !string_app_assoc. reflexivity.
      * rewrite !length_app, concat_length_cons, L. unfold n. lia.
      * split; [discriminate|]. intro K. exfalso. rewrite length_app, concat_length_cons in K. lia.
Qed.
Lemma c63_greedy_buffer_lemma : forall T c (to_string : T -> naming -> outcome string) l n text cap names,
  Forall2 (fun x name => to_string x n = Ret name) l names ->
  display_fmt c to_string (make_displayable l n) = Ret text ->
  exists w ok, display_to c to_string (greedy_buffer cap) (make_displayable l n) "" = Ret (w, ok)
    /\ begins w text /\ N.of_nat (String.length w) = N.min cap (N.of_nat (String.length text))
    /\ (ok = true <-> N.of_nat (String.length text) <= cap)%N.
Proof.
  intros T c to_string l n text cap names F E.
  destruct (c63_texts_in_order_lemma T string c to_string (greedy_buffer cap) l n names "" F) as (A & _ & B). rewrite B in E. apply ret_inj in E.
  destruct (feed_greedy cap (slice_texts names) "" ltac:(cbn; lia)) as (w & ok & K & P & Q & R). cbn [String.append] in P, Q, R. rewrite E in P, Q, R.
  exists w, ok. rewrite A, K. auto.
Qed.

(* ---------- C64 ---------- *)
Local Close Scope string_scope.
Lemma next_end c D k (s : storage k) (l : list (cell D)) : repr c D k s l -> cell_iter_next c (ops c D k) s (len l) = Ret (None, len l).
Proof. intro R. unfold cell_iter_next. rewrite (raw_depth _ _ _ _ _ _ _ _ R), N.eqb_refl. reflexivity. Qed.
Lemma len_fits c D k (s : storage k) (l : list (cell D)) : dim_ok D -> repr c D k s l -> len l < 2 ^ usize_bits c.
Proof. intros HD R. pose proof (sane_width c k s (raw_sane _ _ _ _ _ _ _ _ R)) as HW. destruct (raw_holds _ _ _ _ _ _ _ _ R) as (_ & HB & _).
  pose proof (dim_ge D HD) as HG. assert (len l <= dim D * len l) by nia. lia.
Qed.
Lemma next_some c D k (s : storage k) (l : list (cell D)) i x : dim_ok D -> repr c D k s l -> nth_error l (N.to_nat i) = Some x -> cell_iter_next c (ops c D k) s i = Ret (Some x, i + 1).
Proof. intros HD R. intro Hx. assert (Hlt : i < len l) by (assert (N.to_nat i < List.length l)%nat by (apply nth_error_Some; congruence); unfold len; lia).
  pose proof (len_fits c D k s l HD R) as HF. unfold cell_iter_next. rewrite (raw_depth _ _ _ _ _ _ _ _ R). destruct (N.eqb_spec i (len l)) as [E|_]; [lia|].
  rewrite add_ok by lia. rewrite bind_ret. rewrite (raw_get c D k _ _ _ s l i x HD R Hx). reflexivity.
Qed.
Lemma advance_ok c D k (s : storage k) (l : list (cell D)) n : dim_ok D -> repr c D k s l -> forall i, i <= len l ->
  iter_advance c (ops c D k) s n i = Ret (i + N.of_nat n <=? len l, N.min (i + N.of_nat n) (len l)).
Proof. intros HD R. induction n as [|n IH]; intros i Hi; cbn [iter_advance].
  - f_equal. f_equal; lia.
  - destruct (N.eq_dec i (len l)) as [->|Hne].
    + rewrite (next_end c D k s l R), bind_ret. f_equal. f_equal; lia.
    + destruct (nth_error_N_lt l i ltac:(lia)) as (x & Hx). rewrite (next_some c D k s l i x HD R Hx), bind_ret. rewrite IH by lia. f_equal. f_equal; lia.
Qed.
Lemma nth_ok c D k (s : storage k) (l : list (cell D)) n i : dim_ok D -> repr c D k s l -> i <= len l ->
  iter_nth c (ops c D k) s n i = Ret (nth_error l (N.to_nat (i + n)), N.min (i + n + 1) (len l)).
Proof. intros HD R. intro Hi. unfold iter_nth. rewrite (advance_ok c D k s l (N.to_nat n) HD R) by exact Hi. rewrite bind_ret, N2Nat.id. destruct (N.leb_spec (i + n) (len l)) as [H|H].
  - replace (N.min (i + n) (len l)) with (i + n) by lia. destruct (N.eq_dec (i + n) (len l)) as [E|E].
    + rewrite E, (next_end c D k s l R). f_equal. f_equal; [|lia]. symmetry. apply nth_error_None. rewrite to_nat_len. lia.
    + destruct (nth_error_N_lt l (i + n) ltac:(lia)) as (x & Hx). rewrite (next_some c D k s l _ x HD R Hx), Hx. f_equal. f_equal; lia.
  - f_equal. f_equal; [|lia]. symmetry. apply nth_error_None. unfold len in H. lia.
Qed.
Lemma fold_ok c D k (s : storage k) (l : list (cell D)) {A} (f : A -> cell D -> outcome A) fuel : dim_ok D -> repr c D k s l -> forall acc i, i <= len l -> (N.to_nat (len l - i) < fuel)%nat ->
  iter_fold c (ops c D k) s fuel f acc i = foldM f (skipn (N.to_nat i) l) acc.
Proof. intros HD R. induction fuel as [|fuel IH]; intros acc i Hi Hf; [lia|]. cbn [iter_fold]. destruct (N.eq_dec i (len l)) as [->|Hne].
  - rewrite (next_end c D k s l R), bind_ret, to_nat_len, skipn_all. reflexivity.
  - destruct (nth_error_N_lt l i ltac:(lia)) as (x & Hx). rewrite (next_some c D k s l i x HD R Hx), bind_ret.
    assert (E : skipn (N.to_nat i) l = x :: skipn (N.to_nat (i + 1)) l).
    { apply nth_error_split in Hx. destruct Hx as (a & b & Hl & Ha). replace (N.to_nat (i + 1)) with (S (List.length a)) by lia.
      rewrite <- Ha, Hl, skipn_length_app. replace (a ++ x :: b) with ((a ++ [x]) ++ b) by (rewrite <- app_assoc; reflexivity).
      replace (S (List.length a)) with (List.length (a ++ [x])) by (rewrite app_length; cbn; lia). rewrite skipn_length_app. reflexivity. }
    rewrite E. cbn [foldM]. destruct (f acc x) as [acc'| |]; cbn [bind]; try reflexivity. apply IH; lia.
Qed.
Lemma fuel_ok c D k (s : storage k) (l : list (cell D)) i : repr c D k s l -> (N.to_nat (len l - i) < iter_fuel (ops c D k) s)%nat.
Proof. intro R. unfold iter_fuel. rewrite (raw_depth _ _ _ _ _ _ _ _ R). lia. Qed.
Lemma count_list c D (m : list (cell D)) : forall n, n + len m < 2 ^ usize_bits c ->
  foldM (fun n _ => add c (usize_bits c) n 1) m n = Ret (n + len m).
Proof.
  induction m as [|x m IH]; intros n H; cbn [foldM]; [f_equal; change (len (@nil (cell D))) with 0; lia|].
  rewrite len_cons in *. rewrite add_ok by lia. rewrite bind_ret, IH by lia. f_equal. lia.
Qed.
Lemma last_list D (m : list (cell D)) : forall o,
  foldM (fun (_ : option (cell D)) x => Ret (Some x)) m o = Ret (match m with [] => o | _ => nth_error m (List.length m - 1) end).
Proof.
  induction m as [|x m IH]; intro o; cbn [foldM]; [reflexivity|]. rewrite bind_ret, IH. f_equal. destruct m as [|y m]; [reflexivity|].
  change (nth_error (y :: m) (List.length (y :: m) - 1) = nth_error (x :: y :: m) (Datatypes.S (List.length (y :: m)) - 1)).
  replace (Datatypes.S (List.length (y :: m)) - 1)%nat with (Datatypes.S (List.length (y :: m) - 1)) by (cbn [List.length]; lia). reflexivity.
Qed.
Lemma nth_error_skip {A} (l : list A) a : forall b, nth_error (skipn a l) b = nth_error l (a + b).
Proof. revert l. induction a as [|a IH]; intros [|x l] b; cbn; auto. destruct b; reflexivity. Qed.

(* the iterator after i calls of next (i <= depth), or after any calls of next and nth *)
Lemma c64_nth_lemma : forall c D L k (s : storage k) l n i,
  is_dim D L -> valid c D k s -> shows (ops c D k) s l -> i <= len l ->
  iter_nth c (ops c D k) s n i = Ret (nth_error l (N.to_nat (i + n)), N.min (i + n + 1) (len l)).
Proof.
  intros c D L k s l n i HL V S Hi. pose proof (is_dim_ok _ _ HL) as HD. apply nth_ok; [exact HD| |exact Hi]. apply valid_shows; assumption.
Qed.
Lemma c64_fold_lemma : forall c D L k (s : storage k) l i A (f : A -> cell D -> outcome A) acc,
  is_dim D L -> valid c D k s -> shows (ops c D k) s l -> i <= len l ->
  iter_fold c (ops c D k) s (iter_fuel (ops c D k) s) f acc i = foldM f (skipn (N.to_nat i) l) acc.
Proof.
  intros c D L k s l i A f acc HL V S Hi. pose proof (is_dim_ok _ _ HL) as HD. pose proof (valid_shows c D k s l HD V S) as R.
  apply (fold_ok c D k s l f _ HD R); [exact Hi|]. apply fuel_ok. exact R.
Qed.
Lemma c64_count_lemma : forall c D L k (s : storage k) l i,
  is_dim D L -> valid c D k s -> shows (ops c D k) s l -> i <= len l -> iter_count c (ops c D k) s i = Ret (len l - i).
Proof.
  intros c D L k s l i HL V S Hi. pose proof (is_dim_ok _ _ HL) as HD. pose proof (valid_shows c D k s l HD V S) as R.
  unfold iter_count. rewrite (c64_fold_lemma c D L k s l i _ _ _ HL V S Hi). pose proof (len_fits c D k s l HD R) as F.
  assert (E : len (skipn (N.to_nat i) l) = len l - i) by (unfold len; rewrite skipn_length; lia).
  rewrite count_list by lia. f_equal. lia.
Qed.
Lemma c64_last_lemma : forall c D L k (s : storage k) l i,
  is_dim D L -> valid c D k s -> shows (ops c D k) s l -> i <= len l ->
  iter_last c (ops c D k) s i = Ret (if i <? len l then nth_error l (List.length l - 1) else None).
Proof.
  intros c D L k s l i HL V S Hi. unfold iter_last. rewrite (c64_fold_lemma c D L k s l i _ _ _ HL V S Hi), last_list. f_equal.
  destruct (N.ltb_spec i (len l)) as [H|H].
  - destruct (skipn (N.to_nat i) l) as [|x m] eqn:E.
    + exfalso. assert (K : List.length (skipn (N.to_nat i) l) = O) by (rewrite E; reflexivity). rewrite skipn_length in K. unfold len in H. lia.
    + rewrite <- E. rewrite nth_error_skip. f_equal. rewrite skipn_length. unfold len in H. lia.
  - replace (skipn (N.to_nat i) l) with (@nil (cell D)); [reflexivity|]. symmetry. apply skipn_all2. unfold len in H. lia.
Qed.
(* an index with at least one level: the last cell of the iterator is the cell of the deepest level *)
Lemma c64_last_is_deepest_lemma : forall c D L k (s : storage k) l x,
  is_dim D L -> valid c D k s -> shows (ops c D k) s (l ++ [x]) ->
  iter_last c (ops c D k) s cell_iter_start = Ret (Some x)
  /\ iter_nth c (ops c D k) s (len l) cell_iter_start = Ret (Some x, len l + 1)
  /\ iter_count c (ops c D k) s cell_iter_start = Ret (len l + 1).
Proof.
  intros c D L k s l x HL V S. assert (E : len (l ++ [x]) = len l + 1) by (unfold len; rewrite app_length; cbn; lia).
  rewrite (c64_last_lemma c D L k s _ _ HL V S), (c64_nth_lemma c D L k s _ _ _ HL V S), (c64_count_lemma c D L k s _ _ HL V S) by (unfold cell_iter_start; lia).
  rewrite E. unfold cell_iter_start. replace (0 <? len l + 1) with true by (symmetry; apply N.ltb_lt; lia).
  rewrite app_length, nth_error_app2 by (cbn; lia). rewrite nth_error_app2 by (unfold len; lia).
  replace (List.length l + List.length [x] - 1 - List.length l)%nat with O by (cbn; lia).
  replace (N.to_nat (0 + len l) - List.length l)%nat with O by (unfold len; lia). cbn [nth_error]. split; [reflexivity|].
  split; [f_equal; f_equal; lia|f_equal; lia].
Qed.
