(* ExampleTools.v - targets used by the examples and a way to establish `shows` by computation *)
From Verif Require Import Base ModelNumber ModelDim ModelStorage Model2D Model3D Spec History BitProofs.

(* x86-64 with and without overflow checks, a 32-bit, a 16-bit and a big-endian target *)
Definition debug64 : cfg := Cfg true PW64 LittleEndian.
Definition release64 : cfg := Cfg false PW64 LittleEndian.
Definition debug32 : cfg := Cfg true PW32 LittleEndian.
Definition debug16 : cfg := Cfg true PW16 LittleEndian.
Definition big64 : cfg := Cfg true PW64 BigEndian.

Lemma mapM_nth {A B} (f : A -> outcome B) l r i x : mapM f l = Ret r -> nth_error l i = Some x ->
  exists y, nth_error r i = Some y /\ f x = Ret y.
Proof.
  revert r i. induction l as [|a l IH]; intros r i E Hi; [destruct i; discriminate|].
  cbn [mapM] in E. apply bind_inv in E. destruct E as (y & Ey & E). apply bind_inv in E. destruct E as (r' & Er & E).
  injection E as <-. destruct i; cbn [nth_error] in *; [injection Hi as <-; eauto|]. eauto.
Qed.
Lemma shows_intro {D S} (o : StorageOps D S) s l : st_depth o s = len l ->
  mapM (get_cell_at_level o s) (range 0 (len l)) = Ret l -> shows o s l.
Proof.
  intros Hd E. split; [exact Hd|]. intro i. destruct (nth_error l (N.to_nat i)) as [x|] eqn:Hx.
  - pose proof (nth_error_len _ _ _ Hx) as Hi. rewrite N2Nat.id in Hi.
    destruct (mapM_nth _ _ _ (N.to_nat i) i E) as (y & Hy & G).
    + rewrite nth_error_range by lia. f_equal. lia.
    + congruence.
  - apply nth_error_None in Hx. unfold get_cell_at_level. rewrite Hd. unfold len in *.
    destruct (N.leb_spec (N.of_nat (List.length l)) i); [reflexivity|lia].
Qed.
(* concrete instances of the hypotheses of the theorems *)
Ltac concrete := cbv zeta; repeat match goal with
  | |- _ /\ _ => split
  | |- shows _ _ _ => apply shows_intro; vm_compute; reflexivity
  | |- valid _ _ _ _ => cbn [valid fx_bits sx_bits sx_depth dy_bits dy_depth]
  | |- Forall _ _ => constructor
  | |- is_dim _ _ => constructor
  | |- writable _ _ => first [exact I | left; reflexivity | right; reflexivity]
  | |- var_ops _ _ _ _ = _ => reflexivity
  | |- _ = _ => vm_compute; reflexivity
  | |- _ <> _ => vm_compute; discriminate
  | |- _ < _ => vm_compute; reflexivity
  | |- _ <= _ => vm_compute; discriminate
  end.

(* s with path l was made from a constructor call by the calls h *)
Lemma made_by c D L k0 e0 s0 l0 h answers k e s l : starts c D L k0 e0 s0 l0 ->
  run_spec c (View k0 e0 l0) h = Done (View k e l, answers) ->
  run_model c L (pack k0 s0) h = Ret (pack k s, answers) -> made c D L k e s l.
Proof. intros. exists k0, e0, s0, l0, h, answers. auto. Qed.
Ltac made_by start calls := eapply made_by with (h := calls); [eapply start; concrete | vm_compute; reflexivity | vm_compute; reflexivity].
