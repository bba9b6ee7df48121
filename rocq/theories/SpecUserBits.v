(* SpecUserBits.v - what an implementation of FixedStorageType outside the crate has to satisfy, and instances of every width *)
From Verif Require Import Base ModelNumber ModelDim ModelStorage ModelBits ModelUser Spec.

(* B behaves like an unsigned integer of B::BITS bits: inv holds of the values it produces, val is their number. *)
Record fixed_type_laws {T} (c : cfg) (B : FixedType T) (inv : T -> Prop) (val : T -> N) : Prop := {
  law_usize : ft_BITS B < 2 ^ usize_bits c;
  law_range : forall v, inv v -> val v < 2 ^ ft_BITS B;
  law_default : inv (ft_default B) /\ val (ft_default B) = 0;
  law_cmp : forall v w, inv v -> inv w -> ft_cmp B v w = N.compare (val v) (val w);
  law_eq : forall v w, inv v -> inv w -> ft_eq B v w = (val v =? val w);
  law_get : forall v s e, inv v -> s <= e -> e <= ft_BITS B ->
    exists r, bo_get_bits (ft_bits B) v s e = Ret r /\ inv r /\ val r = bits_of (val v) s (e - s);
  law_set : forall v s e x, inv v -> inv x -> s < e -> e <= ft_BITS B -> val x < 2 ^ (e - s) ->
    exists r, bo_set_bits (ft_bits B) v s e x = Ret r /\ inv r /\ bits_replaced (val v) s (e - s) (val x) (val r);
  law_as_u8 : forall v, inv v -> bo_as_u8 (ft_bits B) v = Ret (val v mod 256);
  law_from_u8 : forall n, n < 256 -> inv (bo_from_u8 (ft_bits B) n) /\ val (bo_from_u8 (ft_bits B) n) = n
}.

(* An unsigned integer of n bits whose accesses outside of the n bits are undefined *)
Definition put_bits (v s e x : N) : N := N.lor (N.ldiff v (N.shiftl (N.ones (e - s)) s)) (N.shiftl x s).
Definition wide_type (n : N) : FixedType N := {|
  ft_BITS := n;
  ft_default := 0;
  ft_cmp := N.compare;
  ft_eq := N.eqb;
  ft_bits := {|
    bo_size := fun _ => n / 8;
    bo_get_bits := fun v s e => if (s <=? e) && (e <=? n) then Ret (bits_of v s (e - s)) else UB;
    bo_get_bits_as_usize := fun v s e => if (s <=? e) && (e <=? n) then Ret (bits_of v s (e - s)) else UB;
    bo_set_bits := fun v s e x => if (s <=? e) && (e <=? n) && (x <? 2 ^ (e - s)) then Ret (put_bits v s e x) else UB;
    bo_set_bits_from_usize := fun v s e x => if (s <=? e) && (e <=? n) && (x <? 2 ^ (e - s)) then Ret (put_bits v s e x) else UB;
    bo_as_u8 := fun v => Ret (v mod 256);
    bo_from_u8 := fun x => x
  |}
|}.

(* the values of StaticStorage{2D,3D}<B>: the depth is a u8 and fits into the bits *)
Definition user_static_valid {T} (D : Dimension) (B : FixedType T) (inv : T -> Prop) (s : user_static T) : Prop :=
  inv (us_bits s) /\ us_depth s < 256 /\ us_depth s <= ft_BITS B / dim D.
