(* SpecUserGrid.v - the further methods of a type of bits outside the crate that grid indices and dynamic indices need *)
From Verif Require Import Base ModelNumber ModelDim ModelStorage ModelBits ModelUser ModelUserGrid Spec SpecUserBits.

(* from_u32 and from_u64 keep the numbers that fit *)
Record from_laws {T} (c : cfg) (U : UserType T) (inv : T -> Prop) (val : T -> N) : Prop := {
  law_fixed : fixed_type_laws c (ut_type U) inv val;
  law_from_u32 : forall n, n < 2 ^ 32 -> n < 2 ^ ft_BITS (ut_type U) -> inv (ut_from_u32 U n) /\ val (ut_from_u32 U n) = n;
  law_from_u64 : forall n, n < 2 ^ 64 -> n < 2 ^ ft_BITS (ut_type U) -> inv (ut_from_u64 U n) /\ val (ut_from_u64 U n) = n
}.
(* as_u8_slice gives the BITS / 8 bytes in native order, from_u8_slice reads bytes in the given order, missing bytes (at the
   end) are zero and excess bytes are ignored *)
Record byte_laws {T} (c : cfg) (U : UserType T) (inv : T -> Prop) (val : T -> N) : Prop := {
  law_whole_bytes : ft_BITS (ut_type U) mod 8 = 0;
  law_as_u8_slice : forall v, inv v ->
    let l := match target_endian c with LittleEndian => ut_as_u8_slice U v | BigEndian => rev (ut_as_u8_slice U v) end in
    Forall (fun b => b < 256) l /\ len l = ft_BITS (ut_type U) / 8 /\ bytes_value l = val v;
  law_from_u8_slice : forall bytes e, Forall (fun b => b < 256) bytes ->
    let n := ft_BITS (ut_type U) / 8 in
    let used := firstn (N.to_nat n) (bytes ++ repeat 0 (N.to_nat (n - len bytes))) in
    inv (ut_from_u8_slice U bytes e)
    /\ val (ut_from_u8_slice U bytes e) = bytes_value (match e with LittleEndian => used | BigEndian => rev used end)
}.

(* An unsigned integer of n bits *)
Definition wide_user (c : cfg) (n : N) : UserType N := {|
  ut_type := wide_type n;
  ut_from_u32 := fun x => x mod 2 ^ n;
  ut_from_u64 := fun x => x mod 2 ^ n;
  ut_as_u8_slice := fun v => to_bytes (target_endian c) (N.to_nat (n / 8)) v;
  ut_from_u8_slice := fun bytes e =>
    let used := firstn (N.to_nat (n / 8)) (bytes ++ repeat 0 (N.to_nat (n / 8 - len bytes))) in
    bytes_value (match e with LittleEndian => used | BigEndian => rev used end)
|}.

(* the point whose path is shown instead of the one to (x, y) when the bits are stored one position too low: the axis
   that comes second takes over the first, and the first, without its lowest bit, takes over the second *)
Definition one_too_low (o : quadrant_ordering) (d x y : N) : N * N :=
  match o with XY => (y, x mod 2 ^ d / 2) | YX => (y mod 2 ^ d / 2, x) end.
