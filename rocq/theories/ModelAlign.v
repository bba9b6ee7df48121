(* ModelAlign.v - model of src/align.rs *)
From Verif Require Import Base.

(* src/align.rs lines 7-65: the implementations for u8, u16, u32, u64, u128 and usize are textually identical
   (lines 9-13, 19-23, 29-33, 39-43, 49-53, 59-63). *)
Definition align_to (c : cfg) (t : uty) (self alignment : N) : outcome N :=
  let w := BITS c t in
  if alignment =? 0 then Ret self
  else
    let! a := add c w self alignment in
    let! b := sub c w a 1 in
    mul c w (b / alignment) alignment.
