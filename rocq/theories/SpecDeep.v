(* SpecDeep.v - vocabulary of PropDeepRelease.v (C65) *)
From Verif Require Import Base.

(* Writing cell 0 to level i of a static 3D index with w bits: does it clear bit j? For levels that fit these are the
   bits of the level. The position of the others wraps around; the first of them clears nothing. *)
Definition clears (w i j : N) : bool :=
  if i <? w / 3 then (w - 3 * (i + 1) <=? j) && (j <? w - 3 * i)
  else let p := (w - 3 * (i + 1) mod w) mod w in (p <=? j) && (j <? p + (if 3 * (i + 1) <=? w + 3 then 0 else 3)).
