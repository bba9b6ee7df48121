(* SpecBytes.v - comparing byte strings from the left (C59); cells written at the top of a word (C77) *)
From Verif Require Import Base.

(* the first difference decides; a proper beginning of a string comes before it *)
Fixpoint bytes_cmp (a b : list N) : comparison :=
  match a, b with
  | [], [] => Eq
  | [], _ :: _ => Lt
  | _ :: _, [] => Gt
  | x :: a', y :: b' => match N.compare x y with Eq => bytes_cmp a' b' | r => r end
  end.

(* the numbers of the cells, n bits each, written into a word of w bits from its top; the bits below are zero *)
Fixpoint top_bits (n w : N) (cells : list N) : N :=
  match cells with
  | [] => 0
  | x :: rest => x * 2 ^ (w - n) + top_bits n (w - n) rest
  end.
