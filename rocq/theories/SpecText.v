(* SpecText.v - what it means that a text is the decimal numeral of a number, without reference to how numerals are printed. *)
From Coq Require Import Strings.String Strings.Ascii.
From Verif Require Import Base.

(* value of one of the characters 0 to 9 *)
Definition digit_value (a : ascii) : option N :=
  let n := N_of_ascii a in if (48 <=? n) && (n <=? 57) then Some (n - 48) else None.

(* reads a text from the left in base 10, `acc` is the value of what was read so far *)
Fixpoint read_digits (acc : N) (s : string) : option N :=
  match s with
  | EmptyString => Some acc
  | String a s' => match digit_value a with Some d => read_digits (10 * acc + d) s' | None => None end
  end.

(* s consists of digits, has the value n, is not empty and has no leading zero *)
Definition numeral (n : N) (s : string) : Prop :=
  s <> EmptyString /\ read_digits 0 s = Some n /\ forall s', s = String "0" s' -> s' = EmptyString.
