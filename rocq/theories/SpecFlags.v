(* SpecFlags.v - vocabulary for Debug texts with formatting flags (C75). *)
From Coq Require Import Strings.String Strings.Ascii.
From Verif Require Import Base ModelDim ModelStorage ModelFlags Spec SpecText.
Local Open Scope string_scope.

(* the Debug text of an index of any kind; d is "2D" or "3D" *)
Definition storage_fmt (fl : flags) (d : string) (k : kind) : storage k -> string :=
  match k with KFixed _ => fixed_fmt fl d | KStatic _ => static_fmt fl d | KDynamic => dynamic_fmt fl d end.
Definition idx_fmt (fl : flags) (d : string) (k : kind) (s : storage k) : string := index_fmt fl d (storage_fmt fl d k s).

(* the digits of numbers: 0 to 9, with x? also a to f, with X? also A to F *)
Definition digit_of (h : hex_flag) (a : ascii) : option N :=
  let n := N_of_ascii a in
  match h with
  | NoHex => digit_value a
  | LowerHex => if (97 <=? n) && (n <=? 102) then Some (n - 87) else digit_value a
  | UpperHex => if (65 <=? n) && (n <=? 70) then Some (n - 55) else digit_value a
  end%N.
Definition base_of (h : hex_flag) : N := match h with NoHex => 10 | _ => 16 end.
Fixpoint read_in (h : hex_flag) (acc : N) (s : string) : option N :=
  match s with
  | EmptyString => Some acc
  | String a s' => match digit_of h a with Some d => read_in h (base_of h * acc + d) s' | None => None end
  end.
(* s consists of digits, has the value n, is not empty and has no leading zero *)
Definition numeral_in (h : hex_flag) (n : N) (s : string) : Prop :=
  s <> EmptyString /\ read_in h 0 s = Some n /\ forall s', s = String "0" s' -> s' = EmptyString.

(* n copies of s *)
Inductive copies (s : string) : N -> string -> Prop :=
  | copies_none : copies s 0 ""
  | copies_more n t : copies s n t -> copies s (n + 1) (s ++ t).

(* every character of s satisfies P *)
Fixpoint every (P : ascii -> Prop) (s : string) : Prop :=
  match s with EmptyString => True | String a s' => P a /\ every P s' end.
(* padding on the left only, which is the default for numbers *)
Definition right_aligned (fl : flags) : Prop := fl_align fl = None \/ fl_align fl = Some AlignRight.
(* + or 0x in front of the digits *)
Definition marked (fl : flags) : Prop := fl_plus fl = true \/ (fl_alternate fl = true /\ fl_hex fl <> NoHex).
(* The padding cannot be taken for a part of a number or for the end of one: there is no padding, or it contains no separator
   and no digit, or no separator and is on the left of a mark or consists of zeros on the left. *)
Definition clear_padding (fl : flags) : Prop :=
  fl_width fl = None \/ fl_zero fl = true
  \/ (every (fun a => ~ In a ["010"; ","; "]"]%char) (fl_fill fl)
      /\ (every (fun a => digit_of (fl_hex fl) a = None) (fl_fill fl) \/ (right_aligned fl /\ (fl_fill fl = "0" \/ marked fl)))).

(* The text of a number: its numeral after + and 0x if asked for, filled up to the width, between head and numeral with
   zeros or around both with copies of the fill character. *)
Definition number_text (fl : flags) (n : N) (t : string) : Prop :=
  exists digits head zeros left right z l r,
    numeral_in (fl_hex fl) n digits
    /\ head = (if fl_plus fl then "+" else "") ++ (match fl_hex fl with NoHex => "" | _ => if fl_alternate fl then "0x" else "" end)
    /\ copies "0" z zeros /\ copies (fl_fill fl) l left /\ copies (fl_fill fl) r right
    /\ t = left ++ head ++ zeros ++ digits ++ right
    /\ (z + l + r = match fl_width fl with None => 0 | Some w => w - N.of_nat (String.length (head ++ digits)) end)%N
    /\ if fl_zero fl then l = 0%N /\ r = 0%N
       else z = 0%N /\ match fl_align fl with
                       | Some AlignLeft => l = 0 | Some AlignCenter => l = r \/ l + 1 = r | Some AlignRight | None => r = 0 end%N.
