(* ModelHelper.v - model of src/helper.rs *)
From Verif Require Import Base ModelDim ModelStorage Model2D.

(* src/helper.rs lines 9-12 *)
Record displayable (T : Type) := MkDisplayable { di_indices : list T; di_naming : naming }.
Arguments MkDisplayable {T} _ _.
Arguments di_indices {T} _.
Arguments di_naming {T} _.

(* make_displayable, src/helper.rs lines 57-59 *)
Definition make_displayable {T} (morton_indices : list T) (n : naming) : displayable T :=
  MkDisplayable morton_indices n.

(* Display::fmt, src/helper.rs lines 21-30: the text written to the formatter; to_string is the MortonIndex method.
   Errors of the formatter itself (the `?` operators) are in ModelStd.v. *)
Definition display_fmt {T} (c : cfg) (to_string : T -> naming -> outcome string) (self : displayable T)
    : outcome string :=
  let! out := foldM (fun out im =>
      let '(idx, morton) := im in
      let! name := to_string morton (di_naming self) in
      let out := (out ++ name)%string in
      let! last := sub c (usize_bits c) (len (di_indices self)) 1 in
      Ret (if idx <? last then (out ++ ", ")%string else out))
    (enumerate (di_indices self)) "["%string in
  Ret (out ++ "]")%string.

(* Debug::fmt, src/helper.rs lines 15-17 *)
Definition debug_fmt {T} (c : cfg) (to_string : T -> naming -> outcome string) (self : displayable T)
    : outcome string := display_fmt c to_string self.

(* PartialEq for slices: equal lengths and all elements equal *)
Fixpoint slice_eq {T} (eqb : T -> T -> bool) (a b : list T) : bool :=
  match a, b with
  | [], [] => true
  | x :: a', y :: b' => eqb x y && slice_eq eqb a' b'
  | _, _ => false
  end.
(* PartialEq::eq, src/helper.rs lines 34-36 *)
Definition displayable_eq {T} (eqb : T -> T -> bool) (a b : displayable T) : bool :=
  slice_eq eqb (di_indices a) (di_indices b).

(* Ord for slices: lexicographic *)
Fixpoint slice_cmp {T} (cmp : T -> T -> outcome comparison) (a b : list T) : outcome comparison :=
  match a, b with
  | [], [] => Ret Eq
  | [], _ :: _ => Ret Lt
  | _ :: _, [] => Ret Gt
  | x :: a', y :: b' =>
      let! r := cmp x y in
      match r with Eq => slice_cmp cmp a' b' | _ => Ret r end
  end.
(* Ord::cmp, src/helper.rs lines 49-51 *)
Definition displayable_cmp {T} (cmp : T -> T -> outcome comparison) (a b : displayable T) : outcome comparison :=
  slice_cmp cmp (di_indices a) (di_indices b).
(* PartialOrd::partial_cmp, src/helper.rs lines 43-45: slices delegate to the partial_cmp of the elements, which
   is Some(cmp) for all Morton indices *)
Definition displayable_partial_cmp {T} (cmp : T -> T -> outcome comparison) (a b : displayable T)
    : outcome (option comparison) :=
  let! r := slice_cmp cmp (di_indices a) (di_indices b) in Ret (Some r).
