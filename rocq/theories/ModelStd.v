(* ModelStd.v - what core provides for the crate's types: derived Debug texts, writing to a formatter that can fail, and the
   provided methods of Iterator on cells(). *)
From Coq Require Import Strings.String.
From Verif Require Import Base ModelNumber ModelDim ModelStorage Model2D ModelHelper.

(* ---------- #[derive(Debug)], without the alternate flag ---------- *)
Local Open Scope string_scope.
(* Debug of a Vec<u8>: the elements between brackets; Debug of an integer without flags is its decimal numeral *)
Definition debug_bytes (l : list N) : string := "[" ++ String.concat ", " (map display_usize l) ++ "]".
(* morton_index_2d.rs lines 367-370, morton_index_3d.rs lines 441-444; d is the 2D or 3D of the type name *)
Definition fixed_debug (d : string) (s : fixed_storage) : string :=
  "FixedDepthStorage" ++ d ++ " { bits: " ++ display_usize (fx_bits s) ++ " }".
(* morton_index_2d.rs lines 449-453, morton_index_3d.rs lines 514-518 *)
Definition static_debug (d : string) (s : static_storage) : string :=
  "StaticStorage" ++ d ++ " { bits: " ++ display_usize (sx_bits s) ++ ", depth: " ++ display_usize (sx_depth s) ++ " }".
(* morton_index_2d.rs lines 617-621, morton_index_3d.rs lines 683-687 *)
Definition dynamic_debug (d : string) (s : dynamic_storage) : string :=
  "DynamicStorage" ++ d ++ " { bits: " ++ debug_bytes (dy_bits s) ++ ", depth: " ++ display_usize (dy_depth s) ++ " }".
(* morton_index_2d.rs lines 39-42, morton_index_3d.rs lines 43-46 *)
Definition index_debug (d storage_text : string) : string := "MortonIndex" ++ d ++ " { storage: " ++ storage_text ++ " }".
(* src/dimensions/dim_2d.rs lines 45-55 *)
Definition quadrant_debug (q : quadrant) : string :=
  match q with Q0 => "Zero" | Q1 => "One" | Q2 => "Two" | Q3 => "Three" end.
(* src/dimensions/dim_3d.rs lines 96-106 *)
Definition octant_debug (q : octant) : string :=
  match q with
  | O0 => "Zero" | O1 => "One" | O2 => "Two" | O3 => "Three" | O4 => "Four" | O5 => "Five" | O6 => "Six" | O7 => "Seven"
  end.
(* src/dimensions/dim_2d.rs lines 19-25 *)
Definition quadrant_ordering_debug (o : quadrant_ordering) : string := match o with XY => "XY" | YX => "YX" end.
(* src/dimensions/dim_3d.rs lines 17-37 *)
Definition octant_ordering_debug (o : octant_ordering) : string :=
  match o with XYZ => "XYZ" | XZY => "XZY" | YXZ => "YXZ" | YZX => "YZX" | ZXY => "ZXY" | ZYX => "ZYX" end.
(* src/morton.rs lines 6-20 *)
Definition naming_debug (n : naming) : string :=
  match n with
  | CellConcatenation => "CellConcatenation" | CellConcatenationWithRoot => "CellConcatenationWithRoot" | GridIndex => "GridIndex"
  end.

(* ---------- Display and Debug of a displayable slice, written to any core::fmt::Write ---------- *)
(* write_str of the writer behind the formatter: new state and whether it succeeded *)
Definition writer (W : Type) := W -> string -> W * bool.

(* src/helper.rs lines 23-28: the loop; the `?` operators return early.  `write!(f, "{}", text)` and `write!(f, "text")` are one
   call of write_str each. *)
Fixpoint display_items {T W} (c : cfg) (to_string : T -> naming -> outcome string) (write : writer W) (n : naming) (count : N)
    (items : list (N * T)) (w : W) : outcome (W * bool) :=
  match items with
  | [] => Ret (w, true)
  | (idx, morton) :: rest =>
      let! name := to_string morton n in
      let (w, ok) := write w name in
      if negb ok then Ret (w, false)
      else
        let! last := sub c (usize_bits c) count 1 in
        if (idx <? last)%N then
          let (w, ok) := write w ", " in
          if negb ok then Ret (w, false) else display_items c to_string write n count rest w
        else display_items c to_string write n count rest w
  end.
(* src/helper.rs lines 21-30 *)
Definition display_to {T W} (c : cfg) (to_string : T -> naming -> outcome string) (write : writer W) (self : displayable T) (w : W)
    : outcome (W * bool) :=
  let (w, ok) := write w "[" in
  if negb ok then Ret (w, false)
  else
    let! (w, ok) := display_items c to_string write (di_naming self) (len (di_indices self)) (enumerate (di_indices self)) w in
    if negb ok then Ret (w, false) else Ret (write w "]").
(* src/helper.rs lines 15-17: write!(f, "{}", self) *)
Definition debug_to {T W} (c : cfg) (to_string : T -> naming -> outcome string) (write : writer W) (self : displayable T) (w : W)
    : outcome (W * bool) := display_to c to_string write self w.

(* ---------- provided methods of Iterator on CellIter (src/indices/mod.rs lines 28-35) ---------- *)
Section Iter.
  Context {D : Dimension} {S : Type} (c : cfg) (ops : StorageOps D S) (storage : S).
  (* Iterator::advance_by in the default nth: n calls of next, stops at None *)
  Fixpoint iter_advance (n : nat) (index : N) : outcome (bool * N) :=
    match n with
    | O => Ret (true, index)
    | Datatypes.S n' =>
        let! r := cell_iter_next c ops storage index in
        match r with
        | (None, index') => Ret (false, index')
        | (Some _, index') => iter_advance n' index'
        end
    end.
  (* Iterator::nth *)
  Definition iter_nth (n index : N) : outcome (option (cell D) * N) :=
    let! r := iter_advance (N.to_nat n) index in
    match r with
    | (false, index') => Ret (None, index')
    | (true, index') => cell_iter_next c ops storage index'
    end.
  (* Iterator::fold: calls next until None.  fuel bounds the number of calls; running out of it is reported as UB. *)
  Fixpoint iter_fold {A} (fuel : nat) (f : A -> cell D -> outcome A) (acc : A) (index : N) : outcome A :=
    match fuel with
    | O => UB
    | Datatypes.S fuel' =>
        let! r := cell_iter_next c ops storage index in
        match r with
        | (None, _) => Ret acc
        | (Some x, index') => let! acc := f acc x in iter_fold fuel' f acc index'
        end
    end.
  Definition iter_fuel : nat := Datatypes.S (N.to_nat (st_depth ops storage)).
  (* Iterator::count: fold(0, |n, _| n + 1) *)
  Definition iter_count (index : N) : outcome N := iter_fold iter_fuel (fun n _ => add c (usize_bits c) n 1) 0 index.
  (* Iterator::last: fold(None, |_, x| Some(x)) *)
  Definition iter_last (index : N) : outcome (option (cell D)) := iter_fold iter_fuel (fun _ x => Ret (Some x)) None index.
End Iter.
