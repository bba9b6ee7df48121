(* SpecStd.v - vocabulary for Debug texts (C62) and for writing to formatters that can fail (C63). *)
From Coq Require Import Strings.String.
From Verif Require Import Base ModelDim ModelStorage ModelStd Spec.
Local Open Scope string_scope.

(* {:?} of an index of any kind; d is "2D" or "3D" *)
Definition storage_debug (d : string) (k : kind) : storage k -> string :=
  match k with KFixed _ => fixed_debug d | KStatic _ => static_debug d | KDynamic => dynamic_debug d end.
Definition idx_debug (d : string) (k : kind) (s : storage k) : string := index_debug d (storage_debug d k s).

(* fixed, static or dynamic depth *)
Definition same_type (k k' : kind) : Prop :=
  match k, k' with KFixed _, KFixed _ | KStatic _, KStatic _ | KDynamic, KDynamic => True | _, _ => False end.

(* A writer gets the texts in this order, until it refuses one. *)
Fixpoint feed {W} (write : writer W) (texts : list string) (w : W) : W * bool :=
  match texts with
  | [] => (w, true)
  | t :: rest => let (w', ok) := write w t in if ok then feed write rest w' else (w', false)
  end.

(* the texts of a displayed slice: brackets around the names, a separator between any two of them *)
Fixpoint separated (names : list string) : list string :=
  match names with
  | [] => []
  | [name] => [name]
  | name :: rest => name :: ", " :: separated rest
  end.
Definition slice_texts (names : list string) : list string := "[" :: separated names ++ ["]"].

(* a buffer of a fixed capacity: it takes a text as a whole or refuses it *)
Definition buffer (capacity : N) : writer string :=
  fun w t => if (N.of_nat (String.length (w ++ t)) <=? capacity)%N then (w ++ t, true) else (w, false).
(* a buffer that takes the part of a text that fits and refuses the rest *)
Definition greedy_buffer (capacity : N) : writer string :=
  fun w t =>
    if (N.of_nat (String.length (w ++ t)) <=? capacity)%N then (w ++ t, true)
    else (w ++ String.substring 0 (N.to_nat capacity - String.length w) t, false).

(* w is what the text starts with *)
Definition begins (w text : string) : Prop := exists rest, text = w ++ rest.
