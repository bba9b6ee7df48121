(* SpecDebug.v - vocabulary for texts of several lines (C70). *)
From Coq Require Import Strings.String Strings.Ascii.
From Verif Require Import Base ModelDim ModelStorage ModelDebug Spec.
Local Open Scope string_scope.

(* {:#?} of an index of any kind; d is "2D" or "3D" *)
Definition storage_pretty (d : string) (k : kind) : storage k -> string :=
  match k with KFixed _ => fixed_pretty d | KStatic _ => static_pretty d | KDynamic => dynamic_pretty d end.
Definition idx_pretty (d : string) (k : kind) (s : storage k) : string := index_pretty d (storage_pretty d k s).

(* the text made of the given lines *)
Fixpoint lines (l : list string) : string :=
  match l with
  | [] => ""
  | [line] => line
  | line :: rest => line ++ String "010" (lines rest)
  end.
