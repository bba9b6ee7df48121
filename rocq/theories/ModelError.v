(* ModelError.v - the texts of crate::Error *)
From Coq Require Import Strings.String.
From Verif Require Import Base Model2D.
Local Open Scope string_scope.

(* Display of Error, derived by thiserror from the attributes in src/error.rs lines 3 and 7; `{max_depth:?}` is the Debug format
   of a usize, which without width or hex flags is its decimal numeral. *)
Definition error_display (e : error) : string :=
  match e with
  | DepthLimitedExceeded max_depth =>
      "Exceeded the depth limit of " ++ display_usize max_depth ++ " levels for this Morton index type"
  | CellIndexOutOfRange => "Cell index is out of range"
  end.

(* Debug of Error, derived in src/error.rs line 1, without the alternate flag *)
Definition error_debug (e : error) : string :=
  match e with
  | DepthLimitedExceeded max_depth => "DepthLimitedExceeded { max_depth: " ++ display_usize max_depth ++ " }"
  | CellIndexOutOfRange => "CellIndexOutOfRange"
  end.
