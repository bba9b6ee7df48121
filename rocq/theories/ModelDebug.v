(* ModelDebug.v - the alternate form `{:#?}` of the derived Debug implementations (ModelStd.v and ModelError.v contain `{:?}`).
   core::fmt::builders writes one field or element per line; its PadAdapter puts four spaces in front of every line of the
   text of a field.  Debug of an integer without hex flags is its decimal numeral in both forms, and a variant without
   fields is its name. *)
From Coq Require Import Strings.String Strings.Ascii.
From Verif Require Import Base ModelDim ModelStorage Model2D ModelHelper ModelStd ModelError.
Local Open Scope string_scope.

Definition newline : ascii := "010"%char.
(* PadAdapter::write_str; on_newline is its state *)
Fixpoint pad_adapter (on_newline : bool) (s : string) : string :=
  match s with
  | EmptyString => EmptyString
  | String a rest => (if on_newline then "    " else "") ++ String a (pad_adapter (Ascii.eqb a newline) rest)
  end.
(* DebugStruct::field with the alternate flag: the state of the adapter starts with on_newline = true for every field *)
Definition pretty_field (f : string * string) : string :=
  pad_adapter true (fst f ++ ": " ++ snd f ++ "," ++ String newline "").
(* DebugStruct with at least one field: " {\n", the fields and "}" *)
Definition pretty_struct (name : string) (fields : list (string * string)) : string :=
  name ++ " {" ++ String newline (String.concat "" (map pretty_field fields)) ++ "}".
(* DebugList: "[", the entries after a newline, and "]" *)
Definition pretty_entry (e : string) : string := pad_adapter true (e ++ "," ++ String newline "").
Definition pretty_list (entries : list string) : string :=
  match entries with
  | [] => "[]"
  | _ => "[" ++ String newline (String.concat "" (map pretty_entry entries)) ++ "]"
  end.

(* morton_index_2d.rs lines 367-370, morton_index_3d.rs lines 441-444 *)
Definition fixed_pretty (d : string) (s : fixed_storage) : string :=
  pretty_struct ("FixedDepthStorage" ++ d) [("bits", display_usize (fx_bits s))].
(* morton_index_2d.rs lines 449-453, morton_index_3d.rs lines 514-518 *)
Definition static_pretty (d : string) (s : static_storage) : string :=
  pretty_struct ("StaticStorage" ++ d) [("bits", display_usize (sx_bits s)); ("depth", display_usize (sx_depth s))].
(* morton_index_2d.rs lines 617-621, morton_index_3d.rs lines 683-687 *)
Definition dynamic_pretty (d : string) (s : dynamic_storage) : string :=
  pretty_struct ("DynamicStorage" ++ d) [("bits", pretty_list (map display_usize (dy_bits s))); ("depth", display_usize (dy_depth s))].
(* morton_index_2d.rs lines 39-42, morton_index_3d.rs lines 43-46 *)
Definition index_pretty (d storage_text : string) : string := pretty_struct ("MortonIndex" ++ d) [("storage", storage_text)].
(* src/error.rs lines 2-10 *)
Definition error_pretty (e : error) : string :=
  match e with
  | DepthLimitedExceeded max_depth => pretty_struct "DepthLimitedExceeded" [("max_depth", display_usize max_depth)]
  | CellIndexOutOfRange => "CellIndexOutOfRange"
  end.
(* src/helper.rs lines 15-17: write!(f, "{}", self) starts a format without flags, so the alternate flag is not passed on *)
Definition displayable_pretty {T} (c : cfg) (to_string : T -> naming -> outcome string) (self : displayable T)
    : outcome string := display_fmt c to_string self.
