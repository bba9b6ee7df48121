(* ModelFlags.v - the derived Debug implementations under all formatting flags: `{:x?}`, `{:X?}`, `{:#?}`, `{:+?}`, width,
   fill, alignment and `0`.  The crate's types pass the formatter on unchanged (#[derive(Debug)]); core formats every number
   of a value with the same flags.  ModelStd.v and ModelDebug.v contain the texts without flags and with `#` alone.
   A precision is ignored by core for integers and lists and has no field here. *)
From Coq Require Import Strings.String Strings.Ascii HexadecimalString.
From Verif Require Import Base ModelDim ModelStorage Model2D ModelHelper ModelStd ModelError ModelDebug.
Local Open Scope string_scope.

(* core::fmt::Formatter: x? and X?; <, ^ and > *)
Inductive hex_flag := NoHex | LowerHex | UpperHex.
Inductive alignment := AlignLeft | AlignCenter | AlignRight.
(* fl_fill is the UTF-8 text of the fill character, " " if none is given *)
Record flags := MkFlags {
  fl_hex : hex_flag; fl_alternate : bool; fl_plus : bool; fl_zero : bool;
  fl_width : option N; fl_fill : string; fl_align : option alignment }.
Definition no_flags : flags := MkFlags NoHex false false false None " " None.
Definition alternate_flag : flags := MkFlags NoHex true false false None " " None.

Definition repeat_text (n : N) (s : string) : string := N.iter n (String.append s) "".
(* Formatter::padding, Formatter::pad_integral; the numbers here are not negative and their digits are ASCII.
   With fl_zero core replaces the fill by 0 and the alignment by right, and writes sign and prefix before the padding. *)
Definition pad_integral (fl : flags) (prefix buf : string) : string :=
  let head := (if fl_plus fl then "+" else "") ++ (if fl_alternate fl then prefix else "") in
  let len := N.of_nat (String.length head + String.length buf) in
  match fl_width fl with
  | None => head ++ buf
  | Some min =>
      if min <=? len then head ++ buf
      else if fl_zero fl then head ++ repeat_text (min - len) "0" ++ buf
      else
        let padding := min - len in
        let pre := match fl_align fl with
                   | Some AlignLeft => 0 | Some AlignCenter => padding / 2 | Some AlignRight | None => padding end in
        repeat_text pre (fl_fill fl) ++ head ++ buf ++ repeat_text (padding - pre) (fl_fill fl)
  end%N.
(* LowerHex and UpperHex of integers *)
Definition lower_hex (n : N) : string := NilZero.string_of_uint (N.to_hex_uint n).
Fixpoint to_upper (s : string) : string :=
  match s with
  | EmptyString => EmptyString
  | String a rest => let n := N_of_ascii a in String (if (97 <=? n)%N && (n <=? 122)%N then ascii_of_N (n - 32) else a) (to_upper rest)
  end.
(* Debug of an integer *)
Definition debug_number (fl : flags) (n : N) : string :=
  match fl_hex fl with
  | NoHex => pad_integral fl "" (display_usize n)
  | LowerHex => pad_integral fl "0x" (lower_hex n)
  | UpperHex => pad_integral fl "0x" (to_upper (lower_hex n))
  end.
(* DebugStruct with at least one field, DebugList *)
Definition flat_struct (name : string) (fields : list (string * string)) : string :=
  name ++ " { " ++ String.concat ", " (map (fun f => fst f ++ ": " ++ snd f) fields) ++ " }".
Definition debug_struct (fl : flags) (name : string) (fields : list (string * string)) : string :=
  if fl_alternate fl then pretty_struct name fields else flat_struct name fields.
Definition debug_list (fl : flags) (entries : list string) : string :=
  if fl_alternate fl then pretty_list entries else "[" ++ String.concat ", " entries ++ "]".

(* morton_index_2d.rs lines 367-370, morton_index_3d.rs lines 441-444 *)
Definition fixed_fmt (fl : flags) (d : string) (s : fixed_storage) : string :=
  debug_struct fl ("FixedDepthStorage" ++ d) [("bits", debug_number fl (fx_bits s))].
(* morton_index_2d.rs lines 449-453, morton_index_3d.rs lines 514-518 *)
Definition static_fmt (fl : flags) (d : string) (s : static_storage) : string :=
  debug_struct fl ("StaticStorage" ++ d) [("bits", debug_number fl (sx_bits s)); ("depth", debug_number fl (sx_depth s))].
(* morton_index_2d.rs lines 617-621, morton_index_3d.rs lines 683-687 *)
Definition dynamic_fmt (fl : flags) (d : string) (s : dynamic_storage) : string :=
  debug_struct fl ("DynamicStorage" ++ d)
    [("bits", debug_list fl (map (debug_number fl) (dy_bits s))); ("depth", debug_number fl (dy_depth s))].
(* morton_index_2d.rs lines 39-42, morton_index_3d.rs lines 43-46 *)
Definition index_fmt (fl : flags) (d storage_text : string) : string :=
  debug_struct fl ("MortonIndex" ++ d) [("storage", storage_text)].
(* src/error.rs lines 2-10; a variant without fields is its name, whatever the flags *)
Definition error_fmt (fl : flags) (e : error) : string :=
  match e with
  | DepthLimitedExceeded max_depth => debug_struct fl "DepthLimitedExceeded" [("max_depth", debug_number fl max_depth)]
  | CellIndexOutOfRange => "CellIndexOutOfRange"
  end.
(* src/helper.rs lines 15-17 and 20-31: write! starts a format without flags, so none of them reaches the names *)
Definition displayable_fmt {T} (fl : flags) (c : cfg) (to_string : T -> naming -> outcome string) (self : displayable T)
    : outcome string := display_fmt c to_string self.
