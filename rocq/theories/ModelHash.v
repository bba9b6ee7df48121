(* ModelHash.v - the derived Hash implementations as calls on a Hasher *)
From Verif Require Import Base ModelNumber ModelDim ModelStorage.

(* The methods of core::hash::Hasher that the derived implementations call. *)
Inductive hash_call :=
| WriteUint (t : uty) (v : N)       (* write_u8 .. write_u128, write_usize *)
| WriteIsize (v : N)                (* write_isize, only called with non-negative numbers *)
| WriteLengthPrefix (n : N)         (* write_length_prefix *)
| WriteBytes (l : list N).          (* write *)

(* derive(Hash) of FixedDepthStorage2D/3D: morton_index_2d.rs lines 367-370, morton_index_3d.rs lines 441-444 *)
Definition fixed_calls (t : uty) (s : fixed_storage) : list hash_call := [WriteUint t (fx_bits s)].
(* derive(Hash) of StaticStorage2D/3D: morton_index_2d.rs lines 449-453, morton_index_3d.rs lines 514-518; the fields in order *)
Definition static_calls (t : uty) (s : static_storage) : list hash_call := [WriteUint t (sx_bits s); WriteUint U8 (sx_depth s)].
(* derive(Hash) of DynamicStorage2D/3D: morton_index_2d.rs lines 617-621, morton_index_3d.rs lines 683-687; core hashes a Vec<u8>
   as its length and one write of all the bytes *)
Definition dynamic_calls (s : dynamic_storage) : list hash_call :=
  [WriteLengthPrefix (len (dy_bits s)); WriteBytes (dy_bits s); WriteUint USize (dy_depth s)].
(* derive(Hash) of MortonIndex2D/3D: morton_index_2d.rs lines 39-42, morton_index_3d.rs lines 43-46: the only field *)
Definition index_calls (storage_calls : list hash_call) : list hash_call := storage_calls.
(* derive(Hash) of Quadrant and Octant: dim_2d.rs lines 45-55, dim_3d.rs lines 96-106: the discriminant as isize *)
Definition quadrant_calls (q : quadrant) : list hash_call := [WriteIsize (N.of_nat (quadrant_discr q))].
Definition octant_calls (q : octant) : list hash_call := [WriteIsize (N.of_nat (octant_discr q))].
(* impl Hash for [T] in core, also used by Vec<T>: the length, then the elements in order *)
Definition slice_calls {T} (calls : T -> list hash_call) (l : list T) : list hash_call := WriteLengthPrefix (len l) :: flat_map calls l.

(* The default methods of Hasher pass the native bytes of the value to write; write_length_prefix calls write_usize. *)
Definition default_bytes (c : cfg) (x : hash_call) : list N :=
  match x with
  | WriteUint t v => num_as_u8_slice c t v
  | WriteIsize v | WriteLengthPrefix v => num_as_u8_slice c USize v
  | WriteBytes l => l
  end.
