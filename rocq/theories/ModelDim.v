(* ModelDim.v - model of src/dimensions/mod.rs, dim_2d.rs and dim_3d.rs *)
From Verif Require Import Base.

(* src/dimensions/mod.rs lines 8-31.  GridIndex and CellOrdering are modelled by the concrete types below.
   cell_cmp is the derived Ord of the cell enums (dim_2d.rs line 45, dim_3d.rs line 96), cell_zero the variant Zero. *)
Record Dimension := {
  cell : Type;
  dim : N;                                  (* DIMENSIONALITY *)
  cell_index : cell -> N;                   (* Into<usize> *)
  cell_try_from : N -> result cell;         (* TryFrom<usize> *)
  cell_cmp : cell -> cell -> comparison;    (* derived Ord *)
  cell_zero : cell
}.

(* ---------- 2D ---------- *)
(* src/dimensions/dim_2d.rs lines 46-55 *)
Inductive quadrant := Q0 | Q1 | Q2 | Q3.
(* src/dimensions/dim_2d.rs lines 57-78 (index and Into<usize>) *)
Definition quadrant_index (q : quadrant) : N := match q with Q0 => 0 | Q1 => 1 | Q2 => 2 | Q3 => 3 end.
(* src/dimensions/dim_2d.rs lines 80-92 *)
Definition quadrant_try_from (value : N) : result quadrant :=
  match value with
  | 0 => Ok Q0
  | 1 => Ok Q1
  | 2 => Ok Q2
  | 3 => Ok Q3
  | _ => Err CellIndexOutOfRange
  end.
(* position of a variant in the declaration, src/dimensions/dim_2d.rs lines 46-55; the derived Ord compares it *)
Definition quadrant_discr (q : quadrant) : nat := match q with Q0 => 0 | Q1 => 1 | Q2 => 2 | Q3 => 3 end%nat.
(* derived Ord, src/dimensions/dim_2d.rs line 45 *)
Definition quadrant_cmp (a b : quadrant) : comparison := Nat.compare (quadrant_discr a) (quadrant_discr b).

(* src/dimensions/dim_2d.rs lines 7-16 *)
Definition Dim2D : Dimension := {|
  cell := quadrant;
  dim := 2;
  cell_index := quadrant_index;
  cell_try_from := quadrant_try_from;
  cell_cmp := quadrant_cmp;
  cell_zero := Q0
|}.

(* src/dimensions/dim_2d.rs lines 20-25 *)
Inductive quadrant_ordering := XY | YX.
(* src/dimensions/dim_2d.rs lines 37-41 *)
Definition quadrant_ordering_default : quadrant_ordering := XY.
(* src/dimensions/dim_2d.rs lines 28-34; the shift amounts are smaller than the width *)
Definition quadrant_to_index (o : quadrant_ordering) (q : quadrant) : N * N :=
  let i := quadrant_index q in
  match o with
  | XY => (N.land i 1, N.land (N.shiftr i 1) 1)
  | YX => (N.land (N.shiftr i 1) 1, N.land i 1)
  end.

(* ---------- 3D ---------- *)
(* src/dimensions/dim_3d.rs lines 97-106 *)
Inductive octant := O0 | O1 | O2 | O3 | O4 | O5 | O6 | O7.
(* src/dimensions/dim_3d.rs lines 108-133 (index and Into<usize>) *)
Definition octant_index (o : octant) : N :=
  match o with O0 => 0 | O1 => 1 | O2 => 2 | O3 => 3 | O4 => 4 | O5 => 5 | O6 => 6 | O7 => 7 end.
(* src/dimensions/dim_3d.rs lines 135-151 *)
Definition octant_try_from (value : N) : result octant :=
  match value with
  | 0 => Ok O0
  | 1 => Ok O1
  | 2 => Ok O2
  | 3 => Ok O3
  | 4 => Ok O4
  | 5 => Ok O5
  | 6 => Ok O6
  | 7 => Ok O7
  | _ => Err CellIndexOutOfRange
  end.
(* position of a variant in the declaration, src/dimensions/dim_3d.rs lines 97-106 *)
Definition octant_discr (o : octant) : nat :=
  match o with O0 => 0 | O1 => 1 | O2 => 2 | O3 => 3 | O4 => 4 | O5 => 5 | O6 => 6 | O7 => 7 end%nat.
(* derived Ord, src/dimensions/dim_3d.rs line 96 *)
Definition octant_cmp (a b : octant) : comparison := Nat.compare (octant_discr a) (octant_discr b).

(* src/dimensions/dim_3d.rs lines 8-14 *)
Definition Dim3D : Dimension := {|
  cell := octant;
  dim := 3;
  cell_index := octant_index;
  cell_try_from := octant_try_from;
  cell_cmp := octant_cmp;
  cell_zero := O0
|}.

(* src/dimensions/dim_3d.rs lines 18-37 *)
Inductive octant_ordering := XYZ | XZY | YXZ | YZX | ZXY | ZYX.
(* src/dimensions/dim_3d.rs lines 88-92 *)
Definition octant_ordering_default : octant_ordering := XYZ.
(* (i >> s) & 1 *)
Definition bit_of (i s : N) : N := N.land (N.shiftr i s) 1.
(* src/dimensions/dim_3d.rs lines 40-74 *)
Definition octant_to_index (o : octant_ordering) (q : octant) : N * N * N :=
  let i := octant_index q in
  match o with
  | XYZ => (bit_of i 0, bit_of i 1, bit_of i 2)
  | XZY => (bit_of i 0, bit_of i 2, bit_of i 1)
  | YXZ => (bit_of i 1, bit_of i 0, bit_of i 2)
  | YZX => (bit_of i 2, bit_of i 0, bit_of i 1)
  | ZXY => (bit_of i 1, bit_of i 2, bit_of i 0)
  | ZYX => (bit_of i 2, bit_of i 1, bit_of i 0)
  end.
(* src/dimensions/dim_3d.rs lines 76-85 *)
Definition get_bit_shifts_for_xyz (o : octant_ordering) : N * N * N :=
  match o with
  | XYZ => (0, 1, 2)
  | XZY => (0, 2, 1)
  | YXZ => (1, 0, 2)
  | YZX => (2, 0, 1)
  | ZXY => (1, 2, 0)
  | ZYX => (2, 1, 0)
  end.
