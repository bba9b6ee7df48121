(* Spec.v - the vocabulary in which the properties are stated.

   The specification of a Morton index is a list of cells, root first.  Nothing here mentions bit positions, chunks or
   bytes, except the "well-formed value" predicates, which only say that machine integers are in range and that the
   depth fits the storage. *)
From Coq Require Import DecimalString DecimalN.
From Verif Require Import Base ModelNumber ModelDim ModelStorage Model2D Model3D.

(* The two dimensions provided by the crate, with their byte layout for dynamic storage. *)
Inductive is_dim : Dimension -> DynLayout -> Prop :=
| is_dim2 : is_dim Dim2D layout2D
| is_dim3 : is_dim Dim3D layout3D.

(* All storage kinds. *)
Inductive kind := KFixed (t : uty) | KStatic (t : uty) | KDynamic.
Definition storage (k : kind) : Type :=
  match k with KFixed _ => fixed_storage | KStatic _ => static_storage | KDynamic => dynamic_storage end.

Definition ops (c : cfg) (D : Dimension) (k : kind) : StorageOps D (storage k) :=
  match k with
  | KFixed t => fixed_ops c D t
  | KStatic t => static_ops c D t
  | KDynamic => dynamic_ops c D
  end.

(* ==, cmp and the data fed to a hasher, for every storage kind *)
Definition idx_eq (k : kind) : storage k -> storage k -> bool :=
  match k with KFixed _ => fixed_eq | KStatic _ => static_eq | KDynamic => dynamic_eq end.
Definition idx_cmp (c : cfg) (D : Dimension) (k : kind) : storage k -> storage k -> outcome comparison :=
  match k with
  | KFixed _ => fun a b => Ret (fixed_cmp a b)
  | KStatic t => static_cmp c D t
  | KDynamic => dynamic_cmp c D
  end.
Definition idx_hash (k : kind) : storage k -> list N :=
  match k with KFixed _ => fixed_hash | KStatic _ => static_hash | KDynamic => dynamic_hash end.

(* Maximum number of cells: BITS / DIMENSIONALITY; none for dynamic storage. *)
Definition capacity (c : cfg) (D : Dimension) (k : kind) : option N :=
  match k with
  | KFixed t | KStatic t => Some (BITS c t / dim D)
  | KDynamic => None
  end.

(* Values of the Rust types: machine integers in range, depth within the storage.  For dynamic storage the bits of the
   byte vector have to be addressable with a usize (on a 64-bit target: less than 2^61 - 1 bytes). *)
Definition valid (c : cfg) (D : Dimension) (k : kind) : storage k -> Prop :=
  match k with
  | KFixed t => fun s => fx_bits s < 2 ^ BITS c t
  | KStatic t => fun s => sx_bits s < 2 ^ BITS c t /\ sx_depth s <= BITS c t / dim D
  | KDynamic => fun s =>
      Forall (fun b => b < 256) (dy_bits s)
      /\ dim D * dy_depth s <= 8 * len (dy_bits s)
      /\ 8 * len (dy_bits s) + 8 <= 2 ^ usize_bits c
  end.

(* The cell that a write of cell x leaves in the storage: x itself, except for dynamic storage on big-endian targets
   with 32-bit or 64-bit usize, where it is Zero (property C36). *)
Definition stored (c : cfg) (D : Dimension) (k : kind) (x : cell D) : cell D :=
  match k, target_endian c with
  | KDynamic, BigEndian => if usize_bits c =? 16 then x else cell_zero D
  | _, _ => x
  end.
(* The storages in which writes work. *)
Definition writable (c : cfg) (k : kind) : Prop :=
  match k with KDynamic => target_endian c = LittleEndian \/ usize_bits c = 16 | _ => True end.

(* What a user observes of an index: its depth and the outcome of get_cell_at_level for every level. *)
Definition shows {D S} (o : StorageOps D S) (s : S) (l : list (cell D)) : Prop :=
  st_depth o s = len l
  /\ forall k : N, get_cell_at_level o s k
       = match nth_error l (N.to_nat k) with Some x => Ret x | None => Panic end.

(* Depth-first pre-order of tree nodes: lexicographic comparison of the cell indices, a node before its descendants. *)
Fixpoint path_cmp {D} (a b : list (cell D)) : comparison :=
  match a, b with
  | [], [] => Eq
  | [], _ :: _ => Lt
  | _ :: _, [] => Gt
  | x :: a', y :: b' =>
      match N.compare (cell_index D x) (cell_index D y) with
      | Eq => path_cmp a' b'
      | r => r
      end
  end.

(* b is a or a descendant of a *)
Definition is_prefix {A} (a b : list A) : Prop := exists r, b = a ++ r.

(* ---------- grid coordinates ---------- *)
(* The documentation of QuadrantOrdering: where quadrants 1 and 2 sit. *)
Definition doc_quadrants (o : quadrant_ordering) : (N * N) * (N * N) :=
  match o with
  | XY => ((1, 0), (0, 1))
  | YX => ((0, 1), (1, 0))
  end.
(* x and y offset of a quadrant: the sum of the documented positions of the bits of its index *)
Definition quad_x (o : quadrant_ordering) (q : quadrant) : N :=
  let i := quadrant_index q in let '((x1, _), (x2, _)) := doc_quadrants o in i mod 2 * x1 + i / 2 * x2.
Definition quad_y (o : quadrant_ordering) (q : quadrant) : N :=
  let i := quadrant_index q in let '((_, y1), (_, y2)) := doc_quadrants o in i mod 2 * y1 + i / 2 * y2.

(* The documentation of OctantOrdering: where octants 1, 2 and 4 sit. *)
Definition doc_octants (o : octant_ordering) : (N * N * N) * (N * N * N) * (N * N * N) :=
  match o with
  | XYZ => ((1, 0, 0), (0, 1, 0), (0, 0, 1))
  | XZY => ((1, 0, 0), (0, 0, 1), (0, 1, 0))
  | YXZ => ((0, 1, 0), (1, 0, 0), (0, 0, 1))
  | YZX => ((0, 1, 0), (0, 0, 1), (1, 0, 0))
  | ZXY => ((0, 0, 1), (1, 0, 0), (0, 1, 0))
  | ZYX => ((0, 0, 1), (0, 1, 0), (1, 0, 0))
  end.
Definition oct_x (o : octant_ordering) (q : octant) : N :=
  let i := octant_index q in
  let '((x1, _, _), (x2, _, _), (x4, _, _)) := doc_octants o in i mod 2 * x1 + i / 2 mod 2 * x2 + i / 4 * x4.
Definition oct_y (o : octant_ordering) (q : octant) : N :=
  let i := octant_index q in
  let '((_, y1, _), (_, y2, _), (_, y4, _)) := doc_octants o in i mod 2 * y1 + i / 2 mod 2 * y2 + i / 4 * y4.
Definition oct_z (o : octant_ordering) (q : octant) : N :=
  let i := octant_index q in
  let '((_, _, z1), (_, _, z2), (_, _, z4)) := doc_octants o in i mod 2 * z1 + i / 2 mod 2 * z2 + i / 4 * z4.

(* Coordinate of a path along one axis: every level doubles the coordinate and adds the offset of the cell. *)
Definition coord {A} (offset : A -> N) (l : list A) : N := fold_left (fun a x => 2 * a + offset x) l 0.
Definition grid2 (o : quadrant_ordering) (l : list quadrant) : N * N :=
  (coord (quad_x o) l, coord (quad_y o) l).
Definition grid3 (o : octant_ordering) (l : list octant) : N * N * N :=
  (coord (oct_x o) l, coord (oct_y o) l, coord (oct_z o) l).

(* l is the path of depth d to the grid cell with the given coordinates (taken modulo the grid size 2^d). *)
Definition path_to2 (o : quadrant_ordering) (d x y : N) (l : list quadrant) : Prop :=
  len l = d /\ grid2 o l = (x mod 2 ^ d, y mod 2 ^ d).
Definition path_to3 (o : octant_ordering) (d x y z : N) (l : list octant) : Prop :=
  len l = d /\ grid3 o l = (x mod 2 ^ d, y mod 2 ^ d, z mod 2 ^ d).

(* ---------- bit strings ---------- *)
(* the number formed by the n bits of v starting at bit s *)
Definition bits_of (v s n : N) : N := v / 2 ^ s mod 2 ^ n.
(* r is v cut into w-bit pieces that are or-ed together *)
Definition folded (w v r : N) : Prop :=
  forall j, N.testbit r j = true <-> j < w /\ exists m, N.testbit v (j + m * w) = true.
(* v' is v with the n bits starting at s replaced by those of x *)
Definition bits_replaced (v s n x v' : N) : Prop :=
  forall i, N.testbit v' i = if (s <=? i) && (i <? s + n) then N.testbit x (i - s) else N.testbit v i.
(* the bit string of a byte vector, first byte least significant *)
Fixpoint bytes_value (l : list N) : N := match l with [] => 0 | b :: l' => b + 256 * bytes_value l' end.
(* set_bits on a byte vector fills the bits s .. e byte by byte.  For the byte that holds bit s + i it reads the new value
   from bit chunk_start s i on. *)
Definition chunk_start (s i : N) : N := 8 * ((s + i) / 8) - s.
(* the last such position, in bytes *)
Definition last_source_byte (s e : N) : N := (8 * ((e + 7) / 8 - 1) - s) / 8.
(* the bit that ends up at position s + i.  On big-endian targets the two bytes that are read at once are swapped. *)
Definition source_bit (en : endianness) (value : list N) (s i : N) : bool :=
  let k := chunk_start s i / 8 in
  let j := i - 8 * k in
  match en with
  | LittleEndian => N.testbit (bytes_value value) i
  | BigEndian =>
      if k + 1 =? len value then N.testbit (nth (N.to_nat k) value 0) j
      else if j <? 8 then N.testbit (nth (N.to_nat (k + 1)) value 0) j
      else N.testbit (nth (N.to_nat k) value 0) (j - 8)
  end.

(* ---------- names ---------- *)
(* decimal numeral of a number *)
Definition decimal (n : N) : string := DecimalString.NilZero.string_of_uint (N.to_uint n).
(* the cell indices of a path, one after the other *)
Definition cell_name {D} (l : list (cell D)) : string := String.concat "" (map (fun x => decimal (cell_index D x)) l).
Definition grid_name2 (l : list quadrant) : string :=
  let '(x, y) := grid2 XY l in String.concat "-" [decimal (len l); decimal x; decimal y].
Definition grid_name3 (l : list octant) : string :=
  let '(x, y, z) := grid3 XYZ l in String.concat "-" [decimal (len l); decimal x; decimal y; decimal z].

(* ---------- rounding ---------- *)
(* r is the smallest multiple of a that is at least x *)
Definition rounded_up (x a r : N) : Prop := (exists q, r = q * a) /\ x <= r /\ forall q, x <= q * a -> r <= q * a.

(* ---------- executions ---------- *)
(* the answers of the first n calls of next() on the iterator returned by cells() *)
Fixpoint next_calls {D S} (c : cfg) (o : StorageOps D S) (s : S) (index : N) (n : nat) : outcome (list (option (cell D))) :=
  match n with
  | O => Ret []
  | Datatypes.S n' =>
      let! r := cell_iter_next c o s index in
      let! rest := next_calls c o s (snd r) n' in
      Ret (fst r :: rest)
  end.
(* the same target, compiled without overflow checks *)
Definition unchecked (c : cfg) : cfg := Cfg false (pointer c) (target_endian c).
