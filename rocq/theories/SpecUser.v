(* SpecUser.v - vocabulary for implementations of the public traits Dimension and Storage outside the crate *)
From Coq Require Import Bool.
From Verif Require Import Base ModelNumber ModelDim ModelStorage Spec.

(* What an implementation of Dimension has to provide: at least one dimension, cells numbered below 2^DIMENSIONALITY by
   Into<usize>, and TryFrom<usize> giving the cell back. *)
Definition dimension_laws (D : Dimension) : Prop :=
  1 <= dim D /\ (forall x, cell_index D x < 2 ^ dim D) /\ (forall x, cell_try_from D (cell_index D x) = Ok x).

(* One such implementation for every number of dimensions: the cells are the numbers below 2^d. *)
Definition cell_of (d : N) : Type := { n : N | (n <? 2 ^ d) = true }.
Definition cell_at (d n : N) : option (cell_of d) :=
  match bool_dec (n <? 2 ^ d) true with left H => Some (exist _ n H) | right _ => None end.
Lemma zero_below d : (0 <? 2 ^ d) = true.
Proof. apply N.ltb_lt. apply N.neq_0_lt_0, N.pow_nonzero. discriminate. Qed.
Definition DimN (d : N) : Dimension := {|
  cell := cell_of d;
  dim := d;
  cell_index := fun x => proj1_sig x;
  cell_try_from := fun n => match cell_at d n with Some x => Ok x | None => Err CellIndexOutOfRange end;
  cell_cmp := fun x y => N.compare (proj1_sig x) (proj1_sig y);
  cell_zero := exist _ 0 (zero_below d)
|}.

(* ---------- implementations of Storage ---------- *)
(* l with its i-th element replaced *)
Definition replaced {A} (l : list A) (i : N) (x : A) : list A := firstn (N.to_nat i) l ++ x :: skipn (N.to_nat (i + 1)) l.
(* What an implementation of Storage has to satisfy: on the values the crate is given (inv), writing a cell inside the depth
   replaces exactly this cell. *)
Definition writes_cells {D S} (o : StorageOps D S) (inv : S -> Prop) : Prop :=
  forall s l i x, inv s -> shows o s l -> i < len l ->
  exists s', st_set o s i x = Ret s' /\ inv s' /\ shows o s' (replaced l i x).
(* The same storage whose unsafe accessors are undefined behaviour outside of the depth, as documented in storage.rs
   lines 60-77. *)
Definition contract {D S} (o : StorageOps D S) : StorageOps D S := {|
  st_depth := st_depth o;
  st_get := fun s i => if i <? st_depth o s then st_get o s i else UB;
  st_set := fun s i x => if i <? st_depth o s then st_set o s i x else UB
|}.
(* An implementation of VariableDepthStorage: ancestor drops the last cells, descendant appends cells or reports that they
   do not fit (fits).  A slice has at most isize::MAX elements. *)
Definition walks {D S} (c : cfg) (v : VarOps D S) (inv : S -> Prop) (fits : N -> bool) : Prop :=
  (forall s l g, inv s -> shows (vo_ops v) s l -> 0 < g ->
     if g <=? len l
     then exists s', vo_ancestor v s g = Ret (Some s') /\ inv s' /\ shows (vo_ops v) s' (firstn (N.to_nat (len l - g)) l)
     else vo_ancestor v s g = Ret None)
  /\ (forall s l cells, inv s -> shows (vo_ops v) s l -> len cells < 2 ^ (usize_bits c - 1) ->
     if fits (len l + len cells)
     then exists s', vo_descendant v s cells = Ret (Some s') /\ inv s' /\ shows (vo_ops v) s' (l ++ cells)
     else vo_descendant v s cells = Ret None).
(* A storage outside the crate: the cells in a vector. *)
Definition list_ops (D : Dimension) : StorageOps D (list (cell D)) := {|
  st_depth := fun l => len l;
  st_get := fun l i => match nth_error l (N.to_nat i) with Some x => Ret x | None => UB end;
  st_set := fun l i x => if i <? len l then Ret (replaced l i x) else UB
|}.
Definition list_vops (D : Dimension) (limit : N) : VarOps D (list (cell D)) := {|
  vo_ops := list_ops D;
  vo_ancestor := fun l g => Ret (if g <=? len l then Some (firstn (N.to_nat (len l - g)) l) else None);
  vo_descendant := fun l cells => Ret (if len l + len cells <=? limit then Some (l ++ cells) else None)
|}.
