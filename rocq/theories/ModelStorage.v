(* ModelStorage.v - model of src/indices/storage.rs, src/indices/mod.rs, the trait-level code of src/morton.rs and the
   parts of src/indices/morton_index_{2d,3d}.rs whose text is the same in both files up to the names
   Dim2D/Dim3D, Quadrant/Octant (they are generic over D : Dimension here).

   Simplifications:
   - MortonIndex2D<S> / MortonIndex3D<S> are one-field wrappers around the storage S
     (morton_index_2d.rs lines 40-42, morton_index_3d.rs lines 44-46); the model identifies them with S.
     Clone / Copy are the identity on values.
   - TryFrom<&[Cell]> and TryFrom<[Cell; N]> have the same text with N = len; both are one definition. *)
From Verif Require Import Base ModelNumber ModelDim.

(* ---------- storage types ---------- *)
(* morton_index_2d.rs lines 367-370, morton_index_3d.rs lines 441-444; #[derive(Default)] gives bits = 0 *)
Record fixed_storage := MkFixed { fx_bits : N }.
Definition fixed_default : fixed_storage := MkFixed 0.
(* morton_index_2d.rs lines 449-453, morton_index_3d.rs lines 514-518; the field depth is a u8 *)
Record static_storage := MkStatic { sx_bits : N; sx_depth : N }.
Definition static_default : static_storage := MkStatic 0 0.
(* morton_index_2d.rs lines 617-621, morton_index_3d.rs lines 683-687 *)
Record dynamic_storage := MkDynamic { dy_bits : list N; dy_depth : N }.
Definition dynamic_default : dynamic_storage := MkDynamic [] 0.

(* ---------- trait StorageType / Storage ---------- *)

(* FixedDepthStorage::MAX_LEVELS, storage.rs line 101; StaticStorage::MAX_LEVELS, storage.rs line 140 *)
Definition MAX_LEVELS (c : cfg) (D : Dimension) (t : uty) : N := BITS c t / dim D.

(* FixedDepthStorage::get_cell_at_level_unchecked, storage.rs lines 109-119 *)
Definition fixed_get_cell (c : cfg) (D : Dimension) (t : uty) (bits level : N) : outcome (cell D) :=
  let W := usize_bits c in
  let! l1 := add c W level 1 in
  let! off := mul c W l1 (dim D) in
  let! start_bit := sub c W (BITS c t) off in
  let! end_bit := add c W start_bit (dim D) in
  let! b := num_get_bits c t bits start_bit end_bit in
  unwrap (cell_try_from D (cast W (num_as c U8 b))).

(* FixedDepthStorage::set_cell_at_level_unchecked, storage.rs lines 121-130 *)
Definition fixed_set_cell (c : cfg) (D : Dimension) (t : uty) (bits level : N) (x : cell D) : outcome N :=
  let W := usize_bits c in
  let cell_idx := cell_index D x in
  let! l1 := add c W level 1 in
  let! off := mul c W l1 (dim D) in
  let! start_bit := sub c W (BITS c t) off in
  let! end_bit := add c W start_bit (dim D) in
  num_set_bits c t bits start_bit end_bit (num_from c t (cast 8 cell_idx)).

(* StaticStorage::get_cell_at_level_unchecked, storage.rs lines 148-156 *)
Definition static_get_cell (c : cfg) (D : Dimension) (t : uty) (bits level : N) : outcome (cell D) :=
  let W := usize_bits c in
  let! l1 := add c W level 1 in
  let! off := mul c W l1 (dim D) in
  let! start_bit := sub c W (BITS c t) off in
  let! end_bit := add c W start_bit (dim D) in
  let! b := num_get_bits c t bits start_bit end_bit in
  unwrap (cell_try_from D (cast W (num_as c U8 b))).

(* StaticStorage::set_cell_at_level_unchecked, storage.rs lines 158-167 *)
Definition static_set_cell (c : cfg) (D : Dimension) (t : uty) (bits level : N) (x : cell D) : outcome N :=
  let W := usize_bits c in
  let cell_idx := cell_index D x in
  let! l1 := add c W level 1 in
  let! off := mul c W l1 (dim D) in
  let! start_bit := sub c W (BITS c t) off in
  let! end_bit := add c W start_bit (dim D) in
  num_set_bits c t bits start_bit end_bit (num_from c t (cast 8 cell_idx)).

(* DynamicStorage::get_cell_at_level_unchecked, storage.rs lines 185-195 (T = Vec<u8>) *)
Definition dynamic_get_cell (c : cfg) (D : Dimension) (bits : list N) (level : N) : outcome (cell D) :=
  let W := usize_bits c in
  let num_bytes := vec_size bits in
  let! nbits := mul c W num_bytes 8 in
  let! l1 := add c W level 1 in
  let! off := mul c W l1 (dim D) in
  let! start_bit := sub c W nbits off in
  let! end_bit := add c W start_bit (dim D) in
  let! cell_idx := vec_get_bits_as_usize c bits start_bit end_bit in
  unwrap (cell_try_from D cell_idx).

(* DynamicStorage::set_cell_at_level_unchecked, storage.rs lines 197-207 (T = Vec<u8>) *)
Definition dynamic_set_cell (c : cfg) (D : Dimension) (bits : list N) (level : N) (x : cell D) : outcome (list N) :=
  let W := usize_bits c in
  let cell_idx := cell_index D x in
  let num_bytes := vec_size bits in
  let! nbits := mul c W num_bytes 8 in
  let! l1 := add c W level 1 in
  let! off := mul c W l1 (dim D) in
  let! start_bit := sub c W nbits off in
  let! end_bit := add c W start_bit (dim D) in
  vec_set_bits_from_usize c bits start_bit end_bit cell_idx.

(* The methods of trait Storage (storage.rs lines 41-78) used by generic code *)
Record StorageOps (D : Dimension) (S : Type) := {
  st_depth : S -> N;
  st_get : S -> N -> outcome (cell D);              (* get_cell_at_level_unchecked *)
  st_set : S -> N -> cell D -> outcome S            (* set_cell_at_level_unchecked *)
}.
Arguments st_depth {D S} _ _.
Arguments st_get {D S} _ _ _.
Arguments st_set {D S} _ _ _ _.

(* impl Storage for FixedDepthStorage{2D,3D}: morton_index_2d.rs lines 372-387, morton_index_3d.rs lines 446-461 *)
Definition fixed_ops (c : cfg) (D : Dimension) (t : uty) : StorageOps D fixed_storage := {|
  st_depth := fun _ => MAX_LEVELS c D t;
  st_get := fun s level => fixed_get_cell c D t (fx_bits s) level;
  st_set := fun s level x => let! b := fixed_set_cell c D t (fx_bits s) level x in Ret (MkFixed b)
|}.
(* impl Storage for StaticStorage{2D,3D}: morton_index_2d.rs lines 455-470, morton_index_3d.rs lines 520-535 *)
Definition static_ops (c : cfg) (D : Dimension) (t : uty) : StorageOps D static_storage := {|
  st_depth := fun s => sx_depth s;
  st_get := fun s level => static_get_cell c D t (sx_bits s) level;
  st_set := fun s level x => let! b := static_set_cell c D t (sx_bits s) level x in Ret (MkStatic b (sx_depth s))
|}.
(* impl Storage for DynamicStorage{2D,3D}: morton_index_2d.rs lines 663-678, morton_index_3d.rs lines 732-747 *)
Definition dynamic_ops (c : cfg) (D : Dimension) : StorageOps D dynamic_storage := {|
  st_depth := fun s => dy_depth s;
  st_get := fun s level => dynamic_get_cell c D (dy_bits s) level;
  st_set := fun s level x => let! b := dynamic_set_cell c D (dy_bits s) level x in Ret (MkDynamic b (dy_depth s))
|}.

(* ---------- impl MortonIndex: morton_index_2d.rs lines 305-332, morton_index_3d.rs lines 104-131 ---------- *)
Section Generic.
  Context {D : Dimension} {S : Type}.

  (* morton_index_2d.rs lines 308-313, morton_index_3d.rs lines 107-112 *)
  Definition get_cell_at_level (ops : StorageOps D S) (s : S) (level : N) : outcome (cell D) :=
    if st_depth ops s <=? level then Panic else st_get ops s level.
  (* morton_index_2d.rs lines 319-324, morton_index_3d.rs lines 118-123 *)
  Definition set_cell_at_level (ops : StorageOps D S) (s : S) (level : N) (x : cell D) : outcome S :=
    if st_depth ops s <=? level then Panic else st_set ops s level x.

  (* MortonIndex::inverted, src/morton.rs lines 105-121 *)
  Definition inverted (c : cfg) (ops : StorageOps D S) (self : S) : outcome S :=
    let max_level := st_depth ops self in
    foldM (fun ret level =>
             let! a := sub c (usize_bits c) max_level level in
             let! inverted_level := sub c (usize_bits c) a 1 in
             let! x := st_get ops self level in
             st_set ops ret inverted_level x)
          (range 0 max_level) self.

  (* CellIter::next, src/indices/mod.rs lines 28-35; the state of the iterator is its field index *)
  Definition cell_iter_next (c : cfg) (ops : StorageOps D S) (storage : S) (index : N)
      : outcome (option (cell D) * N) :=
    if index =? st_depth ops storage then Ret (None, index)
    else
      let! index' := add c (usize_bits c) index 1 in
      let! x := st_get ops storage index in
      Ret (Some x, index').
  (* into_iter, morton_index_2d.rs lines 434-440, 602-608, 777-783 and the same in 3D: index = 0 *)
  Definition cell_iter_start : N := 0.

  (* `.cells().collect::<Vec<_>>()`: calls next until None.  fuel bounds the number of calls; running out of it is
     reported as UB (shown not to happen). *)
  Fixpoint collect_from (fuel : nat) (c : cfg) (ops : StorageOps D S) (storage : S) (index : N)
      : outcome (list (cell D)) :=
    match fuel with
    | O => UB
    | Datatypes.S fuel' =>
        let! r := cell_iter_next c ops storage index in
        match r with
        | (None, _) => Ret []
        | (Some x, index') => let! xs := collect_from fuel' c ops storage index' in Ret (x :: xs)
        end
    end.
  Definition collect_cells (c : cfg) (ops : StorageOps D S) (storage : S) : outcome (list (cell D)) :=
    collect_from (Datatypes.S (N.to_nat (st_depth ops storage))) c ops storage cell_iter_start.

  (* the loop `for (level, cell) in cells.iter().enumerate() { ret.set_cell_at_level_unchecked(base + level, *cell) }`
     (base = 0: the try_from functions; base = self.depth: the descendant functions) *)
  Definition set_cells (ops : StorageOps D S) (ret : S) (cells : list (cell D)) : outcome S :=
    foldM (fun r lc => st_set ops r (fst lc) (snd lc)) (enumerate cells) ret.
  Definition set_cells_from (c : cfg) (ops : StorageOps D S) (base : N) (ret : S) (cells : list (cell D)) : outcome S :=
    foldM (fun r lc => let! level := add c (usize_bits c) base (fst lc) in st_set ops r level (snd lc))
          (enumerate cells) ret.
End Generic.

(* ---------- trait VariableDepthMortonIndex, src/morton.rs lines 126-164 ---------- *)
(* A variable depth storage: the methods of src/indices/storage.rs lines 81-92 (plus Storage). *)
Record VarOps (D : Dimension) (S : Type) := {
  vo_ops : StorageOps D S;
  vo_ancestor : S -> N -> outcome (option S);             (* generations is a NonZeroUsize *)
  vo_descendant : S -> list (cell D) -> outcome (option S)
}.
Arguments vo_ops {D S} _.
Arguments vo_ancestor {D S} _ _ _.
Arguments vo_descendant {D S} _ _ _.

(* morton_index_2d.rs lines 64-68, morton_index_3d.rs lines 68-72 *)
Definition ancestor {D S} (v : VarOps D S) (s : S) (generations : N) : outcome (option S) :=
  vo_ancestor v s generations.
(* morton_index_2d.rs lines 70-77, morton_index_3d.rs lines 74-81 *)
Definition descendant {D S} (v : VarOps D S) (s : S) (cells : list (cell D)) : outcome (option S) :=
  vo_descendant v s cells.
(* src/morton.rs lines 133-135 *)
Definition parent {D S} (v : VarOps D S) (s : S) : outcome (option S) := ancestor v s 1.
(* src/morton.rs lines 138-150 *)
Definition with_depth {D S} (c : cfg) (v : VarOps D S) (s : S) (new_depth : N) : outcome (option S) :=
  if st_depth (vo_ops v) s <? new_depth then Ret None
  else
    let! generations := sub c (usize_bits c) (st_depth (vo_ops v) s) new_depth in
    if generations =? 0 then Ret (Some s) else ancestor v s generations.
(* src/morton.rs lines 161-163 *)
Definition child {D S} (v : VarOps D S) (s : S) (x : cell D) : outcome (option S) := descendant v s [x].

(* ---------- FixedDepthStorage ---------- *)
(* morton_index_2d.rs lines 389-406 and 411-428, morton_index_3d.rs lines 463-480 and 482-499 *)
Definition fixed_try_from (c : cfg) (D : Dimension) (t : uty) (cells : list (cell D)) : outcome (result fixed_storage) :=
  if MAX_LEVELS c D t <? len cells then Ret (Err (DepthLimitedExceeded (MAX_LEVELS c D t)))
  else let! ret := set_cells (fixed_ops c D t) fixed_default cells in Ret (Ok ret).
(* derived PartialEq / Ord, morton_index_2d.rs line 367, morton_index_3d.rs line 441 *)
Definition fixed_eq (a b : fixed_storage) : bool := fx_bits a =? fx_bits b.
Definition fixed_cmp (a b : fixed_storage) : comparison := N.compare (fx_bits a) (fx_bits b).
(* derived Hash (same lines): the values fed to the hasher, in order *)
Definition fixed_hash (a : fixed_storage) : list N := [fx_bits a].

(* ---------- StaticStorage ---------- *)
(* morton_index_2d.rs lines 136-146, morton_index_3d.rs lines 277-287; depth : u8 *)
Definition static_zeroed (c : cfg) (D : Dimension) (t : uty) (depth : N) : option static_storage :=
  if MAX_LEVELS c D t <? cast (usize_bits c) depth then None else Some (MkStatic 0 depth).

(* morton_index_2d.rs lines 561-575 and 581-595, morton_index_3d.rs lines 627-641 and 647-661 *)
Definition static_try_from (c : cfg) (D : Dimension) (t : uty) (cells : list (cell D)) : outcome (result static_storage) :=
  if MAX_LEVELS c D t <? len cells then Ret (Err (DepthLimitedExceeded (MAX_LEVELS c D t)))
  else
    let! ret := set_cells (static_ops c D t) static_default cells in
    Ret (Ok (MkStatic (sx_bits ret) (cast 8 (len cells)))).

(* morton_index_2d.rs lines 524-539, morton_index_3d.rs lines 538-553 *)
Definition static_ancestor (c : cfg) (D : Dimension) (t : uty) (self : static_storage) (generations : N)
    : outcome (option static_storage) :=
  if sx_depth self <? generations then Ret None
  else
    let! new_depth := sub c 8 (sx_depth self) (cast 8 generations) in
    let! ret := foldM (fun r level => st_set (static_ops c D t) r level (cell_zero D))
                      (range new_depth (sx_depth self)) self in
    Ret (Some (MkStatic (sx_bits ret) new_depth)).

(* morton_index_2d.rs lines 541-555, morton_index_3d.rs lines 555-569 *)
Definition static_descendant (c : cfg) (D : Dimension) (t : uty) (self : static_storage) (cells : list (cell D))
    : outcome (option static_storage) :=
  let! new_depth := add c (usize_bits c) (sx_depth self) (len cells) in
  if MAX_LEVELS c D t <? new_depth then Ret None
  else
    let! ret := set_cells_from c (static_ops c D t) (sx_depth self) self cells in
    Ret (Some (MkStatic (sx_bits ret) (cast 8 new_depth))).

Definition static_vops (c : cfg) (D : Dimension) (t : uty) : VarOps D static_storage := {|
  vo_ops := static_ops c D t;
  vo_ancestor := static_ancestor c D t;
  vo_descendant := static_descendant c D t
|}.

(* morton_index_2d.rs lines 514-519, morton_index_3d.rs lines 614-620 *)
Definition static_eq (a b : static_storage) : bool := (sx_bits a =? sx_bits b) && (sx_depth a =? sx_depth b).

(* morton_index_2d.rs lines 478-512, morton_index_3d.rs lines 578-612 (2D writes the literal 2 for DIMENSIONALITY) *)
Definition static_cmp (c : cfg) (D : Dimension) (t : uty) (self other : static_storage) : outcome comparison :=
  let W := usize_bits c in
  let end_bit := BITS c t in
  let! a := mul c W (sx_depth self) (dim D) in
  let! self_start_bit := sub c W end_bit a in
  let! b := mul c W (sx_depth other) (dim D) in
  let! other_start_bit := sub c W end_bit b in
  match N.compare (sx_depth self) (sx_depth other) with
  | Lt =>
      let! self_bits := num_get_bits c t (sx_bits self) self_start_bit end_bit in
      let! other_bits := num_get_bits c t (sx_bits other) self_start_bit end_bit in
      Ret (if other_bits <? self_bits then Gt else Lt)
  | Eq =>
      let! self_bits := num_get_bits c t (sx_bits self) self_start_bit end_bit in
      let! other_bits := num_get_bits c t (sx_bits other) other_start_bit end_bit in
      Ret (N.compare self_bits other_bits)
  | Gt =>
      let! self_bits := num_get_bits c t (sx_bits self) other_start_bit end_bit in
      let! other_bits := num_get_bits c t (sx_bits other) other_start_bit end_bit in
      Ret (if other_bits <=? self_bits then Gt else Lt)
  end.
(* derived Hash, morton_index_2d.rs line 449, morton_index_3d.rs line 514 *)
Definition static_hash (a : static_storage) : list N := [sx_bits a; sx_depth a].

(* ---------- DynamicStorage ---------- *)
(* The three expressions in which the 2D and the 3D text of ancestor / descendant / try_from differ. *)
Record DynLayout := {
  dl_num_bytes : cfg -> N -> outcome N;             (* number of bytes for a depth *)
  dl_bits_in_first_byte : cfg -> N -> outcome N;    (* from the new depth *)
  dl_leftover_bits : cfg -> N -> outcome N          (* from bits_in_first_byte *)
}.
(* 2D: morton_index_2d.rs lines 688/689/717/718/741 `(depth + 3) / 4`, 697 `new_depth % 4`, 700 `(4 - b) * 2` *)
Definition layout2D : DynLayout := {|
  dl_num_bytes := fun c depth => let! a := add c (usize_bits c) depth 3 in Ret (a / 4);
  dl_bits_in_first_byte := fun c new_depth => Ret (new_depth mod 4);
  dl_leftover_bits := fun c b => let! a := sub c (usize_bits c) 4 b in mul c (usize_bits c) a 2
|}.
(* 3D: morton_index_3d.rs lines 693/757/758/783/784/807 `((depth * 3) + 7) / 8`, 766 `(new_depth * 3) % 8`, 769 `8 - b` *)
Definition layout3D : DynLayout := {|
  dl_num_bytes := fun c depth => let! a := mul c (usize_bits c) depth 3 in
                                 let! b := add c (usize_bits c) a 7 in Ret (b / 8);
  dl_bits_in_first_byte := fun c new_depth => let! a := mul c (usize_bits c) new_depth 3 in Ret (a mod 8);
  dl_leftover_bits := fun c b => sub c (usize_bits c) 8 b
|}.

(* DynamicStorage2D::zeroed, morton_index_2d.rs lines 624-629: (0..=(depth / 4)).map(|_| 0_u8) *)
Definition dynamic_zeroed_2d (depth : N) : dynamic_storage := MkDynamic (zeros (depth / 4 + 1)) depth.
(* DynamicStorage3D::zeroed, morton_index_3d.rs lines 692-698 *)
Definition dynamic_zeroed_3d (c : cfg) (depth : N) : outcome dynamic_storage :=
  let! a := mul c (usize_bits c) depth 3 in
  let! b := add c (usize_bits c) a 7 in
  Ret (MkDynamic (zeros (b / 8)) depth).

(* morton_index_2d.rs lines 740-752 and 758-770, morton_index_3d.rs lines 806-818 and 824-836.
   The result is always Ok. *)
Definition dynamic_try_from (c : cfg) (D : Dimension) (L : DynLayout) (cells : list (cell D))
    : outcome (result dynamic_storage) :=
  let! num_bytes := dl_num_bytes L c (len cells) in
  let! ret := set_cells (dynamic_ops c D) (MkDynamic (zeros num_bytes) (len cells)) cells in
  Ret (Ok ret).

(* morton_index_2d.rs lines 681-710, morton_index_3d.rs lines 750-779; the mask is a u8 *)
Definition dynamic_ancestor (c : cfg) (L : DynLayout) (self : dynamic_storage) (generations : N)
    : outcome (option dynamic_storage) :=
  let W := usize_bits c in
  if dy_depth self <? generations then Ret None
  else
    let! new_depth := sub c W (dy_depth self) generations in
    let! current_num_bytes := dl_num_bytes L c (dy_depth self) in
    let! new_num_bytes := dl_num_bytes L c new_depth in
    let! bytes_to_skip := sub c W current_num_bytes new_num_bytes in
    let new_bits := skipn (N.to_nat bytes_to_skip) (dy_bits self) in
    let! bits_in_first_byte := dl_bits_in_first_byte L c new_depth in
    let! new_bits :=
      if (0 <? new_num_bytes) && (0 <? bits_in_first_byte) then
        let! leftover := dl_leftover_bits L c bits_in_first_byte in
        let! one := shl c 8 1 leftover in
        let! m := sub c 8 one 1 in
        let mask := lnot 8 m in
        let! first := vec_get new_bits 0 in
        vec_set new_bits 0 (N.land first mask)
      else Ret new_bits in
    Ret (Some (MkDynamic new_bits new_depth)).

(* morton_index_2d.rs lines 712-734, morton_index_3d.rs lines 781-800 *)
Definition dynamic_descendant (c : cfg) (D : Dimension) (L : DynLayout) (self : dynamic_storage)
    (cells : list (cell D)) : outcome (option dynamic_storage) :=
  let W := usize_bits c in
  let! new_depth := add c W (dy_depth self) (len cells) in
  let! current_num_bytes := dl_num_bytes L c (dy_depth self) in
  let! new_num_bytes := dl_num_bytes L c new_depth in
  let! bytes_to_add := sub c W new_num_bytes current_num_bytes in
  let new_bits := zeros bytes_to_add ++ dy_bits self in
  let! ret := set_cells_from c (dynamic_ops c D) (dy_depth self) (MkDynamic new_bits new_depth) cells in
  Ret (Some ret).

Definition dynamic_vops (c : cfg) (D : Dimension) (L : DynLayout) : VarOps D dynamic_storage := {|
  vo_ops := dynamic_ops c D;
  vo_ancestor := dynamic_ancestor c L;
  vo_descendant := dynamic_descendant c D L
|}.

(* get_cell_at_level_or_none, morton_index_2d.rs lines 631-638, morton_index_3d.rs lines 700-707 *)
Definition get_cell_at_level_or_none (c : cfg) (D : Dimension) (s : dynamic_storage) (level : N)
    : outcome (option (cell D)) :=
  if dy_depth s <=? level then Ret None
  else let! x := dynamic_get_cell c D (dy_bits s) level in Ret (Some x).

(* Ord for Option<Cell>: None is less than Some *)
Definition option_cell_cmp (D : Dimension) (a b : option (cell D)) : comparison :=
  match a, b with
  | None, None => Eq
  | None, Some _ => Lt
  | Some _, None => Gt
  | Some x, Some y => cell_cmp D x y
  end.

(* the loop of cmp, morton_index_2d.rs lines 650-659, morton_index_3d.rs lines 719-728 *)
Fixpoint dynamic_cmp_loop (c : cfg) (D : Dimension) (self other : dynamic_storage) (levels : list N)
    : outcome comparison :=
  match levels with
  | [] => Ret Eq
  | level :: rest =>
      let! self_cell := get_cell_at_level_or_none c D self level in
      let! other_cell := get_cell_at_level_or_none c D other level in
      match option_cell_cmp D self_cell other_cell with
      | Eq => dynamic_cmp_loop c D self other rest
      | r => Ret r
      end
  end.
(* morton_index_2d.rs lines 647-661, morton_index_3d.rs lines 716-730 *)
Definition dynamic_cmp (c : cfg) (D : Dimension) (self other : dynamic_storage) : outcome comparison :=
  let max_level := N.max (dy_depth self) (dy_depth other) in
  dynamic_cmp_loop c D self other (range 0 max_level).

(* PartialEq for Vec<u8> *)
Fixpoint bytes_eq (a b : list N) : bool :=
  match a, b with
  | [], [] => true
  | x :: a', y :: b' => (x =? y) && bytes_eq a' b'
  | _, _ => false
  end.
(* derived PartialEq, morton_index_2d.rs line 617, morton_index_3d.rs line 683 *)
Definition dynamic_eq (a b : dynamic_storage) : bool := bytes_eq (dy_bits a) (dy_bits b) && (dy_depth a =? dy_depth b).
(* derived Hash (same lines): Vec<u8> feeds its length and its bytes, then depth *)
Definition dynamic_hash (a : dynamic_storage) : list N := len (dy_bits a) :: dy_bits a ++ [dy_depth a].

(* ---------- conversions ---------- *)
(* fixed -> static: morton_index_2d.rs lines 797-804, morton_index_3d.rs lines 857-864 *)
Definition static_from_fixed (c : cfg) (D : Dimension) (t : uty) (s : fixed_storage) : static_storage :=
  MkStatic (fx_bits s) (cast 8 (MAX_LEVELS c D t)).
(* fixed -> dynamic: morton_index_2d.rs lines 810-822, morton_index_3d.rs lines 870-882 *)
Definition dynamic_from_fixed (c : cfg) (D : Dimension) (t : uty) (s : fixed_storage) : dynamic_storage :=
  let native_bits := num_as_u8_slice c t (fx_bits s) in
  let bits := match target_endian c with LittleEndian => native_bits | BigEndian => rev native_bits end in
  MkDynamic bits (MAX_LEVELS c D t).
(* static -> fixed: morton_index_2d.rs lines 828-834, morton_index_3d.rs lines 888-894 *)
Definition fixed_from_static (s : static_storage) : fixed_storage := MkFixed (sx_bits s).
(* static -> dynamic: morton_index_2d.rs lines 840-842, morton_index_3d.rs lines 900-903 *)
Definition dynamic_from_static (c : cfg) (D : Dimension) (L : DynLayout) (t : uty) (s : static_storage)
    : outcome dynamic_storage :=
  let! cells := collect_cells c (static_ops c D t) s in
  let! r := descendant (dynamic_vops c D L) dynamic_default cells in
  unwrap_opt r.
(* dynamic -> fixed: morton_index_2d.rs lines 866-885, morton_index_3d.rs lines 931-950 *)
Definition fixed_from_dynamic (c : cfg) (D : Dimension) (t : uty) (s : dynamic_storage) : result fixed_storage :=
  if MAX_LEVELS c D t <? dy_depth s then Err (DepthLimitedExceeded (MAX_LEVELS c D t))
  else Ok (MkFixed (num_from_u8_slice c t (dy_bits s) (target_endian c))).
(* dynamic -> static: morton_index_2d.rs lines 893-914, morton_index_3d.rs lines 958-979 *)
Definition static_from_dynamic (c : cfg) (D : Dimension) (t : uty) (s : dynamic_storage)
    : outcome (result static_storage) :=
  if MAX_LEVELS c D t <? dy_depth s then Ret (Err (DepthLimitedExceeded (MAX_LEVELS c D t)))
  else
    let! ret := foldM (fun r level =>
                         let! x := st_get (dynamic_ops c D) s level in
                         st_set (static_ops c D t) r level x)
                      (range 0 (dy_depth s)) static_default in
    Ret (Ok (MkStatic (sx_bits ret) (cast 8 (dy_depth s)))).
