(* PropCells.v - Reading, writing and constructing indices (C01-C05, C25, C47) *)
From Verif Require Import Base ModelNumber ModelDim ModelStorage Model2D Model3D Spec History ExampleTools FactsCells.

(* ---------- C01 ---------- *)
(* every valid memory content denotes exactly one path *)
Theorem c01_every_index_shows_one_path : forall c D L k (s : storage k),
  is_dim D L -> valid c D k s ->
  exists l, shows (ops c D k) s l /\ forall l', shows (ops c D k) s l' -> l' = l.
Proof. exact c01_every_index_shows_one_path_lemma. Qed.
Print Assumptions c01_every_index_shows_one_path.
Example c01_every_index_shows_one_path_example :
  valid debug64 Dim3D (KStatic U16) (MkStatic 0xB6F1 4) /\ shows (static_ops debug64 Dim3D U16) (MkStatic 0xB6F1 4) [O5; O5; O5; O7].
Proof. concrete. Qed.

(* set_cell_at_level(i, x) replaces cell i of the path by x *)
Theorem c01_set_cell_replaces_one_cell : forall c D L k (s : storage k) l i x,
  is_dim D L -> writable c k -> valid c D k s -> shows (ops c D k) s l -> i < len l ->
  exists s', set_cell_at_level (ops c D k) s i x = Ret s' /\ valid c D k s'
    /\ shows (ops c D k) s' (firstn (N.to_nat i) l ++ x :: skipn (N.to_nat i + 1) l).
Proof. exact c01_set_cell_replaces_one_cell_lemma. Qed.
Print Assumptions c01_set_cell_replaces_one_cell.
Example c01_set_cell_replaces_one_cell_example :
  valid debug64 Dim2D KDynamic (MkDynamic [0xA7; 0x1B] 7) /\ shows (dynamic_ops debug64 Dim2D) (MkDynamic [0xA7; 0x1B] 7) [Q0; Q1; Q2; Q3; Q2; Q2; Q1]
  /\ set_cell_at_level (dynamic_ops debug64 Dim2D) (MkDynamic [0xA7; 0x1B] 7) 4 Q1 = Ret (MkDynamic [0x67; 0x1B] 7).
Proof. concrete. Qed.

(* the same, told through the accessors *)
Theorem c01_set_cell_effect : forall c D L k (s : storage k) i x,
  is_dim D L -> writable c k -> valid c D k s -> i < st_depth (ops c D k) s ->
  exists s', set_cell_at_level (ops c D k) s i x = Ret s' /\ valid c D k s'
    /\ st_depth (ops c D k) s' = st_depth (ops c D k) s
    /\ get_cell_at_level (ops c D k) s' i = Ret x
    /\ forall j, j <> i -> get_cell_at_level (ops c D k) s' j = get_cell_at_level (ops c D k) s j.
Proof. exact c01_set_cell_effect_lemma. Qed.
Print Assumptions c01_set_cell_effect.
Example c01_set_cell_effect_example :
  valid debug32 Dim3D (KFixed U8) (MkFixed 0xE6) /\ 1 < st_depth (fixed_ops debug32 Dim3D U8) (MkFixed 0xE6)
  /\ set_cell_at_level (fixed_ops debug32 Dim3D U8) (MkFixed 0xE6) 1 O6 = Ret (MkFixed 0xFA).
Proof. concrete. Qed.

(* writing a cell changes no other bit of the storage: writing the old cell back restores it *)
Theorem c01_set_cell_back : forall c D L k (s s' : storage k) i x y,
  is_dim D L -> writable c k -> valid c D k s ->
  get_cell_at_level (ops c D k) s i = Ret y -> set_cell_at_level (ops c D k) s i x = Ret s' ->
  set_cell_at_level (ops c D k) s' i y = Ret s.
Proof. exact c01_set_cell_back_lemma. Qed.
Print Assumptions c01_set_cell_back.
Example c01_set_cell_back_example :
  let s := MkDynamic [0xA7; 0x1B] 7 in let s' := MkDynamic [0x67; 0x1B] 7 in
  valid debug64 Dim2D KDynamic s /\ get_cell_at_level (dynamic_ops debug64 Dim2D) s 4 = Ret Q2
  /\ set_cell_at_level (dynamic_ops debug64 Dim2D) s 4 Q1 = Ret s' /\ set_cell_at_level (dynamic_ops debug64 Dim2D) s' 4 Q2 = Ret s.
Proof. concrete. Qed.

(* ---------- C03 ---------- *)
Theorem c03_fixed_try_from_err : forall c D L t cells, is_dim D L ->
  (fixed_try_from c D t cells = Ret (Err (DepthLimitedExceeded (BITS c t / dim D))) <-> BITS c t / dim D < len cells)
  /\ ((exists s, fixed_try_from c D t cells = Ret (Ok s)) <-> len cells <= BITS c t / dim D).
Proof. exact c03_fixed_try_from_err_lemma. Qed.
Print Assumptions c03_fixed_try_from_err.
Example c03_fixed_try_from_err_example :
  fixed_try_from debug64 Dim3D U8 [O1; O2; O3] = Ret (Err (DepthLimitedExceeded 2))
  /\ fixed_try_from debug64 Dim3D U8 [O1; O2] = Ret (Ok (MkFixed 0x28)).
Proof. concrete. Qed.

Theorem c03_static_try_from_err : forall c D L t cells, is_dim D L ->
  (static_try_from c D t cells = Ret (Err (DepthLimitedExceeded (BITS c t / dim D))) <-> BITS c t / dim D < len cells)
  /\ ((exists s, static_try_from c D t cells = Ret (Ok s)) <-> len cells <= BITS c t / dim D).
Proof. exact c03_static_try_from_err_lemma. Qed.
Print Assumptions c03_static_try_from_err.
Example c03_static_try_from_err_example :
  static_try_from debug64 Dim2D U8 [Q1; Q2; Q3; Q0; Q1] = Ret (Err (DepthLimitedExceeded 4))
  /\ static_try_from debug64 Dim2D U8 [Q1; Q2; Q3; Q0] = Ret (Ok (MkStatic 0x6C 4)).
Proof. concrete. Qed.

(* the size condition says that the cells are addressable by bit positions of type usize *)
Theorem c03_dynamic_try_from_never_fails : forall c D L cells, is_dim D L ->
  dim D * len cells + 8 <= 2 ^ usize_bits c -> exists s, dynamic_try_from c D L cells = Ret (Ok s).
Proof. exact c03_dynamic_try_from_never_fails_lemma. Qed.
Print Assumptions c03_dynamic_try_from_never_fails.
Example c03_dynamic_try_from_never_fails_example :
  dim Dim3D * len [O1; O2; O3] + 8 <= 2 ^ usize_bits debug64
  /\ dynamic_try_from debug64 Dim3D layout3D [O1; O2; O3] = Ret (Ok (MkDynamic [0x80; 0x29] 3)).
Proof. concrete. Qed.

(* ---------- C02 ---------- *)
Theorem c02_fixed_try_from_order : forall c D L t cells s, is_dim D L ->
  fixed_try_from c D t cells = Ret (Ok s) ->
  valid c D (KFixed t) s
  /\ shows (fixed_ops c D t) s (cells ++ repeat (cell_zero D) (N.to_nat (BITS c t / dim D - len cells))).
Proof. exact c02_fixed_try_from_order_lemma. Qed.
Print Assumptions c02_fixed_try_from_order.
Example c02_fixed_try_from_order_example :
  fixed_try_from debug64 Dim2D U8 [Q1; Q2; Q3] = Ret (Ok (MkFixed 0x6C))
  /\ shows (fixed_ops debug64 Dim2D U8) (MkFixed 0x6C) [Q1; Q2; Q3; Q0].
Proof. concrete. Qed.

Theorem c02_static_try_from_order : forall c D L t cells s, is_dim D L ->
  static_try_from c D t cells = Ret (Ok s) -> valid c D (KStatic t) s /\ shows (static_ops c D t) s cells.
Proof. exact c02_static_try_from_order_lemma. Qed.
Print Assumptions c02_static_try_from_order.
Example c02_static_try_from_order_example :
  static_try_from debug64 Dim3D U32 [O7; O0; O5] = Ret (Ok (MkStatic 0xE2800000 3))
  /\ shows (static_ops debug64 Dim3D U32) (MkStatic 0xE2800000 3) [O7; O0; O5].
Proof. concrete. Qed.

(* dynamic storage works on little-endian targets (see C36 for big-endian ones) *)
Theorem c02_dynamic_try_from_order : forall c D L cells, is_dim D L -> writable c KDynamic ->
  dim D * len cells + 8 <= 2 ^ usize_bits c ->
  exists s, dynamic_try_from c D L cells = Ret (Ok s) /\ valid c D KDynamic s /\ shows (dynamic_ops c D) s cells.
Proof. exact c02_dynamic_try_from_order_lemma. Qed.
Print Assumptions c02_dynamic_try_from_order.
Example c02_dynamic_try_from_order_example :
  dim Dim2D * len [Q3; Q1; Q2; Q0; Q1] + 8 <= 2 ^ usize_bits debug64
  /\ dynamic_try_from debug64 Dim2D layout2D [Q3; Q1; Q2; Q0; Q1] = Ret (Ok (MkDynamic [0x40; 0xD8] 5))
  /\ shows (dynamic_ops debug64 Dim2D) (MkDynamic [0x40; 0xD8] 5) [Q3; Q1; Q2; Q0; Q1].
Proof. concrete. Qed.

(* ---------- C04 ---------- *)
Theorem c04_get_panics_iff_out_of_bounds : forall c D L k (s : storage k) i,
  is_dim D L -> valid c D k s ->
  (get_cell_at_level (ops c D k) s i = Panic <-> st_depth (ops c D k) s <= i)
  /\ ((exists x, get_cell_at_level (ops c D k) s i = Ret x) <-> i < st_depth (ops c D k) s).
Proof. exact c04_get_panics_iff_out_of_bounds_lemma. Qed.
Print Assumptions c04_get_panics_iff_out_of_bounds.
Example c04_get_panics_iff_out_of_bounds_example :
  valid debug64 Dim2D (KStatic U64) (MkStatic (2 ^ 62) 3)
  /\ get_cell_at_level (static_ops debug64 Dim2D U64) (MkStatic (2 ^ 62) 3) 3 = Panic
  /\ get_cell_at_level (static_ops debug64 Dim2D U64) (MkStatic (2 ^ 62) 3) 0 = Ret Q1.
Proof. concrete. Qed.

(* on every target, big-endian ones included *)
Theorem c04_set_panics_iff_out_of_bounds : forall c D L k (s : storage k) i x,
  is_dim D L -> valid c D k s ->
  (set_cell_at_level (ops c D k) s i x = Panic <-> st_depth (ops c D k) s <= i)
  /\ ((exists s', set_cell_at_level (ops c D k) s i x = Ret s') <-> i < st_depth (ops c D k) s).
Proof. exact c04_set_panics_iff_out_of_bounds_lemma. Qed.
Print Assumptions c04_set_panics_iff_out_of_bounds.
Example c04_set_panics_iff_out_of_bounds_example :
  valid big64 Dim2D KDynamic (MkDynamic [0xA7] 3)
  /\ set_cell_at_level (dynamic_ops big64 Dim2D) (MkDynamic [0xA7] 3) 3 Q1 = Panic
  /\ set_cell_at_level (dynamic_ops big64 Dim2D) (MkDynamic [0xA7] 3) 0 Q1 = Ret (MkDynamic [0x27] 3).
Proof. concrete. Qed.

(* ---------- C05 ---------- *)
(* the answers of the first n calls of next(), for every n *)
Theorem c05_cells_iterator : forall c D L k (s : storage k) l n,
  is_dim D L -> valid c D k s -> shows (ops c D k) s l ->
  next_calls c (ops c D k) s cell_iter_start n = Ret (map Some (firstn n l) ++ repeat None (n - List.length l)).
Proof. exact c05_cells_iterator_lemma. Qed.
Print Assumptions c05_cells_iterator.
Example c05_cells_iterator_example :
  valid debug64 Dim2D (KStatic U8) (MkStatic 0xB0 2) /\ shows (static_ops debug64 Dim2D U8) (MkStatic 0xB0 2) [Q2; Q3]
  /\ next_calls debug64 (static_ops debug64 Dim2D U8) (MkStatic 0xB0 2) cell_iter_start 4 = Ret [Some Q2; Some Q3; None; None].
Proof. concrete. Qed.

Theorem c05_collected_cells : forall c D L k (s : storage k) l,
  is_dim D L -> valid c D k s -> shows (ops c D k) s l -> collect_cells c (ops c D k) s = Ret l.
Proof. exact c05_collected_cells_lemma. Qed.
Print Assumptions c05_collected_cells.
Example c05_collected_cells_example :
  valid debug64 Dim3D (KFixed U8) (MkFixed 0xB1) /\ shows (fixed_ops debug64 Dim3D U8) (MkFixed 0xB1) [O5; O4]
  /\ collect_cells debug64 (fixed_ops debug64 Dim3D U8) (MkFixed 0xB1) = Ret [O5; O4].
Proof. concrete. Qed.

(* ---------- C25 ---------- *)
Theorem c25_inverted_reverses : forall c D L k (s : storage k) l,
  is_dim D L -> writable c k -> valid c D k s -> shows (ops c D k) s l ->
  exists s', inverted c (ops c D k) s = Ret s' /\ valid c D k s' /\ shows (ops c D k) s' (rev l).
Proof. exact c25_inverted_reverses_lemma. Qed.
Print Assumptions c25_inverted_reverses.
Example c25_inverted_reverses_example :
  valid debug64 Dim3D KDynamic (MkDynamic [0x81; 0x29] 3) /\ shows (dynamic_ops debug64 Dim3D) (MkDynamic [0x81; 0x29] 3) [O1; O2; O3]
  /\ inverted debug64 (dynamic_ops debug64 Dim3D) (MkDynamic [0x81; 0x29] 3) = Ret (MkDynamic [0x81; 0x68] 3)
  /\ shows (dynamic_ops debug64 Dim3D) (MkDynamic [0x81; 0x68] 3) [O3; O2; O1].
Proof. concrete. Qed.

(* bit for bit, also for values of from_raw_index and for odd and even depths *)
Theorem c25_inverted_twice : forall c D L k (s s' : storage k),
  is_dim D L -> writable c k -> valid c D k s ->
  inverted c (ops c D k) s = Ret s' -> inverted c (ops c D k) s' = Ret s.
Proof. exact c25_inverted_twice_lemma. Qed.
Print Assumptions c25_inverted_twice.
Example c25_inverted_twice_example :
  valid debug64 Dim2D (KStatic U16) (MkStatic 0x1BFF 4)
  /\ inverted debug64 (static_ops debug64 Dim2D U16) (MkStatic 0x1BFF 4) = Ret (MkStatic 0xE4FF 4)
  /\ inverted debug64 (static_ops debug64 Dim2D U16) (MkStatic 0xE4FF 4) = Ret (MkStatic 0x1BFF 4).
Proof. concrete. Qed.

(* ---------- C47 ---------- *)
Theorem c47_fixed_default : forall c D L t, is_dim D L ->
  valid c D (KFixed t) fixed_default
  /\ shows (fixed_ops c D t) fixed_default (repeat (cell_zero D) (N.to_nat (BITS c t / dim D))).
Proof. exact c47_fixed_default_lemma. Qed.
Print Assumptions c47_fixed_default.
Example c47_fixed_default_example : shows (fixed_ops debug64 Dim3D U16) fixed_default [O0; O0; O0; O0; O0].
Proof. concrete. Qed.

Theorem c47_static_default : forall c D L t, is_dim D L ->
  valid c D (KStatic t) static_default /\ shows (static_ops c D t) static_default [].
Proof. exact c47_static_default_lemma. Qed.
Print Assumptions c47_static_default.
Example c47_static_default_example : st_depth (static_ops debug64 Dim3D U16) static_default = 0.
Proof. concrete. Qed.

Theorem c47_dynamic_default : forall c D L, is_dim D L ->
  valid c D KDynamic dynamic_default /\ shows (dynamic_ops c D) dynamic_default [].
Proof. exact c47_dynamic_default_lemma. Qed.
Print Assumptions c47_dynamic_default.
Example c47_dynamic_default_example : st_depth (dynamic_ops debug64 Dim2D) dynamic_default = 0.
Proof. concrete. Qed.

(* the depth argument is a u8 *)
Theorem c47_static_zeroed : forall c D L t d, is_dim D L -> d < 2 ^ 8 ->
  (static_zeroed c D t d = None <-> BITS c t / dim D < d)
  /\ forall s, static_zeroed c D t d = Some s ->
       valid c D (KStatic t) s /\ shows (static_ops c D t) s (repeat (cell_zero D) (N.to_nat d)).
Proof. exact c47_static_zeroed_lemma. Qed.
Print Assumptions c47_static_zeroed.
Example c47_static_zeroed_example : static_zeroed debug64 Dim3D U32 10 = Some (MkStatic 0 10) /\ static_zeroed debug64 Dim3D U32 11 = None.
Proof. concrete. Qed.

Theorem c47_dynamic_zeroed_2d : forall c d, 2 * d + 24 <= 2 ^ usize_bits c ->
  valid c Dim2D KDynamic (dynamic_zeroed_2d d)
  /\ shows (dynamic_ops c Dim2D) (dynamic_zeroed_2d d) (repeat (cell_zero Dim2D) (N.to_nat d)).
Proof. exact c47_dynamic_zeroed_2d_lemma. Qed.
Print Assumptions c47_dynamic_zeroed_2d.
Example c47_dynamic_zeroed_2d_example :
  2 * 5 + 24 <= 2 ^ usize_bits debug64 /\ shows (dynamic_ops debug64 Dim2D) (dynamic_zeroed_2d 5) [Q0; Q0; Q0; Q0; Q0].
Proof. concrete. Qed.

Theorem c47_dynamic_zeroed_3d : forall c d, 3 * d + 24 <= 2 ^ usize_bits c ->
  exists s, dynamic_zeroed_3d c d = Ret s /\ valid c Dim3D KDynamic s
    /\ shows (dynamic_ops c Dim3D) s (repeat (cell_zero Dim3D) (N.to_nat d)).
Proof. exact c47_dynamic_zeroed_3d_lemma. Qed.
Print Assumptions c47_dynamic_zeroed_3d.
Example c47_dynamic_zeroed_3d_example :
  3 * 5 + 24 <= 2 ^ usize_bits debug64 /\ dynamic_zeroed_3d debug64 5 = Ret (MkDynamic [0; 0] 5).
Proof. concrete. Qed.
