(* PropHuge.v - Dynamic indices beyond the range of usize bit positions, without overflow checks (C46) *)
From Verif Require Import Base ModelNumber ModelDim ModelStorage Model2D Model3D Spec History ExampleTools FactsHuge.

(* ---------- C46 ---------- *)
(* Bit positions are reduced modulo 2^W; positions in the last byte before 2^W read as Zero cells *)
Theorem c46_get_cell_release : forall c D L s i, is_dim D L -> overflow_checks c = false -> Forall (fun b => b < 256) (dy_bits s) ->
  i < dy_depth s -> i + 1 < 2 ^ usize_bits c -> dim D * (i + 1) <= 8 * len (dy_bits s) ->
  let pos := (8 * len (dy_bits s) - dim D * (i + 1)) mod 2 ^ usize_bits c in
  exists x, get_cell_at_level (dynamic_ops c D) s i = Ret x
    /\ cell_index D x = if pos + dim D + 8 <=? 2 ^ usize_bits c then bytes_value (dy_bits s) / 2 ^ pos mod 2 ^ dim D else 0.
Proof. exact c46_get_cell_release_lemma. Qed.
Print Assumptions c46_get_cell_release.
Example c46_get_cell_release_example : let c := Cfg false PW16 LittleEndian in let s := MkDynamic (0xC0 :: zeros 8192) 5 in
  2 ^ usize_bits c < 8 * len (dy_bits s) /\ get_cell_at_level (dynamic_ops c Dim2D) s 0 = Ret Q3
  /\ bytes_value (dy_bits s) / 2 ^ 6 mod 2 ^ 2 = 3 /\ (8 * len (dy_bits s) - 2 * (0 + 1)) mod 2 ^ usize_bits c = 6.
Proof. concrete. Qed.

(* Writes go to the same wrong positions, or nowhere *)
Theorem c46_set_cell_release : forall c D L s i x, is_dim D L -> overflow_checks c = false -> writable c KDynamic ->
  Forall (fun b => b < 256) (dy_bits s) -> i < dy_depth s -> i + 1 < 2 ^ usize_bits c -> dim D * (i + 1) <= 8 * len (dy_bits s) ->
  let pos := (8 * len (dy_bits s) - dim D * (i + 1)) mod 2 ^ usize_bits c in
  exists s', set_cell_at_level (dynamic_ops c D) s i x = Ret s' /\ dy_depth s' = dy_depth s /\ len (dy_bits s') = len (dy_bits s)
    /\ Forall (fun b => b < 256) (dy_bits s')
    /\ if pos + dim D + 8 <=? 2 ^ usize_bits c
       then bits_replaced (bytes_value (dy_bits s)) pos (dim D) (cell_index D x) (bytes_value (dy_bits s'))
       else bytes_value (dy_bits s') = bytes_value (dy_bits s).
Proof. exact c46_set_cell_release_lemma. Qed.
Print Assumptions c46_set_cell_release.
Example c46_set_cell_release_example : let c := Cfg false PW16 LittleEndian in let s := MkDynamic (0 :: zeros 8192) 5 in
  (exists s', set_cell_at_level (dynamic_ops c Dim2D) s 0 Q2 = Ret s' /\ firstn 2 (dy_bits s') = [0x80; 0])
  /\ set_cell_at_level (dynamic_ops c Dim2D) s 4 Q2 = Ret s.
Proof. cbv zeta. split; [eexists; split; [vm_compute; reflexivity|]; vm_compute; reflexivity|]. concrete. Qed.

(* The bound on the number of cells is that of a Rust slice of one-byte elements; shorter paths are covered by C02 *)
Theorem c46_try_from_release_3d : forall c cells, overflow_checks c = false -> len cells < 2 ^ (usize_bits c - 1) ->
  2 ^ usize_bits c < 3 * len cells + 8 -> dynamic_try_from c Dim3D layout3D cells = Panic.
Proof. exact c46_try_from_release_3d_lemma. Qed.
Print Assumptions c46_try_from_release_3d.
Example c46_try_from_release_3d_example : let c := Cfg false PW16 LittleEndian in let cells := repeat O1 (N.to_nat 21843) in
  len cells < 2 ^ (usize_bits c - 1) /\ 2 ^ usize_bits c < 3 * len cells + 8.
Proof. concrete. Qed.

(* The call succeeds but the first four cells are lost; shorter paths are covered by C02 *)
Theorem c46_try_from_release_2d : forall c cells, overflow_checks c = false -> writable c KDynamic -> len cells < 2 ^ (usize_bits c - 1) ->
  2 ^ usize_bits c < 2 * len cells + 8 ->
  exists s, dynamic_try_from c Dim2D layout2D cells = Ret (Ok s)
    /\ shows (dynamic_ops c Dim2D) s ([Q0; Q0; Q0; Q0] ++ skipn 4 cells).
Proof. exact c46_try_from_release_2d_lemma. Qed.
Print Assumptions c46_try_from_release_2d.
Example c46_try_from_release_2d_example : let c := Cfg false PW16 LittleEndian in let cells := repeat Q1 (N.to_nat 32765) in
  len cells < 2 ^ (usize_bits c - 1) /\ 2 ^ usize_bits c < 2 * len cells + 8
  /\ firstn 5 ([Q0; Q0; Q0; Q0] ++ skipn 4 cells) = [Q0; Q0; Q0; Q0; Q1].
Proof. concrete. Qed.

(* witness: 32765 cells on a 16-bit target *)
Theorem c46_release_loses_cells_refuted :
  ~ (forall c cells s, overflow_checks c = false -> target_endian c = LittleEndian -> len cells < 2 ^ (usize_bits c - 1) ->
     dynamic_try_from c Dim2D layout2D cells = Ret (Ok s) -> shows (dynamic_ops c Dim2D) s cells).
Proof. exact c46_release_loses_cells_refuted_lemma. Qed.
Print Assumptions c46_release_loses_cells_refuted.
