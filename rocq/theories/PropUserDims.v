(* PropUserDims.v - dynamic storages in dimensions defined outside the crate, on every target (C66) *)
From Verif Require Import Base ModelNumber ModelDim ModelStorage Spec SpecUser ExampleTools FactsUser FactsUserDims.

(* ---------- C66 ---------- *)
(* on every target exactly the bits of the level change; what is written there is given by the native bytes of the index of the cell *)
Theorem c66_dynamic_every_target : forall c D vec i x, 1 <= dim D -> dim D <= usize_bits c ->
  Forall (fun b => b < 256) vec -> dim D * (i + 1) <= 8 * len vec -> 8 * len vec + 8 <= 2 ^ usize_bits c ->
  let pos := 8 * len vec - dim D * (i + 1) in
  let bytes := to_bytes (target_endian c) (N.to_nat (usize_bits c / 8)) (cell_index D x) in
  exists vec' n, dynamic_set_cell c D vec i x = Ret vec' /\ Forall (fun b => b < 256) vec' /\ len vec' = len vec
    /\ n < 2 ^ dim D /\ (forall m, m < dim D -> N.testbit n m = source_bit (target_endian c) bytes pos m)
    /\ bits_replaced (bytes_value vec) pos (dim D) n (bytes_value vec')
    /\ dynamic_get_cell c D vec' i = unwrap (cell_try_from D n)
    /\ forall j, j <> i -> dim D * (j + 1) <= 8 * len vec -> dynamic_get_cell c D vec' j = dynamic_get_cell c D vec j.
Proof. exact c66_dynamic_every_target_lemma. Qed.
Print Assumptions c66_dynamic_every_target.
Example c66_dynamic_every_target_example : exists x, cell_at 20 0x12345 = Some x
  /\ 1 <= dim (DimN 20) /\ dim (DimN 20) <= usize_bits (Cfg true PW32 BigEndian) /\ Forall (fun b => b < 256) [1; 2; 3; 4; 5]
  /\ dim (DimN 20) * (0 + 1) <= 8 * len [1; 2; 3; 4; 5] /\ 8 * len [1; 2; 3; 4; 5] + 8 <= 2 ^ usize_bits (Cfg true PW32 BigEndian)
  /\ to_bytes (target_endian (Cfg true PW32 BigEndian)) (N.to_nat (usize_bits (Cfg true PW32 BigEndian) / 8)) (cell_index (DimN 20) x) = [0; 1; 0x23; 0x45]
  /\ dynamic_set_cell (Cfg true PW32 BigEndian) (DimN 20) [1; 2; 3; 4; 5] 0 x = Ret [1; 2; 0x13; 0; 0x12].
Proof. eexists. split; [reflexivity|]. repeat split; try (vm_compute; reflexivity || discriminate). repeat constructor. Qed.

(* a dimension wider than usize: writing reads outside of the index of the cell *)
Theorem c66_dynamic_wide_dimension : forall c D vec i x, usize_bits c + 8 <= dim D ->
  Forall (fun b => b < 256) vec -> dim D * (i + 1) <= 8 * len vec -> 8 * len vec + 8 <= 2 ^ usize_bits c ->
  dynamic_set_cell c D vec i x = UB.
Proof. exact c66_dynamic_wide_dimension_lemma. Qed.
Print Assumptions c66_dynamic_wide_dimension.
Example c66_dynamic_wide_dimension_example : exists x, cell_at 72 0x12345 = Some x
  /\ usize_bits debug64 + 8 <= dim (DimN 72) /\ Forall (fun b => b < 256) [1; 2; 3; 4; 5; 6; 7; 8; 9]
  /\ dim (DimN 72) * (0 + 1) <= 8 * len [1; 2; 3; 4; 5; 6; 7; 8; 9] /\ 8 * len [1; 2; 3; 4; 5; 6; 7; 8; 9] + 8 <= 2 ^ usize_bits debug64
  /\ dynamic_set_cell debug64 (DimN 72) [1; 2; 3; 4; 5; 6; 7; 8; 9] 0 x = UB.
Proof. eexists. split; [reflexivity|]. repeat split; try (vm_compute; reflexivity || discriminate). repeat constructor. Qed.

(* on big-endian targets every write stores cell 0 if the index is short *)
Theorem c66_dynamic_big_endian : forall c D vec i x, dimension_laws D -> target_endian c = BigEndian -> 2 * dim D + 16 <= usize_bits c ->
  Forall (fun b => b < 256) vec -> dim D * (i + 1) <= 8 * len vec -> 8 * len vec + 8 <= 2 ^ usize_bits c ->
  exists vec', dynamic_set_cell c D vec i x = Ret vec' /\ Forall (fun b => b < 256) vec' /\ len vec' = len vec
    /\ bits_replaced (bytes_value vec) (8 * len vec - dim D * (i + 1)) (dim D) 0 (bytes_value vec')
    /\ dynamic_get_cell c D vec' i = unwrap (cell_try_from D 0)
    /\ forall j, j <> i -> dim D * (j + 1) <= 8 * len vec -> dynamic_get_cell c D vec' j = dynamic_get_cell c D vec j.
Proof. exact c66_dynamic_big_endian_lemma. Qed.
Print Assumptions c66_dynamic_big_endian.
Example c66_dynamic_big_endian_example : exists x, cell_at 9 0x1AB = Some x
  /\ dimension_laws (DimN 9) /\ target_endian big64 = BigEndian /\ 2 * dim (DimN 9) + 16 <= usize_bits big64
  /\ Forall (fun b => b < 256) [1; 2; 3] /\ dim (DimN 9) * (1 + 1) <= 8 * len [1; 2; 3] /\ 8 * len [1; 2; 3] + 8 <= 2 ^ usize_bits big64
  /\ dynamic_set_cell big64 (DimN 9) [1; 2; 3] 1 x = Ret [1; 0; 3].
Proof.
  eexists. split; [reflexivity|]. split; [apply c66_every_dimensionality_lemma; discriminate|]. repeat split; try (vm_compute; reflexivity || discriminate).
  repeat constructor.
Qed.

(* and reading panics with overflow checks *)
Theorem c66_dynamic_wide_read : forall c D vec i, overflow_checks c = true -> usize_bits c + 8 <= dim D ->
  Forall (fun b => b < 256) vec -> dim D * (i + 1) <= 8 * len vec -> 8 * len vec + 8 <= 2 ^ usize_bits c ->
  dynamic_get_cell c D vec i = Panic.
Proof. exact c66_dynamic_wide_read_lemma. Qed.
Print Assumptions c66_dynamic_wide_read.
Example c66_dynamic_wide_read_example : overflow_checks debug64 = true /\ usize_bits debug64 + 8 <= dim (DimN 72)
  /\ Forall (fun b => b < 256) [1; 2; 3; 4; 5; 6; 7; 8; 9]
  /\ dim (DimN 72) * (0 + 1) <= 8 * len [1; 2; 3; 4; 5; 6; 7; 8; 9] /\ 8 * len [1; 2; 3; 4; 5; 6; 7; 8; 9] + 8 <= 2 ^ usize_bits debug64
  /\ dynamic_get_cell debug64 (DimN 72) [1; 2; 3; 4; 5; 6; 7; 8; 9] 0 = Panic.
Proof. repeat split; try (vm_compute; reflexivity || discriminate). repeat constructor. Qed.
