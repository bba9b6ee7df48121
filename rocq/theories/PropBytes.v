(* PropBytes.v - Indices through their bits and bytes: comparison (C59), ancestors (C60), layout (C77) *)
From Coq Require Import ZifyBool ZifyNat ZifyN.
From Verif Require Import Base ModelNumber ModelDim ModelStorage Model2D Model3D Spec SpecSpace SpecBytes History ExampleTools FactsBytes.

(* ---------- C59 ---------- *)
(* without a look at the cells: the bits as a number decide, then the depths *)
Theorem c59_static_bits : forall c D L t (a b : storage (KStatic t)) la lb,
  made c D L (KStatic t) true a la -> made c D L (KStatic t) true b lb ->
  idx_cmp c D (KStatic t) a b
  = Ret (match N.compare (sx_bits a) (sx_bits b) with Eq => N.compare (sx_depth a) (sx_depth b) | r => r end).
Proof. exact c59_static_bits_lemma. Qed.
Print Assumptions c59_static_bits.
Example c59_static_bits_example :
  made debug64 Dim2D layout2D (KStatic U16) true (MkStatic 0xB000 2) [Q2; Q3]
  /\ made debug64 Dim2D layout2D (KStatic U16) true (MkStatic 0x8000 1) [Q2]
  /\ made debug64 Dim2D layout2D (KStatic U16) true (MkStatic 0x8000 2) [Q2; Q0]
  /\ idx_cmp debug64 Dim2D (KStatic U16) (MkStatic 0xB000 2) (MkStatic 0x8000 1) = Ret Gt
  /\ idx_cmp debug64 Dim2D (KStatic U16) (MkStatic 0x8000 1) (MkStatic 0x8000 2) = Ret Lt.
Proof.
  split; [made_by (start_static_cells debug64 Dim2D layout2D U16 [Q2; Q3]) (@nil (call Dim2D))|].
  split; [made_by (start_static_default debug64 Dim2D layout2D U16) [CChild (D:=Dim2D) Q2]|].
  split; [made_by (start_static_default debug64 Dim2D layout2D U16) [CChild (D:=Dim2D) Q2; CChild (D:=Dim2D) Q0]|]. concrete.
Qed.

(* the bytes from the last one on decide, then the depths *)
Theorem c59_dynamic_bytes : forall c D L (a b : storage KDynamic) la lb,
  made c D L KDynamic true a la -> made c D L KDynamic true b lb ->
  idx_cmp c D KDynamic a b
  = Ret (match bytes_cmp (rev (dy_bits a)) (rev (dy_bits b)) with Eq => N.compare (dy_depth a) (dy_depth b) | r => r end).
Proof. exact c59_dynamic_bytes_lemma. Qed.
Print Assumptions c59_dynamic_bytes.
Example c59_dynamic_bytes_example :
  made debug64 Dim3D layout3D KDynamic true (MkDynamic [0x80; 0x29] 3) [O1; O2; O3]
  /\ made debug64 Dim3D layout3D KDynamic true (MkDynamic [0x20] 1) [O1]
  /\ made debug64 Dim3D layout3D KDynamic true (MkDynamic [0x20] 2) [O1; O0]
  /\ bytes_cmp (rev [0x80; 0x29]) (rev [0x20]) = Gt /\ bytes_cmp (rev [0x20]) (rev [0x20]) = Eq
  /\ bytes_cmp (rev [0; 0x20]) (rev [0x20]) = Gt
  /\ idx_cmp debug64 Dim3D KDynamic (MkDynamic [0x80; 0x29] 3) (MkDynamic [0x20] 1) = Ret Gt
  /\ idx_cmp debug64 Dim3D KDynamic (MkDynamic [0x20] 1) (MkDynamic [0x20] 2) = Ret Lt.
Proof.
  split; [made_by (start_dynamic_cells debug64 Dim3D layout3D [O1; O2; O3]) (@nil (call Dim3D))|].
  split; [made_by (start_dynamic_cells debug64 Dim3D layout3D [O1; O2; O3]) [CParent (D:=Dim3D); CAncestor (D:=Dim3D) 1]|].
  split; [made_by (start_dynamic_cells debug64 Dim3D layout3D [O1; O0]) (@nil (call Dim3D))|]. concrete.
Qed.

(* ---------- C60 ---------- *)
(* an ancestor is recognised by the bits that its depth covers *)
Theorem c60_static_bits : forall c D L t (a b : storage (KStatic t)) la lb,
  made c D L (KStatic t) true a la -> made c D L (KStatic t) true b lb ->
  (is_prefix la lb <-> sx_depth a <= sx_depth b
   /\ N.shiftr (sx_bits a) (BITS c t - dim D * sx_depth a) = N.shiftr (sx_bits b) (BITS c t - dim D * sx_depth a)).
Proof. exact c60_static_bits_lemma. Qed.
Print Assumptions c60_static_bits.
Example c60_static_bits_example :
  made debug64 Dim2D layout2D (KStatic U16) true (MkStatic 0x8000 1) [Q2]
  /\ made debug64 Dim2D layout2D (KStatic U16) true (MkStatic 0xB000 2) [Q2; Q3]
  /\ made debug64 Dim2D layout2D (KStatic U16) true (MkStatic 0x7000 2) [Q1; Q3]
  /\ N.shiftr 0x8000 (16 - 2 * 1) = N.shiftr 0xB000 (16 - 2 * 1) /\ N.shiftr 0x8000 (16 - 2 * 1) <> N.shiftr 0x7000 (16 - 2 * 1).
Proof.
  split; [made_by (start_static_default debug64 Dim2D layout2D U16) [CChild (D:=Dim2D) Q2]|].
  split; [made_by (start_static_cells debug64 Dim2D layout2D U16 [Q2; Q3]) (@nil (call Dim2D))|].
  split; [made_by (start_static_cells debug64 Dim2D layout2D U16 [Q1; Q3]) (@nil (call Dim2D))|]. concrete.
Qed.

(* the same for bytes, of which an ancestor may have fewer *)
Theorem c60_dynamic_bytes : forall c D L (a b : storage KDynamic) la lb,
  made c D L KDynamic true a la -> made c D L KDynamic true b lb ->
  (is_prefix la lb <-> dy_depth a <= dy_depth b
   /\ N.shiftr (bytes_value (dy_bits a)) (8 * len (dy_bits a) - dim D * dy_depth a)
      = N.shiftr (bytes_value (dy_bits b)) (8 * len (dy_bits b) - dim D * dy_depth a)).
Proof. exact c60_dynamic_bytes_lemma. Qed.
Print Assumptions c60_dynamic_bytes.
Example c60_dynamic_bytes_example :
  made debug64 Dim3D layout3D KDynamic true (MkDynamic [0x20] 1) [O1]
  /\ made debug64 Dim3D layout3D KDynamic true (MkDynamic [0x80; 0x29] 3) [O1; O2; O3]
  /\ N.shiftr (bytes_value [0x20]) (8 * 1 - 3 * 1) = 1 /\ N.shiftr (bytes_value [0x80; 0x29]) (8 * 2 - 3 * 1) = 1.
Proof.
  split; [made_by (start_dynamic_cells debug64 Dim3D layout3D [O1; O2; O3]) [CParent (D:=Dim3D); CAncestor (D:=Dim3D) 1]|].
  split; [made_by (start_dynamic_cells debug64 Dim3D layout3D [O1; O2; O3]) (@nil (call Dim3D))|]. concrete.
Qed.

(* ---------- C59 ---------- *)
(* the spare byte of DynamicMortonIndex2D::zeroed (C22) breaks it *)
Theorem c59_bytes_of_zeroed_refuted :
  ~ (forall c d s, 2 * d + 24 <= 2 ^ usize_bits c -> dynamic_try_from c Dim2D layout2D (repeat (cell_zero Dim2D) (N.to_nat d)) = Ret (Ok s) ->
     idx_cmp c Dim2D KDynamic (dynamic_zeroed_2d d) s
     = Ret (match bytes_cmp (rev (dy_bits (dynamic_zeroed_2d d))) (rev (dy_bits s)) with
            | Eq => N.compare (dy_depth (dynamic_zeroed_2d d)) (dy_depth s) | r => r end)).
Proof. exact c59_bytes_of_zeroed_refuted_lemma. Qed.
Print Assumptions c59_bytes_of_zeroed_refuted.

(* the bytes must be taken from the last one on *)
Theorem c59_bytes_in_stored_order_refuted :
  ~ (forall c D L (a b : storage KDynamic) la lb,
     made c D L KDynamic true a la -> made c D L KDynamic true b lb ->
     idx_cmp c D KDynamic a b
     = Ret (match bytes_cmp (dy_bits a) (dy_bits b) with Eq => N.compare (dy_depth a) (dy_depth b) | r => r end)).
Proof. exact c59_bytes_in_stored_order_refuted_lemma. Qed.
Print Assumptions c59_bytes_in_stored_order_refuted.

(* ---------- C77 ---------- *)
(* the bits are a function of the cells: one after the other from the top *)
Theorem c77_fixed_bits : forall c D L t (s : storage (KFixed t)) l, made c D L (KFixed t) true s l ->
  fx_bits s = top_bits (dim D) (BITS c t) (map (cell_index D) l).
Proof. exact c77_fixed_bits_lemma. Qed.
Print Assumptions c77_fixed_bits.
Example c77_fixed_bits_example :
  made debug64 Dim2D layout2D (KFixed U8) true (MkFixed 0xB4) [Q2; Q3; Q1; Q0] /\ top_bits 2 8 [2; 3; 1; 0] = 0xB4.
Proof. split; [made_by (start_fixed_cells debug64 Dim2D layout2D U8 [Q2; Q3; Q1]) (@nil (call Dim2D))|]. concrete. Qed.

(* the same for static indices, with the depth *)
Theorem c77_static_bits : forall c D L t (s : storage (KStatic t)) l, made c D L (KStatic t) true s l ->
  sx_depth s = len l /\ sx_bits s = top_bits (dim D) (BITS c t) (map (cell_index D) l).
Proof. exact c77_static_bits_lemma. Qed.
Print Assumptions c77_static_bits.
Example c77_static_bits_example :
  made debug64 Dim3D layout3D (KStatic U16) true (MkStatic 0x7400 2) [O3; O5] /\ top_bits 3 16 [3; 5] = 0x7400.
Proof. split; [made_by (start_static_cells debug64 Dim3D layout3D U16 [O3; O2]) [CParent (D:=Dim3D); CChild (D:=Dim3D) O5]|]. concrete. Qed.

(* as many bytes as the cells need *)
Theorem c77_dynamic_bytes : forall c D L (s : storage KDynamic) l, made c D L KDynamic true s l ->
  dy_depth s = len l /\ len (dy_bits s) = (dim D * len l + 7) / 8 /\ Forall (fun b => b < 256) (dy_bits s)
  /\ bytes_value (dy_bits s) = top_bits (dim D) (8 * len (dy_bits s)) (map (cell_index D) l).
Proof. exact c77_dynamic_bytes_lemma. Qed.
Print Assumptions c77_dynamic_bytes.
Example c77_dynamic_bytes_example :
  made debug64 Dim3D layout3D KDynamic true (MkDynamic [0x80; 0x29] 3) [O1; O2; O3]
  /\ len [0x80; 0x29] = (3 * 3 + 7) / 8 /\ bytes_value [0x80; 0x29] = top_bits 3 16 [1; 2; 3].
Proof. split; [made_by (start_dynamic_cells debug64 Dim3D layout3D [O1; O2; O3]) (@nil (call Dim3D))|]. concrete. Qed.

(* after from_raw_index the bits below the cells are arbitrary *)
Theorem c77_fixed_any : forall c D L t e (s : storage (KFixed t)) l, made c D L (KFixed t) e s l ->
  let top := top_bits (dim D) (BITS c t) (map (cell_index D) l) in
  len l = BITS c t / dim D /\ top <= fx_bits s < top + 2 ^ (BITS c t mod dim D).
Proof. exact c77_fixed_any_lemma. Qed.
Print Assumptions c77_fixed_any.
Example c77_fixed_any_example :
  made debug64 Dim3D layout3D (KFixed U8) false (MkFixed 0xB7) [O5; O5] /\ top_bits 3 8 [5; 5] = 0xB4 /\ 2 ^ (BITS debug64 U8 mod 3) = 4.
Proof. split; [made_by (start_fixed_raw debug64 U8 0xB7 [O5; O5]) (@nil (call Dim3D))|]. concrete. Qed.

(* the same for static indices, with the depth *)
Theorem c77_static_any : forall c D L t e (s : storage (KStatic t)) l, made c D L (KStatic t) e s l ->
  let top := top_bits (dim D) (BITS c t) (map (cell_index D) l) in
  sx_depth s = len l /\ len l <= BITS c t / dim D /\ top <= sx_bits s < top + 2 ^ (BITS c t - dim D * len l).
Proof. exact c77_static_any_lemma. Qed.
Print Assumptions c77_static_any.
Example c77_static_any_example :
  made debug64 Dim3D layout3D (KStatic U8) false (MkStatic 0xB7 1) [O5] /\ top_bits 3 8 [5] = 0xA0 /\ 2 ^ (BITS debug64 U8 - 3 * 1) = 32.
Proof. split; [made_by (start_static_raw debug64 U8 0xB7 1 [O5]) (@nil (call Dim3D))|]. concrete. Qed.

(* one spare byte at most *)
Theorem c77_dynamic_any : forall c D L e (s : storage KDynamic) l, made c D L KDynamic e s l ->
  let n := len (dy_bits s) in
  let top := top_bits (dim D) (8 * n) (map (cell_index D) l) in
  dy_depth s = len l /\ (dim D * len l + 7) / 8 <= n <= (dim D * len l + 7) / 8 + 1
  /\ Forall (fun b => b < 256) (dy_bits s) /\ top <= bytes_value (dy_bits s) < top + 2 ^ (8 * n - dim D * len l).
Proof. exact c77_dynamic_any_lemma. Qed.
Print Assumptions c77_dynamic_any.
Example c77_dynamic_any_example :
  made debug64 Dim2D layout2D KDynamic false (MkDynamic [0; 3] 3) [Q0; Q0; Q0] /\ len [0; 3] = (2 * 3 + 7) / 8 + 1.
Proof. split; [made_by (start_dynamic_zeroed2 debug64 4) [CSet (D:=Dim2D) 3 Q3; CParent (D:=Dim2D)]|]. concrete. Qed.

(* DynamicMortonIndex2D::zeroed of depth 4 has one *)
Theorem c77_no_spare_byte_refuted :
  ~ (forall c D L e (s : storage KDynamic) l, made c D L KDynamic e s l -> len (dy_bits s) = (dim D * len l + 7) / 8).
Proof. exact c77_no_spare_byte_refuted_lemma. Qed.
Print Assumptions c77_no_spare_byte_refuted.

(* ---------- C37 ---------- *)
(* the bytes in memory of a number read from bytes: the given ones, cut off or filled up with zeros, reversed if the orders differ *)
Theorem c37_bytes_round_trip : forall c t bytes e, Forall (fun b => b < 256) bytes ->
  let n := BITS c t / 8 in
  let used := firstn (N.to_nat n) (bytes ++ repeat 0 (N.to_nat (n - len bytes))) in
  num_as_u8_slice c t (num_from_u8_slice c t bytes e)
  = match e, target_endian c with LittleEndian, LittleEndian | BigEndian, BigEndian => used | _, _ => rev used end.
Proof. exact c37_bytes_round_trip_lemma. Qed.
Print Assumptions c37_bytes_round_trip.
Example c37_bytes_round_trip_example :
  num_as_u8_slice debug64 U32 (num_from_u8_slice debug64 U32 [1; 2; 3] LittleEndian) = [1; 2; 3; 0]
  /\ num_as_u8_slice debug64 U32 (num_from_u8_slice debug64 U32 [1; 2; 3] BigEndian) = [0; 3; 2; 1]
  /\ num_as_u8_slice big64 U16 (num_from_u8_slice big64 U16 [1; 2; 3] BigEndian) = [1; 2].
Proof. concrete. Qed.

(* ---------- C24 ---------- *)
(* on every target and whatever the history: the bytes in memory are those of the vector, cut off or filled up with zeros *)
Theorem c24_dynamic_to_fixed_memory : forall c D L t e (s : storage KDynamic) l,
  made c D L KDynamic e s l -> len l <= BITS c t / dim D ->
  let nb := BITS c t / 8 in
  exists s', fixed_from_dynamic c D t s = Ok s'
    /\ num_as_u8_slice c t (fx_bits s') = firstn (N.to_nat nb) (dy_bits s ++ repeat 0 (N.to_nat (nb - len (dy_bits s)))).
Proof. exact c24_dynamic_to_fixed_memory_lemma. Qed.
Print Assumptions c24_dynamic_to_fixed_memory.
Example c24_dynamic_to_fixed_memory_example :
  made (Cfg true PW16 BigEndian) Dim2D layout2D KDynamic false (MkDynamic [0; 0xC0] 4) [Q3; Q0; Q0; Q0]
  /\ fixed_from_dynamic (Cfg true PW16 BigEndian) Dim2D U32 (MkDynamic [0; 0xC0] 4) = Ok (MkFixed 0xC00000)
  /\ num_as_u8_slice (Cfg true PW16 BigEndian) U32 0xC00000 = [0; 0xC0; 0; 0].
Proof. split; [made_by (start_dynamic_zeroed2 (Cfg true PW16 BigEndian) 4) [CSet (D:=Dim2D) 0 Q3]|]. concrete. Qed.

(* whatever the history of the index: the conversion to fixed depth keeps the low bits of the stored number (little-endian) *)
Theorem c24_dynamic_to_fixed_any : forall c D L t e (s : storage KDynamic) l,
  made c D L KDynamic e s l -> target_endian c = LittleEndian ->
  fixed_from_dynamic c D t s
  = if len l <=? BITS c t / dim D then Ok (MkFixed (bytes_value (dy_bits s) mod 2 ^ BITS c t)) else Err (DepthLimitedExceeded (BITS c t / dim D)).
Proof. exact c24_dynamic_to_fixed_any_lemma. Qed.
Print Assumptions c24_dynamic_to_fixed_any.
Example c24_dynamic_to_fixed_any_example :
  made debug64 Dim2D layout2D KDynamic false (MkDynamic [0; 3] 3) [Q0; Q0; Q0]
  /\ fixed_from_dynamic debug64 Dim2D U16 (MkDynamic [0; 3] 3) = Ok (MkFixed 0x300)
  /\ fixed_from_dynamic debug64 Dim2D U8 (MkDynamic [0; 3] 3) = Ok (MkFixed 0).
Proof. split; [made_by (start_dynamic_zeroed2 debug64 4) [CSet (D:=Dim2D) 3 Q3; CParent (D:=Dim2D)]|]. concrete. Qed.

(* in cells: moved down by the missing bytes, or, if there is a byte too many, without the first four *)
Theorem c24_dynamic_to_fixed_any_2d : forall c t e (s : storage KDynamic) l,
  made c Dim2D layout2D KDynamic e s l -> target_endian c = LittleEndian -> len l <= BITS c t / 2 ->
  let n := len (dy_bits s) in let nb := BITS c t / 8 in
  exists s' r, fixed_from_dynamic c Dim2D t s = Ok s'
    /\ shows (fixed_ops c Dim2D t) s' (if n <=? nb then repeat Q0 (N.to_nat (4 * (nb - n))) ++ l ++ r else skipn 4 l ++ r).
Proof. exact c24_dynamic_to_fixed_any_2d_lemma. Qed.
Print Assumptions c24_dynamic_to_fixed_any_2d.
Example c24_dynamic_to_fixed_any_2d_example :
  made debug64 Dim2D layout2D KDynamic false (MkDynamic [0; 0xC0] 4) [Q3; Q0; Q0; Q0]
  /\ fixed_from_dynamic debug64 Dim2D U8 (MkDynamic [0; 0xC0] 4) = Ok (MkFixed 0)
  /\ shows (fixed_ops debug64 Dim2D U8) (MkFixed 0) (skipn 4 [Q3; Q0; Q0; Q0] ++ [Q0; Q0; Q0; Q0])
  /\ fixed_from_dynamic debug64 Dim2D U32 (MkDynamic [0; 0xC0] 4) = Ok (MkFixed 0xC000)
  /\ shows (fixed_ops debug64 Dim2D U32) (MkFixed 0xC000) (repeat Q0 8 ++ [Q3; Q0; Q0; Q0] ++ [Q0; Q0; Q0; Q0]).
Proof. split; [made_by (start_dynamic_zeroed2 debug64 4) [CSet (D:=Dim2D) 0 Q3]|]. concrete. Qed.

(* a full index made from zeroed(4) loses all its cells in the conversion to a fixed-depth index of the same depth *)
Theorem c24_spare_byte_refuted :
  ~ (forall c t e (s : storage KDynamic) l s', target_endian c = LittleEndian -> made c Dim2D layout2D KDynamic e s l ->
     len l = BITS c t / 2 -> fixed_from_dynamic c Dim2D t s = Ok s' -> shows (fixed_ops c Dim2D t) s' l).
Proof. exact c24_spare_byte_refuted_lemma. Qed.
Print Assumptions c24_spare_byte_refuted.

(* the spare byte of zeroed makes ancestor clear bits of the wrong byte; converted to fixed depth, the dropped cell is back *)
Theorem c24_stale_bits_refuted :
  ~ (forall c D L t e (s : storage KDynamic) l s', target_endian c = LittleEndian -> made c D L KDynamic e s l ->
     len (dy_bits s) = BITS c t / 8 -> fixed_from_dynamic c D t s = Ok s' ->
     shows (fixed_ops c D t) s' (l ++ repeat (cell_zero D) (N.to_nat (BITS c t / dim D - len l)))).
Proof. exact c24_stale_bits_refuted_lemma. Qed.
Print Assumptions c24_stale_bits_refuted.

(* ---------- C22 ---------- *)
(* nor are indices with the same cells equal that were both derived from zeroed(4) *)
Theorem c22_derived_from_zeroed_refuted :
  ~ (forall c d h h' l (a b : storage KDynamic) r r', 2 * d + 24 <= 2 ^ usize_bits c ->
     run_model (D:=Dim2D) c layout2D (pack KDynamic (dynamic_zeroed_2d d)) h = Ret (pack KDynamic a, r) ->
     run_model (D:=Dim2D) c layout2D (pack KDynamic (dynamic_zeroed_2d d)) h' = Ret (pack KDynamic b, r') ->
     shows (dynamic_ops c Dim2D) a l -> shows (dynamic_ops c Dim2D) b l -> idx_eq KDynamic a b = true).
Proof. exact c22_derived_from_zeroed_refuted_lemma. Qed.
Print Assumptions c22_derived_from_zeroed_refuted.
