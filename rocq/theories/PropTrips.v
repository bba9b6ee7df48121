(* PropTrips.v - Conversions there and back (C55) and the texts of errors (C56), numerals (C27) *)
From Coq Require Import Strings.String.
From Verif Require Import Base ModelNumber ModelDim ModelStorage Model2D Model3D ModelError Spec SpecText History ExampleTools FactsTrips.

(* ---------- C55 ---------- *)
(* What is missing is identity on big-endian targets, where the bytes come back in reverse order (next theorem) *)
Theorem c55_fixed_dynamic_fixed_partial : forall c D L t (s : storage (KFixed t)),
  is_dim D L -> valid c D (KFixed t) s ->
  let nb := BITS c t / 8 in let byte v k := v / 2 ^ (8 * k) mod 256 in
  exists s', fixed_from_dynamic c D t (dynamic_from_fixed c D t s) = Ok s' /\ valid c D (KFixed t) s'
    /\ (forall k, k < nb -> byte (fx_bits s') k = byte (fx_bits s) (match target_endian c with LittleEndian => k | BigEndian => nb - 1 - k end))
    /\ (target_endian c = LittleEndian -> idx_eq (KFixed t) s' s = true).
Proof. exact c55_fixed_dynamic_fixed_partial_lemma. Qed.
Print Assumptions c55_fixed_dynamic_fixed_partial.
Example c55_fixed_dynamic_fixed_example : valid debug64 Dim2D (KFixed U16) (MkFixed 0x1234)
  /\ fixed_from_dynamic debug64 Dim2D U16 (dynamic_from_fixed debug64 Dim2D U16 (MkFixed 0x1234)) = Ok (MkFixed 0x1234)
  /\ fixed_from_dynamic big64 Dim2D U16 (dynamic_from_fixed big64 Dim2D U16 (MkFixed 0x1234)) = Ok (MkFixed 0x3412).
Proof. concrete. Qed.

(* witness: a FixedDepthMortonIndex2D16 on a 64-bit big-endian target *)
Theorem c55_fixed_dynamic_fixed_refuted :
  ~ (forall c D L t (s : storage (KFixed t)), is_dim D L -> valid c D (KFixed t) s ->
     exists s', fixed_from_dynamic c D t (dynamic_from_fixed c D t s) = Ok s' /\ idx_eq (KFixed t) s' s = true).
Proof. exact c55_fixed_dynamic_fixed_refuted_lemma. Qed.
Print Assumptions c55_fixed_dynamic_fixed_refuted.

Theorem c55_fixed_dynamic_static : forall c D L t (s : storage (KFixed t)) l, made c D L (KFixed t) true s l ->
  exists s', static_from_dynamic c D t (dynamic_from_fixed c D t s) = Ret (Ok s')
    /\ idx_eq (KStatic t) s' (static_from_fixed c D t s) = true.
Proof. exact c55_fixed_dynamic_static_lemma. Qed.
Print Assumptions c55_fixed_dynamic_static.
Example c55_fixed_dynamic_static_example :
  made big64 Dim2D layout2D (KFixed U8) true (MkFixed 0x6C) [Q1; Q2; Q3; Q0]
  /\ static_from_dynamic big64 Dim2D U8 (dynamic_from_fixed big64 Dim2D U8 (MkFixed 0x6C)) = Ret (Ok (MkStatic 0x6C 4))
  /\ static_from_fixed big64 Dim2D U8 (MkFixed 0x6C) = MkStatic 0x6C 4.
Proof. split; [made_by (start_fixed_cells big64 Dim2D layout2D U8 [Q1; Q2; Q3; Q0]) (@nil (call Dim2D))|]. concrete. Qed.

Theorem c55_dynamic_static_dynamic : forall c D L t (s : storage KDynamic) l, made c D L KDynamic true s l ->
  writable c KDynamic -> len l <= BITS c t / dim D ->
  exists s' d, static_from_dynamic c D t s = Ret (Ok s') /\ dynamic_from_static c D L t s' = Ret d /\ idx_eq KDynamic d s = true.
Proof. exact c55_dynamic_static_dynamic_lemma. Qed.
Print Assumptions c55_dynamic_static_dynamic.
Example c55_dynamic_static_dynamic_example :
  made debug64 Dim3D layout3D KDynamic true (MkDynamic [0x80; 0x29] 3) [O1; O2; O3]
  /\ static_from_dynamic debug64 Dim3D U32 (MkDynamic [0x80; 0x29] 3) = Ret (Ok (MkStatic 0x29800000 3))
  /\ dynamic_from_static debug64 Dim3D layout3D U32 (MkStatic 0x29800000 3) = Ret (MkDynamic [0x80; 0x29] 3).
Proof. split; [made_by (start_dynamic_cells debug64 Dim3D layout3D [O1; O2; O3]) (@nil (call Dim3D))|]. concrete. Qed.

(* A static index comes back with the maximum depth *)
Theorem c55_static_fixed_static : forall c D L t (s : storage (KStatic t)) l, made c D L (KStatic t) true s l ->
  let s' := static_from_fixed c D t (fixed_from_static s) in
  valid c D (KStatic t) s' /\ shows (static_ops c D t) s' (l ++ repeat (cell_zero D) (N.to_nat (BITS c t / dim D - len l)))
  /\ (idx_eq (KStatic t) s' s = true <-> len l = BITS c t / dim D).
Proof. exact c55_static_fixed_static_lemma. Qed.
Print Assumptions c55_static_fixed_static.
Example c55_static_fixed_static_example :
  made debug64 Dim2D layout2D (KStatic U8) true (MkStatic 0x6C 3) [Q1; Q2; Q3]
  /\ static_from_fixed debug64 Dim2D U8 (fixed_from_static (MkStatic 0x6C 3)) = MkStatic 0x6C 4
  /\ idx_eq (KStatic U8) (MkStatic 0x6C 4) (MkStatic 0x6C 3) = false.
Proof. split; [made_by (start_static_cells debug64 Dim2D layout2D U8 [Q1; Q2; Q3]) (@nil (call Dim2D))|]. concrete. Qed.

(* ---------- C56 ---------- *)
Theorem c56_error_texts : forall e,
  match e with
  | DepthLimitedExceeded m => forall s,
      (numeral m s <-> error_display e = ("Exceeded the depth limit of " ++ s ++ " levels for this Morton index type")%string)
      /\ (numeral m s <-> error_debug e = ("DepthLimitedExceeded { max_depth: " ++ s ++ " }")%string)
  | CellIndexOutOfRange => error_display e = "Cell index is out of range"%string /\ error_debug e = "CellIndexOutOfRange"%string
  end.
Proof. exact c56_error_texts_lemma. Qed.
Print Assumptions c56_error_texts.
Example c56_error_texts_example : error_display (DepthLimitedExceeded 21) = "Exceeded the depth limit of 21 levels for this Morton index type"%string
  /\ error_debug (DepthLimitedExceeded 21) = "DepthLimitedExceeded { max_depth: 21 }"%string.
Proof. concrete. Qed.

Theorem c56_error_texts_distinguish : forall e e',
  (error_display e = error_display e' <-> e = e') /\ (error_debug e = error_debug e' <-> e = e').
Proof. exact c56_error_texts_distinguish_lemma. Qed.
Print Assumptions c56_error_texts_distinguish.
Example c56_error_texts_distinguish_example : error_display (DepthLimitedExceeded 2) <> error_display (DepthLimitedExceeded 21).
Proof. concrete. Qed.

Theorem c56_fixed_try_from_text : forall c D L t cells e, is_dim D L -> fixed_try_from c D t cells = Ret (Err e) ->
  exists s, numeral (BITS c t / dim D) s
    /\ error_display e = ("Exceeded the depth limit of " ++ s ++ " levels for this Morton index type")%string
    /\ BITS c t / dim D < len cells.
Proof. exact c56_fixed_try_from_text_lemma. Qed.
Print Assumptions c56_fixed_try_from_text.
Example c56_fixed_try_from_text_example : fixed_try_from debug64 Dim3D U8 [O1; O2; O3] = Ret (Err (DepthLimitedExceeded 2))
  /\ error_display (DepthLimitedExceeded 2) = "Exceeded the depth limit of 2 levels for this Morton index type"%string.
Proof. concrete. Qed.

Theorem c56_static_try_from_text : forall c D L t cells e, is_dim D L -> static_try_from c D t cells = Ret (Err e) ->
  exists s, numeral (BITS c t / dim D) s
    /\ error_display e = ("Exceeded the depth limit of " ++ s ++ " levels for this Morton index type")%string
    /\ BITS c t / dim D < len cells.
Proof. exact c56_static_try_from_text_lemma. Qed.
Print Assumptions c56_static_try_from_text.
Example c56_static_try_from_text_example : static_try_from debug64 Dim3D U8 [O1; O2; O3] = Ret (Err (DepthLimitedExceeded 2)).
Proof. concrete. Qed.

Theorem c56_cell_text : forall n, error_display CellIndexOutOfRange = "Cell index is out of range"%string
  /\ (quadrant_try_from n = Err CellIndexOutOfRange <-> 4 <= n) /\ (octant_try_from n = Err CellIndexOutOfRange <-> 8 <= n).
Proof. exact c56_cell_text_lemma. Qed.
Print Assumptions c56_cell_text.
Example c56_cell_text_example : quadrant_try_from 4 = Err CellIndexOutOfRange /\ octant_try_from 7 = Ok O7.
Proof. concrete. Qed.

(* ---------- C27 ---------- *)
(* The numerals in the grid names: digits only, no leading zero, and read in base 10 they give the number *)
Theorem c27_decimal_is_the_numeral : forall n s, numeral n s <-> s = decimal n.
Proof. exact c27_decimal_is_the_numeral_lemma. Qed.
Print Assumptions c27_decimal_is_the_numeral.
Example c27_decimal_is_the_numeral_example : decimal 1048576 = "1048576"%string /\ read_digits 0 "1048576" = Some 1048576
  /\ read_digits 0 "10x" = None /\ decimal 0 = "0"%string.
Proof. concrete. Qed.
