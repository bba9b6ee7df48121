(* PropConv.v - Conversions between storages (C23, C24, C45) *)
From Verif Require Import Base ModelNumber ModelDim ModelStorage Model2D Model3D Spec History ExampleTools FactsConv.

(* ---------- C23 ---------- *)
Theorem c23_fixed_to_static : forall c D L t (s : storage (KFixed t)) l,
  is_dim D L -> valid c D (KFixed t) s -> shows (fixed_ops c D t) s l ->
  valid c D (KStatic t) (static_from_fixed c D t s) /\ shows (static_ops c D t) (static_from_fixed c D t s) l.
Proof. exact c23_fixed_to_static_lemma. Qed.
Print Assumptions c23_fixed_to_static.
Example c23_fixed_to_static_example :
  valid debug64 Dim3D (KFixed U8) (MkFixed 0xB1) /\ shows (fixed_ops debug64 Dim3D U8) (MkFixed 0xB1) [O5; O4]
  /\ static_from_fixed debug64 Dim3D U8 (MkFixed 0xB1) = MkStatic 0xB1 2.
Proof. concrete. Qed.

(* on every target *)
Theorem c23_fixed_to_dynamic : forall c D L t (s : storage (KFixed t)) l,
  is_dim D L -> valid c D (KFixed t) s -> shows (fixed_ops c D t) s l ->
  valid c D KDynamic (dynamic_from_fixed c D t s) /\ shows (dynamic_ops c D) (dynamic_from_fixed c D t s) l.
Proof. exact c23_fixed_to_dynamic_lemma. Qed.
Print Assumptions c23_fixed_to_dynamic.
Example c23_fixed_to_dynamic_example :
  valid big64 Dim2D (KFixed U16) (MkFixed 0x1BC4) /\ shows (fixed_ops big64 Dim2D U16) (MkFixed 0x1BC4) [Q0; Q1; Q2; Q3; Q3; Q0; Q1; Q0]
  /\ dynamic_from_fixed big64 Dim2D U16 (MkFixed 0x1BC4) = MkDynamic [0xC4; 0x1B] 8.
Proof. concrete. Qed.

Theorem c23_static_to_dynamic : forall c D L t (s : storage (KStatic t)) l,
  is_dim D L -> writable c KDynamic -> valid c D (KStatic t) s -> shows (static_ops c D t) s l ->
  exists s', dynamic_from_static c D L t s = Ret s' /\ valid c D KDynamic s' /\ shows (dynamic_ops c D) s' l.
Proof. exact c23_static_to_dynamic_lemma. Qed.
Print Assumptions c23_static_to_dynamic.
Example c23_static_to_dynamic_example :
  valid debug64 Dim2D (KStatic U64) (MkStatic 0x1BC4000000000000 5) /\ shows (static_ops debug64 Dim2D U64) (MkStatic 0x1BC4000000000000 5) [Q0; Q1; Q2; Q3; Q3]
  /\ dynamic_from_static debug64 Dim2D layout2D U64 (MkStatic 0x1BC4000000000000 5) = Ret (MkDynamic [0xC0; 0x1B] 5).
Proof. concrete. Qed.

Theorem c23_dynamic_to_static : forall c D L t (s : storage KDynamic) l,
  is_dim D L -> valid c D KDynamic s -> shows (dynamic_ops c D) s l ->
  if len l <=? BITS c t / dim D
  then exists s', static_from_dynamic c D t s = Ret (Ok s') /\ valid c D (KStatic t) s' /\ shows (static_ops c D t) s' l
  else static_from_dynamic c D t s = Ret (Err (DepthLimitedExceeded (BITS c t / dim D))).
Proof. exact c23_dynamic_to_static_lemma. Qed.
Print Assumptions c23_dynamic_to_static.
Example c23_dynamic_to_static_example :
  let s := MkDynamic [0xC4; 0x1B] 5 in
  valid debug64 Dim2D KDynamic s /\ shows (dynamic_ops debug64 Dim2D) s [Q0; Q1; Q2; Q3; Q3]
  /\ static_from_dynamic debug64 Dim2D U32 s = Ret (Ok (MkStatic 0x1BC00000 5))
  /\ static_from_dynamic debug64 Dim2D U8 s = Ret (Err (DepthLimitedExceeded 4)).
Proof. concrete. Qed.

Theorem c23_static_to_fixed : forall c D L t (s : storage (KStatic t)) l,
  made c D L (KStatic t) true s l ->
  valid c D (KFixed t) (fixed_from_static s)
  /\ shows (fixed_ops c D t) (fixed_from_static s) (l ++ repeat (cell_zero D) (N.to_nat (BITS c t / dim D - len l))).
Proof. exact c23_static_to_fixed_lemma. Qed.
Print Assumptions c23_static_to_fixed.
Example c23_static_to_fixed_example :
  made debug64 Dim2D layout2D (KStatic U8) true (MkStatic 0xB0 2) [Q2; Q3]
  /\ shows (fixed_ops debug64 Dim2D U8) (fixed_from_static (MkStatic 0xB0 2)) [Q2; Q3; Q0; Q0].
Proof. split; [made_by (start_static_default debug64 Dim2D layout2D U8) [CChild (D:=Dim2D) Q2; CChild (D:=Dim2D) Q3]|]. concrete. Qed.

Theorem c23_static_to_fixed_keeps_cells : forall c D L t (s : storage (KStatic t)) l,
  is_dim D L -> valid c D (KStatic t) s -> shows (static_ops c D t) s l ->
  valid c D (KFixed t) (fixed_from_static s)
  /\ exists tail, shows (fixed_ops c D t) (fixed_from_static s) (l ++ tail).
Proof. exact c23_static_to_fixed_keeps_cells_lemma. Qed.
Print Assumptions c23_static_to_fixed_keeps_cells.
Example c23_static_to_fixed_keeps_cells_example :
  valid debug64 Dim2D (KStatic U8) (MkStatic 0xB7 2) /\ shows (static_ops debug64 Dim2D U8) (MkStatic 0xB7 2) [Q2; Q3]
  /\ shows (fixed_ops debug64 Dim2D U8) (fixed_from_static (MkStatic 0xB7 2)) [Q2; Q3; Q1; Q3].
Proof. concrete. Qed.

Theorem c23_static_dynamic_static : forall c D L t (s : storage (KStatic t)) l,
  made c D L (KStatic t) true s l -> writable c KDynamic ->
  exists d s', dynamic_from_static c D L t s = Ret d /\ static_from_dynamic c D t d = Ret (Ok s') /\ idx_eq (KStatic t) s' s = true.
Proof. exact c23_static_dynamic_static_lemma. Qed.
Print Assumptions c23_static_dynamic_static.
Example c23_static_dynamic_static_example :
  made debug64 Dim3D layout3D (KStatic U16) true (MkStatic 0xB680 3) [O5; O5; O5]
  /\ dynamic_from_static debug64 Dim3D layout3D U16 (MkStatic 0xB680 3) = Ret (MkDynamic [0x80; 0xB6] 3).
Proof. split; [made_by (start_static_cells debug64 Dim3D layout3D U16 [O5; O5; O5; O7]) [CParent (D:=Dim3D)]|]. concrete. Qed.

Theorem c23_fixed_static_fixed : forall c D t (s : storage (KFixed t)),
  idx_eq (KFixed t) (fixed_from_static (static_from_fixed c D t s)) s = true.
Proof. exact c23_fixed_static_fixed_lemma. Qed.
Print Assumptions c23_fixed_static_fixed.
Example c23_fixed_static_fixed_example : fixed_from_static (static_from_fixed debug64 Dim3D U8 (MkFixed 0xB1)) = MkFixed 0xB1.
Proof. concrete. Qed.

(* ---------- C24 ---------- *)
(* The full statement, preservation for every depth that fits, is false (next theorem); this one says exactly when it holds: the vector has as many bytes as the integer or all cells are Zero *)
Theorem c24_dynamic_to_fixed_partial : forall c D L t (s : storage KDynamic) l,
  made c D L KDynamic true s l -> target_endian c = LittleEndian ->
  if len l <=? BITS c t / dim D
  then exists s', fixed_from_dynamic c D t s = Ok s'
         /\ (shows (fixed_ops c D t) s' (l ++ repeat (cell_zero D) (N.to_nat (BITS c t / dim D - len l)))
             <-> (dim D * len l + 7) / 8 = BITS c t / 8 \/ l = repeat (cell_zero D) (List.length l))
  else fixed_from_dynamic c D t s = Err (DepthLimitedExceeded (BITS c t / dim D)).
Proof. exact c24_dynamic_to_fixed_partial_lemma. Qed.
Print Assumptions c24_dynamic_to_fixed_partial.
Example c24_dynamic_to_fixed_example :
  made debug64 Dim2D layout2D KDynamic true (MkDynamic [0x6C] 3) [Q1; Q2; Q3]
  /\ fixed_from_dynamic debug64 Dim2D U8 (MkDynamic [0x6C] 3) = Ok (MkFixed 0x6C)
  /\ shows (fixed_ops debug64 Dim2D U8) (MkFixed 0x6C) [Q1; Q2; Q3; Q0]
  /\ fixed_from_dynamic debug64 Dim2D U16 (MkDynamic [0x6C] 3) = Ok (MkFixed 0x6C)
  /\ shows (fixed_ops debug64 Dim2D U16) (MkFixed 0x6C) [Q0; Q0; Q0; Q0; Q1; Q2; Q3; Q0].
Proof. split; [made_by (start_dynamic_cells debug64 Dim2D layout2D [Q1; Q2; Q3]) (@nil (call Dim2D))|]. concrete. Qed.

(* witness: converting the 3-cell path 1,2,3 to FixedDepthMortonIndex2D64 *)
Theorem c24_dynamic_to_fixed_refuted :
  ~ (forall c D L t (s : storage KDynamic) l s', is_dim D L -> target_endian c = LittleEndian ->
     made c D L KDynamic true s l -> fixed_from_dynamic c D t s = Ok s' ->
     shows (fixed_ops c D t) s' (l ++ repeat (cell_zero D) (N.to_nat (BITS c t / dim D - len l)))).
Proof. exact c24_dynamic_to_fixed_refuted_lemma. Qed.
Print Assumptions c24_dynamic_to_fixed_refuted.

(* ---------- C45 ---------- *)
Theorem c45_static_to_dynamic : forall c D L t (a b : storage (KStatic t)),
  is_dim D L -> writable c KDynamic -> valid c D (KStatic t) a -> valid c D (KStatic t) b ->
  exists a' b', dynamic_from_static c D L t a = Ret a' /\ dynamic_from_static c D L t b = Ret b'
    /\ idx_cmp c D KDynamic a' b' = idx_cmp c D (KStatic t) a b.
Proof. exact c45_static_to_dynamic_lemma. Qed.
Print Assumptions c45_static_to_dynamic.
Example c45_static_to_dynamic_example :
  let a := MkStatic 0xB7 2 in let b := MkStatic 0xB4 3 in
  valid debug64 Dim2D (KStatic U8) a /\ valid debug64 Dim2D (KStatic U8) b
  /\ static_cmp debug64 Dim2D U8 a b = Ret Lt
  /\ dynamic_from_static debug64 Dim2D layout2D U8 a = Ret (MkDynamic [0xB0] 2)
  /\ dynamic_from_static debug64 Dim2D layout2D U8 b = Ret (MkDynamic [0xB4] 3)
  /\ dynamic_cmp debug64 Dim2D (MkDynamic [0xB0] 2) (MkDynamic [0xB4] 3) = Ret Lt.
Proof. concrete. Qed.

Theorem c45_dynamic_to_static : forall c D L t (a b : storage KDynamic) a' b',
  is_dim D L -> valid c D KDynamic a -> valid c D KDynamic b ->
  static_from_dynamic c D t a = Ret (Ok a') -> static_from_dynamic c D t b = Ret (Ok b') ->
  idx_cmp c D (KStatic t) a' b' = idx_cmp c D KDynamic a b.
Proof. exact c45_dynamic_to_static_lemma. Qed.
Print Assumptions c45_dynamic_to_static.
Example c45_dynamic_to_static_example :
  let a := MkDynamic [0xB0] 2 in let b := MkDynamic [0x00; 0xB4] 3 in
  valid debug64 Dim2D KDynamic a /\ valid debug64 Dim2D KDynamic b
  /\ static_from_dynamic debug64 Dim2D U16 a = Ret (Ok (MkStatic 0xB000 2)) /\ static_from_dynamic debug64 Dim2D U16 b = Ret (Ok (MkStatic 0xB400 3))
  /\ dynamic_cmp debug64 Dim2D a b = Ret Lt.
Proof. concrete. Qed.

Theorem c45_fixed_to_static : forall c D L t (a b : storage (KFixed t)) la lb,
  made c D L (KFixed t) true a la -> made c D L (KFixed t) true b lb ->
  idx_cmp c D (KStatic t) (static_from_fixed c D t a) (static_from_fixed c D t b) = idx_cmp c D (KFixed t) a b.
Proof. exact c45_fixed_to_static_lemma. Qed.
Print Assumptions c45_fixed_to_static.
Example c45_fixed_to_static_example :
  made debug64 Dim3D layout3D (KFixed U8) true (MkFixed 0x28) [O1; O2] /\ made debug64 Dim3D layout3D (KFixed U8) true (MkFixed 0x2C) [O1; O3]
  /\ static_cmp debug64 Dim3D U8 (static_from_fixed debug64 Dim3D U8 (MkFixed 0x28)) (static_from_fixed debug64 Dim3D U8 (MkFixed 0x2C)) = Ret Lt.
Proof.
  split; [made_by (start_fixed_cells debug64 Dim3D layout3D U8 [O1; O2]) (@nil (call Dim3D))|].
  split; [made_by (start_fixed_cells debug64 Dim3D layout3D U8 [O3; O1]) [CInverted (D:=Dim3D)]|]. concrete.
Qed.

Theorem c45_fixed_to_dynamic : forall c D L t (a b : storage (KFixed t)) la lb,
  made c D L (KFixed t) true a la -> made c D L (KFixed t) true b lb ->
  idx_cmp c D KDynamic (dynamic_from_fixed c D t a) (dynamic_from_fixed c D t b) = idx_cmp c D (KFixed t) a b.
Proof. exact c45_fixed_to_dynamic_lemma. Qed.
Print Assumptions c45_fixed_to_dynamic.
Example c45_fixed_to_dynamic_example :
  made debug64 Dim3D layout3D (KFixed U8) true (MkFixed 0x28) [O1; O2] /\ made debug64 Dim3D layout3D (KFixed U8) true (MkFixed 0x2C) [O1; O3]
  /\ dynamic_cmp debug64 Dim3D (dynamic_from_fixed debug64 Dim3D U8 (MkFixed 0x28)) (dynamic_from_fixed debug64 Dim3D U8 (MkFixed 0x2C)) = Ret Lt.
Proof.
  split; [made_by (start_fixed_cells debug64 Dim3D layout3D U8 [O1; O2]) (@nil (call Dim3D))|].
  split; [made_by (start_fixed_cells debug64 Dim3D layout3D U8 [O3; O1]) [CInverted (D:=Dim3D)]|]. concrete.
Qed.

(* static to fixed-depth conversion forgets the depth; it never reverses the order *)
Theorem c45_static_to_fixed_monotone : forall c D L t (a b : storage (KStatic t)) la lb,
  made c D L (KStatic t) true a la -> made c D L (KStatic t) true b lb ->
  idx_cmp c D (KStatic t) a b = Ret Lt ->
  exists r, idx_cmp c D (KFixed t) (fixed_from_static a) (fixed_from_static b) = Ret r /\ r <> Gt
    /\ (r = Eq <-> exists n, lb = la ++ repeat (cell_zero D) n).
Proof. exact c45_static_to_fixed_monotone_lemma. Qed.
Print Assumptions c45_static_to_fixed_monotone.
Example c45_static_to_fixed_monotone_example :
  made debug64 Dim2D layout2D (KStatic U16) true (MkStatic 0xB000 2) [Q2; Q3]
  /\ made debug64 Dim2D layout2D (KStatic U16) true (MkStatic 0xB000 3) [Q2; Q3; Q0]
  /\ static_cmp debug64 Dim2D U16 (MkStatic 0xB000 2) (MkStatic 0xB000 3) = Ret Lt
  /\ fixed_cmp (fixed_from_static (MkStatic 0xB000 2)) (fixed_from_static (MkStatic 0xB000 3)) = Eq.
Proof.
  split; [made_by (start_static_default debug64 Dim2D layout2D U16) [CChild (D:=Dim2D) Q2; CChild (D:=Dim2D) Q3]|].
  split; [made_by (start_static_cells debug64 Dim2D layout2D U16 [Q0; Q3; Q2]) [CInverted (D:=Dim2D)]|]. concrete.
Qed.
