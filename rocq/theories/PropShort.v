(* PropShort.v - Dynamic storages whose byte vector was replaced by one that is too short (C58) *)
From Verif Require Import Base ModelNumber ModelDim ModelStorage Model2D Model3D ModelBits Spec History ExampleTools FactsShort.

(* ---------- C58 ---------- *)
(* Without overflow checks, for vectors of every length: positions wrap around; of the levels without bits, the first ones read as Zero and the others panic *)
Theorem c58_get_any_vector_release : forall c D L (s : storage KDynamic) b i, is_dim D L -> overflow_checks c = false ->
  Forall (fun x => x < 256) b -> i < dy_depth s -> dy_depth s < 2 ^ usize_bits c ->
  let W := usize_bits c in
  let pos := (8 * len b + dim D * (2 ^ W - (i + 1))) mod 2 ^ W in
  if 2 ^ W <? pos + dim D + 8 then st_get (dynamic_ops c D) (dynamic_put_bits s b) i = Ret (cell_zero D)
  else if pos + dim D <=? 8 * len b
  then exists x, st_get (dynamic_ops c D) (dynamic_put_bits s b) i = Ret x /\ cell_index D x = bytes_value b / 2 ^ pos mod 2 ^ dim D
  else st_get (dynamic_ops c D) (dynamic_put_bits s b) i = Panic.
Proof. exact c58_get_any_vector_release_lemma. Qed.
Print Assumptions c58_get_any_vector_release.
Example c58_get_any_vector_release_example : let release16 := Cfg false PW16 LittleEndian in let s := dynamic_put_bits (MkDynamic [0; 0; 0; 0x40] 12) [0xB7] in
  dy_depth s < 2 ^ usize_bits release16
  /\ st_get (dynamic_ops release16 Dim2D) s 3 = Ret Q3 /\ st_get (dynamic_ops release16 Dim2D) s 4 = Ret Q0
  /\ st_get (dynamic_ops release16 Dim2D) s 7 = Ret Q0 /\ st_get (dynamic_ops release16 Dim2D) s 8 = Panic.
Proof. concrete. Qed.

(* Writing: nothing happens at the levels that read as Zero *)
Theorem c58_set_any_vector_release : forall c D L (s : storage KDynamic) b i x, is_dim D L -> overflow_checks c = false ->
  Forall (fun y => y < 256) b -> i < dy_depth s -> dy_depth s < 2 ^ usize_bits c ->
  let W := usize_bits c in
  let pos := (8 * len b + dim D * (2 ^ W - (i + 1))) mod 2 ^ W in
  if 2 ^ W <? pos + dim D + 8 then st_set (dynamic_ops c D) (dynamic_put_bits s b) i x = Ret (dynamic_put_bits s b)
  else if pos + dim D <=? 8 * len b
  then exists b', st_set (dynamic_ops c D) (dynamic_put_bits s b) i x = Ret (dynamic_put_bits s b')
         /\ len b' = len b /\ Forall (fun y => y < 256) b'
         /\ bits_replaced (bytes_value b) pos (dim D) (cell_index D (stored c D KDynamic x)) (bytes_value b')
  else st_set (dynamic_ops c D) (dynamic_put_bits s b) i x = Panic.
Proof. exact c58_set_any_vector_release_lemma. Qed.
Print Assumptions c58_set_any_vector_release.
Example c58_set_any_vector_release_example : let release16 := Cfg false PW16 LittleEndian in let s := MkDynamic [0; 0; 0; 0x40] 12 in
  dy_depth s < 2 ^ usize_bits release16
  /\ st_set (dynamic_ops release16 Dim2D) (dynamic_put_bits s [0xB7]) 3 Q0 = Ret (dynamic_put_bits s [0xB4])
  /\ st_set (dynamic_ops release16 Dim2D) (dynamic_put_bits s [0xB7]) 4 Q1 = Ret (dynamic_put_bits s [0xB7])
  /\ st_set (dynamic_ops release16 Dim2D) (dynamic_put_bits s [0xB7]) 8 Q1 = Panic.
Proof. concrete. Qed.

(* With overflow checks writing a level without bits panics; on big-endian targets see C36 for what is written *)
Theorem c58_set_short_vector : forall c D L (s : storage KDynamic) b i x, is_dim D L -> overflow_checks c = true ->
  Forall (fun y => y < 256) b -> 8 * len b + 8 <= 2 ^ usize_bits c -> i < dy_depth s -> dy_depth s < 2 ^ usize_bits c ->
  if dim D * (i + 1) <=? 8 * len b
  then exists b', st_set (dynamic_ops c D) (dynamic_put_bits s b) i x = Ret (dynamic_put_bits s b')
         /\ len b' = len b /\ Forall (fun y => y < 256) b'
         /\ bits_replaced (bytes_value b) (8 * len b - dim D * (i + 1)) (dim D) (cell_index D (stored c D KDynamic x)) (bytes_value b')
  else st_set (dynamic_ops c D) (dynamic_put_bits s b) i x = Panic.
Proof. exact c58_set_short_vector_lemma. Qed.
Print Assumptions c58_set_short_vector.
Example c58_set_short_vector_example : let s := MkDynamic [0; 0x40] 5 in
  Forall (fun y => y < 256) [0xB7] /\ 8 * len [0xB7] + 8 <= 2 ^ usize_bits debug64 /\ dy_depth s < 2 ^ usize_bits debug64
  /\ st_set (dynamic_ops debug64 Dim2D) (dynamic_put_bits s [0xB7]) 3 Q0 = Ret (dynamic_put_bits s [0xB4])
  /\ st_set (dynamic_ops debug64 Dim2D) (dynamic_put_bits s [0xB7]) 4 Q0 = Panic.
Proof. concrete. Qed.

(* Comparison panics exactly if no level before the first one without bits (level k) decides *)
Theorem c58_short_comparison : forall c D L d b d' b', is_dim D L -> overflow_checks c = true ->
  Forall (fun x => x < 256) b -> Forall (fun x => x < 256) b' ->
  8 * len b + 8 <= 2 ^ usize_bits c -> 8 * len b' + 8 <= 2 ^ usize_bits c -> d < 2 ^ usize_bits c -> d' < 2 ^ usize_bits c ->
  let missing_from d b := if d <=? 8 * len b / dim D then 2 ^ usize_bits c else 8 * len b / dim D in
  let k := N.min (missing_from d b) (missing_from d' b') in
  exists l l', shows (dynamic_ops c D) (MkDynamic b (N.min d k)) l /\ shows (dynamic_ops c D) (MkDynamic b' (N.min d' k)) l'
    /\ dynamic_cmp c D (MkDynamic b d) (MkDynamic b' d')
       = match path_cmp l l' with Eq => if len l =? k then Panic else Ret Eq | r => Ret r end.
Proof. exact c58_short_comparison_lemma. Qed.
Print Assumptions c58_short_comparison.
Example c58_short_comparison_example :
  8 * len [0xB7] + 8 <= 2 ^ usize_bits debug64 /\ 8 * len [0; 0xB7] + 8 <= 2 ^ usize_bits debug64
  /\ dynamic_cmp debug64 Dim2D (MkDynamic [0xB7] 5) (MkDynamic [0; 0xB4] 5) = Ret Gt
  /\ dynamic_cmp debug64 Dim2D (MkDynamic [0xB7] 5) (MkDynamic [0xB7] 4) = Panic
  /\ dynamic_cmp debug64 Dim2D (MkDynamic [0xB7] 5) (MkDynamic [0; 0xB7] 5) = Panic
  /\ dynamic_cmp debug64 Dim2D (MkDynamic [0xB7] 5) (MkDynamic [0xB7] 3) = Ret Gt.
Proof. concrete. Qed.
