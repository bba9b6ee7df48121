(* PropRest.v - Ranges of every length (C54) and comparison of too deep indices (C43), without overflow checks *)
From Verif Require Import Base ModelNumber ModelDim ModelStorage Model2D Model3D Spec History ExampleTools FactsRest.

(* ---------- C54 ---------- *)
(* Only the length modulo 2^32 counts, and a length that then exceeds the integer selects nothing; with c54_set_bits_every_range this gives set_bits for every range *)
Theorem c54_lengths_release : forall c t v s e x, overflow_checks c = false -> s < 2 ^ usize_bits c -> e < 2 ^ usize_bits c ->
  let n := range_len s e mod 2 ^ 32 in
  let m := if n <=? BITS c t then n else 0 in
  num_get_bits c t v s e = num_get_bits c t v s (s + m) /\ num_set_bits c t v s e x = num_set_bits c t v s (s + m) x.
Proof. exact c54_lengths_release_lemma. Qed.
Print Assumptions c54_lengths_release.
Example c54_lengths_release_example : let e := 3 + 2 ^ 32 + 4 in
  num_get_bits release64 U8 0xFF 3 e = num_get_bits release64 U8 0xFF 3 7 /\ num_get_bits release64 U8 0xFF 3 e = Ret 15
  /\ num_set_bits release64 U8 0x81 3 e 0xA = Ret 0xD1 /\ num_set_bits release64 U8 0x81 1 (1 + 2 ^ 20) 0x06 = Ret 0x8D.
Proof. concrete. Qed.

Theorem c54_get_bits_release : forall c t v s e, overflow_checks c = false -> v < 2 ^ BITS c t -> s < 2 ^ usize_bits c -> e < 2 ^ usize_bits c ->
  let n := range_len s e mod 2 ^ 32 in
  num_get_bits c t v s e
  = Ret (if n <=? BITS c t then v / 2 ^ (s mod 2 ^ N.min 32 (BITS c t)) mod 2 ^ n else 0).
Proof. exact c54_get_bits_release_lemma. Qed.
Print Assumptions c54_get_bits_release.
Example c54_get_bits_release_example : num_get_bits release64 U8 0xAB 2 (2 ^ 32 + 5) = Ret 2 /\ num_get_bits release64 U8 0xAB 2 (2 ^ 32 + 1) = Ret 0.
Proof. concrete. Qed.

(* ---------- C43 ---------- *)
(* If both are too deep only the depths are compared; otherwise the paths up to the smaller depth, then the depths *)
Theorem c43_too_deep_cmp_release : forall c t b d b' d', overflow_checks c = false -> d < 2 ^ 8 -> d' < 2 ^ 8 ->
  b < 2 ^ BITS c t -> b' < 2 ^ BITS c t ->
  let r := static_cmp c Dim3D t (static_from_raw_index b d) (static_from_raw_index b' d') in
  if BITS c t / 3 <? N.min d d' then r = Ret (N.compare d d')
  else exists l l', len l = N.min d d' /\ len l' = N.min d d'
    /\ shows (static_ops c Dim3D t) (static_from_raw_index b (N.min d d')) l
    /\ shows (static_ops c Dim3D t) (static_from_raw_index b' (N.min d d')) l'
    /\ r = Ret (match path_cmp l l' with Eq => N.compare d d' | x => x end).
Proof. exact c43_too_deep_cmp_release_lemma. Qed.
Print Assumptions c43_too_deep_cmp_release.
Example c43_too_deep_cmp_release_example :
  static_cmp release64 Dim3D U8 (static_from_raw_index 0xFF 3) (static_from_raw_index 0 4) = Ret Lt
  /\ static_cmp release64 Dim3D U8 (static_from_raw_index 0x20 1) (static_from_raw_index 0x30 9) = Ret Lt
  /\ static_cmp release64 Dim3D U8 (static_from_raw_index 0x40 1) (static_from_raw_index 0x30 9) = Ret Gt.
Proof. concrete. Qed.
