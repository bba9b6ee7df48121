(* PropMaps.v - hashing with any Hasher (C73), indices as keys of maps (C74) *)
From Coq Require Import Sorting.Sorted.
From Verif Require Import Base ModelNumber ModelDim ModelStorage ModelHash Spec SpecTraits SpecMaps History ExampleTools FactsMaps.

(* ---------- C73 ---------- *)
(* indices that are == have the same hash, whatever the Hasher does with the calls *)
Theorem c73_equal_values : forall k (a b : storage k) h, idx_eq k a b = true ->
  hash_of h (idx_calls k a) = hash_of h (idx_calls k b).
Proof. exact c73_equal_values_lemma. Qed.
Print Assumptions c73_equal_values.
Example c73_equal_values_example :
  let h := Hasher N 7 (fun s x => match x with WriteUint _ v | WriteIsize v | WriteLengthPrefix v => 31 * s + v | WriteBytes l => fold_left N.add l s end) (fun s => s) in
  idx_eq (KStatic U16) (MkStatic 0xB000 2) (MkStatic 0xB000 2) = true
  /\ hash_of h (idx_calls (KStatic U16) (MkStatic 0xB000 2)) = 1403465 /\ hash_of h (idx_calls KDynamic (MkDynamic [0; 0xB0] 2)) = 12247.
Proof. concrete. Qed.

(* different indices lead to different calls *)
Theorem c73_calls_identify : forall k (a b : storage k), idx_calls k a = idx_calls k b <-> idx_eq k a b = true.
Proof. exact c73_calls_identify_lemma. Qed.
Print Assumptions c73_calls_identify.
Example c73_calls_identify_example :
  idx_calls KDynamic (MkDynamic [0; 0xB0] 2) = [WriteLengthPrefix 2; WriteBytes [0; 0xB0]; WriteUint USize 2]
  /\ idx_calls KDynamic (MkDynamic [0; 0xB0] 2) <> idx_calls KDynamic (MkDynamic [0; 0xB0] 3).
Proof. split; [reflexivity|discriminate]. Qed.

(* the same for paths *)
Theorem c73_same_path : forall c D L k (a b : storage k) la lb h, made c D L k true a la -> made c D L k true b lb ->
  (la = lb -> hash_of h (idx_calls k a) = hash_of h (idx_calls k b)) /\ (idx_calls k a = idx_calls k b -> la = lb).
Proof. exact c73_same_path_lemma. Qed.
Print Assumptions c73_same_path.
Example c73_same_path_example : made debug64 Dim2D layout2D (KStatic U16) true (MkStatic 0xB000 2) [Q2; Q3]
  /\ made debug64 Dim2D layout2D (KStatic U16) true (MkStatic 0x8000 1) [Q2]
  /\ idx_calls (KStatic U16) (MkStatic 0xB000 2) = [WriteUint U16 0xB000; WriteUint U8 2].
Proof.
  split; [made_by (start_static_cells debug64 Dim2D layout2D U16 [Q2; Q3]) (@nil (call Dim2D))|].
  split; [made_by (start_static_default debug64 Dim2D layout2D U16) [CChild (D:=Dim2D) Q2]|reflexivity].
Qed.

(* with the default methods of Hasher, the bytes of an index are no prefix of the bytes of another one *)
Theorem c73_streams : forall c D L k (a b : storage k) x y, is_dim D L -> valid c D k a -> valid c D k b ->
  stream c (idx_calls k a) ++ x = stream c (idx_calls k b) ++ y -> idx_eq k a b = true /\ x = y.
Proof. exact c73_streams_lemma. Qed.
Print Assumptions c73_streams.
Example c73_streams_example : is_dim Dim2D layout2D /\ valid debug32 Dim2D KDynamic (MkDynamic [0; 0xB0] 2) /\ valid debug32 Dim2D KDynamic (MkDynamic [0xB0] 2)
  /\ stream debug32 (idx_calls KDynamic (MkDynamic [0; 0xB0] 2)) = [2; 0; 0; 0; 0; 0xB0; 2; 0; 0; 0]
  /\ stream debug32 (idx_calls KDynamic (MkDynamic [0xB0] 2)) = [1; 0; 0; 0; 0xB0; 2; 0; 0; 0].
Proof. split; [constructor|]. concrete. Qed.

(* so the bytes of slices of indices identify the slice *)
Theorem c73_slices : forall c D L k (a b : list (storage k)) x y, is_dim D L -> Forall (valid c D k) a -> Forall (valid c D k) b ->
  len a < 2 ^ usize_bits c -> len b < 2 ^ usize_bits c ->
  stream c (slice_calls (idx_calls k) a) ++ x = stream c (slice_calls (idx_calls k) b) ++ y -> a = b /\ x = y.
Proof. exact c73_slices_lemma. Qed.
Print Assumptions c73_slices.
Example c73_slices_example : is_dim Dim2D layout2D /\ Forall (valid debug16 Dim2D (KStatic U16)) [MkStatic 0xB000 2; MkStatic 0x8000 1]
  /\ len [MkStatic 0xB000 2; MkStatic 0x8000 1] < 2 ^ usize_bits debug16
  /\ stream debug16 (slice_calls (idx_calls (KStatic U16)) [MkStatic 0xB000 2; MkStatic 0x8000 1]) = [2; 0; 0; 0xB0; 2; 0; 0x80; 1].
Proof. split; [constructor|]. split; [repeat constructor; vm_compute; reflexivity || discriminate|]. concrete. Qed.

(* cells *)
Theorem c73_cells :
  (forall a b, quadrant_calls a = quadrant_calls b <-> a = b) /\ (forall a b, octant_calls a = octant_calls b <-> a = b)
  /\ (forall c a b x y, stream c (quadrant_calls a) ++ x = stream c (quadrant_calls b) ++ y -> a = b /\ x = y)
  /\ (forall c a b x y, stream c (octant_calls a) ++ x = stream c (octant_calls b) ++ y -> a = b /\ x = y).
Proof. exact c73_cells_lemma. Qed.
Print Assumptions c73_cells.
Example c73_cells_example : stream debug16 (quadrant_calls Q3) = [3; 0] /\ stream debug16 (octant_calls O5) = [5; 0].
Proof. concrete. Qed.

(* a cell writes the number that index() returns *)
Theorem c73_cell_values :
  (forall q, quadrant_calls q = [WriteIsize (cell_index Dim2D q)]) /\ (forall q, octant_calls q = [WriteIsize (cell_index Dim3D q)]).
Proof. exact c73_cell_values_lemma. Qed.
Print Assumptions c73_cell_values.
Example c73_cell_values_example : quadrant_calls Q3 = [WriteIsize 3] /\ octant_calls O6 = [WriteIsize 6].
Proof. split; reflexivity. Qed.

(* a static index writes what the fixed-depth index with its bits writes, and then its depth *)
Theorem c73_static_after_fixed : forall t (s : storage (KStatic t)),
  idx_calls (KStatic t) s = idx_calls (KFixed t) (fixed_from_static s) ++ [WriteUint U8 (sx_depth s)]
  /\ idx_hash (KStatic t) s = idx_hash (KFixed t) (fixed_from_static s) ++ [sx_depth s].
Proof. exact c73_static_after_fixed_lemma. Qed.
Print Assumptions c73_static_after_fixed.
Example c73_static_after_fixed_example :
  idx_calls (KStatic U16) (MkStatic 0xB000 2) = idx_calls (KFixed U16) (MkFixed 0xB000) ++ [WriteUint U8 2]
  /\ idx_hash (KStatic U16) (MkStatic 0xB000 2) = [0xB000; 2].
Proof. concrete. Qed.

(* the data of C44 are the values written, in order *)
Theorem c73_written_values : forall k (s : storage k),
  idx_hash k s = flat_map (fun x => match x with WriteUint _ v | WriteIsize v | WriteLengthPrefix v => [v] | WriteBytes l => l end) (idx_calls k s).
Proof. exact c73_written_values_lemma. Qed.
Print Assumptions c73_written_values.
Example c73_written_values_example : idx_hash KDynamic (MkDynamic [0; 0xB0] 2) = [2; 0; 0xB0; 2].
Proof. concrete. Qed.

(* ---------- C74 ---------- *)
(* the description of the content of a map by the last step for a key is unambiguous *)
Theorem c74_last_step : forall K V (same : K -> Prop) (steps : list (map_step K V)) r r',
  last_step same steps r -> last_step same steps r' -> r = r'.
Proof. exact c74_last_step_lemma. Qed.
Print Assumptions c74_last_step.
Example c74_last_step_example : last_step (eq 5) [Insert 5 1; Insert 6 2; Insert 5 3; Remove 6] (Some 3).
Proof. exact (last_insert (eq 5) [Insert 5 1; Insert 6 2] 5 3 [Remove 6] eq_refl ltac:(repeat constructor; discriminate)). Qed.

(* hash maps: looking up an index finds what was last inserted for its path *)
Theorem c74_hash_map : forall c D L k V (h : hasher) (buckets : N -> N) (steps : list (map_step (storage k) V)) a la,
  Forall (fun x => exists l, made c D L k true (step_key x) l) steps -> made c D L k true a la ->
  let bucket s := buckets (hash_of h (idx_calls k s)) in
  last_step (fun s => made c D L k true s la) steps (hm_get (idx_eq k) bucket (hm_run (idx_eq k) bucket steps) a).
Proof. exact c74_hash_map_lemma. Qed.
Print Assumptions c74_hash_map.
Example c74_hash_map_example :
  let a := MkStatic 0xB000 2 in let b := MkStatic 0x8000 1 in
  let h := Hasher N 7 (fun s x => match x with WriteUint _ v | WriteIsize v | WriteLengthPrefix v => 31 * s + v | WriteBytes l => fold_left N.add l s end) (fun s => s) in
  let bucket s := hash_of h (idx_calls (KStatic U16) s) mod 4 in
  made debug64 Dim2D layout2D (KStatic U16) true a [Q2; Q3] /\ made debug64 Dim2D layout2D (KStatic U16) true b [Q2]
  /\ hm_get (idx_eq (KStatic U16)) bucket (hm_run (idx_eq (KStatic U16)) bucket [Insert a 1; Insert b 2; Insert a 3; Remove b]) a = Some 3
  /\ hm_get (idx_eq (KStatic U16)) bucket (hm_run (idx_eq (KStatic U16)) bucket [Insert a 1; Insert b 2; Insert a 3; Remove b]) b = None.
Proof.
  cbv zeta. split; [made_by (start_static_cells debug64 Dim2D layout2D U16 [Q2; Q3]) (@nil (call Dim2D))|].
  split; [made_by (start_static_default debug64 Dim2D layout2D U16) [CChild (D:=Dim2D) Q2]|]. concrete.
Qed.

(* ordered maps: the same, no comparison panics, and iterating visits the nodes in depth-first order *)
Theorem c74_ordered_map : forall c D L k V (steps : list (map_step (storage k) V)),
  Forall (fun x => exists l, made c D L k true (step_key x) l) steps ->
  exists m, om_run (idx_cmp c D k) steps = Ret m
    /\ (forall a la, made c D L k true a la ->
          exists o, om_get (idx_cmp c D k) m a = Ret o /\ last_step (fun s => made c D L k true s la) steps o)
    /\ (exists paths, Forall2 (fun e p => made c D L k true (fst e) p) m paths /\ StronglySorted earlier paths)
    /\ (forall s v, In (s, v) m <-> last_step (eq s) steps (Some v)).
Proof. exact c74_ordered_map_lemma. Qed.
Print Assumptions c74_ordered_map.
Example c74_ordered_map_example :
  let a := MkStatic 0xB000 2 in let b := MkStatic 0x8000 1 in
  made debug64 Dim2D layout2D (KStatic U16) true a [Q2; Q3] /\ made debug64 Dim2D layout2D (KStatic U16) true b [Q2]
  /\ om_run (idx_cmp debug64 Dim2D (KStatic U16)) [Insert a 1; Insert b 2; Insert a 3] = Ret [(b, 2); (a, 3)]
  /\ om_get (idx_cmp debug64 Dim2D (KStatic U16)) [(b, 2); (a, 3)] a = Ret (Some 3).
Proof.
  cbv zeta. split; [made_by (start_static_cells debug64 Dim2D layout2D U16 [Q2; Q3]) (@nil (call Dim2D))|].
  split; [made_by (start_static_default debug64 Dim2D layout2D U16) [CChild (D:=Dim2D) Q2]|]. concrete.
Qed.
