(* PropStd.v - C62 Debug texts, C63 formatters that can fail, C64 provided iterator methods *)
From Coq Require Import Strings.String Strings.Ascii DecimalString DecimalN DecimalFacts ZifyBool ZifyNat ZifyN.
From Verif Require Import Base ModelNumber ModelDim ModelStorage Model2D Model3D ModelHelper ModelStd Spec SpecStd SpecText History ExampleTools FactsStd.

(* ---------- C62 ---------- *)
(* the exact texts *)
Theorem c62_debug_text : forall d,
  (forall t s b, numeral (fx_bits s) b ->
     idx_debug d (KFixed t) s = ("MortonIndex" ++ d ++ " { storage: FixedDepthStorage" ++ d ++ " { bits: " ++ b ++ " } }")%string)
  /\ (forall t s b n, numeral (sx_bits s) b -> numeral (sx_depth s) n ->
     idx_debug d (KStatic t) s
     = ("MortonIndex" ++ d ++ " { storage: StaticStorage" ++ d ++ " { bits: " ++ b ++ ", depth: " ++ n ++ " } }")%string)
  /\ (forall s bs n, Forall2 numeral (dy_bits s) bs -> numeral (dy_depth s) n ->
     idx_debug d KDynamic s
     = ("MortonIndex" ++ d ++ " { storage: DynamicStorage" ++ d ++ " { bits: [" ++ String.concat ", " bs ++ "], depth: " ++ n ++ " } }")%string).
Proof. exact c62_debug_text_lemma. Qed.
Print Assumptions c62_debug_text.
Example c62_debug_text_example :
  numeral 0xB0 "176" /\ numeral 2 "2"
  /\ idx_debug "2D" (KStatic U8) (MkStatic 0xB0 2) = "MortonIndex2D { storage: StaticStorage2D { bits: 176, depth: 2 } }"%string
  /\ idx_debug "3D" KDynamic (MkDynamic [0x80; 0x29] 3) = "MortonIndex3D { storage: DynamicStorage3D { bits: [128, 41], depth: 3 } }"%string
  /\ idx_debug "3D" KDynamic (MkDynamic [] 0) = "MortonIndex3D { storage: DynamicStorage3D { bits: [], depth: 0 } }"%string
  /\ idx_debug "2D" (KFixed U16) (MkFixed 7) = "MortonIndex2D { storage: FixedDepthStorage2D { bits: 7 } }"%string.
Proof.
  split; [split; [discriminate|split; [reflexivity|intros s' E; discriminate E]]|].
  split; [split; [discriminate|split; [reflexivity|intros s' E; discriminate E]]|]. repeat split; vm_compute; reflexivity.
Qed.

(* the text of an index identifies it among the indices of its type *)
Theorem c62_same_text_same_value : forall d k (s s' : storage k), idx_debug d k s = idx_debug d k s' <-> idx_eq k s s' = true.
Proof. exact c62_same_text_same_value_lemma. Qed.
Print Assumptions c62_same_text_same_value.
Example c62_same_text_same_value_example :
  idx_debug "2D" KDynamic (MkDynamic [1; 23] 5) <> idx_debug "2D" KDynamic (MkDynamic [12; 3] 5)
  /\ idx_eq KDynamic (MkDynamic [1; 23] 5) (MkDynamic [12; 3] 5) = false.
Proof. split; vm_compute; [discriminate|reflexivity]. Qed.

(* and tells its type *)
Theorem c62_text_tells_type : forall d d' k k' (s : storage k) (s' : storage k'),
  In d ["2D"; "3D"]%string -> In d' ["2D"; "3D"]%string -> idx_debug d k s = idx_debug d' k' s' -> d = d' /\ same_type k k'.
Proof. exact c62_text_tells_type_lemma. Qed.
Print Assumptions c62_text_tells_type.
Example c62_text_tells_type_example :
  idx_debug "2D" (KFixed U8) (MkFixed 5) <> idx_debug "3D" (KFixed U8) (MkFixed 5)
  /\ idx_debug "2D" (KFixed U8) (MkFixed 5) = idx_debug "2D" (KFixed U16) (MkFixed 5).
Proof. split; vm_compute; [discriminate|reflexivity]. Qed.

Theorem c62_text_tells_cells : forall c D L k d (a b : storage k) la lb,
  made c D L k true a la -> made c D L k true b lb -> (idx_debug d k a = idx_debug d k b <-> la = lb).
Proof. exact c62_text_tells_cells_lemma. Qed.
Print Assumptions c62_text_tells_cells.
Example c62_text_tells_cells_example :
  made debug64 Dim2D layout2D (KStatic U16) true (MkStatic 0x8000 1) [Q2]
  /\ made debug64 Dim2D layout2D (KStatic U16) true (MkStatic 0x9000 2) [Q2; Q1]
  /\ idx_debug "2D" (KStatic U16) (MkStatic 0x8000 1) <> idx_debug "2D" (KStatic U16) (MkStatic 0x9000 2).
Proof.
  split; [made_by (start_static_default debug64 Dim2D layout2D U16) [CChild (D:=Dim2D) Q2]|].
  split; [made_by (start_static_cells debug64 Dim2D layout2D U16 [Q2; Q1]) (@nil (call Dim2D))|]. vm_compute. discriminate.
Qed.

(* cells, orderings and namings *)
Theorem c62_enum_names :
  (forall q q', quadrant_debug q = quadrant_debug q' <-> q = q')
  /\ (forall q q', octant_debug q = octant_debug q' <-> q = q')
  /\ (forall o o', quadrant_ordering_debug o = quadrant_ordering_debug o' <-> o = o')
  /\ (forall o o', octant_ordering_debug o = octant_ordering_debug o' <-> o = o')
  /\ (forall n n', naming_debug n = naming_debug n' <-> n = n').
Proof. exact c62_enum_names_lemma. Qed.
Print Assumptions c62_enum_names.
Example c62_enum_names_example : quadrant_debug Q2 = "Two"%string /\ octant_debug O7 = "Seven"%string /\ octant_ordering_debug ZYX = "ZYX"%string.
Proof. repeat split. Qed.

(* a naming is printed as the name of its variant *)
Theorem c62_naming_names : forall n, In (n, naming_debug n)
  [(GridIndex, "GridIndex"%string); (CellConcatenationWithRoot, "CellConcatenationWithRoot"%string); (CellConcatenation, "CellConcatenation"%string)].
Proof. exact c62_naming_names_lemma. Qed.
Print Assumptions c62_naming_names.
Example c62_naming_names_example : naming_debug CellConcatenationWithRoot = "CellConcatenationWithRoot"%string.
Proof. reflexivity. Qed.

(* ---------- C63 ---------- *)
(* any writer: it gets the brackets, names and separators in order, until it fails; a failure is reported and nothing is written after it *)
Theorem c63_texts_in_order : forall T W c (to_string : T -> naming -> outcome string) (write : writer W) l n names w,
  Forall2 (fun x name => to_string x n = Ret name) l names ->
  display_to c to_string write (make_displayable l n) w = Ret (feed write (slice_texts names) w)
  /\ debug_to c to_string write (make_displayable l n) w = Ret (feed write (slice_texts names) w)
  /\ display_fmt c to_string (make_displayable l n) = Ret (String.concat "" (slice_texts names)).
Proof. exact c63_texts_in_order_lemma. Qed.
Print Assumptions c63_texts_in_order.
Example c63_texts_in_order_example :
  Forall2 (fun x name => to_string_2d debug64 (static_ops debug64 Dim2D U16) x CellConcatenationWithRoot = Ret name)
    [MkStatic 0x8000 1; MkStatic 0x9000 2] ["r2"; "r21"]%string
  /\ slice_texts ["r2"; "r21"]%string = ["["; "r2"; ", "; "r21"; "]"]%string
  /\ display_to debug64 (to_string_2d debug64 (static_ops debug64 Dim2D U16)) (fun w (t : string) => (w ++ [t], negb (String.eqb t "r21"%string)))
       (make_displayable [MkStatic 0x8000 1; MkStatic 0x9000 2] CellConcatenationWithRoot) []
     = Ret (["["; "r2"; ", "; "r21"]%string, false).
Proof. split; [repeat constructor|]. split; vm_compute; reflexivity. Qed.

(* a buffer of limited capacity: success exactly if the text fits, and never anything else than its beginning *)
Theorem c63_buffer : forall T c (to_string : T -> naming -> outcome string) l n text cap names,
  Forall2 (fun x name => to_string x n = Ret name) l names ->
  display_fmt c to_string (make_displayable l n) = Ret text ->
  exists w ok, display_to c to_string (buffer cap) (make_displayable l n) ""%string = Ret (w, ok)
    /\ begins w text /\ (ok = true <-> N.of_nat (String.length text) <= cap)%N /\ (ok = true -> w = text).
Proof. exact c63_buffer_lemma. Qed.
Print Assumptions c63_buffer.
Example c63_buffer_example :
  display_to debug64 (to_string_2d debug64 (static_ops debug64 Dim2D U16)) (buffer 9)
       (make_displayable [MkStatic 0x8000 1; MkStatic 0x9000 2] CellConcatenationWithRoot) ""%string = Ret ("[r2, r21]"%string, true)
  /\ display_to debug64 (to_string_2d debug64 (static_ops debug64 Dim2D U16)) (buffer 8)
       (make_displayable [MkStatic 0x8000 1; MkStatic 0x9000 2] CellConcatenationWithRoot) ""%string = Ret ("[r2, r21"%string, false).
Proof. split; vm_compute; reflexivity. Qed.

(* a buffer that is filled up *)
Theorem c63_greedy_buffer : forall T c (to_string : T -> naming -> outcome string) l n text cap names,
  Forall2 (fun x name => to_string x n = Ret name) l names ->
  display_fmt c to_string (make_displayable l n) = Ret text ->
  exists w ok, display_to c to_string (greedy_buffer cap) (make_displayable l n) ""%string = Ret (w, ok)
    /\ begins w text /\ N.of_nat (String.length w) = N.min cap (N.of_nat (String.length text))
    /\ (ok = true <-> N.of_nat (String.length text) <= cap)%N.
Proof. exact c63_greedy_buffer_lemma. Qed.
Print Assumptions c63_greedy_buffer.
Example c63_greedy_buffer_example :
  display_to debug64 (to_string_2d debug64 (static_ops debug64 Dim2D U16)) (greedy_buffer 7)
       (make_displayable [MkStatic 0x8000 1; MkStatic 0x9000 2] CellConcatenationWithRoot) ""%string = Ret ("[r2, r2"%string, false).
Proof. vm_compute. reflexivity. Qed.

(* ---------- C64 ---------- *)
(* nth(n) of the iterator over the cells in any position i: the cell n levels further down, None behind the last one *)
Theorem c64_nth : forall c D L k (s : storage k) l n i,
  is_dim D L -> valid c D k s -> shows (ops c D k) s l -> i <= len l ->
  iter_nth c (ops c D k) s n i = Ret (nth_error l (N.to_nat (i + n)), N.min (i + n + 1) (len l)).
Proof. exact c64_nth_lemma. Qed.
Print Assumptions c64_nth.
Example c64_nth_example :
  valid debug64 Dim2D (KStatic U8) (MkStatic 0xB0 2) /\ shows (static_ops debug64 Dim2D U8) (MkStatic 0xB0 2) [Q2; Q3]
  /\ iter_nth debug64 (static_ops debug64 Dim2D U8) (MkStatic 0xB0 2) 1 0 = Ret (Some Q3, 2)
  /\ iter_nth debug64 (static_ops debug64 Dim2D U8) (MkStatic 0xB0 2) 1 1 = Ret (None, 2).
Proof. concrete. Qed.

(* fold, and with it for_each, max, sum and the like: the remaining cells in order; errors of the closure are passed on *)
Theorem c64_fold : forall c D L k (s : storage k) l i A (f : A -> cell D -> outcome A) acc,
  is_dim D L -> valid c D k s -> shows (ops c D k) s l -> i <= len l ->
  iter_fold c (ops c D k) s (iter_fuel (ops c D k) s) f acc i = foldM f (skipn (N.to_nat i) l) acc.
Proof. exact c64_fold_lemma. Qed.
Print Assumptions c64_fold.
Example c64_fold_example :
  valid debug64 Dim2D (KStatic U8) (MkStatic 0xB0 2) /\ shows (static_ops debug64 Dim2D U8) (MkStatic 0xB0 2) [Q2; Q3]
  /\ iter_fold debug64 (static_ops debug64 Dim2D U8) (MkStatic 0xB0 2) (iter_fuel (static_ops debug64 Dim2D U8) (MkStatic 0xB0 2))
       (fun acc x => Ret (10 * acc + quadrant_index x)) 0 0 = Ret 23.
Proof. concrete. Qed.

Theorem c64_count : forall c D L k (s : storage k) l i,
  is_dim D L -> valid c D k s -> shows (ops c D k) s l -> i <= len l -> iter_count c (ops c D k) s i = Ret (len l - i).
Proof. exact c64_count_lemma. Qed.
Print Assumptions c64_count.
Example c64_count_example :
  valid debug64 Dim2D (KStatic U8) (MkStatic 0xB0 2) /\ shows (static_ops debug64 Dim2D U8) (MkStatic 0xB0 2) [Q2; Q3]
  /\ iter_count debug64 (static_ops debug64 Dim2D U8) (MkStatic 0xB0 2) 1 = Ret 1.
Proof. concrete. Qed.

Theorem c64_last : forall c D L k (s : storage k) l i,
  is_dim D L -> valid c D k s -> shows (ops c D k) s l -> i <= len l ->
  iter_last c (ops c D k) s i = Ret (if i <? len l then nth_error l (List.length l - 1) else None).
Proof. exact c64_last_lemma. Qed.
Print Assumptions c64_last.
Example c64_last_example :
  valid debug64 Dim2D (KStatic U8) (MkStatic 0xB0 2) /\ shows (static_ops debug64 Dim2D U8) (MkStatic 0xB0 2) [Q2; Q3]
  /\ iter_last debug64 (static_ops debug64 Dim2D U8) (MkStatic 0xB0 2) 1 = Ret (Some Q3)
  /\ iter_last debug64 (static_ops debug64 Dim2D U8) (MkStatic 0xB0 2) 2 = Ret None.
Proof. concrete. Qed.

(* from the start, for an index with at least one level *)
Theorem c64_last_is_deepest : forall c D L k (s : storage k) l x,
  is_dim D L -> valid c D k s -> shows (ops c D k) s (l ++ [x]) ->
  iter_last c (ops c D k) s cell_iter_start = Ret (Some x)
  /\ iter_nth c (ops c D k) s (len l) cell_iter_start = Ret (Some x, len l + 1)
  /\ iter_count c (ops c D k) s cell_iter_start = Ret (len l + 1).
Proof. exact c64_last_is_deepest_lemma. Qed.
Print Assumptions c64_last_is_deepest.
Example c64_last_is_deepest_example :
  valid debug64 Dim3D KDynamic (MkDynamic [0x80; 0x29] 3) /\ shows (dynamic_ops debug64 Dim3D) (MkDynamic [0x80; 0x29] 3) ([O1; O2] ++ [O3])
  /\ iter_last debug64 (dynamic_ops debug64 Dim3D) (MkDynamic [0x80; 0x29] 3) cell_iter_start = Ret (Some O3).
Proof. concrete. Qed.
