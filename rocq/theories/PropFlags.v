(* PropFlags.v - C75 Debug texts with formatting flags *)
From Coq Require Import Strings.String Strings.Ascii ZifyBool ZifyNat ZifyN.
From Verif Require Import Base ModelNumber ModelDim ModelStorage Model2D Model3D ModelHelper ModelStd ModelError ModelDebug ModelFlags Spec SpecStd SpecText SpecDebug SpecFlags History ExampleTools FactsFlags.

(* ---------- C75 ---------- *)
(* {:?} and {:#?} are the texts of C62 and C70 *)
Theorem c75_without_flags : forall d k (s : storage k) e,
  idx_fmt no_flags d k s = idx_debug d k s /\ idx_fmt alternate_flag d k s = idx_pretty d k s
  /\ error_fmt no_flags e = error_debug e /\ error_fmt alternate_flag e = error_pretty e.
Proof. exact c75_without_flags_lemma. Qed.
Print Assumptions c75_without_flags.
Example c75_without_flags_example :
  idx_fmt no_flags "2D" (KStatic U8) (MkStatic 0xB0 2) = "MortonIndex2D { storage: StaticStorage2D { bits: 176, depth: 2 } }"%string
  /\ idx_fmt (MkFlags LowerHex false false false None " " None) "2D" (KStatic U8) (MkStatic 0xB0 2)
     = "MortonIndex2D { storage: StaticStorage2D { bits: b0, depth: 2 } }"%string.
Proof. split; vm_compute; reflexivity. Qed.

(* every number of a text has exactly this form *)
Theorem c75_numbers : forall fl n t, number_text fl n t <-> t = debug_number fl n.
Proof. exact c75_numbers_lemma. Qed.
Print Assumptions c75_numbers.
Example c75_numbers_example :
  debug_number (MkFlags UpperHex true true true (Some 8%N) "*" (Some AlignLeft)) 0xAF = "+0x000AF"%string
  /\ debug_number (MkFlags NoHex false false false (Some 6%N) "*" (Some AlignCenter)) 123 = "*123**"%string
  /\ debug_number (MkFlags LowerHex true false false (Some 6%N) " " None) 10 = "   0xa"%string
  /\ debug_number (MkFlags LowerHex false true false (Some 3%N) "-" (Some AlignLeft)) 0xBEEF = "+beef"%string.
Proof. repeat split; vm_compute; reflexivity. Qed.

Theorem c75_width : forall fl n w, fl_width fl = Some w -> String.length (fl_fill fl) = 1%nat ->
  (w <= N.of_nat (String.length (debug_number fl n)))%N.
Proof. exact c75_width_lemma. Qed.
Print Assumptions c75_width.
Example c75_width_example :
  let fl := MkFlags NoHex false false false (Some 6%N) "*" (Some AlignLeft) in
  fl_width fl = Some 6%N /\ String.length (fl_fill fl) = 1%nat /\ debug_number fl 42 = "42****"%string.
Proof. repeat split. Qed.

(* the texts on one line, whatever the flags *)
Theorem c75_flat_text : forall fl d, fl_alternate fl = false ->
  (forall t s b, number_text fl (fx_bits s) b ->
     idx_fmt fl d (KFixed t) s = ("MortonIndex" ++ d ++ " { storage: FixedDepthStorage" ++ d ++ " { bits: " ++ b ++ " } }")%string)
  /\ (forall t s b n, number_text fl (sx_bits s) b -> number_text fl (sx_depth s) n ->
     idx_fmt fl d (KStatic t) s
     = ("MortonIndex" ++ d ++ " { storage: StaticStorage" ++ d ++ " { bits: " ++ b ++ ", depth: " ++ n ++ " } }")%string)
  /\ (forall s bs n, Forall2 (number_text fl) (dy_bits s) bs -> number_text fl (dy_depth s) n ->
     idx_fmt fl d KDynamic s
     = ("MortonIndex" ++ d ++ " { storage: DynamicStorage" ++ d ++ " { bits: [" ++ String.concat ", " bs ++ "], depth: " ++ n ++ " } }")%string).
Proof. exact c75_flat_text_lemma. Qed.
Print Assumptions c75_flat_text.
Example c75_flat_text_example :
  let fl := MkFlags LowerHex false false true (Some 2%N) " " None in
  fl_alternate fl = false
  /\ number_text fl 0x80 "80" /\ number_text fl 9 "09" /\ number_text fl 3 "03"
  /\ idx_fmt fl "3D" KDynamic (MkDynamic [0x80; 9] 3) = "MortonIndex3D { storage: DynamicStorage3D { bits: [80, 09], depth: 03 } }"%string.
Proof.
  split; [reflexivity|]. split; [apply c75_numbers_lemma; reflexivity|]. split; [apply c75_numbers_lemma; reflexivity|].
  split; [apply c75_numbers_lemma; reflexivity|]. vm_compute. reflexivity.
Qed.

(* the texts of several lines, unless numbers are padded with line breaks *)
Theorem c75_pretty_text : forall fl d, In d ["2D"; "3D"]%string -> fl_alternate fl = true ->
  (fl_width fl = None \/ fl_zero fl = true \/ every (fun a => a <> "010"%char) (fl_fill fl)) ->
  (forall t s b, number_text fl (fx_bits s) b ->
     idx_fmt fl d (KFixed t) s = lines ["MortonIndex" ++ d ++ " {"; "    storage: FixedDepthStorage" ++ d ++ " {"; "        bits: " ++ b ++ ",";
       "    },"; "}"]%string)
  /\ (forall t s b n, number_text fl (sx_bits s) b -> number_text fl (sx_depth s) n ->
     idx_fmt fl d (KStatic t) s = lines ["MortonIndex" ++ d ++ " {"; "    storage: StaticStorage" ++ d ++ " {"; "        bits: " ++ b ++ ",";
       "        depth: " ++ n ++ ","; "    },"; "}"]%string)
  /\ (forall s bs n, Forall2 (number_text fl) (dy_bits s) bs -> number_text fl (dy_depth s) n ->
     idx_fmt fl d KDynamic s = lines (List.concat [
       ["MortonIndex" ++ d ++ " {"; "    storage: DynamicStorage" ++ d ++ " {"];
       match bs with
       | [] => ["        bits: [],"]
       | _ => List.concat [["        bits: ["]; map (fun b => "            " ++ b ++ ",") bs; ["        ],"]]
       end;
       ["        depth: " ++ n ++ ","; "    },"; "}"]])%string).
Proof. exact c75_pretty_text_lemma. Qed.
Print Assumptions c75_pretty_text.
Example c75_pretty_text_example :
  let fl := MkFlags UpperHex true false true (Some 6%N) " " None in
  fl_alternate fl = true /\ fl_zero fl = true
  /\ number_text fl 0xB0 "0x00B0" /\ number_text fl 2 "0x0002"
  /\ idx_fmt fl "2D" (KStatic U8) (MkStatic 0xB0 2)
     = lines ["MortonIndex2D {"; "    storage: StaticStorage2D {"; "        bits: 0x00B0,"; "        depth: 0x0002,"; "    },"; "}"]%string.
Proof.
  split; [reflexivity|]. split; [reflexivity|]. split; [apply c75_numbers_lemma; reflexivity|].
  split; [apply c75_numbers_lemma; reflexivity|]. vm_compute. reflexivity.
Qed.

(* the text of an index identifies it among the indices of its type *)
Theorem c75_same_text_same_value : forall fl d k (s s' : storage k), In d ["2D"; "3D"]%string -> clear_padding fl ->
  (idx_fmt fl d k s = idx_fmt fl d k s' <-> idx_eq k s s' = true).
Proof. exact c75_same_text_same_value_lemma. Qed.
Print Assumptions c75_same_text_same_value.
Example c75_same_text_same_value_example :
  let fl := MkFlags LowerHex false false false (Some 4%N) "_" (Some AlignCenter) in
  clear_padding fl
  /\ idx_fmt fl "2D" KDynamic (MkDynamic [1; 0x23] 5) = "MortonIndex2D { storage: DynamicStorage2D { bits: [_1__, _23_], depth: _5__ } }"%string
  /\ idx_fmt fl "2D" KDynamic (MkDynamic [1; 0x23] 5) <> idx_fmt fl "2D" KDynamic (MkDynamic [0x12; 3] 5).
Proof.
  split; [|split; [vm_compute; reflexivity|vm_compute; discriminate]]. right. right. split.
  - split; [|exact I]. intros [H|[H|[H|[]]]]; discriminate H.
  - left. repeat split.
Qed.

(* not for every padding: with {:0<5?} the bits 5 and 50 have the same text *)
Theorem c75_same_text_same_value_refuted : exists fl d (s s' : fixed_storage), idx_fmt fl d (KFixed U8) s = idx_fmt fl d (KFixed U8) s'
  /\ valid (Cfg true PW64 LittleEndian) Dim2D (KFixed U8) s /\ valid (Cfg true PW64 LittleEndian) Dim2D (KFixed U8) s' /\ idx_eq (KFixed U8) s s' = false.
Proof. exact c75_same_text_same_value_refuted_lemma. Qed.
Print Assumptions c75_same_text_same_value_refuted.

(* every padding with digits is ambiguous, except on the left zeros and what is in front of + or 0x *)
Theorem c75_digit_padding : forall fl d w a v, fl_width fl = Some w -> (6 <= w)%N -> fl_zero fl = false ->
  fl_fill fl = String a "" -> digit_of (fl_hex fl) a = Some v -> ~ (right_aligned fl /\ (v = 0%N \/ marked fl)) ->
  exists s s' : fixed_storage, (fx_bits s < 2 ^ 16)%N /\ (fx_bits s' < 2 ^ 16)%N /\ idx_eq (KFixed U16) s s' = false
    /\ idx_fmt fl d (KFixed U16) s = idx_fmt fl d (KFixed U16) s'.
Proof. exact c75_digit_padding_lemma. Qed.
Print Assumptions c75_digit_padding.
Example c75_digit_padding_example :
  let fl := MkFlags LowerHex false false false (Some 6%N) "a" (Some AlignCenter) in
  digit_of (fl_hex fl) "a" = Some 10%N /\ ~ (right_aligned fl /\ (10%N = 0%N \/ marked fl))
  /\ idx_fmt fl "2D" (KFixed U16) (MkFixed 1) = idx_fmt fl "2D" (KFixed U16) (MkFixed 0x1A)
  /\ idx_fmt fl "2D" (KFixed U16) (MkFixed 1) = "MortonIndex2D { storage: FixedDepthStorage2D { bits: aa1aaa } }"%string.
Proof.
  split; [reflexivity|]. split; [intros [[H|H] _]; discriminate H|]. split; vm_compute; reflexivity.
Qed.

(* every text tells the type of the index *)
Theorem c75_text_tells_type : forall fl d d' k k' (s : storage k) (s' : storage k'),
  In d ["2D"; "3D"]%string -> In d' ["2D"; "3D"]%string -> idx_fmt fl d k s = idx_fmt fl d' k' s' -> d = d' /\ same_type k k'.
Proof. exact c75_text_tells_type_lemma. Qed.
Print Assumptions c75_text_tells_type.
Example c75_text_tells_type_example :
  let fl := MkFlags NoHex true false false (Some 3%N) "," None in
  idx_fmt fl "2D" (KFixed U8) (MkFixed 5) <> idx_fmt fl "3D" (KFixed U8) (MkFixed 5)
  /\ idx_fmt fl "2D" (KFixed U8) (MkFixed 5) = idx_fmt fl "2D" (KFixed U16) (MkFixed 5).
Proof. split; vm_compute; [discriminate|reflexivity]. Qed.

Theorem c75_text_tells_cells : forall fl c D L k d (a b : storage k) la lb, In d ["2D"; "3D"]%string -> clear_padding fl ->
  made c D L k true a la -> made c D L k true b lb -> (idx_fmt fl d k a = idx_fmt fl d k b <-> la = lb).
Proof. exact c75_text_tells_cells_lemma. Qed.
Print Assumptions c75_text_tells_cells.
Example c75_text_tells_cells_example :
  let fl := MkFlags LowerHex false false true (Some 4%N) " " None in
  clear_padding fl
  /\ made debug64 Dim2D layout2D (KStatic U16) true (MkStatic 0x8000 1) [Q2]
  /\ made debug64 Dim2D layout2D (KStatic U16) true (MkStatic 0x9000 2) [Q2; Q1]
  /\ idx_fmt fl "2D" (KStatic U16) (MkStatic 0x8000 1) = "MortonIndex2D { storage: StaticStorage2D { bits: 8000, depth: 0001 } }"%string
  /\ idx_fmt fl "2D" (KStatic U16) (MkStatic 0x9000 2) = "MortonIndex2D { storage: StaticStorage2D { bits: 9000, depth: 0002 } }"%string.
Proof.
  split; [right; left; reflexivity|].
  split; [made_by (start_static_default debug64 Dim2D layout2D U16) [CChild (D:=Dim2D) Q2]|].
  split; [made_by (start_static_cells debug64 Dim2D layout2D U16 [Q2; Q1]) (@nil (call Dim2D))|]. split; vm_compute; reflexivity.
Qed.

(* errors *)
Theorem c75_errors : forall fl,
  (forall n b, fl_alternate fl = false -> number_text fl n b ->
     error_fmt fl (DepthLimitedExceeded n) = ("DepthLimitedExceeded { max_depth: " ++ b ++ " }")%string)
  /\ error_fmt fl CellIndexOutOfRange = "CellIndexOutOfRange"%string
  /\ (clear_padding fl -> forall e e', error_fmt fl e = error_fmt fl e' <-> e = e').
Proof. exact c75_errors_lemma. Qed.
Print Assumptions c75_errors.
Example c75_errors_example :
  error_fmt (MkFlags LowerHex true false false None " " None) (DepthLimitedExceeded 21) = lines ["DepthLimitedExceeded {"; "    max_depth: 0x15,"; "}"]%string
  /\ error_fmt (MkFlags LowerHex false false false None " " None) (DepthLimitedExceeded 21) = "DepthLimitedExceeded { max_depth: 15 }"%string.
Proof. split; vm_compute; reflexivity. Qed.

(* displayable slices ignore all flags *)
Theorem c75_displayable : forall fl T c (to_string : T -> naming -> outcome string) l n names,
  Forall2 (fun x name => to_string x n = Ret name) l names ->
  displayable_fmt fl c to_string (make_displayable l n) = Ret ("[" ++ String.concat ", " names ++ "]")%string.
Proof. exact c75_displayable_lemma. Qed.
Print Assumptions c75_displayable.
Example c75_displayable_example :
  displayable_fmt (MkFlags LowerHex true true true (Some 9%N) "*" (Some AlignLeft)) debug64 (to_string_2d debug64 (static_ops debug64 Dim2D U16))
    (make_displayable [MkStatic 0x6C00 3; MkStatic 0x8000 1; static_default] CellConcatenationWithRoot) = Ret "[r123, r2, r]"%string.
Proof. concrete. Qed.
