(* PropDebug.v - C70 Alternate Debug texts *)
From Coq Require Import Strings.String Strings.Ascii DecimalString DecimalN DecimalFacts ZifyBool ZifyNat ZifyN.
From Verif Require Import Base ModelNumber ModelDim ModelStorage Model2D Model3D ModelHelper ModelStd ModelError ModelDebug Spec SpecStd SpecText SpecDebug History ExampleTools FactsDebug.

(* ---------- C70 ---------- *)
(* the exact texts, line by line *)
Theorem c70_pretty_text : forall d, In d ["2D"; "3D"]%string ->
  (forall t s b, numeral (fx_bits s) b ->
     idx_pretty d (KFixed t) s = lines ["MortonIndex" ++ d ++ " {"; "    storage: FixedDepthStorage" ++ d ++ " {"; "        bits: " ++ b ++ ",";
       "    },"; "}"]%string)
  /\ (forall t s b n, numeral (sx_bits s) b -> numeral (sx_depth s) n ->
     idx_pretty d (KStatic t) s = lines ["MortonIndex" ++ d ++ " {"; "    storage: StaticStorage" ++ d ++ " {"; "        bits: " ++ b ++ ",";
       "        depth: " ++ n ++ ","; "    },"; "}"]%string)
  /\ (forall s bs n, Forall2 numeral (dy_bits s) bs -> numeral (dy_depth s) n ->
     idx_pretty d KDynamic s = lines (List.concat [
       ["MortonIndex" ++ d ++ " {"; "    storage: DynamicStorage" ++ d ++ " {"];
       match bs with
       | [] => ["        bits: [],"]
       | _ => List.concat [["        bits: ["]; map (fun b => "            " ++ b ++ ",") bs; ["        ],"]]
       end;
       ["        depth: " ++ n ++ ","; "    },"; "}"]])%string).
Proof. exact c70_pretty_text_lemma. Qed.
Print Assumptions c70_pretty_text.
Example c70_pretty_text_example :
  numeral 0xB0 "176" /\ numeral 2 "2"
  /\ idx_pretty "2D" (KStatic U8) (MkStatic 0xB0 2)
     = lines ["MortonIndex2D {"; "    storage: StaticStorage2D {"; "        bits: 176,"; "        depth: 2,"; "    },"; "}"]%string
  /\ idx_pretty "3D" KDynamic (MkDynamic [0x80; 0x29] 3)
     = lines ["MortonIndex3D {"; "    storage: DynamicStorage3D {"; "        bits: ["; "            128,"; "            41,"; "        ],";
              "        depth: 3,"; "    },"; "}"]%string
  /\ idx_pretty "3D" KDynamic (MkDynamic [] 0)
     = lines ["MortonIndex3D {"; "    storage: DynamicStorage3D {"; "        bits: [],"; "        depth: 0,"; "    },"; "}"]%string.
Proof.
  split; [split; [discriminate|split; [reflexivity|intros s' E; discriminate E]]|].
  split; [split; [discriminate|split; [reflexivity|intros s' E; discriminate E]]|]. repeat split; vm_compute; reflexivity.
Qed.

(* the text of an index identifies it among the indices of its type *)
Theorem c70_same_text_same_value : forall d k (s s' : storage k), In d ["2D"; "3D"]%string ->
  (idx_pretty d k s = idx_pretty d k s' <-> idx_eq k s s' = true).
Proof. exact c70_same_text_same_value_lemma. Qed.
Print Assumptions c70_same_text_same_value.
Example c70_same_text_same_value_example :
  idx_pretty "2D" KDynamic (MkDynamic [1; 23] 5) <> idx_pretty "2D" KDynamic (MkDynamic [12; 3] 5)
  /\ idx_eq KDynamic (MkDynamic [1; 23] 5) (MkDynamic [12; 3] 5) = false.
Proof. split; vm_compute; [discriminate|reflexivity]. Qed.

(* and tells its type *)
Theorem c70_text_tells_type : forall d d' k k' (s : storage k) (s' : storage k'),
  In d ["2D"; "3D"]%string -> In d' ["2D"; "3D"]%string -> idx_pretty d k s = idx_pretty d' k' s' -> d = d' /\ same_type k k'.
Proof. exact c70_text_tells_type_lemma. Qed.
Print Assumptions c70_text_tells_type.
Example c70_text_tells_type_example :
  idx_pretty "2D" (KFixed U8) (MkFixed 5) <> idx_pretty "3D" (KFixed U8) (MkFixed 5)
  /\ idx_pretty "2D" (KFixed U8) (MkFixed 5) = idx_pretty "2D" (KFixed U16) (MkFixed 5).
Proof. split; vm_compute; [discriminate|reflexivity]. Qed.

Theorem c70_text_tells_cells : forall c D L k d (a b : storage k) la lb, In d ["2D"; "3D"]%string ->
  made c D L k true a la -> made c D L k true b lb -> (idx_pretty d k a = idx_pretty d k b <-> la = lb).
Proof. exact c70_text_tells_cells_lemma. Qed.
Print Assumptions c70_text_tells_cells.
Example c70_text_tells_cells_example :
  made debug64 Dim2D layout2D (KStatic U16) true (MkStatic 0x8000 1) [Q2]
  /\ made debug64 Dim2D layout2D (KStatic U16) true (MkStatic 0x9000 2) [Q2; Q1]
  /\ idx_pretty "2D" (KStatic U16) (MkStatic 0x8000 1) <> idx_pretty "2D" (KStatic U16) (MkStatic 0x9000 2).
Proof.
  split; [made_by (start_static_default debug64 Dim2D layout2D U16) [CChild (D:=Dim2D) Q2]|].
  split; [made_by (start_static_cells debug64 Dim2D layout2D U16 [Q2; Q1]) (@nil (call Dim2D))|]. vm_compute. discriminate.
Qed.

(* errors *)
Theorem c70_errors :
  (forall n b, numeral n b -> error_pretty (DepthLimitedExceeded n) = lines ["DepthLimitedExceeded {"; "    max_depth: " ++ b ++ ","; "}"]%string)
  /\ error_pretty CellIndexOutOfRange = "CellIndexOutOfRange"%string
  /\ forall e e', error_pretty e = error_pretty e' <-> e = e'.
Proof. exact c70_errors_lemma. Qed.
Print Assumptions c70_errors.
Example c70_errors_example :
  error_pretty (DepthLimitedExceeded 21) = lines ["DepthLimitedExceeded {"; "    max_depth: 21,"; "}"]%string.
Proof. vm_compute. reflexivity. Qed.

(* displayable slices stay on one line, as with {} *)
Theorem c70_displayable : forall T c (to_string : T -> naming -> outcome string) l n names,
  Forall2 (fun x name => to_string x n = Ret name) l names ->
  displayable_pretty c to_string (make_displayable l n) = Ret ("[" ++ String.concat ", " names ++ "]")%string.
Proof. exact c70_displayable_lemma. Qed.
Print Assumptions c70_displayable.
Example c70_displayable_example :
  displayable_pretty debug64 (to_string_2d debug64 (static_ops debug64 Dim2D U16))
    (make_displayable [MkStatic 0x6C00 3; MkStatic 0x8000 1; static_default] CellConcatenationWithRoot) = Ret "[r123, r2, r]"%string.
Proof. concrete. Qed.
