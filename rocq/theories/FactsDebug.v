(* FactsDebug.v - lemmas behind PropDebug.v: the alternate Debug texts (C70) *)
From Coq Require Import Strings.String Strings.Ascii DecimalString DecimalN DecimalFacts ZifyBool ZifyNat ZifyN.
From Verif Require Import Base ModelNumber ModelDim ModelStorage Model2D Model3D ModelHelper ModelStd ModelError ModelDebug
  Spec SpecStd SpecText SpecDebug History BitProofs NumberProofs CellProofs
  StorageProofs OrderProofs GridProofs HistoryProofs NameProofs TextProofs FactsCells FactsName FactsHistory FactsStd.
Local Open Scope string_scope.

(* ---------- lines ---------- *)
Fixpoint block (l : list string) : string :=
  match l with [] => "" | x :: r => x ++ String newline (block r) end.
Definition indent (x : string) : string := "    " ++ x.
Definition line_ok (x : string) : Prop := x <> "" /\ lacks newline x.
Lemma append_nil (s : string) : s ++ "" = s.
Proof. induction s as [|a s IH]; cbn [String.append]; [reflexivity|rewrite IH; reflexivity]. Qed.
Lemma block_app a b : block (app a b) = block a ++ block b.
Proof.
  induction a as [|x a IH]; cbn [block app]; [reflexivity|]. rewrite IH. rewrite <- string_app_assoc. reflexivity.
Qed.
Lemma lines_block l z : lines (app l [z]) = block l ++ z.
Proof.
  induction l as [|x l IH]; [reflexivity|]. cbn [app block]. rewrite <- string_app_assoc. cbn [String.append].
  rewrite <- IH. destruct l; reflexivity.
Qed.
Lemma pad_false x s : lacks newline x -> pad_adapter false (x ++ s) = x ++ pad_adapter false s.
Proof.
  induction x as [|a x IH]; [reflexivity|]. intros [A B]. cbn [String.append pad_adapter].
  assert (E : Ascii.eqb a newline = false) by (apply Ascii.eqb_neq; exact A). rewrite E, (IH B). reflexivity.
Qed.
Lemma pad_line x s : line_ok x -> pad_adapter true (x ++ String newline s) = indent x ++ String newline (pad_adapter true s).
Proof.
  intros [H K]. destruct x as [|a x]; [exfalso; apply H; reflexivity|]. destruct K as [A B]. unfold indent.
  rewrite <- string_app_assoc. cbn [String.append pad_adapter].
  assert (E : Ascii.eqb a newline = false) by (apply Ascii.eqb_neq; exact A). rewrite E, (pad_false x _ B). reflexivity.
Qed.
Lemma pad_block l : Forall line_ok l -> pad_adapter true (block l) = block (map indent l).
Proof.
  induction 1 as [|x l H F IH]; [reflexivity|]. cbn [block map]. rewrite (pad_line x _ H), IH. reflexivity.
Qed.
Lemma line_ok_indent x : line_ok x -> line_ok (indent x).
Proof. intros [A B]. split; [discriminate|]. unfold indent. apply lacks_app; [repeat split; discriminate|exact B]. Qed.
Lemma line_ok_app x y : x <> "" -> lacks newline x -> lacks newline y -> line_ok (x ++ y).
Proof.
  intros A B C. split; [|apply lacks_app; assumption]. destruct x; [exfalso; apply A; reflexivity|discriminate].
Qed.
(* a field whose value is one line, or starts with one and has further lines *)
Lemma field_line n v : line_ok (n ++ ": " ++ v ++ ",") -> pretty_field (n, v) = block [indent (n ++ ": " ++ v ++ ",")].
Proof.
  intro H. unfold pretty_field. cbn [fst snd].
  replace (n ++ ": " ++ v ++ "," ++ String newline "") with (block [n ++ ": " ++ v ++ ","])
    by (cbn [block]; rewrite <- !string_app_assoc; reflexivity).
  rewrite pad_block; [reflexivity|]. constructor; [exact H|constructor].
Qed.
Lemma field_lines n first l z :
  line_ok (n ++ ": " ++ first) -> Forall line_ok l -> line_ok (z ++ ",") ->
  pretty_field (n, lines (first :: app l [z])) = block (map indent ((n ++ ": " ++ first) :: app l [z ++ ","])).
Proof.
  intros A B C. unfold pretty_field. cbn [fst snd].
  change (first :: app l [z]) with (app (first :: l) [z]). rewrite lines_block. cbn [block].
  replace (n ++ ": " ++ ((first ++ String newline (block l)) ++ z) ++ "," ++ String newline "")
    with (block ((n ++ ": " ++ first) :: app l [z ++ ","])).
  2:{ cbn [block]. rewrite block_app. cbn [block]. rewrite <- !string_app_assoc. cbn [String.append]. rewrite <- ?string_app_assoc. reflexivity. }
  rewrite pad_block; [reflexivity|]. constructor; [exact A|]. apply Forall_app. split; [exact B|constructor; [exact C|constructor]].
Qed.
Lemma struct_lines name (fields : list (string * string)) Ls :
  Forall2 (fun f L => pretty_field f = block L) fields Ls ->
  pretty_struct name fields = lines ((name ++ " {") :: app (List.concat Ls) ["}"]).
Proof.
  intro F. unfold pretty_struct. change ((name ++ " {") :: app (List.concat Ls) ["}"]) with (app ((name ++ " {") :: List.concat Ls) ["}"]).
  rewrite lines_block. cbn [block]. rewrite <- !string_app_assoc. cbn [String.append].
  assert (E : String.concat "" (map pretty_field fields) = block (List.concat Ls)).
  { induction F as [|f L fs Ls' H F IH]; [reflexivity|]. cbn [List.concat map]. rewrite block_app, <- IH, <- H.
    destruct fs as [|g fs]; cbn [map String.concat].
    - rewrite append_nil. reflexivity.
    - reflexivity. }
  rewrite E. reflexivity.
Qed.
Lemma list_lines x (entries : list string) : Forall line_ok (x :: entries) ->
  pretty_list (x :: entries) = lines ("[" :: app (map (fun e => indent (e ++ ",")) (x :: entries)) ["]"]).
Proof.
  intro F. unfold pretty_list.
  change ("[" :: app (map (fun e => indent (e ++ ",")) (x :: entries)) ["]"]) with (app ("[" :: map (fun e => indent (e ++ ",")) (x :: entries)) ["]"]).
  rewrite lines_block. cbn [block]. rewrite <- !string_app_assoc. cbn [String.append].
  assert (E : forall l, Forall line_ok l -> String.concat "" (map pretty_entry l) = block (map (fun e => indent (e ++ ",")) l)).
  { induction 1 as [|y l H K IH]; [reflexivity|]. cbn [map block].
    assert (P : pretty_entry y = indent (y ++ ",") ++ String newline "").
    { unfold pretty_entry. replace (y ++ "," ++ String newline "") with ((y ++ ",") ++ String newline "") by (rewrite <- string_app_assoc; reflexivity).
      rewrite pad_line; [reflexivity|]. destruct H as [H1 H2]. apply line_ok_app; [exact H1|exact H2|repeat split; discriminate]. }
    destruct l as [|z l]; [cbn [map String.concat]; rewrite P; reflexivity|].
    change (pretty_entry y ++ "" ++ String.concat "" (map pretty_entry (z :: l)) = indent (y ++ ",") ++ String newline (block (map (fun e => indent (e ++ ",")) (z :: l)))).
    rewrite IH, P, <- string_app_assoc. reflexivity. }
  rewrite (E _ F). reflexivity.
Qed.
Lemma lines_inj l : forall l' z z', Forall (lacks newline) (app l [z]) -> Forall (lacks newline) (app l' [z']) ->
  lines (app l [z]) = lines (app l' [z']) -> app l [z] = app l' [z'].
Proof.
  intros l' z z'. rewrite !lines_block. revert l'. induction l as [|x l IH]; intros [|x' l'] F F' E; cbn [app block String.append] in *.
  - rewrite E. reflexivity.
  - exfalso. apply Forall_inv in F. subst z. clear - F. rewrite <- string_app_assoc in F.
    induction x' as [|a s IHs]; cbn [String.append lacks] in F; [exact (proj1 F eq_refl)|tauto].
  - exfalso. apply Forall_inv in F'. subst z'. clear - F'. rewrite <- string_app_assoc in F'.
    induction x as [|a s IHs]; cbn [String.append lacks] in F'; [exact (proj1 F' eq_refl)|tauto].
  - rewrite <- !string_app_assoc in E. cbn [String.append] in E.
    destruct (split_at newline _ _ _ _ (Forall_inv F) (Forall_inv F') E) as [-> E'].
    f_equal. exact (IH l' (Forall_inv_tail F) (Forall_inv_tail F') E').
Qed.

(* ---------- C70 ---------- *)
Lemma line_decimal n : line_ok (decimal n).
Proof. split; [apply decimal_nonempty|apply lacks_decimal; reflexivity]. Qed.
Ltac line_tac := first [ apply line_ok_app; [discriminate|repeat split; discriminate|line_tac]
                       | apply lacks_app; [line_tac|line_tac]
                       | apply lacks_decimal; reflexivity
                       | repeat split; discriminate
                       | assumption ].
Definition fixed_lines (d : string) (s : fixed_storage) : list string :=
  [("FixedDepthStorage" ++ d) ++ " {"; "    bits: " ++ decimal (fx_bits s) ++ ","; "}"].
Definition static_lines (d : string) (s : static_storage) : list string :=
  [("StaticStorage" ++ d) ++ " {"; "    bits: " ++ decimal (sx_bits s) ++ ","; "    depth: " ++ decimal (sx_depth s) ++ ","; "}"].
Definition bytes_lines (l : list N) : list string :=
  match l with
  | [] => ["    bits: [],"]
  | _ => "    bits: [" :: app (map (fun b => "        " ++ decimal b ++ ",") l) ["    ],"]
  end.
Definition dynamic_lines (d : string) (s : dynamic_storage) : list string :=
  (("DynamicStorage" ++ d) ++ " {") :: app (bytes_lines (dy_bits s)) ["    depth: " ++ decimal (dy_depth s) ++ ","; "}"].
Definition storage_lines (d : string) (k : kind) : storage k -> list string :=
  match k with KFixed _ => fixed_lines d | KStatic _ => static_lines d | KDynamic => dynamic_lines d end.
Lemma decimal_field n v : n <> "" -> lacks newline n -> pretty_field (n, decimal v) = block ["    " ++ n ++ ": " ++ decimal v ++ ","].
Proof.
  intros A B. apply field_line. apply line_ok_app; [exact A|exact B|]. line_tac.
Qed.
Lemma bytes_field l : pretty_field ("bits", pretty_list (map display_usize l)) = block (bytes_lines l).
Proof.
  change display_usize with decimal. destruct l as [|x l].
  - cbn [map pretty_list bytes_lines]. apply field_line. line_tac.
  - cbn [map]. rewrite list_lines.
    2:{ change (decimal x :: map decimal l) with (map decimal (x :: l)). apply Forall_map. apply Forall_forall. intros y _. apply line_decimal. }
    rewrite field_lines.
    + unfold bytes_lines. cbn [map app]. rewrite map_app, !map_map. cbn [map].
      reflexivity.
    + line_tac.
    + change (decimal x :: map decimal l) with (map decimal (x :: l)). rewrite map_map. apply Forall_map. apply Forall_forall. intros y _.
      apply line_ok_indent. destruct (line_decimal y) as [H1 H2]. apply line_ok_app; [exact H1|exact H2|repeat split; discriminate].
    + line_tac.
Qed.
Lemma storage_pretty_lines d k (s : storage k) : storage_pretty d k s = lines (storage_lines d k s).
Proof.
  destruct k; cbn [storage_pretty storage_lines].
  - destruct s as [b]. unfold fixed_pretty. change display_usize with decimal. cbn [fx_bits].
    erewrite struct_lines; [|constructor; [apply decimal_field; [discriminate|repeat split; discriminate]|constructor]]. reflexivity.
  - destruct s as [b n]. unfold static_pretty. change display_usize with decimal. cbn [sx_bits sx_depth].
    erewrite struct_lines; [|repeat (constructor; [apply decimal_field; [discriminate|repeat split; discriminate]|]); constructor]. reflexivity.
  - destruct s as [b n]. unfold dynamic_pretty. cbn [dy_bits dy_depth].
    erewrite struct_lines; [|constructor; [apply bytes_field|constructor;
      [change display_usize with decimal; apply decimal_field; [discriminate|repeat split; discriminate]|constructor]]].
    unfold dynamic_lines. cbn [List.concat app]. rewrite <- app_assoc. reflexivity.
Qed.
Lemma storage_lines_shape d k (s : storage k) : lacks newline d ->
  exists first l, storage_lines d k s = first :: app l ["}"] /\ lacks newline first /\ Forall line_ok l.
Proof.
  intro H. destruct k; cbn [storage_lines].
  - eexists _, [_]. split; [reflexivity|]. split; [line_tac|]. repeat (constructor; [line_tac|]). constructor.
  - eexists _, [_; _]. split; [reflexivity|]. split; [line_tac|]. repeat (constructor; [line_tac|]). constructor.
  - eexists _, (app (bytes_lines (dy_bits s)) [_]). unfold dynamic_lines. rewrite <- app_assoc. split; [reflexivity|]. split; [line_tac|].
    apply Forall_app. split; [|repeat (constructor; [line_tac|]); constructor].
    unfold bytes_lines. destruct (dy_bits s) as [|x l]; [repeat (constructor; [line_tac|]); constructor|].
    constructor; [line_tac|]. apply Forall_app. split; [|repeat (constructor; [line_tac|]); constructor].
    apply Forall_map. apply Forall_forall. intros y _. line_tac.
Qed.
(* the lines of the text of an index *)
Definition index_lines (d : string) (k : kind) (s : storage k) : list string :=
  match storage_lines d k s with
  | [] => []
  | first :: rest =>
      (("MortonIndex" ++ d) ++ " {") :: ("    storage: " ++ first) :: app (map indent (app (removelast rest) ["},"])) ["}"]
  end.
Lemma idx_pretty_lines d k (s : storage k) : lacks newline d -> idx_pretty d k s = lines (index_lines d k s).
Proof.
  intro H. destruct (storage_lines_shape d k s H) as (first & l & E & A & B).
  unfold idx_pretty, index_pretty. rewrite storage_pretty_lines. unfold index_lines. rewrite E.
  rewrite removelast_last. erewrite struct_lines.
  2:{ constructor; [|constructor]. apply field_lines; [|exact B|line_tac]. apply line_ok_app; [discriminate|repeat split; discriminate|].
      apply lacks_app; [repeat split; discriminate|exact A]. }
  cbn [List.concat map]. rewrite app_nil_r. reflexivity.
Qed.
Lemma index_lines_ok d k (s : storage k) : lacks newline d ->
  exists l, index_lines d k s = app l ["}"] /\ Forall (lacks newline) (app l ["}"]).
Proof.
  intro H. destruct (storage_lines_shape d k s H) as (first & l & E & A & B). unfold index_lines. rewrite E, removelast_last.
  eexists (_ :: _ :: _). split; [reflexivity|]. cbn [app]. constructor; [line_tac|]. constructor; [apply lacks_app; [repeat split; discriminate|exact A]|].
  apply Forall_app. split; [|repeat (constructor; [line_tac|]); constructor]. apply Forall_map. apply Forall_app. split.
  - eapply Forall_impl; [|exact B]. intros y K. exact (proj2 (line_ok_indent y K)).
  - repeat (constructor; [line_tac|]); constructor.
Qed.
Lemma lacks_dim d : In d ["2D"; "3D"] -> lacks newline d.
Proof. intros [<-|[<-|[]]]; repeat split; discriminate. Qed.
Lemma index_lines_inj d k (s s' : storage k) : lacks newline d -> idx_pretty d k s = idx_pretty d k s' -> storage_lines d k s = storage_lines d k s'.
Proof.
  intros H E. rewrite !idx_pretty_lines in E by exact H.
  destruct (index_lines_ok d k s H) as (l & X & F). destruct (index_lines_ok d k s' H) as (l' & X' & F').
  rewrite X, X' in E. apply lines_inj in E; [|exact F|exact F']. rewrite <- X, <- X' in E.
  destruct (storage_lines_shape d k s H) as (a & m & Y & _). destruct (storage_lines_shape d k s' H) as (a' & m' & Y' & _).
  unfold index_lines in E. rewrite Y, Y' in *. rewrite !removelast_last in E.
  injection E as E1 E2. apply app_inj_tail in E2. destruct E2 as [E2 _].
  rewrite !map_app in E2. apply app_inj_tail in E2. destruct E2 as [E2 _].
  assert (M : m = m').
  { clear - E2. revert m' E2. induction m as [|x m IH]; intros [|x' m'] E; try discriminate E; [reflexivity|].
    cbn [map] in E. injection E as E1 E2. rewrite (IH m' E2), E1. reflexivity. }
  rewrite E1, M. reflexivity.
Qed.

Lemma numerals_map l bs : Forall2 numeral l bs -> map decimal l = bs.
Proof. induction 1 as [|x y l l' X B IH]; [reflexivity|]. cbn [map]. rewrite IH, (numeral_unique _ _ X). reflexivity. Qed.
Lemma c70_pretty_text_lemma : forall d, In d ["2D"; "3D"]%string ->
  (forall t s b, numeral (fx_bits s) b ->
     idx_pretty d (KFixed t) s = lines ["MortonIndex" ++ d ++ " {"; "    storage: FixedDepthStorage" ++ d ++ " {"; "        bits: " ++ b ++ ",";
       "    },"; "}"]%string)
  /\ (forall t s b n, numeral (sx_bits s) b -> numeral (sx_depth s) n ->
     idx_pretty d (KStatic t) s = lines ["MortonIndex" ++ d ++ " {"; "    storage: StaticStorage" ++ d ++ " {"; "        bits: " ++ b ++ ",";
       "        depth: " ++ n ++ ","; "    },"; "}"]%string)
  /\ (forall s bs n, Forall2 numeral (dy_bits s) bs -> numeral (dy_depth s) n ->
     idx_pretty d KDynamic s = lines (List.concat [
       ["MortonIndex" ++ d ++ " {"; "    storage: DynamicStorage" ++ d ++ " {"];
       match bs with
       | [] => ["        bits: [],"]
       | _ => List.concat [["        bits: ["]; map (fun b => "            " ++ b ++ ",") bs; ["        ],"]]
       end;
       ["        depth: " ++ n ++ ","; "    },"; "}"]])%string).
Proof.
  intros d H. apply lacks_dim in H. split; [|split].
  - intros t s b B. rewrite (idx_pretty_lines d _ _ H). rewrite (numeral_unique _ _ B). unfold index_lines, storage_lines, fixed_lines.
    cbn [removelast app map]. unfold indent. rewrite <- !string_app_assoc. reflexivity.
  - intros t s b n B K. rewrite (idx_pretty_lines d _ _ H). rewrite (numeral_unique _ _ B), (numeral_unique _ _ K).
    unfold index_lines, storage_lines, static_lines. cbn [removelast app map]. unfold indent. rewrite <- !string_app_assoc. reflexivity.
  - intros s bs n B K. rewrite (idx_pretty_lines d _ _ H). rewrite (numeral_unique _ _ K). apply numerals_map in B. subst bs. cbn [List.concat].
    unfold index_lines, storage_lines, dynamic_lines.
    change ["    depth: " ++ decimal (dy_depth s) ++ ","; "}"] with (app ["    depth: " ++ decimal (dy_depth s) ++ ","] ["}"]).
    rewrite app_assoc, removelast_last. rewrite <- app_assoc, map_app. unfold bytes_lines. destruct (dy_bits s) as [|x l].
    + cbn [map app]. unfold indent. rewrite <- !string_app_assoc. reflexivity.
    + change (map indent ("    bits: [" :: app (map (fun b => "        " ++ decimal b ++ ",") (x :: l)) ["    ],"]))
        with (app ["        bits: ["] (map indent (app (map (fun b => "        " ++ decimal b ++ ",") (x :: l)) ["    ],"]))).
      rewrite map_app, map_map. cbn [map app]. rewrite map_map. unfold indent. rewrite <- !string_app_assoc. rewrite <- !app_assoc. reflexivity.
Qed.
Lemma c70_same_text_same_value_lemma : forall d k (s s' : storage k), In d ["2D"; "3D"]%string ->
  (idx_pretty d k s = idx_pretty d k s' <-> idx_eq k s s' = true).
Proof.
  intros d k s s' H. rewrite idx_eq_iff. split; [|intros ->; reflexivity]. intro E. apply index_lines_inj in E; [|apply lacks_dim; exact H].
  assert (C : digit_value ","%char = None) by reflexivity. destruct k; cbn [storage_lines] in E.
  - destruct s as [b], s' as [b']. unfold fixed_lines in E. cbn [fx_bits] in E.
    injection E as E. apply (decimal_split ","%char) in E; [|exact C]. destruct E as [-> _]. reflexivity.
  - destruct s as [b n], s' as [b' n']. unfold static_lines in E. cbn [sx_bits sx_depth] in E.
    injection E as E E'. apply (decimal_split ","%char) in E; [|exact C]. destruct E as [-> _].
    apply (decimal_split ","%char) in E'; [|exact C]. destruct E' as [-> _]. reflexivity.
  - destruct s as [b n], s' as [b' n']. unfold dynamic_lines in E. cbn [dy_bits dy_depth] in E. injection E as E.
    change (app (bytes_lines b) (app ["    depth: " ++ decimal n ++ ","] ["}"]) = app (bytes_lines b') (app ["    depth: " ++ decimal n' ++ ","] ["}"])) in E.
    rewrite !app_assoc in E. apply app_inj_tail in E. destruct E as [E _]. apply app_inj_tail in E. destruct E as [E E'].
    apply (append_cancel "    depth: ") in E'. apply (decimal_split ","%char) in E'; [|exact C]. destruct E' as [-> _].
    f_equal. unfold bytes_lines in E. destruct b as [|x b], b' as [|x' b']; try discriminate E; [reflexivity|].
    injection E as E0 E. apply (decimal_split ","%char) in E0; [|exact C]. destruct E0 as [-> _]. f_equal.
    apply app_inj_tail in E. destruct E as [E _]. revert b' E. induction b as [|y b IH]; intros [|y' b'] E; try discriminate E; [reflexivity|].
    cbn [map] in E. injection E as E0 E. apply (decimal_split ","%char) in E0; [|exact C]. destruct E0 as [-> _]. rewrite (IH b' E). reflexivity.
Qed.
Lemma c70_text_tells_type_lemma : forall d d' k k' (s : storage k) (s' : storage k'),
  In d ["2D"; "3D"]%string -> In d' ["2D"; "3D"]%string -> idx_pretty d k s = idx_pretty d' k' s' -> d = d' /\ same_type k k'.
Proof.
  intros d d' k k' s s' H H' E. rewrite !idx_pretty_lines in E by (apply lacks_dim; assumption).
  destruct (index_lines_ok d k s (lacks_dim d H)) as (l & X & F). destruct (index_lines_ok d' k' s' (lacks_dim d' H')) as (l' & X' & F').
  rewrite X, X' in E. apply lines_inj in E; [|exact F|exact F']. rewrite <- X, <- X' in E. clear l X F l' X' F'.
  assert (P : hd "" (index_lines d k s) = hd "" (index_lines d' k' s')) by (rewrite E; reflexivity).
  assert (Q : nth 1 (index_lines d k s) "" = nth 1 (index_lines d' k' s') "") by (rewrite E; reflexivity).
  assert (A : d = d').
  { clear - P H H'. destruct k, k'; cbn [index_lines storage_lines fixed_lines static_lines dynamic_lines hd] in P;
    destruct H as [<-|[<-|[]]]; destruct H' as [<-|[<-|[]]]; try reflexivity; discriminate P. }
  split; [exact A|]. subst d'. clear - Q H.
  destruct k, k'; try exact I; cbn [index_lines storage_lines fixed_lines static_lines dynamic_lines nth] in Q; destruct H as [<-|[<-|[]]]; discriminate Q.
Qed.
Lemma c70_text_tells_cells_lemma : forall c D L k d (a b : storage k) la lb, In d ["2D"; "3D"]%string ->
  made c D L k true a la -> made c D L k true b lb -> (idx_pretty d k a = idx_pretty d k b <-> la = lb).
Proof.
  intros c D L k d a b la lb H A B. rewrite (c70_same_text_same_value_lemma d k a b H). exact (proj1 (proj2 (c38_relations_lemma c D L k a b la lb A B))).
Qed.
Lemma c70_errors_lemma :
  (forall n b, numeral n b -> error_pretty (DepthLimitedExceeded n) = lines ["DepthLimitedExceeded {"; "    max_depth: " ++ b ++ ","; "}"]%string)
  /\ error_pretty CellIndexOutOfRange = "CellIndexOutOfRange"%string
  /\ forall e e', error_pretty e = error_pretty e' <-> e = e'.
Proof.
  assert (X : forall n, error_pretty (DepthLimitedExceeded n) = lines ["DepthLimitedExceeded {"; "    max_depth: " ++ decimal n ++ ","; "}"]).
  { intro n. unfold error_pretty. change display_usize with decimal.
    erewrite struct_lines; [|constructor; [apply decimal_field; [discriminate|repeat split; discriminate]|constructor]]. reflexivity. }
  split; [|split].
  - intros n b B. rewrite (numeral_unique _ _ B). apply X.
  - reflexivity.
  - intros e e'. split; [|intros ->; reflexivity]. intro E. destruct e as [n|], e' as [n'|]; try rewrite !X in E; try discriminate E; try reflexivity.
    change (("DepthLimitedExceeded {" ++ String newline "    max_depth: ") ++ (decimal n ++ ",") ++ String newline "}"
            = ("DepthLimitedExceeded {" ++ String newline "    max_depth: ") ++ (decimal n' ++ ",") ++ String newline "}") in E.
    apply append_cancel in E. rewrite <- !string_app_assoc in E. apply (decimal_split ","%char) in E; [|reflexivity]. destruct E as [-> _]. reflexivity.
Qed.
Lemma c70_displayable_lemma : forall T c (to_string : T -> naming -> outcome string) l n names,
  Forall2 (fun x name => to_string x n = Ret name) l names ->
  displayable_pretty c to_string (make_displayable l n) = Ret ("[" ++ String.concat ", " names ++ "]")%string.
Proof. intros T c to_string l n names F. exact (proj1 (c35_display_lemma T c to_string l n names F)). Qed.
