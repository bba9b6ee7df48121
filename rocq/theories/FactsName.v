(* FactsName.v - proofs of the theorems stated in PropName.v *)
From Verif Require Import Base ModelNumber ModelDim ModelStorage Model2D Model3D ModelHelper Spec History BitProofs NumberProofs VecProofs CellProofs StorageProofs OrderProofs GridProofs NameProofs HistoryProofs FactsCells FactsOrder.

(* ---------- C26 ---------- *)
Lemma c26_cell_names_2d_lemma : forall c k (s : storage k) l,
  valid c Dim2D k s -> shows (ops c Dim2D k) s l ->
  to_string_2d c (ops c Dim2D k) s CellConcatenation = Ret (String.concat "" (map (fun q => decimal (quadrant_index q)) l))
  /\ to_string_2d c (ops c Dim2D k) s CellConcatenationWithRoot
     = Ret ("r" ++ String.concat "" (map (fun q => decimal (quadrant_index q)) l))%string.
Proof.
  intros c k s l V S. pose proof (valid_shows c Dim2D k s l dim2_ok V S) as R.
  split; [exact (to_string_2d_ok c k s l CellConcatenation R ltac:(discriminate))|].
  exact (to_string_2d_ok c k s l CellConcatenationWithRoot R ltac:(discriminate)).
Qed.
Lemma c26_cell_names_3d_lemma : forall c k (s : storage k) l,
  valid c Dim3D k s -> shows (ops c Dim3D k) s l ->
  to_string_3d c (ops c Dim3D k) s CellConcatenation = Ret (String.concat "" (map (fun q => decimal (octant_index q)) l))
  /\ to_string_3d c (ops c Dim3D k) s CellConcatenationWithRoot
     = Ret ("r" ++ String.concat "" (map (fun q => decimal (octant_index q)) l))%string.
Proof.
  intros c k s l V S. pose proof (valid_shows c Dim3D k s l dim3_ok V S) as R.
  split; [exact (to_string_3d_ok c k s l CellConcatenation R ltac:(discriminate))|].
  exact (to_string_3d_ok c k s l CellConcatenationWithRoot R ltac:(discriminate)).
Qed.
Lemma root_inj (a b : string) : ("r" ++ a = "r" ++ b -> a = b)%string.
Proof. cbn. congruence. Qed.
(* also for indices of different storage kinds *)
Lemma c26_cell_names_2d_injective_lemma : forall c k k' (s : storage k) (s' : storage k') l l' n,
  valid c Dim2D k s -> shows (ops c Dim2D k) s l -> valid c Dim2D k' s' -> shows (ops c Dim2D k') s' l' ->
  n <> GridIndex ->
  (to_string_2d c (ops c Dim2D k) s n = to_string_2d c (ops c Dim2D k') s' n <-> l = l').
Proof.
  intros c k k' s s' l l' n V S V' S' Hn. pose proof (valid_shows c Dim2D k s l dim2_ok V S) as R.
  pose proof (valid_shows c Dim2D k' s' l' dim2_ok V' S') as R'.
  rewrite (to_string_2d_ok c k s l n R) by contradiction. rewrite (to_string_2d_ok c k' s' l' n R') by contradiction.
  split; [|intros ->; reflexivity]. destruct n; [| |contradiction]; intro E.
  - injection E as E. exact (cell_name_inj Dim2D l l' dim2_ok E).
  - apply ret_inj, root_inj in E. exact (cell_name_inj Dim2D l l' dim2_ok E).
Qed.
Lemma c26_cell_names_3d_injective_lemma : forall c k k' (s : storage k) (s' : storage k') l l' n,
  valid c Dim3D k s -> shows (ops c Dim3D k) s l -> valid c Dim3D k' s' -> shows (ops c Dim3D k') s' l' ->
  n <> GridIndex ->
  (to_string_3d c (ops c Dim3D k) s n = to_string_3d c (ops c Dim3D k') s' n <-> l = l').
Proof.
  intros c k k' s s' l l' n V S V' S' Hn. pose proof (valid_shows c Dim3D k s l dim3_ok V S) as R.
  pose proof (valid_shows c Dim3D k' s' l' dim3_ok V' S') as R'.
  rewrite (to_string_3d_ok c k s l n R) by contradiction. rewrite (to_string_3d_ok c k' s' l' n R') by contradiction.
  split; [|intros ->; reflexivity]. destruct n; [| |contradiction]; intro E.
  - injection E as E. exact (cell_name_inj Dim3D l l' dim3_ok E).
  - apply ret_inj, root_inj in E. exact (cell_name_inj Dim3D l l' dim3_ok E).
Qed.

(* ---------- C27 ---------- *)
Lemma c27_grid_name_2d_lemma : forall c k (s : storage k) l,
  valid c Dim2D k s -> shows (ops c Dim2D k) s l -> len l <= usize_bits c ->
  to_string_2d c (ops c Dim2D k) s GridIndex
  = Ret (decimal (len l) ++ "-" ++ decimal (coord (quad_x XY) l) ++ "-" ++ decimal (coord (quad_y XY) l))%string.
Proof.
  intros c k s l V S H. pose proof (valid_shows c Dim2D k s l dim2_ok V S) as R.
  rewrite (to_string_2d_ok c k s l GridIndex R (fun _ => H)), grid_name2_text. reflexivity.
Qed.
Lemma c27_grid_name_3d_lemma : forall c k (s : storage k) l,
  valid c Dim3D k s -> shows (ops c Dim3D k) s l -> len l <= usize_bits c ->
  to_string_3d c (ops c Dim3D k) s GridIndex
  = Ret (decimal (len l) ++ "-" ++ decimal (coord (oct_x XYZ) l) ++ "-" ++ decimal (coord (oct_y XYZ) l)
         ++ "-" ++ decimal (coord (oct_z XYZ) l))%string.
Proof.
  intros c k s l V S H. pose proof (valid_shows c Dim3D k s l dim3_ok V S) as R.
  rewrite (to_string_3d_ok c k s l GridIndex R (fun _ => H)), grid_name3_text. reflexivity.
Qed.
Lemma c27_grid_name_2d_injective_lemma : forall c k k' (s : storage k) (s' : storage k') l l',
  valid c Dim2D k s -> shows (ops c Dim2D k) s l -> len l <= usize_bits c ->
  valid c Dim2D k' s' -> shows (ops c Dim2D k') s' l' -> len l' <= usize_bits c ->
  (to_string_2d c (ops c Dim2D k) s GridIndex = to_string_2d c (ops c Dim2D k') s' GridIndex <-> l = l').
Proof.
  intros c k k' s s' l l' V S H V' S' H'. pose proof (valid_shows c Dim2D k s l dim2_ok V S) as R.
  pose proof (valid_shows c Dim2D k' s' l' dim2_ok V' S') as R'.
  rewrite (to_string_2d_ok c k s l GridIndex R (fun _ => H)), (to_string_2d_ok c k' s' l' GridIndex R' (fun _ => H')).
  split; [|intros ->; reflexivity]. intro E. apply ret_inj in E. exact (grid_name2_inj l l' E).
Qed.
Lemma c27_grid_name_3d_injective_lemma : forall c k k' (s : storage k) (s' : storage k') l l',
  valid c Dim3D k s -> shows (ops c Dim3D k) s l -> len l <= usize_bits c ->
  valid c Dim3D k' s' -> shows (ops c Dim3D k') s' l' -> len l' <= usize_bits c ->
  (to_string_3d c (ops c Dim3D k) s GridIndex = to_string_3d c (ops c Dim3D k') s' GridIndex <-> l = l').
Proof.
  intros c k k' s s' l l' V S H V' S' H'. pose proof (valid_shows c Dim3D k s l dim3_ok V S) as R.
  pose proof (valid_shows c Dim3D k' s' l' dim3_ok V' S') as R'.
  rewrite (to_string_3d_ok c k s l GridIndex R (fun _ => H)), (to_string_3d_ok c k' s' l' GridIndex R' (fun _ => H')).
  split; [|intros ->; reflexivity]. intro E. apply ret_inj in E. exact (grid_name3_inj l l' E).
Qed.
(* two decimal numerals are equal only for equal numbers *)
Lemma c27_decimal_injective_lemma : forall n m, decimal n = decimal m -> n = m.
Proof. exact decimal_inj. Qed.

(* ---------- C35 ---------- *)
Lemma c35_display_lemma : forall T c (to_string : T -> naming -> outcome string) l n names,
  Forall2 (fun x name => to_string x n = Ret name) l names ->
  display_fmt c to_string (make_displayable l n) = Ret ("[" ++ String.concat ", " names ++ "]")%string
  /\ debug_fmt c to_string (make_displayable l n) = Ret ("[" ++ String.concat ", " names ++ "]")%string.
Proof.
  intros T c to_string l n names F.
  assert (E : display_fmt c to_string (make_displayable l n) = Ret ("[" ++ String.concat ", " names ++ "]")%string).
  { set (name := fun x (m : naming) => match to_string x m with Ret s => s | _ => ""%string end).
    rewrite (display_ok c to_string name).
    - do 4 f_equal. clear - F. induction F as [|x m l ms H F IH]; [reflexivity|]. cbn [map]. rewrite IH. unfold name at 1. rewrite H. reflexivity.
    - intros x Hx. clear - F Hx. induction F as [|y m l ms H F IH]; [contradiction|]. destruct Hx as [->|Hx]; [|auto].
      unfold name. rewrite H. reflexivity. }
  split; exact E.
Qed.
Lemma c35_display_cells_2d_lemma : forall c k (l : list (storage k)) paths,
  Forall2 (fun s p => valid c Dim2D k s /\ shows (ops c Dim2D k) s p) l paths ->
  display_fmt c (to_string_2d c (ops c Dim2D k)) (make_displayable l CellConcatenation)
  = Ret ("[" ++ String.concat ", " (map (fun p => String.concat "" (map (fun q => decimal (quadrant_index q)) p)) paths) ++ "]")%string.
Proof.
  intros c k l paths F. apply c35_display_lemma. induction F as [|s p l ps [V S] F IH]; cbn [map]; constructor; [|exact IH].
  exact (proj1 (c26_cell_names_2d_lemma c k s p V S)).
Qed.
Lemma c35_display_cells_3d_lemma : forall c k (l : list (storage k)) paths,
  Forall2 (fun s p => valid c Dim3D k s /\ shows (ops c Dim3D k) s p) l paths ->
  display_fmt c (to_string_3d c (ops c Dim3D k)) (make_displayable l CellConcatenation)
  = Ret ("[" ++ String.concat ", " (map (fun p => String.concat "" (map (fun q => decimal (octant_index q)) p)) paths) ++ "]")%string.
Proof.
  intros c k l paths F. apply c35_display_lemma. induction F as [|s p l ps [V S] F IH]; cbn [map]; constructor; [|exact IH].
  exact (proj1 (c26_cell_names_3d_lemma c k s p V S)).
Qed.
(* == of displayables ignores the naming and is equality of the slices *)
Lemma c35_displayable_eq_lemma : forall k (a b : list (storage k)) na nb,
  displayable_eq (idx_eq k) (make_displayable a na) (make_displayable b nb) = true <-> a = b.
Proof.
  intros k a b na nb. unfold displayable_eq, make_displayable. cbn [di_indices]. rewrite slice_eq_iff. split.
  - intro F. induction F as [|x y l m H F IH]; [reflexivity|]. apply idx_eq_iff in H. congruence.
  - intros ->. induction b as [|x b IH]; constructor; [apply idx_eq_iff; reflexivity|exact IH].
Qed.
(* cmp is lexicographic: decided by the first pair of elements that do not compare equal, else by the lengths *)
Lemma c35_displayable_cmp_lemma : forall T (cmp : T -> T -> comparison) a b na nb,
  exists r, displayable_cmp (fun x y => Ret (cmp x y)) (make_displayable a na) (make_displayable b nb) = Ret r
  /\ displayable_partial_cmp (fun x y => Ret (cmp x y)) (make_displayable a na) (make_displayable b nb) = Ret (Some r)
  /\ exists p q a' b', a = p ++ a' /\ b = q ++ b' /\ Forall2 (fun x y => cmp x y = Eq) p q
     /\ match a', b' with
        | [], [] => r = Eq
        | [], _ :: _ => r = Lt
        | _ :: _, [] => r = Gt
        | x :: _, y :: _ => cmp x y = r /\ r <> Eq
        end.
Proof.
  intros T cmp a b na nb. unfold displayable_partial_cmp, displayable_cmp, make_displayable. cbn [di_indices].
  enough (H : exists r, slice_cmp (fun x y => Ret (cmp x y)) a b = Ret r
    /\ exists p q a' b', a = p ++ a' /\ b = q ++ b' /\ Forall2 (fun x y => cmp x y = Eq) p q
     /\ match a', b' with
        | [], [] => r = Eq
        | [], _ :: _ => r = Lt
        | _ :: _, [] => r = Gt
        | x :: _, y :: _ => cmp x y = r /\ r <> Eq
        end).
  { destruct H as (r & E & P). exists r. split; [exact E|]. split; [rewrite E; reflexivity|exact P]. }
  revert b. induction a as [|x a IH]; intros [|y b]; cbn [slice_cmp].
  - exists Eq. split; [reflexivity|]. exists [], [], [], []. repeat split; constructor.
  - exists Lt. split; [reflexivity|]. exists [], [], [], (y :: b). repeat split; constructor.
  - exists Gt. split; [reflexivity|]. exists [], [], (x :: a), []. repeat split; constructor.
  - rewrite bind_ret. destruct (cmp x y) eqn:E.
    + destruct (IH b) as (r & Er & p & q & a' & b' & Ea & Eb & F & M). exists r. split; [exact Er|].
      exists (x :: p), (y :: q), a', b'. subst. repeat split; [constructor; assumption|exact M].
    + exists Lt. split; [reflexivity|]. exists [], [], (x :: a), (y :: b). repeat split; [constructor|exact E|discriminate].
    + exists Gt. split; [reflexivity|]. exists [], [], (x :: a), (y :: b). repeat split; [constructor|exact E|discriminate].
Qed.
(* for indices that were built through the API the elements are compared by their paths *)
Lemma c35_displayable_cmp_of_made_lemma : forall c D L k (a b : list (storage k)) pa pb na nb,
  Forall2 (fun s p => made c D L k true s p) a pa -> Forall2 (fun s p => made c D L k true s p) b pb ->
  displayable_cmp (idx_cmp c D k) (make_displayable a na) (make_displayable b nb)
  = displayable_cmp (fun x y => Ret (path_cmp x y)) (make_displayable pa na) (make_displayable pb nb).
Proof.
  intros c D L k a b pa pb na nb Fa. unfold displayable_cmp, make_displayable. cbn [di_indices]. revert b pb.
  induction Fa as [|x p a pa Mx Fa IH]; intros b pb Fb; destruct Fb as [|y q b pb My Fb]; cbn [slice_cmp]; try reflexivity.
  destruct (made_canon _ _ _ _ _ _ Mx) as [HD Cx]. destruct (made_canon _ _ _ _ _ _ My) as [_ Cy].
  rewrite (idx_cmp_canon c D k x y p q HD Cx Cy), !bind_ret. destruct (path_cmp p q); [|reflexivity|reflexivity]. apply IH. exact Fb.
Qed.
