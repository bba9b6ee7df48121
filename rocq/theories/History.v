(* History.v - histories of API calls: how the model executes them and what a plain list of cells predicts.

   A history starts from one of the constructors of the crate (starts) and performs a list of calls (call).
   run_model executes the calls with the model; run_spec executes the same calls on a list of cells.  run_spec answers
   - Done: the calls succeed with these answers and this final list of cells,
   - MustPanic: the last executed call panics,
   - NoClaim: nothing is claimed (ill-typed call, index that cannot be addressed with usize bit positions, dynamic -> fixed
     conversion on a big-endian target or of an index whose byte count is not that of the integer).
   A write of cell x puts the cell stored c D k x of Spec.v into the list. *)
From Verif Require Import Base ModelNumber ModelDim ModelStorage Model2D Model3D Spec.

Definition uty_eqb (a b : uty) : bool :=
  match a, b with
  | U8, U8 | U16, U16 | U32, U32 | U64, U64 | U128, U128 | USize, USize => true
  | _, _ => false
  end.

(* Variable depth storages have the operations of trait VariableDepthMortonIndex. *)
Definition var_ops (c : cfg) (D : Dimension) (L : DynLayout) (k : kind) : option (VarOps D (storage k)) :=
  match k with
  | KFixed _ => None
  | KStatic t => Some (static_vops c D t)
  | KDynamic => Some (dynamic_vops c D L)
  end.

Section Hist.
  Context {D : Dimension}.

  (* calls of the public API; conversions name the integer type of their target *)
  Inductive call :=
  | CGet (level : N) | CSet (level : N) (x : cell D) | CCells
  | CChild (x : cell D) | CDescendant (cells : list (cell D))
  | CParent | CAncestor (generations : N) | CWithDepth (n : N)
  | CInverted
  | CToFixed (t : uty) | CToStatic (t : uty) | CToDynamic.

  (* what the caller sees: the index was replaced by the result, the call returned None / Err, or a value *)
  Inductive answer := ADone | ARejected | ACell (x : cell D) | ACells (l : list (cell D)).

  (* ---------- execution by the model ---------- *)
  Definition index := { k : kind & storage k }.
  Definition pack (k : kind) (s : storage k) : index := existT _ k s.

  Definition on_option {k} (s : storage k) (r : outcome (option (storage k))) : outcome (index * answer) :=
    let! r := r in
    Ret match r with Some s' => (pack k s', ADone) | None => (pack k s, ARejected) end.
  Definition with_var (c : cfg) (L : DynLayout) (k : kind) (s : storage k)
      (f : VarOps D (storage k) -> outcome (option (storage k))) : outcome (index * answer) :=
    match var_ops c D L k with Some v => on_option s (f v) | None => UB end.

  Definition to_static (c : cfg) (t : uty) (k : kind) : storage k -> outcome (index * answer) :=
    match k return storage k -> outcome (index * answer) with
    | KFixed t' => fun s => if uty_eqb t t' then Ret (pack (KStatic t) (static_from_fixed c D t s), ADone) else UB
    | KStatic _ => fun _ => UB
    | KDynamic => fun s =>
        let! r := static_from_dynamic c D t s in
        Ret match r with Ok s' => (pack (KStatic t) s', ADone) | Err _ => (pack KDynamic s, ARejected) end
    end.
  Definition to_fixed (c : cfg) (t : uty) (k : kind) : storage k -> outcome (index * answer) :=
    match k return storage k -> outcome (index * answer) with
    | KFixed _ => fun _ => UB
    | KStatic t' => fun s => if uty_eqb t t' then Ret (pack (KFixed t) (fixed_from_static s), ADone) else UB
    | KDynamic => fun s =>
        Ret match fixed_from_dynamic c D t s with
            | Ok s' => (pack (KFixed t) s', ADone) | Err _ => (pack KDynamic s, ARejected) end
    end.
  Definition to_dynamic (c : cfg) (L : DynLayout) (k : kind) : storage k -> outcome (index * answer) :=
    match k return storage k -> outcome (index * answer) with
    | KFixed t => fun s => Ret (pack KDynamic (dynamic_from_fixed c D t s), ADone)
    | KStatic t => fun s => let! s' := dynamic_from_static c D L t s in Ret (pack KDynamic s', ADone)
    | KDynamic => fun _ => UB
    end.

  Definition step_model (c : cfg) (L : DynLayout) (i : index) (o : call) : outcome (index * answer) :=
    let k := projT1 i in
    let s := projT2 i in
    match o with
    | CGet level => let! x := get_cell_at_level (ops c D k) s level in Ret (i, ACell x)
    | CSet level x => let! s' := set_cell_at_level (ops c D k) s level x in Ret (pack k s', ADone)
    | CCells => let! l := collect_cells c (ops c D k) s in Ret (i, ACells l)
    | CChild x => with_var c L k s (fun v => child v s x)
    | CDescendant cells => with_var c L k s (fun v => descendant v s cells)
    | CParent => with_var c L k s (fun v => parent v s)
    | CAncestor g => with_var c L k s (fun v => ancestor v s g)
    | CWithDepth n => with_var c L k s (fun v => with_depth c v s n)
    | CInverted => let! s' := inverted c (ops c D k) s in Ret (pack k s', ADone)
    | CToFixed t => to_fixed c t k s
    | CToStatic t => to_static c t k s
    | CToDynamic => to_dynamic c L k s
    end.

  Fixpoint run_model (c : cfg) (L : DynLayout) (i : index) (h : list call) : outcome (index * list answer) :=
    match h with
    | [] => Ret (i, [])
    | o :: h' =>
        let! r := step_model c L i o in
        let! r' := run_model c L (fst r) h' in
        Ret (fst r', snd r :: snd r')
    end.

  (* ---------- prediction by lists ---------- *)
  (* The kind of the index, whether its memory representation is the unique one of its path, and the path. *)
  Record view := View { v_kind : kind; v_exact : bool; v_path : list (cell D) }.
  Inductive expect (A : Type) := Done (a : A) | MustPanic | NoClaim.
  Arguments Done {A} _.
  Arguments MustPanic {A}.
  Arguments NoClaim {A}.

  Definition little_endian (c : cfg) : bool := match target_endian c with LittleEndian => true | BigEndian => false end.
  (* n cells fit: the documented capacity, or usize bit positions for dynamic storage *)
  Definition room (c : cfg) (k : kind) (n : N) : bool :=
    match capacity c D k with
    | Some m => n <=? m
    | None => dim D * n + 24 <=? 2 ^ usize_bits c
    end.
  Definition changed (v : view) (l : list (cell D)) : expect (view * answer) :=
    Done (View (v_kind v) (v_exact v) l, ADone).
  Definition rejected (v : view) : expect (view * answer) := Done (v, ARejected).

  Definition spec_append (c : cfg) (v : view) (cells : list (cell D)) : expect (view * answer) :=
    let l := v_path v in
    match v_kind v with
    | KFixed _ => NoClaim
    | KStatic t =>
        if 2 ^ (usize_bits c - 1) <=? len cells then NoClaim (* not a Rust slice *)
        else if room c (KStatic t) (len l + len cells) then changed v (l ++ cells) else rejected v
    | KDynamic =>
        if room c KDynamic (len l + len cells) then changed v (l ++ map (stored c D KDynamic) cells) else NoClaim
    end.
  Definition spec_truncate (v : view) (n : N) : expect (view * answer) :=
    match v_kind v with
    | KFixed _ => NoClaim
    | _ => changed v (firstn (N.to_nat n) (v_path v))
    end.
  Definition spec_up (v : view) (g : N) : expect (view * answer) :=
    match v_kind v with
    | KFixed _ => NoClaim
    | _ => if g =? 0 then NoClaim (* NonZeroUsize *)
           else if len (v_path v) <? g then rejected v else spec_truncate v (len (v_path v) - g)
    end.
  Definition zero_path (n : N) : list (cell D) := repeat (cell_zero D) (N.to_nat n).

  Definition step_spec (c : cfg) (v : view) (o : call) : expect (view * answer) :=
    let l := v_path v in
    match o with
    | CGet level => match nth_error l (N.to_nat level) with Some x => Done (v, ACell x) | None => MustPanic end
    | CSet level x =>
        if level <? len l then
          changed v (firstn (N.to_nat level) l ++ stored c D (v_kind v) x :: skipn (N.to_nat level + 1) l)
        else MustPanic
    | CCells => Done (v, ACells l)
    | CChild x => spec_append c v [x]
    | CDescendant cells => spec_append c v cells
    | CParent => spec_up v 1
    | CAncestor g => spec_up v g
    | CWithDepth n =>
        match v_kind v with
        | KFixed _ => NoClaim
        | _ => if len l <? n then rejected v else spec_truncate v n
        end
    | CInverted => changed v (rev (map (stored c D (v_kind v)) l))
    | CToFixed t =>
        match v_kind v with
        | KFixed _ => NoClaim
        | KStatic t' =>
            if uty_eqb t t' && v_exact v
            then Done (View (KFixed t) true (l ++ zero_path (BITS c t / dim D - len l)), ADone) else NoClaim
        | KDynamic =>
            if BITS c t / dim D <? len l then rejected v
            else if v_exact v && little_endian c && ((dim D * len l + 7) / 8 =? BITS c t / 8)
            then Done (View (KFixed t) true (l ++ zero_path (BITS c t / dim D - len l)), ADone) else NoClaim
        end
    | CToStatic t =>
        match v_kind v with
        | KFixed t' => if uty_eqb t t' then Done (View (KStatic t) (v_exact v) l, ADone) else NoClaim
        | KStatic _ => NoClaim
        | KDynamic => if BITS c t / dim D <? len l then rejected v else Done (View (KStatic t) true l, ADone)
        end
    | CToDynamic =>
        match v_kind v with
        | KFixed _ => Done (View KDynamic (v_exact v) l, ADone)
        | KStatic _ => Done (View KDynamic true (map (stored c D KDynamic) l), ADone)
        | KDynamic => NoClaim
        end
    end.

  Fixpoint run_spec (c : cfg) (v : view) (h : list call) : expect (view * list answer) :=
    match h with
    | [] => Done (v, [])
    | o :: h' =>
        match step_spec c v o with
        | Done (v', a) =>
            match run_spec c v' h' with
            | Done (v'', l) => Done (v'', a :: l)
            | MustPanic => MustPanic
            | NoClaim => NoClaim
            end
        | MustPanic => MustPanic
        | NoClaim => NoClaim
        end
    end.
End Hist.
Arguments call : clear implicits.
Arguments answer : clear implicits.
Arguments view : clear implicits.
Arguments Done {A} _.
Arguments MustPanic {A}.
Arguments NoClaim {A}.

(* ---------- constructors ---------- *)
Local Notation zeroes D n := (repeat (cell_zero D) (N.to_nat n)).
Inductive starts (c : cfg) : forall (D : Dimension) (L : DynLayout) (k : kind), bool -> storage k -> list (cell D) -> Prop :=
(* Default *)
| start_fixed_default D L t : is_dim D L -> starts c D L (KFixed t) true fixed_default (zeroes D (BITS c t / dim D))
| start_static_default D L t : is_dim D L -> starts c D L (KStatic t) true static_default []
| start_dynamic_default D L : is_dim D L -> starts c D L KDynamic true dynamic_default []
(* TryFrom<&[Cell]> *)
| start_fixed_cells D L t cells s : is_dim D L -> fixed_try_from c D t cells = Ret (Ok s) ->
    starts c D L (KFixed t) true s (cells ++ zeroes D (BITS c t / dim D - len cells))
| start_static_cells D L t cells s : is_dim D L -> static_try_from c D t cells = Ret (Ok s) ->
    starts c D L (KStatic t) true s cells
| start_dynamic_cells D L cells s : is_dim D L ->
    dim D * len cells + 24 <= 2 ^ usize_bits c -> dynamic_try_from c D L cells = Ret (Ok s) ->
    starts c D L KDynamic true s (map (stored c D KDynamic) cells)
(* zeroed; the depth of a static index is a u8 *)
| start_static_zeroed D L t d s : is_dim D L -> d < 2 ^ 8 -> static_zeroed c D t d = Some s ->
    starts c D L (KStatic t) true s (zeroes D d)
| start_dynamic_zeroed2 d : 2 * d + 24 <= 2 ^ usize_bits c ->
    starts c Dim2D layout2D KDynamic (negb (d mod 4 =? 0)) (dynamic_zeroed_2d d) (zeroes Dim2D d)
| start_dynamic_zeroed3 d s : 3 * d + 24 <= 2 ^ usize_bits c -> dynamic_zeroed_3d c d = Ret s ->
    starts c Dim3D layout3D KDynamic true s (zeroes Dim3D d)
(* from_grid_index *)
| start_fixed_grid2 t x y o s l : x < 2 ^ usize_bits c -> y < 2 ^ usize_bits c ->
    fixed_from_grid_index_2d c t x y o = Ret s -> path_to2 o (BITS c t / 2) x y l ->
    starts c Dim2D layout2D (KFixed t) true s l
| start_static_grid2 t x y d o s l : x < 2 ^ usize_bits c -> y < 2 ^ usize_bits c -> BITS c t / 2 <= usize_bits c ->
    (d <> 0 \/ BITS c t / 2 < usize_bits c \/ overflow_checks c = false) ->
    static_from_grid_index_2d c t x y d o = Ret (Ok s) -> path_to2 o d x y l ->
    starts c Dim2D layout2D (KStatic t) true s l
| start_dynamic_grid2 x y d o s l : x < 2 ^ usize_bits c -> y < 2 ^ usize_bits c ->
    dynamic_from_grid_index_2d c x y d o = Ret s -> path_to2 o d x y l ->
    starts c Dim2D layout2D KDynamic true s l
| start_fixed_grid3 t x y z o s l : x < 2 ^ usize_bits c -> y < 2 ^ usize_bits c -> z < 2 ^ usize_bits c ->
    32 <= usize_bits c -> BITS c t / 3 < usize_bits c ->
    fixed_from_grid_index_3d c t x y z o = Ret s -> path_to3 o (BITS c t / 3) x y z l ->
    starts c Dim3D layout3D (KFixed t) true s l
(* static 3D: from_grid_index loses coordinate bits (property C09); the path is the one the result shows *)
| start_static_grid3 t x y z d o s l : x < 2 ^ usize_bits c -> y < 2 ^ usize_bits c -> z < 2 ^ usize_bits c ->
    BITS c t / 3 < usize_bits c ->
    static_from_grid_index_3d c t x y z d o = Ret (Ok s) -> shows (static_ops c Dim3D t) s l ->
    starts c Dim3D layout3D (KStatic t) true s l
| start_dynamic_grid3 x y z d o s l : x < 2 ^ usize_bits c -> y < 2 ^ usize_bits c -> z < 2 ^ usize_bits c ->
    dynamic_from_grid_index_3d c x y z d o = Ret s -> path_to3 o d x y z l ->
    starts c Dim3D layout3D KDynamic true s (map (stored c Dim3D KDynamic) l)
(* from_raw_index: any bits, depth within the capacity; the path is the one the result shows *)
| start_fixed_raw t b l : b < 2 ^ BITS c t ->
    shows (fixed_ops c Dim3D t) (fixed_from_raw_index b) l ->
    starts c Dim3D layout3D (KFixed t) false (fixed_from_raw_index b) l
| start_static_raw t b d l : b < 2 ^ BITS c t -> d <= BITS c t / 3 ->
    shows (static_ops c Dim3D t) (static_from_raw_index b d) l ->
    starts c Dim3D layout3D (KStatic t) false (static_from_raw_index b d) l.

(* s is an index of kind k that some history of API calls produced; l is the path predicted by lists and e tells
   whether the prediction includes uniqueness of the memory representation. *)
Definition made (c : cfg) (D : Dimension) (L : DynLayout) (k : kind) (e : bool) (s : storage k) (l : list (cell D)) : Prop :=
  exists k0 e0 s0 l0 h answers,
    starts c D L k0 e0 s0 l0
    /\ run_spec c (View k0 e0 l0) h = Done (View k e l, answers)
    /\ run_model c L (pack k0 s0) h = Ret (pack k s, answers).
