(* SpecMaps.v - hashers, and the maps of std with indices as keys (C73, C74).  The maps are client code: the crate only
   provides ==, Hash and Ord of the keys. *)
From Verif Require Import Base ModelNumber ModelDim ModelStorage ModelHash Spec.

(* the calls of all storage kinds and of cells *)
Definition idx_calls (k : kind) : storage k -> list hash_call :=
  match k with KFixed t => fun s => index_calls (fixed_calls t s) | KStatic t => fun s => index_calls (static_calls t s)
             | KDynamic => fun s => index_calls (dynamic_calls s) end.

(* Any implementation of Hasher: a state, what every call does to it, and finish. *)
Record hasher := Hasher { h_state : Type; h_start : h_state; h_call : h_state -> hash_call -> h_state; h_finish : h_state -> N }.
Definition hash_of (h : hasher) (calls : list hash_call) : N := h_finish h (fold_left (h_call h) calls (h_start h)).
(* the bytes that a hasher with the default methods sees *)
Definition stream (c : cfg) (calls : list hash_call) : list N := flat_map (default_bytes c) calls.

(* ---------- HashMap ---------- *)
(* A hash map keeps its entries in buckets chosen by the hash.  insert keeps the key that is already there and replaces its
   value, as HashMap::insert does. *)
Definition hash_map (K V : Type) := N -> list (K * V).
Section HashMap.
  Context {K V : Type} (eqb : K -> K -> bool) (bucket : K -> N).
  Fixpoint entry_get (l : list (K * V)) (k : K) : option V :=
    match l with [] => None | (k', v) :: r => if eqb k' k then Some v else entry_get r k end.
  Fixpoint entry_insert (l : list (K * V)) (k : K) (v : V) : list (K * V) :=
    match l with [] => [(k, v)] | (k', v') :: r => if eqb k' k then (k', v) :: r else (k', v') :: entry_insert r k v end.
  Fixpoint entry_remove (l : list (K * V)) (k : K) : list (K * V) :=
    match l with [] => [] | (k', v') :: r => if eqb k' k then r else (k', v') :: entry_remove r k end.
  Definition hm_empty : hash_map K V := fun _ => [].
  Definition hm_get (m : hash_map K V) (k : K) : option V := entry_get (m (bucket k)) k.
  Definition hm_insert (m : hash_map K V) (k : K) (v : V) : hash_map K V :=
    fun n => if n =? bucket k then entry_insert (m n) k v else m n.
  Definition hm_remove (m : hash_map K V) (k : K) : hash_map K V := fun n => if n =? bucket k then entry_remove (m n) k else m n.
End HashMap.

(* ---------- BTreeMap ---------- *)
(* An ordered map keeps its entries sorted; the position of a key is found by comparisons, which can panic. *)
Section OrderedMap.
  Context {K V : Type} (cmp : K -> K -> outcome comparison).
  Fixpoint om_get (l : list (K * V)) (k : K) : outcome (option V) :=
    match l with
    | [] => Ret None
    | (k', v) :: r => let! o := cmp k k' in match o with Lt => Ret None | Eq => Ret (Some v) | Gt => om_get r k end
    end.
  Fixpoint om_insert (l : list (K * V)) (k : K) (v : V) : outcome (list (K * V)) :=
    match l with
    | [] => Ret [(k, v)]
    | (k', v') :: r =>
        let! o := cmp k k' in
        match o with
        | Lt => Ret ((k, v) :: (k', v') :: r)
        | Eq => Ret ((k', v) :: r)
        | Gt => let! r' := om_insert r k v in Ret ((k', v') :: r')
        end
    end.
  Fixpoint om_remove (l : list (K * V)) (k : K) : outcome (list (K * V)) :=
    match l with
    | [] => Ret []
    | (k', v') :: r =>
        let! o := cmp k k' in
        match o with Lt => Ret l | Eq => Ret r | Gt => let! r' := om_remove r k in Ret ((k', v') :: r') end
    end.
End OrderedMap.

(* ---------- what clients do with a map ---------- *)
Inductive map_step (K V : Type) := Insert (k : K) (v : V) | Remove (k : K).
Arguments Insert {K V}. Arguments Remove {K V}.
Definition step_key {K V} (x : map_step K V) : K := match x with Insert k _ | Remove k => k end.
Definition hm_run {K V} (eqb : K -> K -> bool) (bucket : K -> N) (steps : list (map_step K V)) : hash_map K V :=
  fold_left (fun m x => match x with Insert k v => hm_insert eqb bucket m k v | Remove k => hm_remove eqb bucket m k end) steps hm_empty.
Definition om_run {K V} (cmp : K -> K -> outcome comparison) (steps : list (map_step K V)) : outcome (list (K * V)) :=
  foldM (fun m x => match x with Insert k v => om_insert cmp m k v | Remove k => om_remove cmp m k end) steps [].

(* What the last step for a node says, read from the end. *)
Inductive last_step {K V} (same : K -> Prop) : list (map_step K V) -> option V -> Prop :=
| last_none : forall steps, Forall (fun x => ~ same (step_key x)) steps -> last_step same steps None
| last_insert : forall before k v after, same k -> Forall (fun x => ~ same (step_key x)) after ->
    last_step same (before ++ Insert k v :: after) (Some v)
| last_remove : forall before k after, same k -> Forall (fun x => ~ same (step_key x)) after ->
    last_step same (before ++ Remove k :: after) None.
