(* Base.v - semantic domain shared by all model files.

   Rust values of unsigned integer types are modelled as N; every operator takes the bit width and the build
   configuration.  Nothing in this file models a particular line of /repo; it models the language and core library
   constructs that the code in /repo is written with. *)
From Coq Require Export NArith List Bool String Ascii.
Export ListNotations.
Open Scope N_scope.

(* Build configuration of the crate.
   - overflow_checks: debug profile (true) or release profile (false) of rustc
   - pointer: target_pointer_width, the three values accepted by src/number.rs lines 241-263
   - target_endian: target_endian, see src/number.rs lines 408-411 *)
Inductive pointer_width := PW16 | PW32 | PW64.
Inductive endianness := BigEndian | LittleEndian. (* src/number.rs lines 78-82 *)
Record cfg := Cfg { overflow_checks : bool; pointer : pointer_width; target_endian : endianness }.

(* Outcome of running a piece of code: a value, a Rust panic, or undefined behaviour. *)
Inductive outcome (A : Type) :=
| Ret (a : A)
| Panic
| UB.
Arguments Ret {A} a.
Arguments Panic {A}.
Arguments UB {A}.

Definition bind {A B} (m : outcome A) (k : A -> outcome B) : outcome B :=
  match m with Ret a => k a | Panic => Panic | UB => UB end.
Notation "'let!' x := e 'in' k" := (bind e (fun x => k)) (at level 200, x pattern, e at level 100, k at level 200).

(* src/error.rs lines 1-9 *)
Inductive error :=
| DepthLimitedExceeded (max_depth : N)
| CellIndexOutOfRange.

(* std::result::Result<A, crate::Error>, src/error.rs line 11 *)
Inductive result (A : Type) :=
| Ok (a : A)
| Err (e : error).
Arguments Ok {A} a.
Arguments Err {A} e.

(* Result::unwrap *)
Definition unwrap {A} (r : result A) : outcome A := match r with Ok a => Ret a | Err _ => Panic end.
(* Option::unwrap *)
Definition unwrap_opt {A} (o : option A) : outcome A := match o with Some a => Ret a | None => Panic end.
(* Option<integer>::unwrap_or(0) *)
Definition unwrap_or_0 (o : option N) : N := match o with Some a => a | None => 0 end.

(* The unsigned integer types for which src/number.rs implements Bits (lines 120-264). *)
Inductive uty := U8 | U16 | U32 | U64 | U128 | USize.

Definition usize_bits (c : cfg) : N := match pointer c with PW16 => 16 | PW32 => 32 | PW64 => 64 end.
(* The associated constant Bits::BITS: src/number.rs lines 121, 135, 159, 183, 209, 237. *)
Definition BITS (c : cfg) (t : uty) : N :=
  match t with U8 => 8 | U16 => 16 | U32 => 32 | U64 => 64 | U128 => 128 | USize => usize_bits c end.

(* `x as T` for unsigned integer types *)
Definition cast (w x : N) : N := x mod 2 ^ w.
(* the operators + - * of width w: panic on overflow with overflow checks, wrap around without *)
Definition add (c : cfg) (w a b : N) : outcome N :=
  if a + b <? 2 ^ w then Ret (a + b) else if overflow_checks c then Panic else Ret (cast w (a + b)).
Definition sub (c : cfg) (w a b : N) : outcome N :=
  if b <=? a then Ret (a - b) else if overflow_checks c then Panic else Ret (cast w (2 ^ w + a - b)).
Definition mul (c : cfg) (w a b : N) : outcome N :=
  if a * b <? 2 ^ w then Ret (a * b) else if overflow_checks c then Panic else Ret (cast w (a * b)).
(* the operators << and >>: the shift amount is checked against the width, without checks it is reduced modulo it *)
Definition shl (c : cfg) (w a s : N) : outcome N :=
  if s <? w then Ret (cast w (N.shiftl a s))
  else if overflow_checks c then Panic else Ret (cast w (N.shiftl a (s mod w))).
Definition shr (c : cfg) (w a s : N) : outcome N :=
  if s <? w then Ret (N.shiftr a s)
  else if overflow_checks c then Panic else Ret (N.shiftr a (s mod w)).
(* uN::checked_shr *)
Definition checked_shr (w a s : N) : option N := if s <? w then Some (N.shiftr a s) else None.
(* the operator ! *)
Definition lnot (w a : N) : N := N.lxor a (N.ones w).
(* division by a non-zero constant and remainder never panic: N.div / N.modulo are used directly *)

(* Range<usize>::len *)
Definition range_len (s e : N) : N := if s <? e then e - s else 0.

(* the values visited by `for i in lo..hi` *)
Fixpoint nrange (lo : N) (n : nat) : list N :=
  match n with O => [] | S n' => lo :: nrange (lo + 1) n' end.
Definition range (lo hi : N) : list N := nrange lo (N.to_nat (hi - lo)).

(* `for x in l { s = body(s, x) }` *)
Fixpoint foldM {A S} (f : S -> A -> outcome S) (l : list A) (s : S) : outcome S :=
  match l with
  | [] => Ret s
  | x :: l' => let! s' := f s x in foldM f l' s'
  end.
(* `l.map(f).collect()` *)
Fixpoint mapM {A B} (f : A -> outcome B) (l : list A) : outcome (list B) :=
  match l with
  | [] => Ret []
  | x :: l' => let! y := f x in let! ys := mapM f l' in Ret (y :: ys)
  end.
(* `l.iter().enumerate()` *)
Fixpoint enum_from {A} (k : N) (l : list A) : list (N * A) :=
  match l with [] => [] | x :: l' => (k, x) :: enum_from (k + 1) l' end.
Definition enumerate {A} (l : list A) : list (N * A) := enum_from 0 l.

(* slices and vectors *)
Definition len {A} (l : list A) : N := N.of_nat (List.length l).
Definition vec_get {A} (l : list A) (i : N) : outcome A := unwrap_opt (nth_error l (N.to_nat i)).
Fixpoint update {A} (l : list A) (i : nat) (x : A) : list A :=
  match l, i with
  | [], _ => []
  | _ :: l', O => x :: l'
  | y :: l', S i' => y :: update l' i' x
  end.
Definition vec_set {A} (l : list A) (i : N) (x : A) : outcome (list A) :=
  if i <? len l then Ret (update l (N.to_nat i) x) else Panic.
(* &v[lo..hi]: panics if lo > hi or hi > len *)
Definition vec_slice {A} (l : list A) (lo hi : N) : outcome (list A) :=
  if (lo <=? hi) && (hi <=? len l) then Ret (firstn (N.to_nat (hi - lo)) (skipn (N.to_nat lo) l)) else Panic.
(* `vec![0; n]`, iter::repeat(0).take(n) *)
Definition zeros (n : N) : list N := repeat 0 (N.to_nat n).

(* uN::from_le_bytes / from_be_bytes / from_ne_bytes and their inverses *)
Fixpoint from_le_bytes (l : list N) : N :=
  match l with [] => 0 | b :: l' => b + 256 * from_le_bytes l' end.
Definition from_be_bytes (l : list N) : N := from_le_bytes (rev l).
Definition from_bytes (e : endianness) (l : list N) : N :=
  match e with BigEndian => from_be_bytes l | LittleEndian => from_le_bytes l end.
Fixpoint to_le_bytes (n : nat) (v : N) : list N :=
  match n with O => [] | S n' => v mod 256 :: to_le_bytes n' (v / 256) end.
Definition to_bytes (e : endianness) (n : nat) (v : N) : list N :=
  match e with BigEndian => rev (to_le_bytes n v) | LittleEndian => to_le_bytes n v end.

(* core::cmp::Ordering is Coq's comparison: Less = Lt, Equal = Eq, Greater = Gt *)
