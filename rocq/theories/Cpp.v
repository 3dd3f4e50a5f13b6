(** The fragment of C++20 the library is written in: outcomes, integer types, conversions and
    operators.  Nothing here is specific to /repo; it is the trusted semantics of the language
    (ISO C++20 [conv.integral], [expr.arith.conv], [expr.shift], [expr.mul], [expr.add]) on an LP64
    two's-complement platform. *)
From Coq Require Import ZArith List Bool.
Import ListNotations.
Open Scope Z_scope.

(** Result of running a piece of C++.
    - [Ok a]      : normal result;
    - [UB]        : the run executes undefined behaviour;
    - [Exn]       : the run throws;
    - [Fuel]      : the modelled recursion did not finish within its fuel (used for runs that never end);
    - [IllFormed] : the compiler rejects the instantiation, so no such run exists. *)
Inductive outcome (A : Type) : Type :=
| Ok (a : A) | UB | Exn | Fuel | IllFormed.
Arguments Ok {A} a.
Arguments UB {A}.
Arguments Exn {A}.
Arguments Fuel {A}.
Arguments IllFormed {A}.

Definition bind {A B} (m : outcome A) (f : A -> outcome B) : outcome B :=
  match m with
  | Ok a => f a
  | UB => UB
  | Exn => Exn
  | Fuel => Fuel
  | IllFormed => IllFormed
  end.

Definition omap {A B} (f : A -> B) (m : outcome A) : outcome B := bind m (fun a => Ok (f a)).

Notation "'let!' x ':=' m 'in' k" := (bind m (fun x => k))
  (at level 200, x binder, m at level 100, k at level 200, right associativity).

(** A run-time step that would be undefined behaviour unless [c] holds. *)
Definition ub_unless {A} (c : bool) (k : outcome A) : outcome A := if c then k else UB.
(** A [requires] clause or any other compile-time condition. *)
Definition requires {A} (c : bool) (k : outcome A) : outcome A := if c then k else IllFormed.

(** Fold of an outcome-returning loop body. *)
Fixpoint ofold {A B} (f : B -> A -> outcome B) (l : list A) (b : B) : outcome B :=
  match l with
  | [] => Ok b
  | a :: l' => bind (f b a) (fun b' => ofold f l' b')
  end.

(** The values of a counting loop [for (i = a; i < b; i++)]. *)
Definition zrange (a b : Z) : list Z := map (fun k => a + Z.of_nat k) (seq 0 (Z.to_nat (b - a))).

(** Fixed-width integer types used by the library (util.hh 82-138); [int] is [TI32],
    [unsigned] is [TU32], [unsigned long (long)] and [uint64_t] are [TU64]. *)
Inductive ity := TBool | TU8 | TI8 | TU16 | TI16 | TU32 | TI32 | TU64 | TI64.

Definition iwidth (t : ity) : Z :=
  match t with
  | TBool => 1
  | TU8 | TI8 => 8
  | TU16 | TI16 => 16
  | TU32 | TI32 => 32
  | TU64 | TI64 => 64
  end.

Definition isigned (t : ity) : bool :=
  match t with TI8 | TI16 | TI32 | TI64 => true | _ => false end.

(** Two's-complement reading of the low [n] bits of [z]. *)
Definition swrap (n z : Z) : Z := (z + 2 ^ (n - 1)) mod 2 ^ n - 2 ^ (n - 1).

(** Integral conversion ([conv.integral], [conv.bool]). *)
Definition conv (t : ity) (z : Z) : Z :=
  match t with
  | TBool => if z =? 0 then 0 else 1
  | _ => if isigned t then swrap (iwidth t) z else z mod 2 ^ iwidth t
  end.

(** Values representable in a type. *)
Definition in_ity (t : ity) (z : Z) : bool :=
  if isigned t then (- 2 ^ (iwidth t - 1) <=? z) && (z <? 2 ^ (iwidth t - 1))
  else (0 <=? z) && (z <? 2 ^ iwidth t).

(** Integral promotion ([conv.prom]). *)
Definition promote (t : ity) : ity :=
  match t with
  | TBool | TU8 | TI8 | TU16 | TI16 => TI32
  | _ => t
  end.

(** Usual arithmetic conversions ([expr.arith.conv]). *)
Definition uac (a b : ity) : ity :=
  match promote a, promote b with
  | TU64, _ | _, TU64 => TU64
  | TI64, _ | _, TI64 => TI64
  | TU32, _ | _, TU32 => TU32
  | _, _ => TI32
  end.

(** Result of an arithmetic operation whose exact value is [z], computed in promoted type [t]. *)
Definition arith (t : ity) (z : Z) : outcome Z :=
  if isigned t then (if in_ity t z then Ok z else UB) else Ok (z mod 2 ^ iwidth t).

Definition c_add (ta tb : ity) (a b : Z) : outcome Z :=
  let t := uac ta tb in arith t (conv t a + conv t b).
Definition c_sub (ta tb : ity) (a b : Z) : outcome Z :=
  let t := uac ta tb in arith t (conv t a - conv t b).
Definition c_mul (ta tb : ity) (a b : Z) : outcome Z :=
  let t := uac ta tb in arith t (conv t a * conv t b).
(** Division truncates towards zero; dividing by zero and INT_MIN / -1 are undefined. *)
Definition c_div (ta tb : ity) (a b : Z) : outcome Z :=
  let t := uac ta tb in
  if conv t b =? 0 then UB else arith t (Z.quot (conv t a) (conv t b)).
Definition c_rem (ta tb : ity) (a b : Z) : outcome Z :=
  let t := uac ta tb in
  if conv t b =? 0 then UB
  else if in_ity t (Z.quot (conv t a) (conv t b)) then Ok (Z.rem (conv t a) (conv t b)) else UB.
Definition c_neg (ta : ity) (a : Z) : outcome Z :=
  let t := promote ta in arith t (- a).
Definition c_not (ta : ity) (a : Z) : Z :=
  let t := promote ta in conv t (Z.lnot a).
Definition c_and (ta tb : ity) (a b : Z) : Z :=
  let t := uac ta tb in Z.land (conv t a) (conv t b).
Definition c_or (ta tb : ity) (a b : Z) : Z :=
  let t := uac ta tb in Z.lor (conv t a) (conv t b).
Definition c_xor (ta tb : ity) (a b : Z) : Z :=
  let t := uac ta tb in Z.lxor (conv t a) (conv t b).
(** Shifts: the amount must lie in [0, width of the promoted left operand); a C++20 left shift is modular. *)
Definition c_shl (ta : ity) (a k : Z) : outcome Z :=
  let t := promote ta in
  if (0 <=? k) && (k <? iwidth t) then Ok (conv t (Z.shiftl a k)) else UB.
Definition c_shr (ta : ity) (a k : Z) : outcome Z :=
  let t := promote ta in
  if (0 <=? k) && (k <? iwidth t) then Ok (Z.shiftr a k) else UB.
Definition c_eq (ta tb : ity) (a b : Z) : bool :=
  let t := uac ta tb in conv t a =? conv t b.
(** [a != b] *)
Definition c_ne (ta tb : ity) (a b : Z) : bool :=
  let t := uac ta tb in negb (conv t a =? conv t b).
Definition c_lt (ta tb : ity) (a b : Z) : bool :=
  let t := uac ta tb in conv t a <? conv t b.

(** Shorthands. *)
Definition u64 (z : Z) : Z := z mod 2 ^ 64.
Definition u128 (z : Z) : Z := z mod 2 ^ 128.
Definition u64max : Z := 2 ^ 64 - 1.
(** Conversion to [int] of a 64-bit value keeps the low 32 bits. *)
Definition i32 (z : Z) : Z := swrap 32 z.
Definition b2z (b : bool) : Z := if b then 1 else 0.
