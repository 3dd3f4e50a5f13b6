(** Expression trees over 4-state vectors: evaluation by the library, and the IEEE 1800 meaning. *)
From Coq Require Import ZArith List Bool.
From Verif Require Import Cpp BigNum Bit Logic Spec Client.
Import ListNotations.
Open Scope Z_scope.

Notation expr4 := (gexpr logic).

(** the expression as calls of the library (logic.hh 294-486, 555-635, 731-903) *)
Fixpoint eval4 (env : nat -> logic) (e : expr4) : outcome logic :=
  match e with
  | Var k => Ok (env k)
  | Not e => let! x := eval4 env e in logic_not x
  | Neg e => let! x := eval4 env e in logic_neg x
  | And e f => let! x := eval4 env e in let! y := eval4 env f in logic_and x y
  | Or e f => let! x := eval4 env e in let! y := eval4 env f in logic_or x y
  | Xor e f => let! x := eval4 env e in let! y := eval4 env f in logic_xor x y
  | Add e f => let! x := eval4 env e in let! y := eval4 env f in logic_add x y
  | Sub e f => let! x := eval4 env e in let! y := eval4 env f in logic_sub x y
  | Mul e f => let! x := eval4 env e in let! y := eval4 env f in logic_mul x y
  | Div e f => let! x := eval4 env e in let! y := eval4 env f in logic_div x y
  | Rem e f => let! x := eval4 env e in let! y := eval4 env f in logic_rem x y
  | Shl e amt => let! x := eval4 env e in logic_shl x amt
  | Shr e amt => let! x := eval4 env e in logic_shr x amt
  end.

(** * IEEE 1800 meaning: a vector is its symbols *)
Definition vec4 := Z -> sym.
(** no x or z among the [n] positions *)
Definition all_known (n : Z) (f : vec4) : bool := forallb (fun p => negb (unknown (f p))) (zrange 0 n).
(** the number of a vector without x or z *)
Definition number (n : Z) (f : vec4) : Z := fold_left (fun a p => a + match f p with S1 => 2 ^ p | _ => 0 end) (zrange 0 n) 0.
Definition of_number (z : Z) : vec4 := fun p => sym_of_bool (Z.testbit z p).
Definition all_unknown : vec4 := fun _ => SX.
(** arithmetic: x in every position as soon as an operand has an x or z (11.4.3); likewise for shifts *)
Definition strict1 (n : Z) (f : vec4) (op : Z -> Z) : vec4 :=
  if all_known n f then of_number (op (number n f)) else all_unknown.
Definition strict2 (n : Z) (f g : vec4) (op : Z -> Z -> Z) : vec4 :=
  if all_known n f && all_known n g then of_number (op (number n f) (number n g)) else all_unknown.
(** division by zero gives x in every position *)
Definition strict_div (n : Z) (f g : vec4) (op : Z -> Z -> Z) : vec4 :=
  if all_known n g && (number n g =? 0) then all_unknown else strict2 n f g op.

Fixpoint meaning4 (n : Z) (env : nat -> vec4) (e : expr4) : vec4 :=
  match e with
  | Var k => env k
  | Not e => fun p => not4 (meaning4 n env e p)
  | Neg e => strict1 n (meaning4 n env e) (fun x => (- x) mod 2 ^ n)
  | And e f => fun p => and4 (meaning4 n env e p) (meaning4 n env f p)
  | Or e f => fun p => or4 (meaning4 n env e p) (meaning4 n env f p)
  | Xor e f => fun p => xor4 (meaning4 n env e p) (meaning4 n env f p)
  | Add e f => strict2 n (meaning4 n env e) (meaning4 n env f) (fun x y => (x + y) mod 2 ^ n)
  | Sub e f => strict2 n (meaning4 n env e) (meaning4 n env f) (fun x y => (x - y) mod 2 ^ n)
  | Mul e f => strict2 n (meaning4 n env e) (meaning4 n env f) (fun x y => (x * y) mod 2 ^ n)
  | Div e f => strict_div n (meaning4 n env e) (meaning4 n env f) Z.div
  | Rem e f => strict_div n (meaning4 n env e) (meaning4 n env f) Z.modulo
  | Shl e amt => if all_known (lw amt) (sym_at amt) then strict1 n (meaning4 n env e) (fun x => (x * 2 ^ number (lw amt) (sym_at amt)) mod 2 ^ n) else all_unknown
  | Shr e amt => if all_known (lw amt) (sym_at amt) then strict1 n (meaning4 n env e) (fun x => x / 2 ^ number (lw amt) (sym_at amt)) else all_unknown
  end.

(** the entries of the tables the library gets right (C15, C16) *)
Definition and_right (s t : sym) : Prop := ~ (s = SX /\ t = S0) /\ ~ (s = SZ /\ t = S1) /\ ~ (s = SZ /\ t = SZ).
Definition or_right (s t : sym) : Prop := ~ (s = SX /\ t = S0) /\ ~ (s = SZ /\ t = S1).

(** expressions whose value never has anything stored above its positions *)
Fixpoint neat4 (e : expr4) : Prop :=
  match e with
  | Var _ | Not _ | And _ _ | Or _ _ | Xor _ _ | Div _ _ | Rem _ _ => True
  | Shr e _ => neat4 e
  | _ => False
  end.
Definition amount4 (n : Z) (k : logic) : Prop :=
  ltyped k (lw k) false /\ ltidy k /\ lw k <= 64 /\ (known k -> num (l_val k) < n).
(** the library notices the x and z of an operand (C42): those of a multi-word vector only if one of them lies in the
    lower half of a 64-bit group *)
Definition noticed (n : Z) (f : vec4) : Prop :=
  n <= 64 \/ all_known n f = true \/ exists p, 0 <= p < n /\ p mod 64 < 32 /\ unknown (f p) = true.
(** where the library is right: operands of arithmetic and shifts as in [noticed], known operands of [*], [/] and [%] as in
    [supported], the bitwise operators meet only right table entries; there is no multi-word negation *)
Fixpoint supported4 (n : Z) (env : nat -> vec4) (e : expr4) : Prop :=
  match e with
  | Var _ => True
  | Not e => supported4 n env e
  | Neg e => supported4 n env e /\ n <= 64
  | And e f => supported4 n env e /\ supported4 n env f /\ forall p, 0 <= p < n -> and_right (meaning4 n env e p) (meaning4 n env f p)
  | Or e f => supported4 n env e /\ supported4 n env f /\ forall p, 0 <= p < n -> or_right (meaning4 n env e p) (meaning4 n env f p)
  | Xor e f => supported4 n env e /\ supported4 n env f
  | Add e f | Sub e f => supported4 n env e /\ supported4 n env f /\ noticed n (meaning4 n env e) /\ noticed n (meaning4 n env f)
  | Mul e f => supported4 n env e /\ supported4 n env f /\ noticed n (meaning4 n env e) /\ noticed n (meaning4 n env f) /\
      (n <= 8 \/ 17 <= n <= 64 \/
       (all_known n (meaning4 n env e) = true -> all_known n (meaning4 n env f) = true ->
        (full_width n \/ neat4 e /\ neat4 f) /\
        (n <= 64 /\ number n (meaning4 n env e) * number n (meaning4 n env f) < 2 ^ 31 \/
         65 <= n /\ factors n (number n (meaning4 n env e)) (number n (meaning4 n env f)))))
  | Div e f | Rem e f => supported4 n env e /\ supported4 n env f /\ noticed n (meaning4 n env e) /\ noticed n (meaning4 n env f) /\
      (full_width n \/ neat4 e /\ neat4 f) /\
      (65 <= n -> all_known n (meaning4 n env e) = true -> all_known n (meaning4 n env f) = true ->
        visible (number n (meaning4 n env f)) /\ visible (number n (meaning4 n env f) / 2 ^ 64) /\ visible (number n (meaning4 n env e) / 2 ^ 64))
  | Shl e amt | Shr e amt => supported4 n env e /\ noticed n (meaning4 n env e) /\ amount4 n amt
  end.
Definition good4 (n : Z) (env : nat -> logic) : Prop := forall k, ltyped (env k) n false /\ ltidy (env k).

(** [f'] has the known positions of [f]; positions that are x or z in [f] are arbitrary *)
Definition refines (n : Z) (f' f : vec4) : Prop := forall p, 0 <= p < n -> unknown (f p) = false -> f' p = f p.

(** the same expression over 2-state vectors *)
Fixpoint to2 (e : expr4) : expr :=
  match e with
  | Var k => Var k
  | Not e => Not (to2 e) | Neg e => Neg (to2 e)
  | And e f => And (to2 e) (to2 f) | Or e f => Or (to2 e) (to2 f) | Xor e f => Xor (to2 e) (to2 f)
  | Add e f => Add (to2 e) (to2 f) | Sub e f => Sub (to2 e) (to2 f) | Mul e f => Mul (to2 e) (to2 f)
  | Div e f => Div (to2 e) (to2 f) | Rem e f => Rem (to2 e) (to2 f)
  | Shl e a => Shl (to2 e) (l_val a) | Shr e a => Shr (to2 e) (l_val a)
  end.
(** all shift amounts are known, and of at most 64 bits *)
Fixpoint known_amounts (e : expr4) : Prop :=
  match e with
  | Var _ => True
  | Not e | Neg e => known_amounts e
  | And e f | Or e f | Xor e f | Add e f | Sub e f | Mul e f | Div e f | Rem e f => known_amounts e /\ known_amounts f
  | Shl e a | Shr e a => known_amounts e /\ ltyped a (lw a) false /\ ltidy a /\ lw a <= 64 /\ known a
  end.
