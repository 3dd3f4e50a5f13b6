(** Client algorithms written against the 2-state API; execution is [exec] of Program.v, which only chains calls of the model. *)
From Coq Require Import ZArith List Bool.
From Verif Require Import Cpp BigNum Bit Spec Client Program.
Import ListNotations.
Open Scope Z_scope.

(** the literal 1 as a shift amount (a one-bit vector) *)
Definition by_one : bit := mkBit 0 0 false (HN 1).
(** multiplication by shifting and adding: variables 0 and 1 hold the factors, 2 the result (initially 0), 3 the constant 0,
    4 the constant 1 *)
Definition shift_mul : cmd :=
  While (CLt (Var 3) (Var 1))
    (Seq (If (CEq (And (Var 1) (Var 4)) (Var 4)) (Assign 2 (Add (Var 2) (Var 0))) Skip)
         (Seq (Assign 0 (Shl (Var 0) by_one)) (Assign 1 (Shr (Var 1) by_one)))).
(** exponentiation by squaring: variable 0 the base, 1 the exponent, 2 the result (initially 1), 3 the constant 0, 4 the constant 1 *)
Definition power : cmd :=
  While (CLt (Var 3) (Var 1))
    (Seq (If (CEq (And (Var 1) (Var 4)) (Var 4)) (Assign 2 (Mul (Var 2) (Var 0))) Skip)
         (Seq (Assign 0 (Mul (Var 0) (Var 0))) (Assign 1 (Shr (Var 1) by_one)))).
(** division by repeated subtraction: variable 0 the dividend (finally the remainder), 1 the divisor, 2 the quotient
    (initially 0), 4 the constant 1 *)
Definition sub_div : cmd :=
  While (CGe (Var 0) (Var 1)) (Seq (Assign 0 (Sub (Var 0) (Var 1))) (Assign 2 (Add (Var 2) (Var 4)))).
(** counting ones: variable 0 the vector, 2 the count (initially 0), 3 the constant 0, 4 the constant 1 *)
Definition popcount : cmd :=
  While (CLt (Var 3) (Var 0)) (Seq (Assign 2 (Add (Var 2) (And (Var 0) (Var 4)))) (Assign 0 (Shr (Var 0) by_one))).
(** the number of ones of a number *)
Definition ones_of (n z : Z) : Z := fold_left (fun c p => c + b2z (Z.testbit z p)) (zrange 0 n) 0.
