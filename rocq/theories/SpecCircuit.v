(** What an adder made of the library's one-position operators & | ^ computes. *)
From Coq Require Import ZArith List Bool.
From Verif Require Import Cpp BigNum Bit Logic Spec SpecExact4.
Open Scope Z_scope.

(** the carry into position [k]: the majority of the operands' symbols and the carry below, in the tables of the library ([SpecExact4.v]) *)
Fixpoint carry4 (a b : Z -> sym) (k : nat) : sym :=
  match k with
  | O => S0
  | S k => let p := Z.of_nat k in lib_or (lib_and (a p) (b p)) (lib_and (carry4 a b k) (xor4 (a p) (b p)))
  end.
Definition sum4 (a b : Z -> sym) (p : Z) : sym := xor4 (xor4 (a p) (b p)) (carry4 a b (Z.to_nat p)).

(** a shift amount the library accepts for a vector of [n] positions *)
Definition amount_of (n : Z) (k : bit) : Prop := vec k /\ tidy k /\ (n <= 64 -> bw k <= 64).
