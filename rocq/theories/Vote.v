(** Client programs made of bitwise operators: voting among three copies of a vector, and choosing between two vectors by a mask. *)
From Coq Require Import ZArith.
From Verif Require Import Cpp Bit Logic.
Open Scope Z_scope.

(** [(a & b) | (b & c) | (a & c)] : the operators of bit.hh 360-382, 426-448 and logic.hh 294-299, 335-342, 353-358, 400-407 *)
Definition vote_bit (a b c : bit) : outcome bit :=
  let! x := bit_and a b in let! y := bit_and b c in let! u := bit_or x y in let! z := bit_and a c in bit_or u z.
Definition vote (a b c : logic) : outcome logic :=
  let! x := logic_and a b in let! y := logic_and b c in let! u := logic_or x y in let! z := logic_and a c in logic_or u z.
(** [(s & a) | (~s & b)]; [~] is bit.hh 350-358, logic.hh 472-482 *)
Definition choose_bit (s a b : bit) : outcome bit :=
  let! x := bit_and s a in let! y := bit_and (bit_not s) b in bit_or x y.
Definition choose (s a b : logic) : outcome logic :=
  let! x := logic_and s a in let! n := logic_not s in let! y := logic_and n b in logic_or x y.
