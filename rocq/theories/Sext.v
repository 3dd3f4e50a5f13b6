(** Client programs: sign extension and conditional negation by [^] and [-]. *)
From Coq Require Import ZArith List Bool.
From Verif Require Import Cpp Bit.
Import ListNotations.
Open Scope Z_scope.

(** [(a ^ m) - m]: the operators of bit.hh 400-405 and 747-752, where [m] is a vector of the same type *)
Definition xor_sub (a m : bit) : outcome bit := let! x := bit_xor a m in bit_sub x m.
(** [(a + m) ^ m]: bit.hh 723-728 and 400-405 *)
Definition add_xor (a m : bit) : outcome bit := let! x := bit_add a m in bit_xor x m.
