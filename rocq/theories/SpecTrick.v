(** Vocabulary for clearing, isolating and counting ones. *)
From Coq Require Import ZArith List Bool.
From Verif Require Import Cpp Bit Spec.
Open Scope Z_scope.

(** there is a one below position [p] *)
Definition one_below (b : bit) (p : Z) : Prop := exists q, 0 <= q < p /\ bit_at b q = true.
(** The positions at which the library looks to tell whether a vector is zero: all of them up to 64, otherwise the lower half of every
    group of 64 (see C24 and C25). *)
Definition looked_at (n p : Z) : bool := (n <=? 64) || (p mod 64 <? 32).
(** the number of ones that have such a one above them or are such ones *)
Definition countable (n z p : Z) : bool := Z.testbit z p && existsb (fun q => (p <=? q) && Z.testbit z q && looked_at n q) (zrange 0 n).
Definition counted (n z : Z) : Z := Z.of_nat (length (filter (countable n z) (zrange 0 n))).
