(** Client programs: clearing and isolating the lowest one of a vector. *)
From Coq Require Import ZArith.
From Verif Require Import Cpp Bit.
Open Scope Z_scope.

(** [a & (a - 1)], where the 1 is a vector of the same type: the operators of bit.hh 360-382 and 747-752 *)
Definition clear_lowest (one a : bit) : outcome bit := let! d := bit_sub a one in bit_and a d.
(** [a & ~(a - 1)]; [~] is bit.hh 350-358 *)
Definition isolate_lowest (one a : bit) : outcome bit := let! d := bit_sub a one in bit_and a (bit_not d).
(** [a & -a] *)
Definition isolate_negated (a : bit) : outcome bit := let! m := bit_neg a in bit_and a m.
(** [while (a) { a = a & (a - 1); count++; }] with an [int] count: the loop ends when the vector is 0.  The loop is given [fuel] turns;
    running out is reported. *)
Fixpoint count_ones (fuel : nat) (one a : bit) (count : Z) : outcome Z :=
  match fuel with
  | O => Fuel
  | S f => if bit_any_set a then let! r := clear_lowest one a in count_ones f one r (count + 1) else Ok count
  end.
