(** Client programs: saturating addition and subtraction. *)
From Coq Require Import ZArith.
From Verif Require Import Cpp Bit.
Open Scope Z_scope.

(** [auto s = a + b; if (s < a) s = ~zero;]: the operators of bit.hh 350-358, 626-695, 723-728, where [zero] is a vector of the same type.
    [s] is assigned a vector of its own type, which copies the holder. *)
Definition sat_add (zero a b : bit) : outcome bit :=
  let! s := bit_add a b in let! c := bit_lt s a in Ok (if c then bit_not zero else s).
(** [auto d = a - b; if (a < d) d = zero;]: bit.hh 626-695, 747-752 *)
Definition sat_sub (zero a b : bit) : outcome bit :=
  let! d := bit_sub a b in let! c := bit_lt a d in Ok (if c then zero else d).
