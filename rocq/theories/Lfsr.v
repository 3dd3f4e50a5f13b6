(** Client code: a linear feedback shift register, and swapping two vectors with ^=.  Only calls of the model's API are chained. *)
From Coq Require Import ZArith List Bool.
From Verif Require Import Cpp BigNum Bit Logic.
Import ListNotations.
Open Scope Z_scope.

(** [bool low = c[0]; c = c >> one; if (low) c = c ^ taps;] (the temporaries of >> and ^ are kept as they are; all have the same number of
    positions) *)
Definition lfsr_step (taps one : bit) (c : bit) : outcome bit :=
  let! low := bit_get c 0 in
  let! d := bit_shr c one in
  if low then bit_xor d taps else Ok d.
(** [for (i = 0; i < k; i++) ...] *)
Fixpoint lfsr (taps one : bit) (k : nat) (c : bit) : outcome bit :=
  match k with O => Ok c | S k => let! d := lfsr_step taps one c in lfsr taps one k d end.

(** [a ^= b; b ^= a; a ^= b;] *)
Definition xor_swap (a b : bit) : outcome (bit * bit) :=
  let! a1 := bit_xor_assign a b in
  let! b1 := bit_xor_assign b a1 in
  let! a2 := bit_xor_assign a1 b1 in Ok (a2, b1).
Definition xor_swap4 (a b : logic) : outcome (logic * logic) :=
  let! a1 := logic_compound logic_xor a b in
  let! b1 := logic_compound logic_xor b a1 in
  let! a2 := logic_compound logic_xor a1 b1 in Ok (a2, b1).
