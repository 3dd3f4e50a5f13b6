(** C184: evaluating a polynomial. *)
From Coq Require Import ZArith List Bool.
From Verif Require Import Cpp Bit Logic Spec SpecDigits Digits Horner BitMain HornerProofs.
Import ListNotations.
Open Scope Z_scope.

(** Missing: more than 64 positions where a sum before the last turn needs more than 64 (false, see [C184_refuted], [C184_lost_refuted] and [C184_exact]). *)
Theorem C184_partial : forall n zero d cs, 2 <= n -> typed zero n false -> tidy zero -> num zero = 0 -> typed d n false -> tidy d -> 1 <= num d -> (forall c, In c cs -> typed c n false /\ tidy c) ->
  digits_num (num d) cs < 2 ^ n -> n <= 64 \/ num d < 2 ^ 64 /\ digits_num (num d) (tl cs) < 2 ^ 64 -> exists r, horner zero d cs = Ok r /\ typed r n false /\ tidy r /\ num r = digits_num (num d) cs.
Proof. exact horner_all. Qed.
Print Assumptions C184_partial.
(** ten times 2^64 of 100 positions is written outside the vector *)
Definition p100 (lo hi : Z) : bit := mkBit 99 0 false (HB [lo; hi]).
Theorem C184_refuted : exists zero d c, typed zero 100 false /\ tidy zero /\ num zero = 0 /\ typed d 100 false /\ tidy d /\ num d = 10 /\ typed c 100 false /\ tidy c /\ num c = 2 ^ 64 /\
  digits_num 10 [zero; c] = 10 * 2 ^ 64 /\ horner zero d [zero; c] = UB.
Proof. exists (p100 0 0), (p100 10 0), (p100 0 1). conc. Qed.
Print Assumptions C184_refuted.
(** and ten times 2^96 of 200 positions is 0 *)
(** so the digits of a number (C180), read back this way, give the number *)
Theorem C184_digits_partial : forall n fuel zero d a, 2 <= n <= 96 -> (Z.to_nat n < fuel)%nat -> typed zero n false -> tidy zero -> num zero = 0 -> typed d n false -> tidy d -> 2 <= num d < 2 ^ 32 -> typed a n false -> tidy a -> n <= 64 \/ num a < num d * 2 ^ 64 ->
  exists ds r, digits fuel zero d a = Ok ds /\ horner zero d ds = Ok r /\ typed r n false /\ tidy r /\ num r = num a.
Proof. exact digits_back. Qed.
Print Assumptions C184_digits_partial.
Definition p200 (lo mi : Z) : bit := mkBit 199 0 false (HB [lo; mi; 0; 0]).
Theorem C184_lost_refuted : exists zero d c, typed zero 200 false /\ tidy zero /\ num zero = 0 /\ typed d 200 false /\ tidy d /\ num d = 10 /\ typed c 200 false /\ tidy c /\ num c = 2 ^ 96 /\
  digits_num 10 [zero; c] = 10 * 2 ^ 96 /\ horner zero d [zero; c] = Ok zero.
Proof. exists (p200 0 0), (p200 10 0), (p200 0 (2 ^ 32)). conc. Qed.
Print Assumptions C184_lost_refuted.
(** for every point it is right for all coefficients at exactly the widths up to 64, and where no sum before the last turn can need more *)
Theorem C184_exact : forall n b, 2 <= n < 2 ^ 31 -> 1 <= b < 2 ^ 32 -> b < 2 ^ n ->
  (forall zero d cs, typed zero n false -> tidy zero -> num zero = 0 -> typed d n false -> tidy d -> num d = b -> (forall c, In c cs -> typed c n false /\ tidy c) -> digits_num b cs < 2 ^ n ->
     exists r, horner zero d cs = Ok r /\ typed r n false /\ tidy r /\ num r = digits_num b cs) <-> n <= 64 \/ 2 ^ n <= b * 2 ^ 64.
Proof. exact horner_exact. Qed.
Print Assumptions C184_exact.
Definition p20 (z : Z) : bit := bit_of_native 19 0 false z.
Example C184_ex : typed (p20 0) 20 false /\ tidy (p20 0) /\ num (p20 0) = 0 /\ typed (p20 10) 20 false /\ tidy (p20 10) /\ num (p20 10) = 10 /\ typed (p20 5) 20 false /\ tidy (p20 5) /\
  digits_num 10 [p20 5; p20 0; p20 321] = 32105 /\ omap num (horner (p20 0) (p20 10) [p20 5; p20 0; p20 321]) = Ok 32105 /\
  typed (p100 (2 ^ 63) 0) 100 false /\ tidy (p100 (2 ^ 63) 0) /\ omap num (horner (p100 0 0) (p100 10 0) [p100 7 0; p100 (2 ^ 63) 0]) = Ok (10 * 2 ^ 63 + 7).
Proof. conc. Qed.
Example C184_digits_ex : typed (p20 205) 20 false /\ tidy (p20 205) /\ digits 21 (p20 0) (p20 10) (p20 205) = Ok [p20 5; p20 0; p20 2] /\ horner (p20 0) (p20 10) [p20 5; p20 0; p20 2] = Ok (p20 205).
Proof. conc. Qed.
