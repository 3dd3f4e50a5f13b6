(** C180: taking a number apart into digits. *)
From Coq Require Import ZArith List Bool.
From Verif Require Import Cpp Bit Logic Spec SpecDigits Digits BitMain DigitsProofs.
Import ListNotations.
Open Scope Z_scope.

(** Missing: more than 96 positions (false, see [C180_refuted] and [C180_exact]). *)
Theorem C180_partial : forall n fuel zero d a, 2 <= n <= 96 -> (Z.to_nat n < fuel)%nat -> typed zero n false -> tidy zero -> num zero = 0 -> typed d n false -> tidy d -> 2 <= num d < 2 ^ 32 -> typed a n false -> tidy a ->
  exists ds, digits fuel zero d a = Ok ds /\ digits_of n (num d) (num a) ds.
Proof. exact digits_all. Qed.
Print Assumptions C180_partial.
(** the quotient of 2^96 by ten is 0: both are taken for numbers of one word *)
Definition w97 (lo hi : Z) : bit := mkBit 96 0 false (HB [lo; hi]).
Theorem C180_refuted : exists zero d a, typed zero 97 false /\ tidy zero /\ num zero = 0 /\ typed d 97 false /\ tidy d /\ num d = 10 /\ typed a 97 false /\ tidy a /\ num a = 2 ^ 96 /\ digits 98 zero d a = Ok [zero].
Proof. exists (w97 0 0), (w97 10 0), (w97 0 (2 ^ 32)). conc. Qed.
Print Assumptions C180_refuted.
(** for every base it is right at exactly the widths up to 96 *)
Theorem C180_exact : forall n b, 2 <= n < 2 ^ 31 -> 2 <= b < 2 ^ 32 -> b < 2 ^ n ->
  (forall fuel zero d a, (Z.to_nat n < fuel)%nat -> typed zero n false -> tidy zero -> num zero = 0 -> typed d n false -> tidy d -> num d = b -> typed a n false -> tidy a ->
     exists ds, digits fuel zero d a = Ok ds /\ digits_of n b (num a) ds) <-> n <= 96.
Proof. exact digits_exact. Qed.
Print Assumptions C180_exact.
Definition d8 (z : Z) : bit := bit_of_native 7 0 false z.
Example C180_ex : typed (d8 0) 8 false /\ tidy (d8 0) /\ num (d8 0) = 0 /\ typed (d8 10) 8 false /\ tidy (d8 10) /\ num (d8 10) = 10 /\ typed (d8 205) 8 false /\ tidy (d8 205) /\
  digits 9 (d8 0) (d8 10) (d8 205) = Ok [d8 5; d8 0; d8 2].
Proof. conc. Qed.
