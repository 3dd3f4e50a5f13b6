(** C186: the Hamming distance of two vectors. *)
From Coq Require Import ZArith List Bool.
From Verif Require Import Cpp Bit Spec SpecTrick Distance BitMain DistanceProofs.
Import ListNotations.
Open Scope Z_scope.

(** C186: the loop counts the positions in which the vectors differ *)
Theorem C186_counts : forall n a b s t, 1 <= n -> typed a n s -> typed b n t -> distance n a b = Ok (ones n (Z.lxor (num a) (num b))).
Proof. exact distance_ones. Qed.
Print Assumptions C186_counts.
(** it is a distance: between 0 and the width, 0 for equal contents only, the same both ways, not longer than any detour *)
Theorem C186_metric : forall n a b c s t u, 1 <= n -> typed a n s -> typed b n t -> typed c n u ->
  exists ab ba bc ac, distance n a b = Ok ab /\ distance n b a = Ok ba /\ distance n b c = Ok bc /\ distance n a c = Ok ac /\
    0 <= ab <= n /\ (ab = 0 <-> num a = num b) /\ ab = ba /\ ac <= ab + bc.
Proof. exact distance_metric. Qed.
Print Assumptions C186_metric.
Definition h100 (lo hi : Z) : bit := mkBit 99 0 false (HB [lo; hi]).
(** counting the ones of a ^ b by clearing them misses a one at position 32 of 100 *)
Theorem C186_cleared_refuted : exists a b one, typed a 100 false /\ tidy a /\ typed b 100 false /\ tidy b /\ typed one 100 false /\ tidy one /\ num one = 1 /\ distance 100 a b = Ok 1 /\ distance_cleared 101 one a b = Ok 0.
Proof. exists (h100 (2 ^ 32) 0), (h100 0 0), (h100 1 0). conc. Qed.
Print Assumptions C186_cleared_refuted.
(** Missing: more than 64 positions (false, see [C186_cleared_refuted] and [C186_cleared_exact]) and one. *)
Theorem C186_cleared_partial : forall n a b one fuel, 2 <= n <= 64 -> typed a n false -> tidy a -> typed b n false -> tidy b -> typed one n false -> tidy one -> num one = 1 -> n < Z.of_nat fuel ->
  distance_cleared fuel one a b = distance n a b.
Proof. exact distance_cleared_same. Qed.
Print Assumptions C186_cleared_partial.
(** any width: differences above the last one the library looks at are not counted *)
Theorem C186_cleared_exact : forall n a b one fuel, 2 <= n -> typed a n false -> tidy a -> typed b n false -> tidy b -> typed one n false -> tidy one -> num one = 1 -> n < Z.of_nat fuel ->
  distance_cleared fuel one a b = Ok (counted n (Z.lxor (num a) (num b))).
Proof. exact distance_cleared_counted. Qed.
Print Assumptions C186_cleared_exact.
Definition h8 (z : Z) : bit := bit_of_native 7 0 false z.
Example C186_ex : typed (h100 5 1) 100 false /\ typed (h100 0 3) 100 false /\ typed (h100 4 2) 100 false /\ distance 100 (h100 5 1) (h100 0 3) = Ok 3 /\ distance 100 (h100 0 3) (h100 4 2) = Ok 2 /\ distance 100 (h100 5 1) (h100 4 2) = Ok 3 /\
  typed (h8 200) 8 false /\ tidy (h8 200) /\ typed (h8 77) 8 false /\ tidy (h8 77) /\ typed (h8 1) 8 false /\ tidy (h8 1) /\ num (h8 1) = 1 /\ distance 8 (h8 200) (h8 77) = Ok 3 /\ distance_cleared 9 (h8 1) (h8 200) (h8 77) = Ok 3.
Proof. conc. Qed.
