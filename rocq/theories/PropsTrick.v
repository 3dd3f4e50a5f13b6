(** C167: clearing and isolating the lowest one.  C168: counting ones by clearing them one after the other. *)
From Coq Require Import ZArith List Bool.
From Verif Require Import Cpp Bit Spec SpecTrick Trick BitMain TrickProofs.
Import ListNotations.
Open Scope Z_scope.

(** C167: a & (a - 1) keeps the ones that have a one below them *)
Theorem C167_clear : forall n a one, 1 <= n -> typed a n false -> typed one n false -> num one = 1 -> exists r, clear_lowest one a = Ok r /\ typed r n false /\
  forall p, 0 <= p < n -> (bit_at r p = true <-> bit_at a p = true /\ one_below a p).
Proof. exact clear_all. Qed.
Print Assumptions C167_clear.
(** a & ~(a - 1) keeps the one that has none *)
Theorem C167_isolate : forall n a one, 1 <= n -> typed a n false -> typed one n false -> num one = 1 -> exists r, isolate_lowest one a = Ok r /\ typed r n false /\
  forall p, 0 <= p < n -> (bit_at r p = true <-> bit_at a p = true /\ ~ one_below a p).
Proof. exact isolate_all. Qed.
Print Assumptions C167_isolate.
(** and so does a & -a, where unary minus exists *)
Theorem C167_negated : forall n a, 1 <= n <= 64 -> typed a n false -> exists r, isolate_negated a = Ok r /\ typed r n false /\
  forall p, 0 <= p < n -> (bit_at r p = true <-> bit_at a p = true /\ ~ one_below a p).
Proof. exact isolate_minus. Qed.
Print Assumptions C167_negated.
Definition t100 (z0 z1 : Z) : bit := mkBit 99 0 false (HB [z0; z1]).
Example C167_ex : typed (t100 0 40) 100 false /\ typed (t100 1 0) 100 false /\ num (t100 1 0) = 1 /\ bit_at (t100 0 40) 67 = true /\ ~ one_below (t100 0 1) 64 /\
  clear_lowest (t100 1 0) (t100 0 40) = Ok (t100 0 32) /\ isolate_lowest (t100 1 0) (t100 0 40) = Ok (t100 0 8) /\
  typed (bit_of_native 4 0 false 20) 5 false /\ omap num (isolate_negated (bit_of_native 4 0 false 20)) = Ok 4.
Proof.
  split; [conc|]. split; [conc|]. split; [conc|]. split; [conc|]. split; [|conc].
  intros (q & Hq & X). assert (E : bit_at (t100 0 1) q = Z.testbit (2 ^ 64) q) by reflexivity. rewrite E, Z.pow2_bits_false in X by Lia.lia. discriminate.
Qed.

(** C168 is false for more than 64 positions: a one at position 32 of 100 is not counted, because the loop does not start *)
Theorem C168_refuted : exists a one, typed a 100 false /\ tidy a /\ typed one 100 false /\ tidy one /\ num one = 1 /\ bit_at a 32 = true /\ count_ones 101 one a 0 = Ok 0.
Proof. exists (t100 (2 ^ 32) 0), (t100 1 0). conc. Qed.
Print Assumptions C168_refuted.
(** and false for a vector that holds ones above its width, as a sum may: 8 + 8 of 4 positions reads as 0 and counts as one *)
Theorem C168_above_refuted : exists a s one, typed a 4 false /\ tidy a /\ num a = 8 /\ bit_add a a = Ok s /\ typed s 4 false /\ num s = 0 /\ typed one 4 false /\ tidy one /\ num one = 1 /\ count_ones 9 one s 0 = Ok 1.
Proof. exists (bit_of_native 3 0 false 8), (mkBit 3 0 false (HN 16)), (bit_of_native 3 0 false 1). conc. Qed.
Print Assumptions C168_above_refuted.
(** Missing: more than 64 positions and ones above the width (false, see [C168_exact] and [C168_above_refuted]). *)
Theorem C168_partial : forall n a one fuel, 1 <= n <= 64 -> typed a n false -> tidy a -> typed one n false -> tidy one -> num one = 1 -> n < Z.of_nat fuel ->
  count_ones fuel one a 0 = Ok (ones n (num a)).
Proof. exact count_native. Qed.
Print Assumptions C168_partial.
(** any width: ones above the last one the library looks at are not counted *)
Theorem C168_exact : forall n a one fuel, 1 <= n -> typed a n false -> tidy a -> typed one n false -> tidy one -> num one = 1 -> n < Z.of_nat fuel ->
  count_ones fuel one a 0 = Ok (counted n (num a)).
Proof. exact count_exact. Qed.
Print Assumptions C168_exact.
Example C168_ex : typed (t100 (2 ^ 40 + 5) (2 ^ 34 + 1)) 100 false /\ tidy (t100 (2 ^ 40 + 5) (2 ^ 34 + 1)) /\ typed (t100 1 0) 100 false /\ tidy (t100 1 0) /\
  counted 100 (num (t100 (2 ^ 40 + 5) (2 ^ 34 + 1))) = 4 /\ ones 100 (num (t100 (2 ^ 40 + 5) (2 ^ 34 + 1))) = 5 /\
  typed (bit_of_native 4 0 false 22) 5 false /\ tidy (bit_of_native 4 0 false 22) /\ ones 5 (num (bit_of_native 4 0 false 22)) = 3.
Proof. conc. Qed.
