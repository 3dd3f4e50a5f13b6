(** C182: sign extension by [^] and [-].  C183: conditional negation. *)
From Coq Require Import ZArith List Bool.
From Verif Require Import Cpp Bit Spec SpecExact Sext BitMain SextProofs.
Import ListNotations.
Open Scope Z_scope.

(** C182: if a uses only its k low positions, (a ^ m) - m with m = 2^(k-1) is the two's complement reading of those positions *)
Theorem C182_sext : forall n k a m, 1 <= n -> 1 <= k <= n -> typed a n false -> tidy a -> num a < 2 ^ k -> typed m n false -> tidy m -> num m = 2 ^ (k - 1) ->
  exists r, xor_sub a m = Ok r /\ typed r n false /\ num r = twos k (num a) mod 2 ^ n.
Proof. exact sign_extends. Qed.
Print Assumptions C182_sext.
Definition u100 (z0 z1 : Z) : bit := mkBit 99 0 false (HB [z0; z1]).
Example C182_ex : typed (u100 5 32) 100 false /\ tidy (u100 5 32) /\ (num (u100 5 32) <? 2 ^ 70) = true /\ typed (u100 0 32) 100 false /\ tidy (u100 0 32) /\ num (u100 0 32) = 2 ^ 69 /\
  twos 70 (num (u100 5 32)) = 5 - 2 ^ 69 /\ omap num (xor_sub (u100 5 32) (u100 0 32)) = Ok (2 ^ 100 + 5 - 2 ^ 69).
Proof. conc. Qed.

(** C183: (a ^ m) - m is -a where m is all ones and a where m is 0 *)
Theorem C183_negate : forall n a m, 1 <= n -> typed a n false -> tidy a -> typed m n false -> tidy m ->
  (num m = 2 ^ n - 1 -> exists r, xor_sub a m = Ok r /\ typed r n false /\ num r = (- num a) mod 2 ^ n) /\
  (num m = 0 -> exists r, xor_sub a m = Ok r /\ typed r n false /\ num r = num a).
Proof. exact negates. Qed.
Print Assumptions C183_negate.
Example C183_ex : typed (u100 3 1) 100 false /\ tidy (u100 3 1) /\ typed (u100 (2 ^ 64 - 1) (2 ^ 36 - 1)) 100 false /\ tidy (u100 (2 ^ 64 - 1) (2 ^ 36 - 1)) /\ num (u100 (2 ^ 64 - 1) (2 ^ 36 - 1)) = 2 ^ 100 - 1 /\
  omap num (xor_sub (u100 3 1) (u100 (2 ^ 64 - 1) (2 ^ 36 - 1))) = Ok (2 ^ 100 - 2 ^ 64 - 3) /\ omap num (xor_sub (u100 3 1) (u100 0 0)) = Ok (2 ^ 64 + 3).
Proof. conc. Qed.
(** and (a + m) ^ m is -a where m is all ones, at exactly the widths of at least 2: for one position 1 + 1 stays 1 *)
Theorem C183_added_exact : forall n, 1 <= n -> ((forall a m, typed a n false -> tidy a -> typed m n false -> tidy m -> num m = 2 ^ n - 1 -> exists r, add_xor a m = Ok r /\ typed r n false /\ num r = (- num a) mod 2 ^ n) <-> 2 <= n).
Proof. exact negates_back_iff. Qed.
Print Assumptions C183_added_exact.
Theorem C183_refuted : exists a m, typed a 1 false /\ tidy a /\ num a = 1 /\ typed m 1 false /\ tidy m /\ num m = 1 /\ omap num (add_xor a m) = Ok 0.
Proof. exists (bit_of_native 0 0 false 1), (bit_of_native 0 0 false 1). conc. Qed.
Print Assumptions C183_refuted.
Theorem C183_added_partial : forall n a m, 2 <= n -> typed a n false -> tidy a -> typed m n false -> tidy m -> num m = 2 ^ n - 1 -> exists r, add_xor a m = Ok r /\ typed r n false /\ num r = (- num a) mod 2 ^ n.
Proof. exact negates_back. Qed.
Print Assumptions C183_added_partial.
Example C183_added_ex : typed (u100 3 1) 100 false /\ tidy (u100 3 1) /\ typed (u100 (2 ^ 64 - 1) (2 ^ 36 - 1)) 100 false /\ tidy (u100 (2 ^ 64 - 1) (2 ^ 36 - 1)) /\ num (u100 (2 ^ 64 - 1) (2 ^ 36 - 1)) = 2 ^ 100 - 1 /\
  omap num (add_xor (u100 3 1) (u100 (2 ^ 64 - 1) (2 ^ 36 - 1))) = Ok (2 ^ 100 - 2 ^ 64 - 3).
Proof. conc. Qed.
