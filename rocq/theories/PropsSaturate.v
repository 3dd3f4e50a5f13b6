(** C169: saturating addition and subtraction. *)
From Coq Require Import ZArith List Bool.
From Verif Require Import Cpp Bit Spec Client Saturate BitMain SaturateProofs.
Import ListNotations.
Open Scope Z_scope.

(** C169: the difference stops at 0, at every width *)
Theorem C169_subtract : forall n zero a b, 1 <= n -> typed a n false -> tidy a -> typed b n false -> tidy b -> typed zero n false -> tidy zero -> num zero = 0 ->
  exists r, sat_sub zero a b = Ok r /\ typed r n false /\ num r = Z.max 0 (num a - num b).
Proof. exact sat_sub_all. Qed.
Print Assumptions C169_subtract.
(** the sum does not stop at the largest number: of 4 positions 15 + 15 reads as 14, because the carry stays in the holder and 30 is not below 15 *)
Theorem C169_refuted : exists zero a r, typed zero 4 false /\ tidy zero /\ num zero = 0 /\ typed a 4 false /\ tidy a /\ num a = 15 /\ sat_add zero a a = Ok r /\ num r = 14.
Proof. exists (bit_of_native 3 0 false 0), (bit_of_native 3 0 false 15), (mkBit 3 0 false (HN 30)). conc. Qed.
Print Assumptions C169_refuted.
(** it does at exactly the widths that fill their storage, and at width 1 *)
Theorem C169_exact : forall n, 1 <= n < 2 ^ 31 ->
  (forall zero a b, typed a n false -> tidy a -> typed b n false -> tidy b -> typed zero n false -> tidy zero -> num zero = 0 ->
     exists r, sat_add zero a b = Ok r /\ typed r n false /\ num r = Z.min (2 ^ n - 1) (num a + num b)) <-> n = 1 \/ full_width n.
Proof. exact sat_add_exact. Qed.
Print Assumptions C169_exact.
(** Missing: the other widths (false, see [C169_exact]). *)
Theorem C169_partial : forall n zero a b, full_width n -> typed a n false -> tidy a -> typed b n false -> tidy b -> typed zero n false -> tidy zero -> num zero = 0 ->
  exists r, sat_add zero a b = Ok r /\ typed r n false /\ num r = Z.min (2 ^ n - 1) (num a + num b).
Proof. exact sat_add_full. Qed.
Print Assumptions C169_partial.
Definition w128 (z0 z1 : Z) : bit := mkBit 127 0 false (HB [z0; z1]).
Example C169_ex : typed (w128 0 0) 128 false /\ tidy (w128 0 0) /\ num (w128 0 0) = 0 /\ typed (w128 5 (2 ^ 63)) 128 false /\ tidy (w128 5 (2 ^ 63)) /\
  sat_add (w128 0 0) (w128 5 (2 ^ 63)) (w128 7 (2 ^ 63)) = Ok (w128 (2 ^ 64 - 1) (2 ^ 64 - 1)) /\ sat_add (w128 0 0) (w128 5 1) (w128 7 2) = Ok (w128 12 3) /\
  sat_sub (w128 0 0) (w128 5 1) (w128 7 2) = Ok (w128 0 0).
Proof. conc. Qed.
Example C169_widths : full_width 128 /\ full_width 16.
Proof. split; [right; right; right; right; split; [discriminate|reflexivity] | right; left; reflexivity]. Qed.
