(** C185: barrel shifters. *)
From Coq Require Import ZArith List Bool.
From Verif Require Import Cpp Bit Spec SpecExact SpecCircuit Barrel BitMain BarrelProofs.
Import ListNotations.
Open Scope Z_scope.

(** Missing: for vectors of up to 64 positions, stages of at least the width the hardware shifts at ([computing]: 32 or 64 positions), for >> of at least the width
    (undefined, see [C185_refuted] and [C185_right_undefined]). *)
Theorem C185_left_partial : forall n m s k a, 2 <= n -> 1 <= m -> typed k m false -> typed a n false -> (forall i, 0 <= i < m -> amount_of n (s i) /\ value (s i) = 2 ^ i /\ (n <= 64 -> bit_at k i = true -> 2 ^ i < computing n)) ->
  exists r, barrel_left m s k a = Ok r /\ typed r n false /\ forall p, 0 <= p < n -> bit_at r p = bit_at a (p - num k).
Proof. exact left_all. Qed.
Print Assumptions C185_left_partial.
Theorem C185_right_partial : forall n m s k a, 2 <= n -> 1 <= m -> typed k m false -> typed a n false -> (forall i, 0 <= i < m -> amount_of n (s i) /\ value (s i) = 2 ^ i /\ (n <= 64 -> bit_at k i = true -> 2 ^ i < n)) ->
  exists r, barrel_right m s k a = Ok r /\ typed r n false /\ forall p, 0 <= p < n -> bit_at r p = bit_at a (p + num k).
Proof. exact right_all. Qed.
Print Assumptions C185_right_partial.
(** with >> these are all the cases that go right: one stage of at least the width makes the whole undefined *)
Theorem C185_right_undefined : forall n m s k a, 2 <= n <= 64 -> 1 <= m -> typed k m false -> typed a n false -> (forall i, 0 <= i < m -> amount_of n (s i) /\ value (s i) = 2 ^ i) ->
  forall j, 0 <= j < m -> bit_at k j = true -> n <= 2 ^ j -> barrel_right m s k a = UB.
Proof. exact right_ub. Qed.
Print Assumptions C185_right_undefined.
(** with << a stage is undefined from [computing] on, but an amount of 2^8 or more for up to 8 positions (2^16, 2^32 for up to 16, 32) is taken for 0 *)
Theorem C185_left_undefined : forall n m s k a, 2 <= n <= 64 -> 1 <= m -> typed k m false -> typed a n false -> (forall i, 0 <= i < m -> amount_of n (s i) /\ value (s i) = 2 ^ i) ->
  forall j, 0 <= j < m -> bit_at k j = true -> computing n <= 2 ^ j -> j < storage n -> barrel_left m s k a = UB.
Proof. exact left_ub. Qed.
Print Assumptions C185_left_undefined.
Definition step9 (i : Z) : bit := bit_of_arith 9 0 false (2 ^ i).
Theorem C185_left_refuted : exists k a, typed k 9 false /\ tidy k /\ typed a 8 false /\ tidy a /\ amount_of 8 (step9 8) /\ value (step9 8) = 2 ^ 8 /\ num k = 2 ^ 8 /\ num a = 129 /\ barrel_left 9 step9 k a = Ok a.
Proof. exists (bit_of_native 8 0 false 256), (bit_of_native 7 0 false 129). repeat split; vm_compute; congruence. Qed.
Print Assumptions C185_left_refuted.
(** so they agree with << and >> where those are defined *)
Theorem C185_shifts : forall n m s k a, 2 <= n -> 1 <= m -> typed k m false -> amount_of n k -> (n <= 64 -> num k < n) -> typed a n false -> (forall i, 0 <= i < m -> amount_of n (s i) /\ value (s i) = 2 ^ i /\ (n <= 64 -> 2 ^ i < n)) ->
  (exists r t, barrel_left m s k a = Ok r /\ bit_shl a k = Ok t /\ num r = num t) /\ (exists r t, barrel_right m s k a = Ok r /\ bit_shr a k = Ok t /\ num r = num t).
Proof. exact as_shifts. Qed.
Print Assumptions C185_shifts.
(** a stage of 8 of a vector of 8 positions *)
Definition step (i : Z) : bit := bit_of_arith 5 0 false (2 ^ i).
Theorem C185_refuted : exists k a, typed k 4 false /\ tidy k /\ typed a 8 false /\ tidy a /\ (forall i, 0 <= i < 4 -> amount_of 8 (step i) /\ value (step i) = 2 ^ i) /\ num k = 8 /\ barrel_right 4 step k a = UB.
Proof.
  exists (bit_of_native 3 0 false 8), (bit_of_native 7 0 false 129). do 4 (split; [conc|]). split; [|conc].
  intros i Hi. assert (C : i = 0 \/ i = 1 \/ i = 2 \/ i = 3) by Lia.lia. destruct C as [ -> | [ -> | [ -> | -> ]]]; repeat split; vm_compute; congruence.
Qed.
Print Assumptions C185_refuted.
Definition q100 (lo hi : Z) : bit := mkBit 99 0 false (HB [lo; hi]).
Example C185_ex : typed (bit_of_native 3 0 false 11) 4 false /\ tidy (bit_of_native 3 0 false 11) /\ typed (q100 (2 ^ 60) 1) 100 false /\ (forall i, 0 <= i < 4 -> amount_of 100 (step i) /\ value (step i) = 2 ^ i /\ (100 <= 64 -> 2 ^ i < 100)) /\
  barrel_left 4 step (bit_of_native 3 0 false 11) (q100 (2 ^ 60) 1) = Ok (q100 0 (2 ^ 11 + 2 ^ 7)) /\ barrel_right 4 step (bit_of_native 3 0 false 11) (q100 (2 ^ 60) 1) = Ok (q100 (2 ^ 53 + 2 ^ 49) 0).
Proof.
  do 3 (split; [conc|]). split; [|conc].
  intros i Hi. assert (C : i = 0 \/ i = 1 \/ i = 2 \/ i = 3) by Lia.lia. destruct C as [ -> | [ -> | [ -> | -> ]]]; repeat split; vm_compute; congruence.
Qed.
