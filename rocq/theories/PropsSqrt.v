(** C174: the integer square root, position by position. *)
From Coq Require Import ZArith List Bool.
From Verif Require Import Cpp Bit Spec SpecWide SpecSqrt Sqrt BitMain SqrtProofs SqrtExact.
Import ListNotations.
Open Scope Z_scope.

(** Missing: more than 128 positions (false, see [C174_refuted] and [C174_exact]). *)
Theorem C174_partial : forall n zero a ms, 2 <= n <= 128 -> typed a n false -> tidy a -> typed zero n false -> tidy zero -> num zero = 0 -> Z.of_nat (length ms) = (n + 1) / 2 -> root_masks n ms ->
  exists r, isqrt ms zero a = Ok r /\ typed r n false /\ tidy r /\ num r = Z.sqrt (num a).
Proof. exact isqrt_all. Qed.
Print Assumptions C174_partial.
(** C174 is false at 150 positions: the square of 2^74 has 149 positions, but the product of the upper words is written outside the vector *)
Definition masks (n : Z) (h : nat) : list bit := map (fun i => vec_of n false (2 ^ (Z.of_nat h - 1 - Z.of_nat i))) (seq 0 h).
Theorem C174_refuted : exists zero a ms, typed a 150 false /\ tidy a /\ typed zero 150 false /\ tidy zero /\ num zero = 0 /\ Z.of_nat (length ms) = (150 + 1) / 2 /\ root_masks 150 ms /\ isqrt ms zero a = UB.
Proof.
  exists (mkBit 149 0 false (HB [0; 0; 0])), (mkBit 149 0 false (HB [5; 0; 0])), (masks 150 75). split; [conc|]. split; [conc|]. split; [conc|]. split; [conc|]. split; [conc|]. split; [conc|].
  split; [|vm_compute; reflexivity]. apply masks_exist; [split; [discriminate|reflexivity]|discriminate].
Qed.
Print Assumptions C174_refuted.
(** it is right at exactly the widths up to 128: up to 192 it is undefined, above that 2^96 seems to fit into a word and its square is taken for 0 *)
Theorem C174_exact : forall n, 2 <= n < 2 ^ 31 ->
  (forall zero a ms, typed a n false -> tidy a -> typed zero n false -> tidy zero -> num zero = 0 -> Z.of_nat (length ms) = (n + 1) / 2 -> root_masks n ms ->
     exists r, isqrt ms zero a = Ok r /\ typed r n false /\ num r = Z.sqrt (num a)) <-> n <= 128.
Proof. exact isqrt_exact. Qed.
Print Assumptions C174_exact.
Example C174_ex : root_masks 16 (masks 16 8) /\ typed (bit_of_native 15 0 false 65000) 16 false /\ tidy (bit_of_native 15 0 false 65000) /\
  omap num (isqrt (masks 16 8) (bit_of_native 15 0 false 0) (bit_of_native 15 0 false 65000)) = Ok 254 /\
  root_masks 99 (masks 99 50) /\ isqrt (masks 99 50) (mkBit 98 0 false (HB [0; 0])) (mkBit 98 0 false (HB [0; 2 ^ 30])) = Ok (mkBit 98 0 false (HB [2 ^ 47; 0])).
Proof.
  split. { apply masks_exist; [split; [discriminate|reflexivity]|discriminate]. }
  split; [conc|]. split; [conc|]. split; [vm_compute; reflexivity|]. split; [|vm_compute; reflexivity]. apply masks_exist; [split; [discriminate|reflexivity]|discriminate].
Qed.
