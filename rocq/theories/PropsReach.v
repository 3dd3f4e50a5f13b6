(** Properties of every object a program can make.  [made2], [made4] and [neat2] are in Reach.v: the smallest sets of vectors closed
    under the calls of the API. *)
From Coq Require Import ZArith List Bool Lia.
From Verif Require Import Cpp BigNum Bit Logic Util Spec Reach BitMain ReachProofs2 ReachProofs3 ReachProofs4 ReachProofs5 ReachProofs6 ReachProofs7.
Import ListNotations.
Open Scope Z_scope.

(** a 4-bit vector with more than 4 bits in its storage *)
Definition dirty4 := mkBit 3 0 false (HN 20).
(** the same for a 70-bit vector *)
Definition dirty70 := mkBit 2 71 false (HB [5; 2 ^ 40]).

(** C118: the vectors a program can make are exactly the objects of the declared type *)
Theorem C118_reachable : forall b, made2 b <-> vec b.
Proof. exact made2_iff. Qed.
Print Assumptions C118_reachable.
Example C118_ex : vec dirty4 /\ ~ tidy dirty4 /\ vec dirty70 /\ ~ tidy dirty70.
Proof. split; [conc|]. split; [intros [_ H]; vm_compute in H; discriminate|]. split; [conc|]. intros [_ H]; vm_compute in H; discriminate. Qed.

(** C119: the same for 4-state vectors; the mask of a multi-word vector is only known to be reachable if it is in order *)
Theorem C119_sound : forall l, made4 l -> lvec l.
Proof. exact made4_lvec. Qed.
Print Assumptions C119_sound.
Theorem C119_native : forall l, lw l <= 64 -> (made4 l <-> lvec l).
Proof. exact made4_native. Qed.
Print Assumptions C119_native.
Theorem C119_multi_word_partial : forall l, 65 <= lw l -> tidy (l_xz l) -> (made4 l <-> lvec l).
Proof. exact made4_big. Qed.
Print Assumptions C119_multi_word_partial.
(** a multi-word mask can have bits outside the declared positions: the literal [70'hx000000000000000000] leaves every position of a
    70-position vector 0, yet the vector is not equal to itself *)
Theorem C119_tidy_masks_refuted : exists l, made4 l /\ lw l = 70 /\ ~ tidy (l_xz l) /\ (forall p, 0 <= p < 70 -> sym_at l p = S0) /\ omap (fun r => sym_at r 0) (logic_eq l l) = Ok SX.
Proof. exact hidden_x. Qed.
Print Assumptions C119_tidy_masks_refuted.
Example C119_ex : lvec (mkLogic dirty4 dirty4) /\ lw (mkLogic dirty4 dirty4) <= 64 /\ lvec (mkLogic dirty70 (mkBit 2 71 false (HB [5; 33]))) /\ tidy (mkBit 2 71 false (HB [5; 33])).
Proof. split; [conc|]. split; [conc|]. split; [conc|]. split; vm_compute; congruence. Qed.

(** C120: a program that only uses the operations of [neat2] never leaves anything outside the declared positions *)
Theorem C120_tidy : forall b, neat2 b -> typed b (bw b) false /\ tidy b.
Proof. exact neat_all. Qed.
Print Assumptions C120_tidy.
Theorem C120_equality : forall a b, neat2 a -> neat2 b -> bw a = bw b -> bit_eq a b = Ok (num a =? num b).
Proof. exact neat_eq. Qed.
Print Assumptions C120_equality.
(** such a vector is determined by its positions: no operation can tell two with the same positions apart *)
Theorem C120_same : forall a b, neat2 a -> neat2 b -> bw a = bw b -> (forall p, 0 <= p < bw a -> bit_at a p = bit_at b p) -> a = b.
Proof. exact neat_same. Qed.
Print Assumptions C120_same.
(** without the restriction, equality can tell vectors with the same positions apart *)
Theorem C120_needed : exists a b, made2 a /\ made2 b /\ typed a 4 false /\ typed b 4 false /\ num a = num b /\ bit_eq a b = Ok false.
Proof. exact dirty_equal. Qed.
Print Assumptions C120_needed.
Example C120_ex : exists r, bit_concat (bit_of_arith 3 0 false 9) (bit_mask 3 0 false) = Ok r /\ neat2 r /\ num r = 159.
Proof.
  eexists. split; [reflexivity|]. split; [|reflexivity]. apply (N2_concat (bit_of_arith (4 - 1) 0 false 9) (bit_mask (4 - 1) 0 false)); [|apply N2_mask; lia|left; vm_compute; discriminate|reflexivity].
  apply N2_number; [lia|vm_compute; intuition congruence].
Qed.
