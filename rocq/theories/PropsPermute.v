(** C170: moving the positions of a vector one by one.  C171: reversing a vector in place. *)
From Coq Require Import ZArith List Bool.
From Verif Require Import Cpp Bit Logic Spec Permute BitMain PermuteProofs.
Import ListNotations.
Open Scope Z_scope.

(** C170, 2-state: position p of the result is position f(p) of the source, for every table f of positions *)
Theorem C170_gather : forall f n a r sa s, 1 <= n -> (forall i, 0 <= i < n -> 0 <= f i < n) -> typed a n sa -> typed r n s ->
  exists r', gather f n a r = Ok r' /\ typed r' n s /\ forall p, 0 <= p < n -> bit_at r' p = bit_at a (f p).
Proof. exact gather_all. Qed.
Print Assumptions C170_gather.
(** writing to position f(i) instead, where f names no position twice *)
Theorem C170_scatter : forall f n a r sa s, 1 <= n -> (forall i, 0 <= i < n -> 0 <= f i < n) -> (forall i j, 0 <= i < j -> j < n -> f i <> f j) -> typed a n sa -> typed r n s ->
  exists r', scatter f n a r = Ok r' /\ typed r' n s /\ forall p, 0 <= p < n -> bit_at r' (f p) = bit_at a p.
Proof. exact scatter_all. Qed.
Print Assumptions C170_scatter.
(** one undoes the other *)
Theorem C170_back : forall f n a r q sa s s', 1 <= n -> (forall i, 0 <= i < n -> 0 <= f i < n) -> (forall i j, 0 <= i < j -> j < n -> f i <> f j) -> typed a n sa -> typed r n s -> typed q n s' ->
  exists x y, scatter f n a r = Ok x /\ gather f n x q = Ok y /\ typed y n s' /\ num y = num a.
Proof. exact there_and_back. Qed.
Print Assumptions C170_back.
(** 4-state: undefined exactly if an x or z is read from position 64 on (C03); otherwise every symbol moves *)
Theorem C170_gather_exact : forall f n a r sa s, 1 <= n -> (forall i, 0 <= i < n -> 0 <= f i < n) -> ltyped a n sa -> ltyped r n s ->
  (gather4 f n a r = UB <-> exists i, 0 <= i < n /\ 64 <= f i /\ unknown (sym_at a (f i)) = true) /\
  (gather4 f n a r <> UB -> exists r', gather4 f n a r = Ok r' /\ ltyped r' n s /\ forall p, 0 <= p < n -> sym_at r' p = sym_at a (f p)).
Proof. exact gather4_exact. Qed.
Print Assumptions C170_gather_exact.
(** so it is not always defined *)
Theorem C170_refuted : exists a r, ltyped a 70 false /\ ltyped r 70 false /\ sym_at a 69 = SX /\ gather4 (fun i => i) 70 a r = UB.
Proof. exists (mkLogic (mkBit 69 0 false (HB [1; 0])) (mkBit 69 0 false (HB [0; 32]))), (mkLogic (mkBit 69 0 false (HB [0; 0])) (mkBit 69 0 false (HB [0; 0]))). conc. Qed.
Print Assumptions C170_refuted.
(** Missing: x and z from position 64 on (undefined, see [C170_gather_exact]). *)
Theorem C170_partial : forall f n a r sa s, 1 <= n -> (forall i, 0 <= i < n -> 0 <= f i < n) -> ltyped a n sa -> ltyped r n s -> (forall p, 64 <= p < n -> unknown (sym_at a p) = false) ->
  exists r', gather4 f n a r = Ok r' /\ ltyped r' n s /\ forall p, 0 <= p < n -> sym_at r' p = sym_at a (f p).
Proof. exact gather4_low. Qed.
Print Assumptions C170_partial.
Theorem C170_scatter_exact : forall f n a r sa s, 1 <= n -> (forall i, 0 <= i < n -> 0 <= f i < n) -> (forall i j, 0 <= i < j -> j < n -> f i <> f j) -> ltyped a n sa -> ltyped r n s ->
  (scatter4 f n a r = UB <-> exists i, 64 <= i < n /\ unknown (sym_at a i) = true) /\
  (scatter4 f n a r <> UB -> exists r', scatter4 f n a r = Ok r' /\ ltyped r' n s /\ forall p, 0 <= p < n -> sym_at r' (f p) = sym_at a p).
Proof. exact scatter4_exact. Qed.
Print Assumptions C170_scatter_exact.
(** exchanging the bytes of 16 positions, also with an x *)
Definition swapped (i : Z) : Z := (i + 8) mod 16.
Example C170_ex : (forall i, 0 <= i < 16 -> 0 <= swapped i < 16) /\ (forall i j, 0 <= i < j -> j < 16 -> swapped i <> swapped j) /\
  typed (bit_of_native 15 0 false 4660) 16 false /\ omap num (gather swapped 16 (bit_of_native 15 0 false 4660) (bit_of_native 15 0 true 0)) = Ok 13330 /\
  exists l m, logic_set_x (logic_of_arith 15 0 false 4660) 3 = Ok l /\ ltyped l 16 false /\ gather4 swapped 16 l l = Ok m /\ sym_at m 11 = SX /\ sym_at m 10 = S1.
Proof.
  split. { intros i I. apply Z.mod_pos_bound. reflexivity. }
  split. { intros i j I J E. unfold swapped in E. destruct (Z.le_gt_cases 8 i), (Z.le_gt_cases 8 j).
    - rewrite <- (Z.mod_unique (i + 8) 16 1 (i - 8)), <- (Z.mod_unique (j + 8) 16 1 (j - 8)) in E by Lia.lia. Lia.lia.
    - Lia.lia.
    - rewrite (Z.mod_small (i + 8)), <- (Z.mod_unique (j + 8) 16 1 (j - 8)) in E by Lia.lia. Lia.lia.
    - rewrite !Z.mod_small in E by Lia.lia. Lia.lia. }
  split; [conc|]. split; [conc|]. eexists. eexists. split; [vm_compute; reflexivity|]. split; [conc|]. split; [vm_compute; reflexivity|]. conc.
Qed.

(** C171, 2-state *)
Theorem C171_two_state : forall n a s, 1 <= n -> typed a n s -> exists r, reverse n a = Ok r /\ typed r n s /\ forall p, 0 <= p < n -> bit_at r p = bit_at a (n - 1 - p).
Proof. exact reverse_all. Qed.
Print Assumptions C171_two_state.
(** 4-state: undefined exactly if there is an x or z from position 64 on, other than in the middle, which is not read *)
Theorem C171_exact : forall n a s, 1 <= n -> ltyped a n s ->
  (reverse4 n a = UB <-> exists p, 64 <= p < n /\ n <> 2 * p + 1 /\ unknown (sym_at a p) = true) /\
  (reverse4 n a <> UB -> exists r, reverse4 n a = Ok r /\ ltyped r n s /\ forall p, 0 <= p < n -> sym_at r p = sym_at a (n - 1 - p)).
Proof. exact reverse4_exact. Qed.
Print Assumptions C171_exact.
(** so it is not defined everywhere *)
Theorem C171_refuted : exists a, ltyped a 70 false /\ sym_at a 69 = SX /\ reverse4 70 a = UB.
Proof. exists (mkLogic (mkBit 69 0 false (HB [1; 0])) (mkBit 69 0 false (HB [0; 32]))). conc. Qed.
Print Assumptions C171_refuted.
(** Missing: x and z from position 64 on (undefined, see [C171_exact]). *)
Theorem C171_partial : forall n a s, 1 <= n -> ltyped a n s -> (forall p, 64 <= p < n -> unknown (sym_at a p) = false) ->
  exists r, reverse4 n a = Ok r /\ ltyped r n s /\ forall p, 0 <= p < n -> sym_at r p = sym_at a (n - 1 - p).
Proof. exact reverse4_low. Qed.
Print Assumptions C171_partial.
Example C171_ex : typed (mkBit 99 0 false (HB [3; 0])) 100 false /\ reverse 100 (mkBit 99 0 false (HB [3; 0])) = Ok (mkBit 99 0 false (HB [0; 3 * 2 ^ 34])) /\
  let l := mkLogic (mkBit 69 0 false (HB [2; 32])) (mkBit 69 0 false (HB [3; 0])) in ltyped l 70 false /\ sym_at l 0 = SX /\ sym_at l 1 = SZ /\ sym_at l 69 = S1 /\
  exists r, reverse4 70 l = Ok r /\ sym_at r 69 = SX /\ sym_at r 68 = SZ /\ sym_at r 0 = S1.
Proof.
  split; [conc|]. split; [conc|]. cbv zeta. split; [conc|]. split; [conc|]. split; [conc|]. split; [conc|]. eexists. split; [vm_compute; reflexivity|]. conc.
Qed.
