(** C165: voting among three copies.  C166: choosing between two vectors by a mask. *)
From Coq Require Import ZArith Bool.
From Verif Require Import Cpp Bit Logic Spec SpecExact4 SpecVote Vote BitMain ArrProofs VoteProofs.
Open Scope Z_scope.

(** C165 for 2-state vectors: every position shows what at least two copies hold there *)
Theorem C165_bit : forall n a b c, copy2 n a -> copy2 n b -> copy2 n c -> exists r, vote_bit a b c = Ok r /\ typed r n (bsgn a && bsgn b && bsgn c) /\
  forall p v, 0 <= p < n -> agreed (bit_at a p) (bit_at b p) (bit_at c p) v -> bit_at r p = v.
Proof. exact vote2. Qed.
Print Assumptions C165_bit.
(** False for 4-state vectors: two copies hold 0, the first holds x, and the vote is 1 *)
Theorem C165_refuted : exists a b c r, copy4 4 a /\ copy4 4 b /\ copy4 4 c /\ vote a b c = Ok r /\ agreed (sym_at a 2) (sym_at b 2) (sym_at c 2) S0 /\ sym_at r 2 = S1.
Proof.
  exists (mkLogic (bit_of_native 3 0 false 1) (bit_of_native 3 0 false 4)), (k4 4 1), (k4 4 1). eexists.
  split; [conc|]. split; [conc|]. split; [conc|]. split; [vm_compute; reflexivity|]. split; [right; left; split; vm_compute; reflexivity|vm_compute; reflexivity].
Qed.
Print Assumptions C165_refuted.
(** exactly where the vote is right: everywhere but where the first or second copy holds x and the two others 0 *)
Theorem C165_exact : forall n a b c, copy4 n a -> copy4 n b -> copy4 n c -> exists r, vote a b c = Ok r /\ copy4 n r /\
  forall p v, 0 <= p < n -> unknown v = false -> agreed (sym_at a p) (sym_at b p) (sym_at c p) v ->
    (sym_at r p = v <-> ~ (v = S0 /\ (sym_at a p = SX \/ sym_at b p = SX))).
Proof. exact vote4. Qed.
Print Assumptions C165_exact.
Example C165_ex : copy2 80 (l_val (k80 5 9)) /\ copy2 80 (l_val (k80 5 8)) /\ copy2 80 (l_val (k80 4 9)) /\ agreed (bit_at (l_val (k80 5 9)) 64) (bit_at (l_val (k80 5 8)) 64) (bit_at (l_val (k80 4 9)) 64) true /\
  copy4 80 (k80 5 9) /\ (let x := mkLogic (bit_of_native 7 0 false 3) (bit_of_native 7 0 false 6) in copy4 8 x /\ sym_at x 1 = SZ /\ sym_at x 2 = SX /\
    agreed (sym_at (k4 8 4) 2) (sym_at (k4 8 4) 2) (sym_at x 2) S1 /\ omap (fun r => num (l_val r)) (vote (k4 8 4) (k4 8 4) x) = Ok 4).
Proof.
  split; [conc|]. split; [conc|]. split; [conc|]. split; [right; right; conc|]. split; [conc|]. split; [conc|]. split; [conc|]. split; [conc|]. split; [left; conc|]. vm_compute. reflexivity.
Qed.

(** C166 for 2-state vectors *)
Theorem C166_bit : forall n s a b, copy2 n s -> copy2 n a -> copy2 n b -> exists r, choose_bit s a b = Ok r /\ bw r = n /\
  forall p, 0 <= p < n -> bit_at r p = if bit_at s p then bit_at a p else bit_at b p.
Proof. exact choose2. Qed.
Print Assumptions C166_bit.
(** False for 4-state vectors: where the mask chooses an x the result is 1 *)
Theorem C166_refuted : exists s a b r, copy4 4 s /\ copy4 4 a /\ copy4 4 b /\ choose s a b = Ok r /\ sym_at s 2 = S1 /\ sym_at a 2 = SX /\ sym_at r 2 = S1.
Proof.
  exists (k4 4 12), (mkLogic (bit_of_native 3 0 false 1) (bit_of_native 3 0 false 4)), (k4 4 1). eexists.
  split; [conc|]. split; [conc|]. split; [conc|]. split; [vm_compute; reflexivity|]. conc.
Qed.
Print Assumptions C166_refuted.
(** exactly where the choice is right (a chosen z counts as x, as in IEEE 1800): everywhere but where a 1 of the mask chooses an x or z *)
Theorem C166_exact : forall n s a b, copy4 n s -> copy4 n a -> copy4 n b -> exists r, choose s a b = Ok r /\ copy4 n r /\
  forall p, 0 <= p < n -> unknown (sym_at s p) = false ->
    let chosen := match sym_at s p with S1 => sym_at a p | _ => sym_at b p end in
    (sym_at r p = (if unknown chosen then SX else chosen) <-> ~ (sym_at s p = S1 /\ unknown (sym_at a p) = true)).
Proof. exact choose4. Qed.
Print Assumptions C166_exact.
Example C166_ex : copy4 80 (k80 5 9) /\ unknown (sym_at (k80 5 9) 64) = false /\ copy2 80 (l_val (k80 5 9)) /\
  (let x := mkLogic (bit_of_native 7 0 false 3) (bit_of_native 7 0 false 6) in copy4 8 x /\ omap (fun r => (num (l_val r), num (l_xz r))) (choose (k4 8 1) (k4 8 255) x) = Ok (1, 6)).
Proof. conc. Qed.
