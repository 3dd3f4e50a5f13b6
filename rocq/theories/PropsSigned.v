(** Property theorems: programs over signed vectors of one width. *)
From Coq Require Import ZArith List Bool.
From Verif Require Import Cpp BigNum Bit Spec SpecExact SpecMachine MachineProg SpecSigned SignedProofs.
Import ListNotations.
Open Scope Z_scope.

(** C152: as long as the program over the integers stays within n positions, divides by no zero and shifts by less than n, the library does the same *)
Theorem C152_integers_partial : forall n fuel env st c st', 2 <= n <= 64 -> showing n env st -> (forall k, tidy (env k)) -> signed_stmt n c ->
  integer_run n fuel st c = Ok st' -> exists env', lib_run fuel env c = Ok env' /\ showing n env' st' /\ forall k, tidy (env' k).
Proof. exact signed_integers. Qed.
Print Assumptions C152_integers_partial.
(** every program and state, also after an overflow: in lockstep with the program over the stored integers (results wrap in 8 and 16 bits and are undefined in 32 and 64) *)
Theorem C152_exact : forall n fuel env st c, 2 <= n <= 64 -> holding n env st -> signed_stmt n c -> same_run n (lib_run fuel env c) (signed_run n fuel st c).
Proof. exact signed_programs. Qed.
Print Assumptions C152_exact.
(** an overflow does not wrap around at n positions: with 12 the sum of 2047 and 1 shows -2048 and is not below 0, with 32 it is undefined *)
Theorem C152_wraps_refuted : exists a b z s, typed a 12 true /\ tidy a /\ typed b 12 true /\ tidy b /\ typed z 12 true /\ value z = 0 /\
  bit_add a b = Ok s /\ value s = - 2 ^ 11 /\ bit_lt s z = Ok false.
Proof.
  exists (bit_of_arith 11 0 true 2047), (bit_of_arith 11 0 true 1), (bit_of_arith 11 0 true 0), (bit_of_arith 11 0 true 2048).
  repeat split; vm_compute; congruence.
Qed.
Print Assumptions C152_wraps_refuted.
Theorem C152_overflow_refuted : exists a b, typed a 32 true /\ tidy a /\ typed b 32 true /\ tidy b /\ bit_add a b = UB.
Proof. exists (bit_of_arith 31 0 true (2 ^ 31 - 1)), (bit_of_arith 31 0 true 1). repeat split; vm_compute; congruence. Qed.
Print Assumptions C152_overflow_refuted.

(** 12 positions: v0 = -7, v1 = 3; v2 = v0 / v1, v3 = v0 % v1; while (v1 < 100) { v1 = -(v1 * v0) ; ++v4 } *)
Definition sprog : stmt :=
  Seq (Put 2 (Bin Quot (Var 0) (Var 1))) (Seq (Put 3 (Bin Rem (Var 0) (Var 1)))
    (While (Rel RLt (Var 1) (New 11 0 true 100)) (Seq (Put 1 (Un Minus (Bin Times (Var 1) (Var 0)))) (Inc 4)))).
Definition svals (k : nat) : Z := match k with 0%nat => -7 | 1%nat => 3 | _ => 0 end.
Definition svars : state := fun k => bit_of_arith 11 0 true (svals k).
Example C152_ex : showing 12 svars svals /\ (forall k, tidy (svars k)) /\ signed_stmt 12 sprog /\
  omap (fun st => (st 1%nat, st 2%nat, st 3%nat, st 4%nat)) (integer_run 12 20 svals sprog) = Ok (147, -2, -1, 2) /\
  omap (fun env => (value (env 1%nat), value (env 2%nat), value (env 3%nat), value (env 4%nat))) (lib_run 20 svars sprog) = Ok (147, -2, -1, 2) /\
  omap (fun st => st 0%nat) (signed_run 12 3 svals (Put 0 (Bin Times (Var 0) (New 11 0 true 2000)))) = Ok (-14000) /\
  omap (fun st => st 0%nat) (signed_run 32 3 svals (Put 0 (Bin Times (Var 0) (New 31 0 true 2000000000)))) = UB.
Proof.
  split. { intros k. unfold svars. destruct k as [|[|k]]; repeat split; vm_compute; congruence. }
  split. { intros k. unfold svars. destruct k as [|[|k]]; repeat split; vm_compute; congruence. }
  split. { cbn [signed_stmt signed_test signed_ex sprog]. repeat split; vm_compute; congruence. }
  repeat split; vm_compute; reflexivity.
Qed.
