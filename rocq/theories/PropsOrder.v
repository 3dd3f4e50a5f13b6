(** Property theorems: the order of the operands. *)
From Coq Require Import ZArith List Bool.
From Verif Require Import Cpp BigNum Bit Logic Spec SpecExact SpecMachine OrderProofs.
Import ListNotations.
Open Scope Z_scope.

Definition ob (msb lsb : Z) (s : bool) (z : Z) : bit := bit_of_arith msb lsb s z.
Definition ol (n v m : Z) : logic := mkLogic (ob (n - 1) 0 false v) (ob (n - 1) 0 false m).
(** C162: a sum that compiles in one order only; 1 == 257 but not 257 == 1 (8 and 12 positions); x & 0 and 0 & x; a narrow against a wide vector *)
Theorem C162_refuted : (exists a b r, vec a /\ vec b /\ bit_add a b = Ok r /\ bit_add b a = IllFormed) /\ (exists a b, typed a 8 false /\ typed b 12 false /\ tidy a /\ tidy b /\ bit_eq a b = Ok true /\ bit_eq b a = Ok false) /\
  (exists a b r q, ltyped a 8 false /\ ltyped b 8 false /\ logic_and a b = Ok r /\ logic_and b a = Ok q /\ sym_at r 0 = SX /\ sym_at q 0 = S0) /\
  (exists a b, typed a 8 false /\ typed b 70 false /\ bit_lt a b = UB /\ bit_gt b a = IllFormed).
Proof.
  split; [exists (ob 0 7 false 200), (ob 7 0 false 17), (ob 7 0 false 217)|split; [exists (ob 7 0 false 1), (ob 11 0 false 257)|split; [exists (ol 8 0 1), (ol 8 0 0); eexists; eexists|exists (ob 7 0 false 3), (ob 69 0 false 5)]]].
  all: repeat match goal with |- _ /\ _ => split end; vm_compute; try reflexivity; try congruence; repeat split; congruence.
Qed.
Print Assumptions C162_refuted.
(** + * & | ^ of 2-state vectors of any widths, bounds and signs give one outcome in both orders, exactly unless they have one width and bounds in different directions *)
Theorem C162_exact : forall op a b, In op [bit_add; bit_mul; bit_and; bit_or; bit_xor] -> vec a -> vec b ->
  op a b = op b a <-> (bw a = bw b -> (blsb a <= bmsb a <-> blsb b <= bmsb b)).
Proof. exact order_exact. Qed.
Print Assumptions C162_exact.
(** a < b and b > a, a <= b and b >= a: exactly unless one vector has more than 64 positions and the other has not *)
Theorem C162_compare_exact : forall a b, vec a -> vec b ->
  (bit_lt a b = bit_gt b a <-> (bw a <= 64 <-> bw b <= 64)) /\ (bit_le a b = bit_ge b a <-> (bw a <= 64 <-> bw b <= 64)).
Proof. exact order_compare. Qed.
Print Assumptions C162_compare_exact.
(** a == b and b == a: up to 64 positions the right operand is converted to the type of the left one ([store]); wide signed vectors must have one width *)
Theorem C162_equal_exact : forall a b, vec a -> vec b ->
  bit_eq a b = bit_eq b a <->
  (bw a <= 64 -> bw b <= 64 -> (stored a = store (bw a) (bsgn a) (stored b) <-> stored b = store (bw b) (bsgn b) (stored a))) /\
  (65 <= bw a -> 65 <= bw b -> bsgn a = true -> bsgn b = true -> bw a = bw b).
Proof. exact order_equal. Qed.
Print Assumptions C162_equal_exact.
(** 4-state + and * *)
Theorem C162_logic : forall op a b, In op [logic_add; logic_mul] -> lvec a -> lvec b -> (lw a = lw b -> (llsb a <= lmsb a <-> llsb b <= lmsb b)) -> op a b = op b a.
Proof. exact order_logic. Qed.
Print Assumptions C162_logic.
(** 4-state ^ of one width *)
Theorem C162_xor : forall a b, lvec a -> lvec b -> lw a = lw b -> (llsb a <= lmsb a <-> llsb b <= lmsb b) -> logic_xor a b = logic_xor b a.
Proof. exact order_xor. Qed.
Print Assumptions C162_xor.
(** 4-state & and | of one width: exactly the positions where x meets 0 or z meets 1 depend on the order *)
Theorem C162_tables_exact : forall op a b n, In op [logic_and; logic_or] -> 1 <= n -> ltyped a n false -> ltyped b n false ->
  exists r q, op a b = Ok r /\ op b a = Ok q /\ forall p, 0 <= p < n ->
    (sym_at r p = sym_at q p <-> ~ ((sym_at a p = SX /\ sym_at b p = S0) \/ (sym_at a p = S0 /\ sym_at b p = SX) \/ (sym_at a p = SZ /\ sym_at b p = S1) \/ (sym_at a p = S1 /\ sym_at b p = SZ))).
Proof. exact order_tables. Qed.
Print Assumptions C162_tables_exact.
Example C162_ex : vec (ob 0 7 false 200) /\ vec (ob 20 3 true (-5)) /\ bw (ob 0 7 false 200) = 8 /\ bw (ob 20 3 true (-5)) = 18 /\ vec (ob 99 0 true 7) /\ lvec (ol 8 90 15) /\ lvec (ol 70 90 15) /\ ltyped (ol 8 90 15) 8 false /\
  bit_add (ob 17 0 true 3) (ob 20 3 true (-5)) = Ok (ob 17 0 true (-2)) /\ sym_at (ol 8 90 15) 0 = SX /\ sym_at (ol 8 90 15) 1 = SZ.
Proof. repeat match goal with |- _ /\ _ => split end; vm_compute; try congruence; repeat split; congruence. Qed.
