(** Property theorems: linear feedback shift registers, and swapping with ^=. *)
From Coq Require Import ZArith List Bool.
From Verif Require Import Cpp BigNum Bit Logic Spec SpecCircuit Lfsr LfsrProofs.
Import ListNotations.
Open Scope Z_scope.

(** C160: one step halves the number and, if it was odd, flips the positions given by [taps] *)
Theorem C160_step : forall n taps one st, 2 <= n -> typed taps n st -> amount_of n one -> value one = 1 -> forall c s, typed c n s ->
  exists r t, lfsr_step taps one c = Ok r /\ typed r n t /\ num r = (if Z.odd (num c) then Z.lxor (num c / 2) (num taps) else num c / 2).
Proof. exact lfsr_step_ok. Qed.
Print Assumptions C160_step.
(** different states have different successors exactly when the topmost position is one of the taps *)
Theorem C160_distinct : forall n taps one st, 2 <= n -> typed taps n st -> amount_of n one -> value one = 1 ->
  (forall c d s t r q, typed c n s -> typed d n t -> lfsr_step taps one c = Ok r -> lfsr_step taps one d = Ok q -> num r = num q -> num c = num d) <-> bit_at taps (n - 1) = true.
Proof. exact lfsr_distinct. Qed.
Print Assumptions C160_distinct.
(** then the register returns to every start other than 0 within 2^n - 1 steps *)
Theorem C160_returns : forall n taps one st, 2 <= n -> typed taps n st -> amount_of n one -> value one = 1 -> forall c s, bit_at taps (n - 1) = true -> typed c n s -> num c <> 0 ->
  exists k r, 1 <= Z.of_nat k < 2 ^ n /\ lfsr taps one k c = Ok r /\ num r = num c.
Proof. exact lfsr_returns. Qed.
Print Assumptions C160_returns.
(** and never becomes 0 *)
Theorem C160_alive : forall n taps one st, 2 <= n -> typed taps n st -> amount_of n one -> value one = 1 -> forall c s k, bit_at taps (n - 1) = true -> typed c n s -> num c <> 0 ->
  exists r, lfsr taps one k c = Ok r /\ num r <> 0.
Proof. exact lfsr_alive. Qed.
Print Assumptions C160_alive.
(** x^16 + x^14 + x^13 + x^11 + 1: after 65535 steps 0xACE1 comes back *)
Definition taps16 : bit := bit_of_arith 15 0 false 46080.
Definition one1 : bit := bit_of_arith 0 0 false 1.
Example C160_ex : typed taps16 16 false /\ amount_of 16 one1 /\ value one1 = 1 /\ bit_at taps16 15 = true /\ typed (bit_of_arith 15 0 false 44257) 16 false /\
  omap num (lfsr taps16 one1 3 (bit_of_arith 15 0 false 44257)) = Ok 14492 /\ typed (bit_of_arith 99 0 true 5) 100 true /\ amount_of 100 one1.
Proof. repeat match goal with |- _ /\ _ => split end; vm_compute; try congruence; repeat split; congruence. Qed.

(** C161: a ^= b; b ^= a; a ^= b *)
Theorem C161_bits : forall a b n s, 1 <= n -> typed a n s -> typed b n s -> exists x y, xor_swap a b = Ok (x, y) /\ typed x n s /\ typed y n s /\ num x = num b /\ num y = num a.
Proof. exact xor_swap_ok. Qed.
Print Assumptions C161_bits.
(** of 4-state vectors: a position is swapped exactly if both symbols are known or both are x *)
Theorem C161_logic : forall a b n, 1 <= n -> ltyped a n false -> ltyped b n false -> exists x y, xor_swap4 a b = Ok (x, y) /\ ltyped x n false /\ ltyped y n false /\
  forall p, 0 <= p < n -> (sym_at x p = sym_at b p /\ sym_at y p = sym_at a p <-> (unknown (sym_at a p) = false /\ unknown (sym_at b p) = false) \/ (sym_at a p = SX /\ sym_at b p = SX)).
Proof. exact xor_swap4_exact. Qed.
Print Assumptions C161_logic.
Definition sw (n v m : Z) : logic := mkLogic (bit_of_arith (n - 1) 0 false v) (bit_of_arith (n - 1) 0 false m).
Example C161_ex : typed (bit_of_arith 69 0 true (-5)) 70 true /\ typed (bit_of_arith 69 0 true 9) 70 true /\ ltyped (sw 8 90 3) 8 false /\ ltyped (sw 8 15 1) 8 false /\
  omap (fun p => (num (fst p), num (snd p))) (xor_swap (bit_of_arith 7 0 false 200) (bit_of_arith 7 0 false 17)) = Ok (17, 200) /\
  omap (fun p => (map (sym_at (fst p)) [0; 1; 2], map (sym_at (snd p)) [0; 1; 2])) (xor_swap4 (sw 8 90 3) (sw 8 15 1)) = Ok ([SX; SX; S1], [SX; SX; S0]).
Proof. repeat match goal with |- _ /\ _ => split end; vm_compute; try congruence; repeat split; congruence. Qed.
