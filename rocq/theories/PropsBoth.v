(** Expressions over [bit] and over [logic] without x and z. *)
From Coq Require Import ZArith List Bool Lia.
From Verif Require Import Cpp BigNum Bit Logic Spec SpecFour Client Client4 SpecProg SpecBoth BothProofs Iff25.
Open Scope Z_scope.

(** C83: up to 64 positions the two evaluations agree on all expressions the 2-state one gives a value exactly if the vectors fill their storage *)
Theorem C83_exact : forall n, 2 <= n <= 64 -> (forall env e v, (forall k, typed (env k) n false /\ tidy (env k)) -> amounts vec e -> eval env e = Ok v ->
  exists r, eval4 (fun k => certain (env k)) (to4 e) = Ok r /\ known r /\ num (l_val r) = num v) <-> (n = 8 \/ n = 16 \/ n = 32 \/ n = 64).
Proof. exact both_widths. Qed.
Print Assumptions C83_exact.
(** ((~v0 * v1) - v0) / (v1 >> 1) at 16 positions *)
Example C83_exact_ex : let env := fun k : nat => bit_of_arith 15 0 false (match k with O => 65530 | _ => 300 end) in
  let e := Div (Sub (Mul (Not (Var 0)) (Var 1)) (Var 0)) (Shr (Var 1) (bit_of_arith 3 0 false 1)) in
  omap num (eval env e) = Ok (1506 / 150) /\ omap (fun r => num (l_val r)) (eval4 (fun k => certain (env k)) (to4 e)) = Ok (1506 / 150).
Proof. split; vm_compute; reflexivity. Qed.
(** Without / and % the two evaluations have the same outcome and store the same, at 8, 16, 32, 64 and all multiples of 64 positions; with them, up to 64
    positions, wherever the 2-state one has a value (a zero divisor gives x, C154). *)
Theorem C83_undivided : forall n env e, full_width n -> n < 2 ^ 31 -> (forall k, typed (env k) n false) -> amounts vec e -> undivided e ->
  eval4 (fun k => certain (env k)) (to4 e) = omap certain (eval env e).
Proof. exact both_undivided. Qed.
Print Assumptions C83_undivided.
(** the shift amount comes from a vector of 70 positions *)
Example C83_undivided_ex : let e := Xor (Shl (Not (Var 0)) (bit_of_arith 69 0 false 3)) (Sub (Var 1) (And (Var 0) (Var 2))) in
  full_width 128 /\ typed (bit_of_arith 127 0 false 77) 128 false /\ amounts vec e /\ undivided e.
Proof.
  cbn [amounts undivided]. split; [right; right; right; right; split; [lia|reflexivity]|]. repeat match goal with |- _ /\ _ => split | |- True => exact I end; try (vm_compute; reflexivity || congruence).
  all: try (vm_compute; repeat split; try congruence; repeat constructor; congruence).
Qed.
