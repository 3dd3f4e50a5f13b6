(** Property theorems: exactly what expressions and programs over unsigned vectors of one width do. *)
From Coq Require Import ZArith List Bool.
From Verif Require Import Cpp BigNum Bit Spec SpecExact SpecMachine SpecWide Client Program SpecProg BitExt BitMain ProgExact.
Import ListNotations.
Open Scope Z_scope.

(** every vector of the type is given by the number it stores *)
Theorem C92_states : forall n b, 2 <= n < 2 ^ 31 -> typed b n false -> 0 <= stored b < 2 ^ room n /\ b = vec_of n false (stored b).
Proof. exact kept_state. Qed.
Print Assumptions C92_states.
(** C75: every expression, every width and all stored numbers, also those above the declared positions; the result follows the formulas of SpecProg.v *)
Theorem C75_exact : forall n env st e, 2 <= n < 2 ^ 31 -> amounts vec e -> (forall k, 0 <= st k < 2 ^ room n /\ env k = vec_of n false (st k)) ->
  eval env e = omap (vec_of n false) (kept n st e) /\ forall z, kept n st e = Ok z -> 0 <= z < 2 ^ room n.
Proof. exact kept_expression. Qed.
Print Assumptions C75_exact.
(** C92: every program, every width, in lockstep with the program over the stored numbers *)
Theorem C92_exact : forall n fuel env st c, 2 <= n < 2 ^ 31 -> amounts_cmd vec c -> (forall k, 0 <= st k < 2 ^ room n /\ env k = vec_of n false (st k)) ->
  same_kept n (exec fuel env c) (kept_exec n fuel st c).
Proof. exact kept_program. Qed.
Print Assumptions C92_exact.
(** At 8, 16, 32 and 64 positions a program does what it does over the integers modulo 2^n, or its behaviour is undefined; the latter exactly if
    the program over the stored numbers divides by zero, forms a 16-bit product of 2^31 or more or shifts by too much. *)
Theorem C92_right_or_undefined : forall n fuel env st c, full_width n -> n <= 64 -> good n env -> (forall k, num (env k) = st k) -> amounts_cmd (narrow_amount n) c ->
  (exec fuel env c = UB <-> kept_exec n fuel st c = UB) /\ (exec fuel env c = UB \/ same_outcome n (exec fuel env c) (exec_of n fuel st c)).
Proof. exact right_or_undefined. Qed.
Print Assumptions C92_right_or_undefined.

(** 12 positions: (~v0 & v1) / v2 with v0 = 0, v1 = ~v0 keeps the 4 bits above the width, so 65535 and not 4095 is divided;
    16 positions: v0 squared is fine for 46340 and undefined for 46341 *)
Definition prog12 : cmd := Seq (Assign 1 (Not (Var 0))) (Assign 3 (Div (And (Not (Var 0)) (Var 1)) (Var 2))).
Definition st12 (k : nat) : Z := match k with 2%nat => 10 | _ => 0 end.
Definition square : cmd := While (CLt (Var 1) (Var 2)) (Seq (Assign 0 (Mul (Var 0) (Var 0))) (Assign 1 (Add (Var 1) (Var 2)))).
Definition st16 (z : Z) (k : nat) : Z := match k with 0%nat => z | 2%nat => 1 | _ => 0 end.
Example C92_exact_ex : room 12 = 16 /\ amounts_cmd vec prog12 /\ (forall k, 0 <= st12 k < 2 ^ room 12) /\
  omap (fun st => st 3%nat) (kept_exec 12 5 st12 prog12) = Ok 6553 /\ omap (fun env => num (env 3%nat)) (exec 5 (fun k => vec_of 12 false (st12 k)) prog12) = Ok (6553 mod 2 ^ 12) /\
  full_width 16 /\ amounts_cmd (narrow_amount 16) square /\ omap (fun env => num (env 0%nat)) (exec 9 (fun k => vec_of 16 false (st16 46340 k)) square) = Ok ((46340 * 46340) mod 2 ^ 16) /\
  omap (fun env => num (env 0%nat)) (exec 9 (fun k => vec_of 16 false (st16 46341 k)) square) = UB /\ omap (fun st => st 0%nat) (kept_exec 16 9 (st16 46341) square) = UB.
Proof.
  split; [reflexivity|]. split; [cbn; tauto|]. split. { intros k. unfold st12. destruct k as [|[|[|k]]]; split; try discriminate; reflexivity. }
  split; [vm_compute; reflexivity|]. split; [vm_compute; reflexivity|]. split; [right; left; reflexivity|]. split; [cbn; tauto|].
  split; [vm_compute; reflexivity|]. split; vm_compute; reflexivity.
Qed.
