(** Property theorems: exactly what expressions and programs over unsigned 4-state vectors of one width do. *)
From Coq Require Import ZArith List Bool.
From Verif Require Import Cpp BigNum Bit Logic Spec SpecExact4 SpecMachine SpecWide Client Client4 Program Program4 SpecFour SpecProg SpecProg4 BitExt BitMain ProgExact ProgExact4.
Import ListNotations.
Open Scope Z_scope.

(** every vector of the type is given by the two numbers it stores *)
Theorem C103_states : forall n l, 2 <= n < 2 ^ 31 -> ltyped l n false -> cell_ok n (stored (l_val l), stored (l_xz l)) /\ l = holding n (stored (l_val l), stored (l_xz l)).
Proof. exact kept4_state. Qed.
Print Assumptions C103_states.
(** C76: every expression, every width and all stored numbers, also those above the declared positions; the result follows the formulas of SpecProg4.v *)
Theorem C76_exact : forall n env st e, 2 <= n < 2 ^ 31 -> amounts4 lvec e -> (forall k, cell_ok n (st k) /\ env k = holding n (st k)) ->
  eval4 env e = omap (holding n) (kept4 n st e) /\ forall c, kept4 n st e = Ok c -> cell_ok n c.
Proof. exact kept4_expression. Qed.
Print Assumptions C76_exact.
(** C103: every program, every width, in lockstep with the program over the stored numbers *)
Theorem C103_exact : forall n fuel env st c, 2 <= n < 2 ^ 31 -> amounts4_cmd lvec c -> (forall k, cell_ok n (st k) /\ env k = holding n (st k)) ->
  same_kept4 n (exec4 fuel env c) (kept4_exec n fuel st c).
Proof. exact kept4_program. Qed.
Print Assumptions C103_exact.

(** 70 positions: v0 has an x at position 40, which goes unnoticed, so v0 + v1 is known; v2 has one at position 3, so v2 + v1 is x;
    the loop doubles v1 while v1 < v3 *)
Definition prog70 : cmd4 := Seq4 (Assign4 4 (Add (Var 0) (Var 1))) (Seq4 (Assign4 5 (Add (Var 2) (Var 1))) (While4 (Lt4 (Var 1) (Var 3)) (Assign4 1 (Add (Var 1) (Var 1))))).
Definition st70 (k : nat) : cell := match k with 0%nat => (5, 2 ^ 40) | 1%nat => (1, 0) | 2%nat => (7, 8) | 3%nat => (1000, 0) | _ => (0, 0) end.
Example C103_exact_ex : amounts4_cmd lvec prog70 /\ (forall k, cell_ok 70 (st70 k)) /\ kept4 70 st70 (And (Var 2) (Var 3)) = Ok (0, 8) /\
  omap (fun st => (st 4%nat, st 5%nat, st 1%nat)) (kept4_exec 70 20 st70 prog70) = Ok ((6, 0), (0, 2 ^ 70 - 1), (1024, 0)) /\
  omap (fun env => (stored (l_val (env 4%nat)), stored (l_xz (env 5%nat)), stored (l_val (env 1%nat)))) (exec4 20 (fun k => holding 70 (st70 k)) prog70) = Ok (6, 2 ^ 70 - 1, 1024).
Proof.
  split; [cbn; tauto|]. split. { intros k. unfold st70. destruct k as [|[|[|[|k]]]]; (split; split; [discriminate|reflexivity| |reflexivity]); discriminate. }
  split; [vm_compute; reflexivity|]. split; vm_compute; reflexivity.
Qed.
