(** Property theorems: whether an expression or a program compiles, and the type of its result, are decided by the declared types. *)
From Coq Require Import ZArith List Bool.
From Verif Require Import Cpp BigNum Bit Logic Spec SpecExact MachineProg WideProg FourProg SpecType TypeProofs4.
Import ListNotations.
Open Scope Z_scope.

(** C151: 2-state expressions: what the checker accepts compiles for all values and has the type it tells *)
Theorem C151_expressions : forall G st e t, declared2 G st -> wide_ex_ok e -> type_ex G e = Some t ->
  lib_ex st e <> IllFormed /\ forall b, lib_ex st e = Ok b -> ty_bit b = t.
Proof. exact expressions_compile. Qed.
Print Assumptions C151_expressions.
(** what it rejects yields a result for no values *)
Theorem C151_rejected : forall G st e, declared2 G st -> wide_ex_ok e -> type_ex G e = None -> forall b, lib_ex st e <> Ok b.
Proof. exact expressions_rejected. Qed.
Print Assumptions C151_rejected.
(** comparisons, conversions to bool, single positions and reductions, both directions *)
Theorem C151_tests : forall G st t, declared2 G st -> wide_test_ok t ->
  if type_test G t then lib_test st t <> IllFormed else forall b, lib_test st t <> Ok b.
Proof. exact tests_compile. Qed.
Print Assumptions C151_tests.
(** 2-state programs: an accepted program meets no operation that does not compile, however long it runs, and its variables keep their types *)
Theorem C151_programs : forall G fuel st c, declared2 G st -> wide_stmt_ok c -> type_stmt G c = true ->
  lib_run fuel st c <> IllFormed /\ forall st', lib_run fuel st c = Ok st' -> declared2 G st'.
Proof. exact programs_compile. Qed.
Print Assumptions C151_programs.
(** the same for expressions over 2-state and 4-state variables *)
Theorem C151_four_expressions : forall G H st e t, declared4 G H st -> ex4_ok e -> type_ex4 G H e = Some t ->
  lib4_ex st e <> IllFormed /\ forall l, lib4_ex st e = Ok l -> ty_logic l = t.
Proof. exact expressions_compile4. Qed.
Print Assumptions C151_four_expressions.
Theorem C151_four_rejected : forall G H st e, declared4 G H st -> ex4_ok e -> type_ex4 G H e = None -> forall l, lib4_ex st e <> Ok l.
Proof. exact expressions_rejected4. Qed.
Print Assumptions C151_four_rejected.
Theorem C151_four_tests : forall G H st t, declared4 G H st -> test4_ok t ->
  if type_test4 G H t then lib4_test st t <> IllFormed else forall b, lib4_test st t <> Ok b.
Proof. exact tests_compile4. Qed.
Print Assumptions C151_four_tests.
Theorem C151_four_programs : forall G H fuel st c, declared4 G H st -> stmt4_ok c -> type_stmt4 G H c = true ->
  lib4_run fuel st c <> IllFormed /\ forall st', lib4_run fuel st c = Ok st' -> declared4 G H st'.
Proof. exact programs_compile4. Qed.
Print Assumptions C151_four_programs.

(** v0 : bit<7,0>, v1 : bit<99,0,true>, v2 : bit<0,7>, v3 : bit<99,0>;  w0 : logic<7,0>, w1 : logic<3,0,true> *)
Definition types2 (k : nat) : ty :=
  match k with 1%nat => mkTy 99 0 true | 2%nat => mkTy 0 7 false | 3%nat => mkTy 99 0 false | _ => mkTy 7 0 false end.
Definition types4 (k : nat) : ty := match k with 1%nat => mkTy 3 0 true | _ => mkTy 7 0 false end.
Definition vars2 : state := fun k => let t := types2 k in bit_of_arith (t_msb t) (t_lsb t) (t_sgn t) 5.
Definition vars4 : state4 := mkState4 vars2 (fun k => let t := types4 k in logic_default (t_msb t) (t_lsb t) (t_sgn t)).
Example C151_ex : declared4 types2 types4 vars4 /\
  type_ex types2 (Bin Plus (Var 0) (Var 1)) = Some (mkTy 99 0 false) /\
  type_ex types2 (Bin Quot (Var 1) (Var 3)) = None /\ type_ex types2 (Bin Quot (Var 3) (Var 1)) = Some (mkTy 99 0 false) /\
  type_ex types2 (Bin Plus (Var 0) (Var 2)) = None /\ type_ex types2 (Bin Plus (Var 2) (Var 0)) = Some (mkTy 7 0 false) /\
  type_ex types2 (Bin Shl (Var 0) (Var 3)) = None /\ type_ex types2 (Un (Slice 70 6) (Var 3)) = None /\
  type_stmt types2 (While (Rel RLt (Var 0) (New 7 0 false 100)) (Put 0 (Bin Plus (Var 0) (Var 0)))) = true /\
  type_ex4 types2 types4 (Bin4 BPlus (Var4 0) (Var4 1)) = Some (mkTy 7 0 false) /\ type_ex4 types2 types4 (Bin4 BAnd (Var4 1) (Var4 1)) = None /\
  type_stmt4 types2 types4 (Seq4 (Put4 0 (Of2 7 0 false (Var 0))) (If4 (Truth4 (Bin4 BLt (Var4 0) (Var4 0))) (Inc4 0) (Mark4 1 2 SX))) = true.
Proof.
  split.
  - split; intros k.
    + unfold declared2, vec, vars4, vars2. cbn [two]. destruct k as [|[|[|[|k]]]]; vm_compute; repeat split; discriminate.
    + unfold lvec, vec, vars4. cbn [four]. destruct k as [|[|k]]; vm_compute; repeat split; discriminate.
  - vm_compute. repeat split.
Qed.
