(** Concrete vectors and programs for the examples and counterexamples of PropsProgram.v. *)
From Coq Require Import ZArith List Bool Lia.
From Verif Require Import Cpp BigNum Bit Logic Spec SpecExact4 ZBits BitProofs BitMain BitMain2 BitMain5 LogicProofs LogicOps LogicRed LogicArith LogicArith2
  LogicConv LogicConv2 LogicMain Client ClientProofs LawProofs Client4 Client4Proofs More Program MoreProofs ProgramProofs MoreExamples Program4 Program4Proofs Algo AlgoProofs.
Import ListNotations.
Open Scope Z_scope.

Definition kn (b : bit) : logic := mkLogic b (bit_of_native 7 0 false 0).
(** variable 0 is 10zx_0110, variable 1 is 77, the others 0 *)
Definition env8x (k : nat) : logic := match k with 0%nat => e8 | 1%nat => kn u8_77 | _ => kn u8_0 end.
Definition amt5 : logic := mkLogic u4_5 (bit_of_native 3 0 false 0).
(** while (0 < v1) { v1 = v1 - (v2 << 5); if (v1.match(v0)) v0 = v0 / v1; else v0 = ~v0 * v2; if (v0) v1 = v2 } *)
Definition prog8x : cmd4 :=
  While4 (Lt4 (Var 3) (Var 1)) (Seq4 (Assign4 1 (Sub (Var 1) (Shl (Var 2) amt5)))
    (Seq4 (If4 (Match4 (Var 1) (Var 0)) (Assign4 0 (Div (Var 0) (Var 1))) (Assign4 0 (Mul (Not (Var 0)) (Var 2))))
      (If4 (True4 (Var 0)) (Assign4 1 (Var 2)) Skip4))).
(** the same without the last statement, for variables without x and z *)
Definition prog8k : cmd4 :=
  While4 (Lt4 (Var 3) (Var 1)) (Seq4 (Assign4 1 (Sub (Var 1) (Shl (And (Var 2) (Var 0)) amt5)))
    (If4 (Match4 (Var 1) (Var 0)) (Assign4 0 (Div (Var 0) (Var 1))) (Assign4 0 (Mul (Not (Var 0)) (Or (Var 2) (Var 1)))))).
Definition env8k (k : nat) : logic := match k with 0%nat => kn u8_200 | 1%nat => kn u8_77 | _ => kn u8_0 end.
(** signed 4-bit vectors x001 and z001 *)
Definition sx001 := mkLogic (bit_of_native 3 0 true 1) (bit_of_native 3 0 false 8).
Definition sz001 := mkLogic (bit_of_native 3 0 true (-7)) (bit_of_native 3 0 false 8).

Lemma extend_counter : exists l r, ltyped l 4 true /\ ltidy l /\ logic_extend l 8 = Ok r /\ sym_at l 3 = SX /\ sym_at r 7 = S0.
Proof. eexists sx001, _. split; [conc|]. split; [conc|]. split; [vm_compute; reflexivity|]. conc. Qed.
Lemma extend_ex : ltyped sz001 4 true /\ ltidy sz001 /\ sym_at sz001 3 = SZ /\ widened sz001 4 true 7 = S1 /\ ltyped e8 8 false /\ ltidy e8.
Proof. conc. Qed.

Lemma known_kn b k : typed b 8 false -> k = kn b -> known k.
Proof.
  intros T -> p Hp. unfold known, sym_at. assert (E : bit_at (l_xz (kn b)) p = false) by (unfold bit_at, kn; cbn [l_xz]; change (num _) with 0; apply Z.bits_0).
  rewrite E. now destruct (bit_at (l_val (kn b)) p).
Qed.
Lemma amt5_ok : amount4 8 amt5 /\ known amt5.
Proof.
  split; [unfold amount4; split; [conc|split; [conc|split; [vm_compute; discriminate|intros _; vm_compute; reflexivity]]]|].
  intros p Hp. change (lw amt5) with 4 in Hp. assert (C : p = 0 \/ p = 1 \/ p = 2 \/ p = 3) by lia. destruct C as [-> | [-> | [-> | ->]]]; reflexivity.
Qed.
Lemma prog4_ex : full_width 8 /\ usable_cmd4 8 prog8x /\ no_tables_cmd prog8x /\ good4 8 env8x /\ unknown (sym_at (env8x 0%nat) 4) = true.
Proof.
  split; [now left|]. split; [pose proof (proj1 amt5_ok); assert (8 <> 16) by lia; cbn [usable_cmd4 usable_cond4 usable4 prog8x]; tauto|]. split; [cbn; tauto|]. split; [|reflexivity].
  intros [|[|k]]; cbn [env8x]; split; conc.
Qed.
Lemma agree_ex : full_width 8 /\ usable_cmd4 8 prog8k /\ known_amounts_cmd prog8k /\ (exists c2, to2_cmd prog8k = Some c2) /\ good4 8 env8k /\ good 8 env8 /\
  (forall k, known (env8k k) /\ num (l_val (env8k k)) = num (env8 k)).
Proof.
  split; [now left|]. destruct amt5_ok as [A K]. assert (8 <> 16) by lia. split; [cbn [usable_cmd4 usable_cond4 usable4 prog8k]; tauto|]. split.
  { destruct A as (A1 & A2 & A3 & _). cbn [known_amounts_cmd known_amounts_cond known_amounts prog8k]. tauto. }
  split; [eexists; reflexivity|]. split; [intros [|[|k]]; cbn [env8k]; split; conc|]. split; [apply prog_ex|].
  intros [|[|k]]; cbn [env8k env8]; (split; [eapply known_kn; [|reflexivity]; conc|reflexivity]).
Qed.
(** the program v0 = v0 & v1 with x in v0 and 0 in v1 *)
Definition env_x0 (k : nat) : logic := match k with 0%nat => e8 | _ => kn u8_0 end.
Lemma program4_counter : exists env env', good4 8 env /\ usable_cmd4 8 (Assign4 0 (And (Var 0) (Var 1))) /\
  exec4 2 env (Assign4 0 (And (Var 0) (Var 1))) = Ok env' /\ sym_at (env 0%nat) 4 = SX /\ sym_at (env 1%nat) 4 = S0 /\ sym_at (env' 0%nat) 4 = SX /\ and4 SX S0 = S0.
Proof.
  eexists env_x0, _. split; [intros [|k]; cbn [env_x0]; split; conc|]. split; [cbn; tauto|]. split; [cbn [exec4 eval4 bind env_x0]; reflexivity|].
  conc.
Qed.

(** 128-bit variables 2^100 + 7, 2^70 + 3, 0, 0, 1 *)
Definition w128 (lo hi : Z) : bit := mkBit 127 0 false (HB [lo; hi]).
Definition env128 (k : nat) : bit := match k with 0%nat => w128 7 (2 ^ 36) | 1%nat => w128 3 (2 ^ 6) | 4%nat => w128 1 0 | _ => w128 0 0 end.
Lemma algo_ex : full_width 128 /\ good 128 env128 /\ num (env128 0%nat) = 2 ^ 100 + 7 /\ num (env128 1%nat) = 2 ^ 70 + 3 /\
  num (env128 2%nat) = 0 /\ num (env128 3%nat) = 0 /\ num (env128 4%nat) = 1.
Proof. split; [do 4 right; split; [lia|reflexivity]|]. split; [|conc]. intros [|[|[|[|[|k]]]]]; cbn [env128]; split; conc. Qed.
Definition env8p (k : nat) : bit := match k with 0%nat => u8_200 | 1%nat => u8_77 | 3%nat => u8_0 | _ => bit_of_native 7 0 false 1 end.
Lemma power_ex : full_width 8 /\ good 8 env8p /\ num (env8p 2%nat) = 1 /\ num (env8p 3%nat) = 0 /\ num (env8p 4%nat) = 1.
Proof. split; [now left|]. split; [|conc]. intros [|[|[|[|k]]]]; cbn [env8p]; split; conc. Qed.
