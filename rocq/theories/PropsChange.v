(** Property theorems: changing the variables of a program from [bit] to [logic]. *)
From Coq Require Import ZArith List Bool.
From Verif Require Import Cpp BigNum Bit Logic Spec SpecExact SpecMachine SpecFour SpecIff2 MachineProg FourProg SpecChange ChangeProofs.
Import ListNotations.
Open Scope Z_scope.

(** C154: variables without x and z.  The 4-state program has the same outcome and its variables end up with the same contents;
    only after a division by 0, which is undefined for [bit], it may go on differently. *)
Theorem C154_same_partial : forall dv sg one fuel env st c, (forall k, ordinary dv sg one (env k)) -> (forall k, vec (two st k)) -> matching env st -> shared dv sg one c ->
  alike dv (fun env' st' => (forall k, ordinary dv sg one (env' k)) /\ matching env' st') (lib_run fuel env c) (lib4_run fuel st (changed c)).
Proof. exact changed_programs. Qed.
Print Assumptions C154_same_partial.
(** 12 positions do not fill their storage: ~0 / 16 is 4095 for [bit] and 255 for [logic] *)
Theorem C154_narrow_refuted : exists a b r l, typed a 12 false /\ value a = 0 /\ typed b 12 false /\ value b = 16 /\
  bit_div (bit_not a) b = Ok r /\ value r = 4095 /\ bind (logic_not (certain a)) (fun x => logic_div x (certain b)) = Ok l /\ value (l_val l) = 255.
Proof.
  exists (bit_of_arith 11 0 false 0), (bit_of_arith 11 0 false 16), (bit_of_arith 11 0 false 4095), (certain (bit_of_arith 11 0 false 255)).
  repeat split; vm_compute; congruence.
Qed.
Print Assumptions C154_narrow_refuted.
(** division by 0: undefined for a [bit] of 8 positions, 0 for one of 128, x for [logic] *)
Theorem C154_zero_refuted : exists a z b y, typed a 8 false /\ typed z 8 false /\ bit_div a z = UB /\ logic_div (certain a) (certain z) = Ok (all_unknown 8 false) /\
  typed b 128 false /\ typed y 128 false /\ bit_div b y = Ok (bit_of_arith 127 0 false 0) /\ logic_div (certain b) (certain y) = Ok (all_unknown 128 false).
Proof.
  exists (bit_of_arith 7 0 false 5), (bit_of_arith 7 0 false 0), (bit_of_arith 127 0 false 5), (bit_of_arith 127 0 false 0).
  repeat split; vm_compute; congruence.
Qed.
Print Assumptions C154_zero_refuted.
(** & of signed vectors compiles for [bit] only *)
Theorem C154_signed_refuted : exists a r, typed a 8 true /\ bit_and a a = Ok r /\ logic_and (certain a) (certain a) = IllFormed.
Proof. exists (bit_of_arith 7 0 true 5), (bit_of_arith 7 0 true 5). repeat split; vm_compute; congruence. Qed.
Print Assumptions C154_signed_refuted.
(** {a, b} with a signed [a] = -1 of 4 positions and [b] = 0 of 4 positions: -16 for [logic], 240 for [bit] *)
Theorem C154_join_refuted : exists a b r l, typed a 4 true /\ value a = -1 /\ typed b 4 false /\ value b = 0 /\
  bit_concat a b = Ok r /\ value r = 240 /\ logic_concat (certain a) (certain b) = Ok l /\ value (l_val l) = -16.
Proof.
  eexists (bit_of_arith 3 0 true (-1)), (bit_of_arith 3 0 false 0), _, _. repeat split; try (vm_compute; congruence); vm_compute; reflexivity.
Qed.
Print Assumptions C154_join_refuted.

(** 8 positions, with / and the bitwise operators: while (v0) { v1 = v1 ^ ~(v0 / v2); v0 = v0 - 1; if (v1[2]) v1.set(3, true); else if (v1.r_and()) ++v2 } *)
Definition cprog : stmt :=
  While (Truth (Var 0)) (Seq (Put 1 (Bin Xor (Var 1) (Un Inv (Bin Quot (Var 0) (Var 2))))) (Seq (Put 0 (Bin Less (Var 0) (New 7 0 false 1))) (If (At (Var 1) 2) (PutAt 1 3 true) (If (AllOnes (Var 1)) (Inc 2) Skip)))).
(** mixed widths: v4 = {v0, v3}; v5 = v5 + v4[7:2]; if (v5 > v4) v3 <<= v0 *)
Definition mprog : stmt :=
  Seq (Put 4 (Bin Join (Var 0) (Var 3))) (Seq (Put 5 (Bin Plus (Var 5) (Un (Slice 7 2) (Var 4)))) (If (Rel RGt (Var 5) (Var 4)) (PutOp 3 Shl (Var 0)) (Inc 3))).
(** signed and unsigned variables, some declared upwards: v0 = v0 * v1 - v2; if (v0 < v1) v2 = signed(v3 >> v2) / v1; v3 >>>= v0 - v0; ++v1 *)
Definition sprog : stmt :=
  Seq (Put 0 (Bin Less (Bin Times (Var 0) (Var 1)) (Var 2)))
    (Seq (If (Rel RLt (Var 0) (Var 1)) (Put 2 (Bin Quot (Un Signed (Bin Shr (Var 3) (Var 2))) (Var 1))) Skip)
       (Seq (Put 3 (Bin Ashr (Var 3) (Bin Less (Var 0) (Var 0)))) (Inc 1))).
Definition cvals (k : nat) : Z := match k with 0%nat => 5 | 1%nat => 9 | 2%nat => 2 | 5%nat => 1000 | _ => 3 end.
Definition cvars : state := fun k => bit_of_arith 7 0 false (cvals k).
Definition mvars : state := fun k => bit_of_arith (match k with 0%nat => 4 | 3%nat => 10 | 4%nat => 15 | _ => 20 end) 0 false (cvals k).
Definition svars : state := fun k => match k with 0%nat => bit_of_arith 11 0 true 100 | 1%nat => bit_of_arith 11 0 true (-3) | 2%nat => bit_of_arith 6 0 true 2 | _ => bit_of_arith 0 11 false 200 end.
Definition to4 (env : state) : state4 := mkState4 env (fun k => certain (env k)).
Definition shown (n : nat) (env : state) : list Z := map (fun k => value (env k)) (seq 0 n).
Definition shown4 (n : nat) (st : state4) : list (Z * Z) := map (fun k => (value (l_val (four st k)), num (l_xz (four st k)))) (seq 0 n).
Local Ltac fits := repeat split; vm_compute; try congruence; auto; try discriminate; try (exists 8; repeat split; congruence); try (intros [X|X]; [discriminate|now elim X]); try (match goal with H : _ \/ _ |- _ => destruct H as [X|X]; [now elim X|discriminate] end).
Example C154_ex : (forall k, ordinary true false (Some 8) (cvars k)) /\ shared true false (Some 8) cprog /\
  omap (shown 3) (lib_run 30 cvars cprog) = Ok [0; 254; 2] /\ omap (shown4 3) (lib4_run 30 (to4 cvars) (changed cprog)) = Ok [(0, 0); (254, 0); (2, 0)] /\
  (forall k, ordinary false false None (mvars k)) /\ shared false false None mprog /\
  omap (shown 6) (lib_run 9 mvars mprog) = Ok [5; 9; 2; 4; 10243; 1000] /\ omap (shown4 6) (lib4_run 9 (to4 mvars) (changed mprog)) = Ok [(5, 0); (9, 0); (2, 0); (4, 0); (10243, 0); (1000, 0)] /\
  (forall k, ordinary true true None (svars k)) /\ shared true true None sprog /\
  omap (shown 4) (lib_run 9 svars sprog) = Ok [-302; -2; -16; 200] /\ omap (shown4 4) (lib4_run 9 (to4 svars) (changed sprog)) = Ok [(-302, 0); (-2, 0); (-16, 0); (200, 0)].
Proof.
  split. { intros k. unfold cvars. destruct k as [|[|[|[|[|[|k]]]]]]; fits. }
  split. { cbn [shared shared_test shared_ex shared_bin shared_un cprog]. fits. }
  split; [vm_compute; reflexivity|]. split; [vm_compute; reflexivity|].
  split. { intros k. unfold mvars. destruct k as [|[|[|[|[|[|k]]]]]]; fits. }
  split. { cbn [shared shared_test shared_ex shared_bin shared_un mprog]. fits. }
  split; [vm_compute; reflexivity|]. split; [vm_compute; reflexivity|].
  split. { intros k. unfold svars. destruct k as [|[|[|k]]]; fits. }
  split. { cbn [shared shared_test shared_ex shared_bin shared_un sprog]. fits. }
  split; vm_compute; reflexivity.
Qed.
