(** C181: a clocked register that sums up what it is given. *)
From Coq Require Import ZArith List Bool.
From Verif Require Import Cpp Bit Logic Spec SpecAccum Accum BitMain LogicArith AccumProofs.
Import ListNotations.
Open Scope Z_scope.

(** Missing: one position, and summands of more than 64 positions all of whose x and z go unnoticed (false, see [C181_refuted] and [C181_exact]). *)
Theorem C181_partial : forall n zero is es r, 2 <= n -> ltyped zero n false -> ltidy zero -> known zero -> num (l_val zero) = 0 -> Forall2 (given n) is es -> (forall i, In i is -> seen (snd i)) ->
  ltyped r n false -> ltidy r -> all_x r ->
  exists r', accum zero is r = Ok r' /\ ltyped r' n false /\ holds_state n r' (fold_left (next n) es None).
Proof. exact accum_all. Qed.
Print Assumptions C181_partial.
(** at exactly these widths it is right for all inputs *)
Theorem C181_exact : forall n, 1 <= n < 2 ^ 31 ->
  (forall zero is es r, ltyped zero n false -> ltidy zero -> known zero -> num (l_val zero) = 0 -> Forall2 (given n) is es -> ltyped r n false -> ltidy r -> all_x r ->
     exists r', accum zero is r = Ok r' /\ ltyped r' n false /\ holds_state n r' (fold_left (next n) es None)) <-> 2 <= n <= 64.
Proof. exact accum_exact. Qed.
Print Assumptions C181_exact.
Definition c1 (v m : Z) : logic := mkLogic (bit_of_native 0 0 false v) (bit_of_native 0 0 false m).
Definition v8 (v m : Z) : logic := mkLogic (bit_of_native 7 0 false v) (bit_of_native 7 0 false m).
(** one position: 1 + 1 stays 1; 70 positions: an x at position 40 of the summand is ignored *)
Theorem C181_refuted :
  (exists d, ltyped d 1 false /\ ltidy d /\ known d /\ num (l_val d) = 1 /\ accum (c1 0 0) [(c1 1 0, c1 0 0, d); (c1 0 0, c1 1 0, d); (c1 0 0, c1 1 0, d)] (c1 0 1) = Ok d) /\
  (exists d r, ltyped d 70 false /\ ltidy d /\ sym_at d 40 = SX /\ accum (mkLogic (bit_zero 69 0 false) (bit_zero 69 0 false)) [(c1 1 0, c1 0 0, d); (c1 0 0, c1 1 0, d)] (logic_default 69 0 false) = Ok r /\ known r).
Proof.
  split.
  - exists (c1 1 0). split; [conc|]. split; [conc|]. split; [apply known_of_num0; reflexivity|]. conc.
  - exists (mkLogic (bit_zero 69 0 false) (mkBit 69 0 false (HB [2 ^ 40; 0]))). eexists. split; [conc|]. split; [conc|]. split; [conc|]. split; [vm_compute; reflexivity|]. apply known_of_num0. vm_compute. reflexivity.
Qed.
Print Assumptions C181_refuted.
(** enable before the reset, a reset, two sums, a reset that is x, a summand with an x, and a reset again *)
Example C181_ex : ltyped (logic_default 7 0 false) 8 false /\ ltidy (logic_default 7 0 false) /\ map (sym_at (logic_default 7 0 false)) [0; 1; 2; 3; 4; 5; 6; 7] = [SX; SX; SX; SX; SX; SX; SX; SX] /\
  given 8 (c1 0 0, c1 1 0, v8 200 0) (S0, S1, Some 200) /\
  accum (v8 0 0) [(c1 0 0, c1 1 0, v8 1 0)] (logic_default 7 0 false) = Ok (logic_default 7 0 false) /\
  accum (v8 0 0) [(c1 1 0, c1 1 0, v8 1 0); (c1 0 0, c1 1 0, v8 200 0); (c1 0 1, c1 1 0, v8 100 0); (c1 0 0, c1 0 1, v8 7 0)] (logic_default 7 0 false) = Ok (v8 44 0) /\
  accum (v8 0 0) [(c1 1 0, c1 1 0, v8 1 0); (c1 0 0, c1 1 0, v8 200 3)] (logic_default 7 0 false) = Ok (logic_default 7 0 false) /\
  accum (v8 0 0) [(c1 0 0, c1 1 0, v8 200 3); (c1 1 0, c1 0 0, v8 0 3); (c1 0 0, c1 1 0, v8 5 0)] (logic_default 7 0 false) = Ok (v8 5 0) /\
  fold_left (next 8) [(S1, S1, Some 1); (S0, S1, Some 200); (SX, S1, Some 100); (S0, SX, Some 7)] None = Some 44.
Proof.
  split; [conc|]. split; [conc|]. split; [vm_compute; reflexivity|]. split. { do 6 (split; [conc|]). split; [apply known_of_num0; reflexivity|reflexivity]. } do 4 (split; [vm_compute; reflexivity|]). vm_compute. reflexivity.
Qed.
