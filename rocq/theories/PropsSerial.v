(** C175: shift registers made of slices and concatenations. *)
From Coq Require Import ZArith List Bool.
From Verif Require Import Cpp Bit Logic Spec SpecSerial Serial BitMain SerialProofs.
Import ListNotations.
Open Scope Z_scope.

(** Missing: 33 and more than 63 positions (false, see [C175_refuted] and [C175_exact]). *)
Theorem C175_two_state_partial : forall n r xs, 2 <= n < 64 -> n <> 33 -> typed r n false -> tidy r -> (forall x, In x xs -> typed x 1 false) ->
  exists r', shift_all n r xs = Ok r' /\ typed r' n false /\ tidy r' /\ forall p, 0 <= p < n -> bit_at r' p = held (bit_at r) (map (fun x => bit_at x 0) xs) p.
Proof. exact shift_all_fits. Qed.
Print Assumptions C175_two_state_partial.
Theorem C175_four_state_partial : forall n r xs, 2 <= n < 64 -> n <> 33 -> ltyped r n false -> ltidy r -> (forall x, In x xs -> ltyped x 1 false) ->
  exists r', shift_all4 n r xs = Ok r' /\ ltyped r' n false /\ ltidy r' /\ forall p, 0 <= p < n -> sym_at r' p = held (sym_at r) (map (fun x => sym_at x 0) xs) p.
Proof. exact shift_all4_fits. Qed.
Print Assumptions C175_four_state_partial.
(** at 33 positions the left operand of the concatenation is shifted as a number of 32 positions: a one at position 31 is lost *)
Theorem C175_refuted : exists r x r', typed r 33 false /\ tidy r /\ typed x 1 false /\ bit_at r 31 = true /\ shift_all 33 r [x] = Ok r' /\ bit_at r' 32 = false.
Proof.
  exists (mkBit 32 0 false (HN (2 ^ 31))), (bit_of_native 0 0 false 0). eexists. split; [conc|]. split; [conc|]. split; [conc|]. split; [conc|]. split; [vm_compute; reflexivity|]. conc.
Qed.
Print Assumptions C175_refuted.
(** right at exactly these widths *)
Theorem C175_exact : forall n, 2 <= n < 2 ^ 31 ->
  (forall r xs, ltyped r n false -> ltidy r -> (forall x, In x xs -> ltyped x 1 false) ->
     exists r', shift_all4 n r xs = Ok r' /\ ltyped r' n false /\ forall p, 0 <= p < n -> sym_at r' p = held (sym_at r) (map (fun x => sym_at x 0) xs) p) <-> n < 64 /\ n <> 33.
Proof. exact shift_all4_exact. Qed.
Print Assumptions C175_exact.
Definition s1 (v m : Z) : logic := mkLogic (mkBit 0 0 false (HN v)) (mkBit 0 0 false (HN m)).
Example C175_ex : typed (bit_of_native 7 0 false 201) 8 false /\ tidy (bit_of_native 7 0 false 201) /\
  omap num (shift_all 8 (bit_of_native 7 0 false 201) [bit_of_native 0 0 false 1; bit_of_native 0 0 false 1; bit_of_native 0 0 false 0]) = Ok 78 /\
  ltyped (logic_of_arith 7 0 false 201) 8 false /\ ltidy (logic_of_arith 7 0 false 201) /\ ltyped (s1 0 1) 1 false /\
  exists r, shift_all4 8 (logic_of_arith 7 0 false 201) [s1 0 1; s1 1 1; s1 1 0] = Ok r /\ map (sym_at r) [0; 1; 2; 3; 4; 5; 6; 7] = [S1; SZ; SX; S1; S0; S0; S1; S0].
Proof.
  split; [conc|]. split; [conc|]. split; [conc|]. split; [conc|]. split; [conc|]. split; [conc|]. eexists. split; [vm_compute; reflexivity|]. vm_compute. reflexivity.
Qed.
