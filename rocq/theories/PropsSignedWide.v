(** Property theorems: programs over signed vectors of more than 64 positions. *)
From Coq Require Import ZArith List Bool.
From Verif Require Import Cpp BigNum Bit Spec SpecExact SpecMachine MachineProg SpecSigned SpecSignedWide SignedWideProofs.
Import ListNotations.
Open Scope Z_scope.

(** C153: as long as the program over the integers stays strictly between -2^(n-1) and 2^(n-1), the library does the same *)
Theorem C153_integers_partial : forall n fuel env st c st', 65 <= n < 2 ^ 31 -> showing n env st -> (forall k, st k <> - 2 ^ (n - 1)) -> wsigned_stmt n c ->
  plain_run n fuel st c = Ok st' -> exists env', lib_run fuel env c = Ok env' /\ showing n env' st'.
Proof. exact wsigned_integers. Qed.
Print Assumptions C153_integers_partial.
(** every program and state: in lockstep with the program over the integers that wraps around at n positions; the smallest number is compared wrongly *)
Theorem C153_exact : forall n fuel env st c, 65 <= n < 2 ^ 31 -> showing n env st -> wsigned_stmt n c -> same_shown n (lib_run fuel env c) (wsigned_run n fuel st c).
Proof. exact wsigned_programs. Qed.
Print Assumptions C153_exact.
(** a width that does not fill its words: -1 + 1 shows 0 and is above 0 *)
Theorem C153_compare_refuted : exists a b z s, typed a 70 true /\ value a = -1 /\ typed b 70 true /\ value b = 1 /\ typed z 70 true /\ value z = 0 /\
  bit_add a b = Ok s /\ value s = 0 /\ bit_gt s z = Ok true.
Proof.
  exists (bit_of_arith 69 0 true (-1)), (bit_of_arith 69 0 true 1), (bit_of_arith 69 0 true 0), (mkBit 69 0 true (HB [0; 64])).
  repeat split; vm_compute; congruence.
Qed.
Print Assumptions C153_compare_refuted.
(** ==, <= and unary minus of two signed vectors of the same width do not compile *)
Theorem C153_equal_refuted : exists a, typed a 128 true /\ bit_eq a a = IllFormed /\ bit_le a a = IllFormed /\ bit_neg a = IllFormed.
Proof. exists (bit_of_arith 127 0 true (-1)). repeat split; vm_compute; congruence. Qed.
Print Assumptions C153_equal_refuted.
(** 128 positions: -2^127 is above -1 *)
Theorem C153_smallest_refuted : exists a b, typed a 128 true /\ value a = - 2 ^ 127 /\ typed b 128 true /\ value b = -1 /\ bit_gt a b = Ok true.
Proof. exists (mkBit 127 0 true (HB [0; 2 ^ 63])), (bit_of_arith 127 0 true (-1)). repeat split; vm_compute; congruence. Qed.
Print Assumptions C153_smallest_refuted.

(** 128 positions: v0 = -7, v1 = 3; while (v0 < 2^63) { v0 = -((v0 << v1) + v2); ++v3 } *)
Definition wprog : stmt :=
  While (Rel RLt (Var 0) (New 127 0 true (2 ^ 63))) (Seq (Put 0 (Un Signed (Un TwoC (Bin Plus (Bin Shl (Var 0) (Var 1)) (Var 2))))) (Inc 3)).
Definition wvals (k : nat) : Z := match k with 0%nat => -7 | 1%nat => 3 | _ => 0 end.
Definition wvars : state := fun k => bit_of_arith 127 0 true (wvals k).
Example C153_ex : showing 128 wvars wvals /\ (forall k, wvals k <> - 2 ^ 127) /\ wsigned_stmt 128 wprog /\
  omap (fun st => (st 0%nat, st 3%nat)) (plain_run 128 60 wvals wprog) = Ok (7 * 2 ^ 63, 21) /\
  omap (fun env => (value (env 0%nat), value (env 3%nat))) (lib_run 60 wvars wprog) = Ok (7 * 2 ^ 63, 21) /\
  omap (fun st => st 0%nat) (wsigned_run 128 3 wvals (Put 0 (Bin Shl (Var 0) (New 127 0 true 126)))) = Ok (2 ^ 126) /\
  omap (fun env => value (env 0%nat)) (lib_run 3 wvars (Put 0 (Bin Shl (Var 0) (New 127 0 true 126)))) = Ok (2 ^ 126).
Proof.
  split. { intros k. unfold wvars. destruct k as [|[|k]]; repeat split; vm_compute; congruence. }
  split. { intros k. destruct k as [|[|k]]; vm_compute; congruence. }
  split. { cbn [wsigned_stmt wsigned_test wsigned_ex wprog]. repeat split; try (left; reflexivity); try (right; reflexivity); vm_compute; congruence. }
  repeat split; vm_compute; reflexivity.
Qed.
