(** Exact behaviour of the native shifts. *)
From Coq Require Import ZArith List Bool Lia Zify ZifyBool.
From Verif Require Import Cpp BigNum Bit Logic Spec SpecExact ZBits Words BigNumProofs BigArith BitProofs BitSlice BitExt BitOps BitShift BitArith BitMain BitMain2.
Import ListNotations.
Open Scope Z_scope.
Ltac Zify.zify_post_hook ::= Z.div_mod_to_equations.

Lemma storage_hty n s : 2 <= n <= 64 -> iwidth (hty n s) = storage n.
Proof. intros H. unfold storage, hty. repeat match goal with |- context [if ?c then _ else _] => destruct c eqn:? end; reflexivity || lia. Qed.
Lemma computing_hty n s : 1 <= n <= 64 -> iwidth (promote (hty n s)) = computing n.
Proof. intros H. unfold computing, hty. repeat match goal with |- context [if ?c then _ else _] => destruct c eqn:? end; reflexivity || lia. Qed.
Lemma storage_cases n : 2 <= n <= 64 -> n <= storage n /\ (storage n = 8 \/ storage n = 16 \/ storage n = 32 \/ storage n = 64).
Proof. intros H. unfold storage. repeat match goal with |- context [if ?c then _ else _] => destruct c eqn:? end; lia. Qed.

Lemma conv_amount_mod n s k : 2 <= n <= 64 -> 0 <= k ->
  (k mod 2 ^ storage n < 64 -> conv (hty n s) k = k mod 2 ^ storage n) /\ (64 <= k mod 2 ^ storage n -> conv (hty n s) k < 0 \/ 64 <= conv (hty n s) k).
Proof.
  intros Hn Hk. rewrite <- (storage_hty n s Hn). assert (Nb : hty n s <> TBool) by (apply hty_nb; lia).
  destruct (hty n s); try congruence; cbn [conv isigned iwidth]; unfold swrap;
    change (2 ^ 8) with 256; change (2 ^ 16) with 65536; change (2 ^ 32) with 4294967296; change (2 ^ 64) with 18446744073709551616;
    change (2 ^ (8 - 1)) with 128; change (2 ^ (16 - 1)) with 32768; change (2 ^ (32 - 1)) with 2147483648; change (2 ^ (64 - 1)) with 9223372036854775808; lia.
Qed.

Lemma mask_ub t tb n k : t <> TBool -> 2 <= n <= iwidth t -> in_ity tb k = true -> n <= k -> 0 <= conv t k < 64 ->
  (let! req := c_sub TI32 tb n k in value_mask t req) = UB.
Proof.
  intros Nb Hn I Hk C. apply in_ity_range in I.
  assert (Q : exists req, c_sub TI32 tb n k = Ok req /\ 64 <= u64 (64 - u64 req)).
  { unfold c_sub, arith. destruct t; try congruence; destruct tb; cbn [uac promote isigned iwidth conv] in *; unfold swrap, u64, in_ity in *; cbn [isigned iwidth] in *;
    change (2 ^ 8) with 256 in *; change (2 ^ 16) with 65536 in *; change (2 ^ 32) with 4294967296 in *; change (2 ^ 64) with 18446744073709551616 in *;
    change (2 ^ (8 - 1)) with 128 in *; change (2 ^ (16 - 1)) with 32768 in *; change (2 ^ (32 - 1)) with 2147483648 in *; change (2 ^ (64 - 1)) with 9223372036854775808 in *;
    try (change (2 ^ 1) with 2 in *; lia);
    try (match goal with |- context [if ?c then Ok ?z else UB] => replace c with true by lia end); (eexists; split; [reflexivity|]; lia). }
  destruct Q as (req & -> & L). cbn [bind]. unfold value_mask, c_shr. cbv zeta. change (iwidth (promote TU64)) with 64.
  replace ((0 <=? u64 (64 - u64 req)) && (u64 (64 - u64 req) <? 64)) with false by lia. reflexivity.
Qed.
