(** The widths at which the laws of C77 hold. *)
From Coq Require Import ZArith List Bool Lia.
From Verif Require Import Cpp ZBits BigNum Bit Spec SpecExact SpecMachine SpecWide Client Program SpecProg SpecIff BitOps BitProofs WideProofs WideProofs2 Iff3 Iff8 Iff25 LawProofs ProgExact.
Import ListNotations.
Open Scope Z_scope.
Local Ltac Zify.zify_post_hook ::= idtac.

Lemma zero_good n : 2 <= n < 2 ^ 31 -> good n (fun _ => vec_of n false 0).
Proof.
  intros Hn k. pose proof (pow2_pos n ltac:(lia)). split; [apply vec_of_typed; lia|]. apply (BitExt.tidy_u_iff _ n); [lia|apply vec_of_typed; lia|].
  rewrite kept_stored by lia. rewrite Z.mod_0_l by (pose proof (room_pos n ltac:(lia)); lia). lia.
Qed.
Lemma zero_eval n e : 2 <= n < 2 ^ 31 -> amounts vec e -> eval (fun _ => vec_of n false 0) e = omap (vec_of n false) (kept n (fun _ => 0) e).
Proof. intros Hn A. apply kept_expression; auto. intros k. split; [pose proof (room_pos n ltac:(lia)); lia|reflexivity]. Qed.
Lemma negation_widths n : 2 <= n < 2 ^ 31 -> (forall env, good n env -> forall a b, supported n (fun k => num (env k)) a -> supported n (fun k => num (env k)) b -> Forall (agree n env) (negation_laws a b)) <-> n <= 64.
Proof.
  intros Hn. split; [|intros L env G a b A B; apply laws_negation; auto; lia]. intros P. destruct (Z_le_gt_dec n 64) as [L|L]; [exact L|exfalso].
  specialize (P _ (zero_good n Hn) (Var 0) (Var 0) I I). apply Forall_inv in P. destruct P as (r & s & Er & _). cbn [fst] in Er. rewrite zero_eval in Er by (cbn; tauto). cbn [kept bind omap] in Er.
  replace (n <=? 64) with false in Er by lia. discriminate.
Qed.
Lemma ones_large n : 65 <= n -> seems_small n (2 ^ room n - 1) = false.
Proof.
  intros Hn. assert (R : room n = capacity n) by (apply room_range; lia). rewrite R. assert (C : 128 <= capacity n).
  { unfold capacity, words_in. pose proof (Z.div_le_mono 128 (n + 63) 64 ltac:(lia) ltac:(lia)). change (128 / 64) with 2 in *. lia. }
  destruct (seems_small n (2 ^ capacity n - 1)) eqn:E; [|reflexivity]. apply seems_small_hollow in E; [|lia|pose proof (pow2_pos (capacity n) ltac:(lia)); lia].
  specialize (E 0 ltac:(lia) ltac:(now compute)). rewrite Z.div_pow2_bits in E by lia. replace (2 ^ capacity n - 1) with (Z.ones (capacity n)) in E by (rewrite Z.ones_equiv; lia).
  rewrite Z.ones_spec_low in E by lia. discriminate.
Qed.
Lemma ones_product n : 2 <= n -> 9 <= n <= 16 \/ 65 <= n -> kept_product n (2 ^ room n - 1 - 0) (2 ^ room n - 1 - 0) = UB.
Proof.
  intros N H. rewrite Z.sub_0_r. unfold kept_product. destruct H as [H|H].
  - replace (n <=? 64) with true by lia. replace (room n) with 16 by (unfold room, storage; replace (n <=? 64) with true by lia; replace (n <=? 8) with false by lia; now replace (n <=? 16) with true by lia).
    replace (n <=? 16) with true by lia. reflexivity.
  - replace (n <=? 64) with false by lia. rewrite ones_large by lia. cbn [andb]. assert (R : room n = capacity n) by (apply room_range; lia). rewrite R.
    assert (W : 2 <= words_in n). { unfold words_in. pose proof (Z.div_le_mono 128 (n + 63) 64 ltac:(lia) ltac:(lia)). change (128 / 64) with 2 in *. lia. }
    pose proof (Z.pow_le_mono_r 2 1 (capacity n) ltac:(lia) ltac:(unfold capacity; lia)). change (2 ^ 1) with 2 in *.
    replace (2 ^ capacity n - 1 =? 0) with false by lia. cbn [orb].
    assert (LG : Z.log2 (2 ^ capacity n - 1) = capacity n - 1).
    { apply Z.log2_unique; [unfold capacity; lia|]. replace (Z.succ (capacity n - 1)) with (capacity n) by lia. split; [|lia].
      replace (capacity n) with (1 + (capacity n - 1)) at 2 by lia. rewrite Z.pow_add_r by (unfold capacity; lia). pose proof (pow2_pos (capacity n - 1) ltac:(unfold capacity; lia)). change (2 ^ 1) with 2. lia. }
    rewrite LG. assert (Q : (capacity n - 1) / 64 = words_in n - 1). { unfold capacity. replace (64 * words_in n - 1) with ((words_in n - 1) * 64 + 63) by lia. rewrite Z.div_add_l by lia. change (63 / 64) with 0. lia. }
    rewrite Q. replace (words_in n - 1 + (words_in n - 1) + 1 <? words_in n) with false by lia. reflexivity.
Qed.
Lemma product_widths n : 2 <= n < 2 ^ 31 ->
  (forall env, good n env -> forall a b c, supported n (fun k => num (env k)) a -> supported n (fun k => num (env k)) b -> supported n (fun k => num (env k)) c -> Forall (agree n env) (product_laws a b c)) <->
  n <= 8 \/ 17 <= n <= 64.
Proof.
  intros Hn. split; [|intros L env G a b c A B C; apply laws_product; auto; lia]. intros P.
  assert (T : n <= 8 \/ 17 <= n <= 64 \/ (9 <= n <= 16 \/ 65 <= n)) by lia. destruct T as [T|[T|T]]; [tauto|tauto|exfalso].
  specialize (P _ (zero_good n Hn) (Not (Var 0)) (Not (Var 0)) (Var 0) I I I). apply Forall_inv in P. destruct P as (r & s & Er & _). cbn [fst] in Er. rewrite zero_eval in Er by (cbn; tauto). cbn [kept bind omap] in Er.
  rewrite ones_product in Er by (lia || assumption). discriminate.
Qed.
