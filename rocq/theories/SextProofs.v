(** Sign extension and conditional negation. *)
From Coq Require Import ZArith List Bool Lia.
From Verif Require Import Cpp ZBits BigNum Bit Logic Spec SpecExact SpecMachine SpecWide Client SpecProg Sext BitProofs BitExt BitMain LogicMain Iff3 Iff25 ProgExact SaturateProofs LongProofs.
Import ListNotations.
Open Scope Z_scope.
Local Ltac Zify.zify_post_hook ::= idtac.

Lemma xor_top k x : 1 <= k -> 0 <= x < 2 ^ k -> Z.lxor x (2 ^ (k - 1)) = if Z.testbit x (k - 1) then x - 2 ^ (k - 1) else x + 2 ^ (k - 1).
Proof.
  intros K X. pose proof (sum_split x (2 ^ (k - 1))) as S. assert (L : Z.land x (2 ^ (k - 1)) = if Z.testbit x (k - 1) then 2 ^ (k - 1) else 0).
  { apply Z.bits_inj'. intros p Hp. rewrite Z.land_spec, Z.pow2_bits_eqb by lia. destruct (Z.eqb_spec (k - 1) p) as [<-|N].
    - rewrite andb_true_r. destruct (Z.testbit x (k - 1)); [rewrite Z.pow2_bits_true by lia|rewrite Z.bits_0]; reflexivity.
    - rewrite andb_false_r. destruct (Z.testbit x (k - 1)); [rewrite Z.pow2_bits_false by lia|rewrite Z.bits_0]; reflexivity. }
  rewrite L in S. destruct (Z.testbit x (k - 1)); lia.
Qed.
Lemma mod_room n z : 2 <= n < 2 ^ 31 -> (z mod 2 ^ room n) mod 2 ^ n = z mod 2 ^ n.
Proof.
  intros Hn. destruct (room_range n ltac:(lia)) as (R & _). replace (room n) with (n + (room n - n)) by lia. rewrite Z.pow_add_r by lia. pose proof (pow2_pos (room n - n) ltac:(lia)). pose proof (pow2_pos n ltac:(lia)). rewrite Z.rem_mul_r by lia. rewrite Z.mul_comm, Z_mod_plus_full. apply Z.mod_mod. lia.
Qed.
Lemma xor_sub_run2 n a m : 2 <= n -> typed a n false -> tidy a -> typed m n false -> tidy m -> exists r, xor_sub a m = Ok r /\ typed r n false /\ num r = (Z.lxor (num a) (num m) - num m) mod 2 ^ n.
Proof.
  intros Hn A Ta M Tm. pose proof (typed_lt a n false ltac:(lia) A) as Lt. destruct (tidy_state n a ltac:(lia) A Ta) as [EA RA]. destruct (tidy_state n m ltac:(lia) M Tm) as [EM RM]. pose proof (room_le n ltac:(lia)) as P. pose proof (lxor_range n (num a) (num m) ltac:(lia) RA RM) as RX.
  remember (num a) as x eqn:HX. remember (num m) as y eqn:HY. unfold xor_sub. rewrite EA, EM. rewrite k_xor by lia. cbn [bind]. rewrite k_sub by lia. eexists. split; [reflexivity|]. split; [apply vec_of_typed; lia|]. rewrite vec_of_num by lia. apply mod_room. lia.
Qed.
Lemma xor_sub_run n a m : 1 <= n -> typed a n false -> tidy a -> typed m n false -> tidy m -> exists r, xor_sub a m = Ok r /\ typed r n false /\ num r = (Z.lxor (num a) (num m) - num m) mod 2 ^ n.
Proof.
  intros Hn A Ta M Tm. assert (C : n = 1 \/ 2 <= n) by lia. destruct C as [->|C]; [|apply xor_sub_run2; assumption].
  destruct (bits1 a m m A M M) as (i & j & _ & -> & -> & _). destruct i, j; (eexists; split; [vm_compute; reflexivity|]; split; [assumption|vm_compute; reflexivity]).
Qed.
Lemma num_within n a : 1 <= n -> typed a n false -> 0 <= num a < 2 ^ n.
Proof. intros Hn A. pose proof (num_range a) as R. rewrite (typed_bw a n false Hn A) in R. exact R. Qed.
Lemma sign_extends n k a m : 1 <= n -> 1 <= k <= n -> typed a n false -> tidy a -> num a < 2 ^ k -> typed m n false -> tidy m -> num m = 2 ^ (k - 1) ->
  exists r, xor_sub a m = Ok r /\ typed r n false /\ num r = twos k (num a) mod 2 ^ n.
Proof.
  intros Hn Hk A Ta Ak M Tm Em. destruct (xor_sub_run n a m Hn A Ta M Tm) as (r & E & T & N). exists r. split; [exact E|]. split; [exact T|]. rewrite N, Em. pose proof (typed_lt a n false ltac:(lia) A). pose proof (num_within n a Hn A) as RA. rewrite xor_top by lia. unfold twos.
  assert (P2 : 2 ^ k = 2 * 2 ^ (k - 1)) by (rewrite <- Z.pow_succ_r by lia; f_equal; lia). destruct (Z.testbit (num a) (k - 1)); f_equal; lia.
Qed.
Lemma lxor_ones n x : 0 <= n -> 0 <= x < 2 ^ n -> Z.lxor x (2 ^ n - 1) = 2 ^ n - 1 - x.
Proof.
  intros N X. pose proof (sum_split x (2 ^ n - 1)) as S. assert (L : Z.land x (2 ^ n - 1) = x). { replace (2 ^ n - 1) with (Z.ones n) by (rewrite Z.ones_equiv; lia). rewrite Z.land_ones by lia. apply Z.mod_small. exact X. } lia.
Qed.
Lemma negates n a m : 1 <= n -> typed a n false -> tidy a -> typed m n false -> tidy m ->
  (num m = 2 ^ n - 1 -> exists r, xor_sub a m = Ok r /\ typed r n false /\ num r = (- num a) mod 2 ^ n) /\
  (num m = 0 -> exists r, xor_sub a m = Ok r /\ typed r n false /\ num r = num a).
Proof.
  intros Hn A Ta M Tm. destruct (xor_sub_run n a m Hn A Ta M Tm) as (r & E & T & N). pose proof (typed_lt a n false ltac:(lia) A). pose proof (num_within n a Hn A) as RA. split; intros Em; exists r; (split; [exact E|]; split; [exact T|]); rewrite N, Em.
  - rewrite lxor_ones by lia. f_equal. lia.
  - rewrite Z.lxor_0_r, Z.sub_0_r. apply Z.mod_small. exact RA.
Qed.
Lemma lxor_cut n u v : 0 <= n -> Z.lxor u v mod 2 ^ n = Z.lxor (u mod 2 ^ n) (v mod 2 ^ n).
Proof.
  intros N. apply Z.bits_inj'. intros p Hp. rewrite Z.lxor_spec. destruct (Z.ltb_spec p n) as [L|L].
  - rewrite !Z.mod_pow2_bits_low by lia. apply Z.lxor_spec.
  - rewrite !Z.mod_pow2_bits_high by lia. reflexivity.
Qed.
Lemma negates_back n a m : 2 <= n -> typed a n false -> tidy a -> typed m n false -> tidy m -> num m = 2 ^ n - 1 -> exists r, add_xor a m = Ok r /\ typed r n false /\ num r = (- num a) mod 2 ^ n.
Proof.
  intros Hn A Ta M Tm Em. pose proof (typed_lt a n false ltac:(lia) A) as Lt. destruct (tidy_state n a ltac:(lia) A Ta) as [EA RA]. destruct (tidy_state n m ltac:(lia) M Tm) as [EM RM]. rewrite Em in EM, RM. pose proof (room_le n ltac:(lia)) as P. pose proof (pow2_pos n ltac:(lia)) as Q.
  remember (num a) as x eqn:HX. clear HX. unfold add_xor. rewrite EA, EM. rewrite k_add by lia. cbn [bind]. pose proof (Z.mod_pos_bound (x + (2 ^ n - 1)) (2 ^ room n) ltac:(lia)) as B. rewrite k_xor by lia.
  eexists. split; [reflexivity|]. split; [apply vec_of_typed; lia|]. rewrite vec_of_num by lia. rewrite lxor_cut, mod_room by lia. rewrite (Z.mod_small (2 ^ n - 1)) by lia. rewrite lxor_ones by (try apply Z.mod_pos_bound; lia).
  rewrite <- (Z.mod_small (2 ^ n - 1 - (x + (2 ^ n - 1)) mod 2 ^ n) (2 ^ n)) by (pose proof (Z.mod_pos_bound (x + (2 ^ n - 1)) (2 ^ n) ltac:(lia)); lia). rewrite Zminus_mod_idemp_r. f_equal. lia.
Qed.
Lemma negates_back_iff n : 1 <= n -> ((forall a m, typed a n false -> tidy a -> typed m n false -> tidy m -> num m = 2 ^ n - 1 -> exists r, add_xor a m = Ok r /\ typed r n false /\ num r = (- num a) mod 2 ^ n) <-> 2 <= n).
Proof.
  intros Hn. split; [|intros; apply negates_back; assumption]. intros H. assert (C : n = 1 \/ 2 <= n) by lia. destruct C as [->|C]; [exfalso|exact C].
  destruct (H (bit0 true) (bit0 true)) as (r & E & _ & N); try conc. vm_compute in E. injection E as <-. vm_compute in N. discriminate.
Qed.
