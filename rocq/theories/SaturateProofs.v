(** Saturating arithmetic. *)
From Coq Require Import ZArith List Bool Lia.
From Verif Require Import Cpp ZBits BigNum Bit Logic Spec SpecExact SpecMachine SpecWide Client SpecProg Saturate BitProofs BitExt LogicMain Iff3 Iff25 ProgExact BothProofs.
Import ListNotations.
Open Scope Z_scope.
Local Ltac Zify.zify_post_hook ::= idtac.

Lemma tidy_state n a : 2 <= n < 2 ^ 31 -> typed a n false -> tidy a -> a = vec_of n false (num a) /\ 0 <= num a < 2 ^ n.
Proof.
  intros Hn A T. destruct (kept_state n a Hn A) as [_ E]. pose proof (tidy_num_u a n ltac:(lia) A T) as N. split; [rewrite N; exact E|].
  pose proof (num_range a) as R. assert (H1 : 1 <= n) by lia. pose proof (typed_bw a n false H1 A) as W. rewrite W in R. exact R.
Qed.
Lemma room_le n : 2 <= n -> 2 ^ n <= 2 ^ room n.
Proof. intros H. destruct (room_range n H) as (R & _). apply Z.pow_le_mono_r; lia. Qed.
Lemma sum_outcome n x y : 2 <= n < 2 ^ 31 -> 0 <= x < 2 ^ n -> 0 <= y < 2 ^ n ->
  sat_add (vec_of n false 0) (vec_of n false x) (vec_of n false y) =
  Ok (if (x + y) mod 2 ^ room n <? x then bit_not (vec_of n false 0) else vec_of n false ((x + y) mod 2 ^ room n)).
Proof.
  intros Hn X Y. pose proof (room_le n ltac:(lia)) as P. unfold sat_add. rewrite k_add by lia. cbn [bind].
  rewrite k_lt by (assumption || lia || (apply Z.mod_pos_bound; lia)). reflexivity.
Qed.
Lemma difference_outcome n x y : 2 <= n < 2 ^ 31 -> 0 <= x < 2 ^ n -> 0 <= y < 2 ^ n ->
  sat_sub (vec_of n false 0) (vec_of n false x) (vec_of n false y) =
  Ok (if x <? (x - y) mod 2 ^ room n then vec_of n false 0 else vec_of n false ((x - y) mod 2 ^ room n)).
Proof.
  intros Hn X Y. pose proof (room_le n ltac:(lia)) as P. unfold sat_sub. rewrite k_sub by lia. cbn [bind].
  rewrite k_lt by (assumption || lia || (apply Z.mod_pos_bound; lia)). reflexivity.
Qed.
Lemma all_ones_num n : 2 <= n < 2 ^ 31 -> num (bit_not (vec_of n false 0)) = 2 ^ n - 1.
Proof.
  intros Hn. pose proof (room_le n ltac:(lia)) as P. pose proof (pow2_pos n ltac:(lia)). rewrite k_not by lia. rewrite Z.sub_0_r, vec_of_num by lia.
  destruct (room_range n ltac:(lia)) as (R & _). replace (room n) with (n + (room n - n)) by lia. rewrite Z.pow_add_r by lia.
  replace (2 ^ n * 2 ^ (room n - n) - 1) with (2 ^ n - 1 + (2 ^ (room n - n) - 1) * 2 ^ n) by lia. rewrite Z_mod_plus_full. apply Z.mod_small. lia.
Qed.
Lemma bits1 (x y z : bit) : typed x 1 false -> typed y 1 false -> typed z 1 false -> exists i j k, x = bit0 i /\ y = bit0 j /\ z = bit0 k.
Proof. intros X Y Z. exists (bit_at x 0), (bit_at y 0), (bit_at z 0). repeat split; apply one_bit_eq; assumption. Qed.
Lemma zero_bit i : num (bit0 i) = 0 -> i = false. Proof. destruct i; [discriminate|reflexivity]. Qed.

Lemma sat_sub_all n zero a b : 1 <= n -> typed a n false -> tidy a -> typed b n false -> tidy b -> typed zero n false -> tidy zero -> num zero = 0 ->
  exists r, sat_sub zero a b = Ok r /\ typed r n false /\ num r = Z.max 0 (num a - num b).
Proof.
  intros Hn A Ta B Tb O To E. destruct (Z.eq_dec n 1) as [->|N1].
  - destruct (bits1 a b zero A B O) as (i & j & k & -> & -> & ->). apply zero_bit in E. subst k.
    destruct i, j; (eexists; split; [vm_compute; reflexivity|]; split; [assumption|vm_compute; reflexivity]).
  - pose proof (typed_lt a n false Hn A) as Lt. destruct (tidy_state n a ltac:(lia) A Ta) as [EA RA]. destruct (tidy_state n b ltac:(lia) B Tb) as [EB RB]. destruct (tidy_state n zero ltac:(lia) O To) as [EO _]. rewrite E in EO.
    set (x := num a) in *. set (y := num b) in *. clearbody x y. subst a b zero. rewrite difference_outcome by lia. eexists. split; [reflexivity|].
    split. { destruct (_ <? _); apply vec_of_typed; lia. } pose proof (room_le n ltac:(lia)) as P. destruct (Z.le_gt_cases y x) as [L|L].
    + rewrite (Z.mod_small (x - y)) by lia. replace (x <? x - y) with false by lia. rewrite vec_of_num by lia. rewrite Z.mod_small by lia. lia.
    + assert (M : (x - y) mod 2 ^ room n = x - y + 2 ^ room n). { symmetry. apply Z.mod_unique with (q := -1); lia. } rewrite M. replace (x <? x - y + 2 ^ room n) with true by lia. rewrite vec_of_num by lia. rewrite Z.mod_0_l by lia. lia.
Qed.
Lemma sat_add_exact n : 1 <= n < 2 ^ 31 ->
  (forall zero a b, typed a n false -> tidy a -> typed b n false -> tidy b -> typed zero n false -> tidy zero -> num zero = 0 ->
     exists r, sat_add zero a b = Ok r /\ typed r n false /\ num r = Z.min (2 ^ n - 1) (num a + num b)) <-> n = 1 \/ full_width n.
Proof.
  intros Hn. split.
  - intros H. destruct (Z.eq_dec n 1) as [->|N1]; [now left|]. right. destruct (Z_le_gt_dec (n + 1) (room n)) as [C|C].
    + exfalso. pose proof (pow2_pos n ltac:(lia)) as Pn. assert (Pw : 2 * 2 ^ n <= 2 ^ room n). { replace (2 * 2 ^ n) with (2 ^ (n + 1)) by (rewrite Z.pow_add_r by lia; change (2 ^ 1) with 2; lia). apply Z.pow_le_mono_r; lia. }
      assert (P4 : 4 <= 2 ^ n) by (change 4 with (2 ^ 2); apply Z.pow_le_mono_r; lia).
      assert (Td : forall z, 0 <= z < 2 ^ n -> tidy (vec_of n false z)). { intros z Hz. apply (tidy_u_iff _ n ltac:(lia) (vec_of_typed n false z ltac:(lia))). rewrite kept_stored by lia. rewrite Z.mod_small by lia. exact Hz. }
      destruct (H (vec_of n false 0) (vec_of n false (2 ^ n - 1)) (vec_of n false (2 ^ n - 1))) as (r & Er & _ & Nr); try apply vec_of_typed; try apply Td; try lia. { rewrite vec_of_num by lia. apply Z.mod_0_l. lia. }
      rewrite sum_outcome in Er by lia. rewrite !vec_of_num in Nr by lia. rewrite (Z.mod_small (2 ^ n - 1)) in Nr by lia. rewrite (Z.mod_small (2 ^ n - 1 + (2 ^ n - 1))) in Er by lia.
      replace (2 ^ n - 1 + (2 ^ n - 1) <? 2 ^ n - 1) with false in Er by lia. injection Er as <-. rewrite vec_of_num in Nr by lia.
      replace (2 ^ n - 1 + (2 ^ n - 1)) with (2 ^ n - 2 + 1 * 2 ^ n) in Nr by lia. rewrite Z_mod_plus_full, Z.mod_small in Nr by lia. lia.
    + destruct (Z.eq_dec n 8); [unfold full_width; tauto|]. destruct (Z.eq_dec n 16); [unfold full_width; tauto|]. destruct (Z.eq_dec n 32); [unfold full_width; tauto|]. destruct (Z.eq_dec n 64); [unfold full_width; tauto|].
      destruct (Z.le_gt_cases 65 n) as [L|L].
      * unfold full_width. right. right. right. right. split; [exact L|]. destruct (room_range n ltac:(lia)) as (R & _ & _ & S2). assert (E : n = capacity n) by (rewrite <- S2 by lia; lia). rewrite E. unfold capacity. rewrite Z.mul_comm. apply Z.mod_mul. lia.
      * exfalso. destruct (room_range n ltac:(lia)) as (R & _ & S1 & _). destruct (S1 ltac:(lia)) as [Q _]. destruct (MachineProofs.storage_cases n ltac:(lia)) as (_ & _ & D & _). lia.
  - intros W zero a b A Ta B Tb O To E. destruct (Z.eq_dec n 1) as [->|N1].
    + destruct (bits1 a b zero A B O) as (i & j & k & -> & -> & ->). apply zero_bit in E. subst k. destruct i, j; (eexists; split; [vm_compute; reflexivity|]; split; [assumption|vm_compute; reflexivity]).
    + destruct W as [W|W]; [lia|]. destruct (room_full n W) as [_ R]. destruct (tidy_state n a ltac:(lia) A Ta) as [EA RA]. destruct (tidy_state n b ltac:(lia) B Tb) as [EB RB]. destruct (tidy_state n zero ltac:(lia) O To) as [EO _]. rewrite E in EO.
      set (x := num a) in *. set (y := num b) in *. clearbody x y. subst a b zero. rewrite sum_outcome by lia. rewrite R. eexists. split; [reflexivity|].
      assert (Tn : typed (bit_not (vec_of n false 0)) n false). { rewrite k_not by (try lia; pose proof (room_pos n ltac:(lia)); lia). apply vec_of_typed. lia. }
      split. { destruct (_ <? _); [exact Tn|apply vec_of_typed; lia]. } destruct (Z.le_gt_cases (2 ^ n) (x + y)) as [L|L].
      * assert (M : (x + y) mod 2 ^ n = x + y - 2 ^ n). { symmetry. apply Z.mod_unique with (q := 1); lia. } rewrite M. replace (x + y - 2 ^ n <? x) with true by lia. rewrite all_ones_num by lia. lia.
      * rewrite (Z.mod_small (x + y)) by lia. replace (x + y <? x) with false by lia. rewrite vec_of_num, Z.mod_small by lia. lia.
Qed.
Lemma sat_add_full n zero a b : full_width n -> typed a n false -> tidy a -> typed b n false -> tidy b -> typed zero n false -> tidy zero -> num zero = 0 ->
  exists r, sat_add zero a b = Ok r /\ typed r n false /\ num r = Z.min (2 ^ n - 1) (num a + num b).
Proof.
  intros W A. assert (H1 : 1 <= n) by (destruct (room_full n W); lia). pose proof (typed_lt a n false H1 A) as L.
  intros Ta B Tb O To E. apply (proj2 (sat_add_exact n (conj H1 L)) (or_intror W)); assumption.
Qed.
