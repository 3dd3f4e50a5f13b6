(** The integer square root: exactly which widths are right. *)
From Coq Require Import ZArith List Bool Lia.
From Verif Require Import Cpp ZBits BigNum Bit Logic Spec SpecExact SpecMachine SpecWide Client SpecProg SpecSqrt Sqrt BitProofs BitExt LogicMain Iff3 Iff8 Iff25 ProgExact BothProofs SaturateProofs LongProofs SqrtProofs.
From Verif Require Iff17.
Import ListNotations.
Open Scope Z_scope.
Local Ltac Zify.zify_post_hook ::= idtac.

Lemma product_kinds n x y : kept_product n x y = UB \/ exists z, kept_product n x y = Ok z.
Proof. unfold kept_product. repeat match goal with |- context [if ?b then _ else _] => destruct b end; eauto. Qed.
Section wide.
Variables (n : Z) (Hn : 129 <= n < 2 ^ 31).
Let h := (n + 1) / 2.
Lemma h_room : 65 <= h /\ 2 * h <= n + 1 /\ 2 ^ h <= 2 ^ n /\ 2 ^ n <= 2 ^ room n.
Proof.
  destruct (half_up n ltac:(lia)) as [H1 U]. fold h in H1, U. split; [lia|]. split; [lia|]. split; [apply Z.pow_le_mono_r; lia|apply room_le; lia].
Qed.
Lemma step_kinds x w y : 0 <= x -> 0 <= w -> x + w < 2 ^ h -> 0 <= y < 2 ^ n ->
  let st := let! t := bit_add (vec_of n false x) (vec_of n false w) in let! q := bit_mul t t in let! c := bit_ge (vec_of n false y) q in Ok (if c then t else vec_of n false x) in
  st = UB \/ st = Ok (vec_of n false x) \/ st = Ok (vec_of n false (x + w)).
Proof.
  intros X W B Y st. destruct h_room as (_ & _ & P1 & P2). unfold st. rewrite k_add by lia. cbn [bind]. rewrite Z.mod_small by lia. rewrite k_mul by lia.
  destruct (product_kinds n (x + w) (x + w)) as [-> | [z ->]]; [left; reflexivity|]. right. cbn [omap bind]. rewrite <- (kept_mod n z) by lia. pose proof (Z.mod_pos_bound z (2 ^ room n) ltac:(lia)). rewrite k_ge by lia. cbn [bind].
  destruct (_ <=? _); [right|left]; reflexivity.
Qed.
Lemma mask_state m ms : root_masks n (m :: ms) -> m = vec_of n false (2 ^ Z.of_nat (length ms)).
Proof.
  intros M. destruct (M 0%nat m eq_refl) as (Tm & Dm & Nm). destruct (tidy_state n m ltac:(lia) Tm Dm) as [E _]. rewrite Nm in E. rewrite E. f_equal. f_equal. cbn [length]. lia.
Qed.
Lemma only_grows ms : forall x, root_masks n ms -> 0 <= x -> x + 2 ^ Z.of_nat (length ms) <= 2 ^ h ->
  isqrt ms (vec_of n false x) (vec_of n false 0) = UB \/ exists z, isqrt ms (vec_of n false x) (vec_of n false 0) = Ok (vec_of n false z) /\ x <= z < 2 ^ h.
Proof.
  destruct h_room as (H65 & _ & P1 & P2). pose proof (pow2_pos n ltac:(lia)) as Pn. induction ms as [|m ms IH]; intros x M X B.
  - right. exists x. change (2 ^ Z.of_nat (length (@nil bit))) with 1 in B. split; [reflexivity|lia].
  - pose proof (mask_state m ms M) as E. set (j := Z.of_nat (length ms)) in *. assert (J : 0 <= j) by lia. assert (Ej : Z.of_nat (length (m :: ms)) = j + 1) by (unfold j; cbn [length]; lia). rewrite Ej, Z.pow_add_r in B by lia. change (2 ^ 1) with 2 in B. pose proof (pow2_pos j J) as Pj.
    unfold isqrt. cbn [ofold]. rewrite E. destruct (step_kinds x (2 ^ j) 0 X ltac:(lia) ltac:(lia) ltac:(lia)) as [S | [S | S]]; cbv zeta in S; rewrite S; cbn [bind]; [left; reflexivity| |].
    + apply (IH x (root_masks_tl n m ms M)); lia.
    + destruct (IH (x + 2 ^ j) (root_masks_tl n m ms M)) as [U | (z & U & Z1)]; [lia|lia|left; exact U|right; exists z; split; [exact U|lia]].
Qed.
Lemma goes_wrong ms : 193 <= n -> root_masks n ms -> 97 <= Z.of_nat (length ms) <= h ->
  isqrt ms (vec_of n false 0) (vec_of n false 0) = UB \/ exists z, isqrt ms (vec_of n false 0) (vec_of n false 0) = Ok (vec_of n false z) /\ 2 ^ 96 <= z < 2 ^ h.
Proof.
  intros N193. destruct h_room as (H65 & _ & P1 & P2). pose proof (pow2_pos n ltac:(lia)) as Pn. induction ms as [|m ms IH]; intros M L; [cbn in L; lia|].
  pose proof (mask_state m ms M) as E. set (j := Z.of_nat (length ms)) in *. assert (Ej : Z.of_nat (length (m :: ms)) = j + 1) by (unfold j; cbn [length]; lia). rewrite Ej in L. pose proof (pow2_pos j ltac:(lia)) as Pj.
  assert (Bj : 2 * 2 ^ j <= 2 ^ h). { replace (2 * 2 ^ j) with (2 ^ (j + 1)) by (rewrite Z.pow_add_r by lia; change (2 ^ 1) with 2; lia). apply Z.pow_le_mono_r; lia. }
  assert (B96 : 2 ^ 96 <= 2 ^ j) by (apply Z.pow_le_mono_r; lia). pose proof (root_masks_tl n m ms M) as M'.
  assert (Big : isqrt ms (vec_of n false (2 ^ j)) (vec_of n false 0) = UB \/ exists z, isqrt ms (vec_of n false (2 ^ j)) (vec_of n false 0) = Ok (vec_of n false z) /\ 2 ^ 96 <= z < 2 ^ h).
  { destruct (only_grows ms (2 ^ j) M') as [U | (z & U & Z1)]; [lia|fold j; lia|left; exact U|right; exists z; split; [exact U|lia]]. }
  unfold isqrt. cbn [ofold]. rewrite E. destruct (Z.eq_dec j 96) as [E96|N96].
  - rewrite k_add by lia. cbn [bind]. rewrite Z.add_0_l, Z.mod_small by lia. rewrite k_mul by lia. unfold kept_product. replace (n <=? 64) with false by lia.
    assert (S : seems_small n (2 ^ j) = true). { apply Iff17.small_hollow; [lia|lia|]. rewrite E96. change (2 ^ 96 / 2 ^ 64) with (2 ^ 32). intros p Hp Hq. rewrite Z.pow2_bits_false; [reflexivity|]. intros Q. subst p. vm_compute in Hq. discriminate. }
    rewrite S. cbn [andb]. rewrite E96. change (2 ^ 96 mod 2 ^ 64) with 0. cbn [omap bind]. rewrite Z.mul_0_l, Z.mod_0_l by lia. rewrite k_ge by lia. cbn [bind Z.leb Z.compare]. rewrite E96 in Big. exact Big.
  - destruct (step_kinds 0 (2 ^ j) 0 ltac:(lia) ltac:(lia) ltac:(lia) ltac:(lia)) as [S | [S | S]]; cbv zeta in S; rewrite S; cbn [bind]; [left; reflexivity| |].
    + apply (IH M'). lia.
    + rewrite Z.add_0_l. exact Big.
Qed.
Lemma goes_undefined ms : n <= 192 -> root_masks n ms -> Z.of_nat (length ms) = h -> isqrt ms (vec_of n false 0) (vec_of n false 0) = UB.
Proof.
  intros N192 M L. destruct h_room as (H65 & H2 & P1 & P2). pose proof (pow2_pos n ltac:(lia)) as Pn. destruct ms as [|m ms]; [cbn in L; lia|].
  pose proof (mask_state m ms M) as E. set (j := Z.of_nat (length ms)) in *. assert (Ej : h = j + 1) by (rewrite <- L; unfold j; cbn [length]; lia). pose proof (pow2_pos j ltac:(lia)) as Pj.
  assert (Bj : 2 ^ j < 2 ^ n) by (apply Z.pow_lt_mono_r; lia).
  unfold isqrt. cbn [ofold]. rewrite E. rewrite k_add by lia. cbn [bind]. rewrite Z.add_0_l, Z.mod_small by lia. rewrite k_mul by lia. unfold kept_product. replace (n <=? 64) with false by lia.
  assert (S : seems_small n (2 ^ j) = false).
  { destruct (seems_small n (2 ^ j)) eqn:S; [|reflexivity]. exfalso. apply Iff17.small_hollow in S; [|lia|lia]. replace (2 ^ j / 2 ^ 64) with (2 ^ (j - 64)) in S by (rewrite Z.pow_sub_r by lia; reflexivity).
    specialize (S (j - 64)). rewrite Z.pow2_bits_true in S by lia. assert (Q : (j - 64) mod 64 < 32) by (rewrite Z.mod_small by lia; lia). specialize (S ltac:(lia) Q). discriminate. }
  rewrite S. cbn [andb]. replace (2 ^ j =? 0) with false by lia. cbn [orb]. rewrite Z.log2_pow2 by lia.
  assert (D : j / 64 = 1) by (symmetry; apply Z.div_unique with (r := j - 64); lia). assert (W : words_in n = 3) by (unfold words_in; symmetry; apply Z.div_unique with (r := n + 63 - 192); lia). rewrite D, W. reflexivity.
Qed.
End wide.
Theorem isqrt_exact n : 2 <= n < 2 ^ 31 ->
  (forall zero a ms, typed a n false -> tidy a -> typed zero n false -> tidy zero -> num zero = 0 -> Z.of_nat (length ms) = (n + 1) / 2 -> root_masks n ms ->
     exists r, isqrt ms zero a = Ok r /\ typed r n false /\ num r = Z.sqrt (num a)) <-> n <= 128.
Proof.
  intros Hn. split.
  - intros H. destruct (Z.le_gt_cases n 128) as [L|L]; [exact L|]. exfalso. assert (Hw : 129 <= n < 2 ^ 31) by lia. destruct (h_room n Hw) as (H65 & H2 & P1 & P2). pose proof (pow2_pos n ltac:(lia)) as Pn.
    assert (T : typed (vec_of n false 0) n false) by (apply vec_of_typed; lia). assert (D : tidy (vec_of n false 0)). { apply (tidy_u_iff _ n ltac:(lia) T). rewrite kept_stored, Z.mod_0_l by lia. lia. } assert (E : num (vec_of n false 0) = 0) by (rewrite vec_of_num by lia; apply Z.mod_0_l; lia).
    set (k := Z.to_nat ((n + 1) / 2)). assert (Kk : Z.of_nat k = (n + 1) / 2) by (unfold k; lia). pose proof (masks_exist n k Hn ltac:(lia)) as M. set (ms := map _ _) in M. assert (Lm : Z.of_nat (length ms) = (n + 1) / 2) by (unfold ms; rewrite map_length, seq_length; exact Kk).
    destruct (H _ _ ms T D T D E Lm M) as (r & Er & _ & Nr). rewrite E in Nr. change (Z.sqrt 0) with 0 in Nr. destruct (Z.le_gt_cases n 192) as [L2|L2].
    + rewrite (goes_undefined n Hw ms L2 M Lm) in Er. discriminate.
    + destruct (half_up n ltac:(lia)) as [_ Up]. destruct (goes_wrong n Hw ms ltac:(lia) M ltac:(lia)) as [U | (z & U & Rz)]; rewrite Er in U; [discriminate|]. injection U as ->. rewrite vec_of_num, Z.mod_small in Nr by lia. lia.
  - intros L zero a ms A Ta O To E Lm M. destruct (isqrt_all n zero a ms ltac:(lia) A Ta O To E Lm M) as (r & Er & Tr & _ & Nr). exists r. split; [exact Er|]. split; assumption.
Qed.
