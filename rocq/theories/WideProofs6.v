(** Long division of the wide reference machine is division for operands inside their declared width. *)
From Coq Require Import ZArith List Bool Lia Zify ZifyBool.
From Verif Require Import Cpp Bit Spec SpecExact SpecMachine SpecWide ZBits.
Import ListNotations.
Open Scope Z_scope.
Local Ltac Zify.zify_post_hook ::= idtac.

Lemma setbit_add q k : 0 <= k -> 0 <= q -> q mod 2 ^ (k + 1) = 0 -> Z.setbit q k = q + 2 ^ k.
Proof.
  intros Hk Hq M. rewrite Z.setbit_spec'. assert (P : 0 < 2 ^ (k + 1)) by (apply Z.pow_pos_nonneg; lia).
  apply Z.mod_divide in M; [|lia]. destruct M as [c ->].
  assert (Z.land (c * 2 ^ (k + 1)) (2 ^ k) = 0).
  { apply Z.bits_inj'. intros i Hi. rewrite Z.land_spec, Z.bits_0, Z.pow2_bits_eqb by lia. destruct (Z.eqb_spec k i) as [-> | C]; [|apply andb_false_r].
    rewrite Z.mul_pow2_bits_low by lia. reflexivity. }
  rewrite (Z.add_nocarry_lxor (c * 2 ^ (k + 1)) (2 ^ k)) by assumption. rewrite Z.lxor_lor by assumption. reflexivity.
Qed.
(** * a + quotient step: with r < y * 2^j the remaining shifts compute r / y and r mod y *)
Lemma long_division_spec n y : 0 < y -> forall j q r, 0 <= q -> q mod 2 ^ Z.of_nat j = 0 -> 0 <= r < y * 2 ^ Z.of_nat j ->
  y * 2 ^ Z.of_nat j <= 2 ^ n * 2 -> Z.of_nat j <= n + 1 -> 2 <= 2 ^ n ->
  (forall k, k < Z.of_nat j -> 0 <= k -> y * 2 ^ k < 2 ^ n) ->
  long_division n y j q r = (q + r / y, r mod y).
Proof.
  intros Y j. induction j as [|j IH]; intros q r Q M R B J N T; cbn [long_division].
  - change (Z.of_nat 0) with 0 in R. rewrite Z.mul_1_r in R. rewrite Z.div_small, Z.mod_small by lia. f_equal. lia.
  - rewrite Nat2Z.inj_succ, <- Z.add_1_r in *. set (k := Z.of_nat j) in *. cbn zeta. assert (Hk : 0 <= k) by lia.
    assert (P : 0 < 2 ^ k) by (apply Z.pow_pos_nonneg; lia). rewrite Z.pow_add_r in M, R, B by lia. change (2 ^ 1) with 2 in *.
    pose proof (T k ltac:(lia) Hk) as Tk. rewrite (Z.mod_small (y * 2 ^ k)) by (split; [apply Z.mul_nonneg_nonneg; lia|exact Tk]).
    assert (Mk : q mod 2 ^ k = 0).
    { apply Z.mod_divide in M; [|lia]. destruct M as [c ->]. apply Z.mod_divide; [lia|]. exists (c * 2). ring. }
    assert (Kn : k < n). { apply (Z.pow_lt_mono_r_iff 2); [lia| |]. destruct n; try lia; cbn in N; lia. apply Z.le_lt_trans with (y * 2 ^ k); [|exact Tk].
      replace (2 ^ k) with (1 * 2 ^ k) at 1 by ring. apply Z.mul_le_mono_nonneg_r; lia. }
    destruct (Z.leb_spec (y * 2 ^ k) r) as [C | C].
    + replace (k <? n) with true by (symmetry; apply Z.ltb_lt; exact Kn). rewrite setbit_add; [|exact Hk|exact Q|rewrite Z.pow_add_r by lia; exact M]. rewrite IH.
      * replace (r - y * 2 ^ k) with (r + (- 2 ^ k) * y) by ring. rewrite Z.div_add, Z.mod_add by lia. f_equal. lia.
      * lia.
      * rewrite Z.add_mod by lia. rewrite Mk, Z.mod_same by lia. apply Z.mod_0_l. lia.
      * nia.
      * nia.
      * lia.
      * exact N.
      * intros i Hi Hi'. apply T; lia.
    + rewrite IH; [reflexivity|exact Q|exact Mk|lia|nia|lia|exact N|intros i Hi Hi'; apply T; lia].
Qed.
Lemma long_division_exact n x y : 1 <= n -> 0 < y -> y <= x -> x < 2 ^ n ->
  long_division n y (Z.to_nat (Z.log2 x - Z.log2 y + 1)) 0 x = (x / y, x mod y).
Proof.
  intros Hn Y L X. assert (LL : Z.log2 y <= Z.log2 x) by (apply Z.log2_le_mono; lia). pose proof (Z.log2_nonneg y) as Ly.
  pose proof (Z.log2_spec y Y) as [Y1 Y2]. pose proof (Z.log2_spec x ltac:(lia)) as [X1 X2].
  assert (Lx : Z.log2 x < n) by (apply Z.log2_lt_pow2; lia).
  assert (E : forall k, 0 <= k -> Z.log2 y + k < n -> y * 2 ^ k < 2 ^ n).
  { intros k Hk B. apply Z.lt_le_trans with (2 ^ Z.succ (Z.log2 y) * 2 ^ k).
    - apply Z.mul_lt_mono_pos_r; [apply Z.pow_pos_nonneg; lia|exact Y2].
    - rewrite <- Z.pow_add_r by lia. apply Z.pow_le_mono_r; lia. }
  rewrite long_division_spec.
  - f_equal; lia.
  - exact Y.
  - lia.
  - apply Z.mod_0_l. apply Z.pow_nonzero; lia.
  - rewrite Z2Nat.id by lia. split; [lia|]. apply Z.lt_le_trans with (2 ^ Z.succ (Z.log2 x)); [exact X2|].
    replace (Z.succ (Z.log2 x)) with (Z.log2 y + (Z.log2 x - Z.log2 y + 1)) by lia. rewrite Z.pow_add_r by lia.
    apply Z.mul_le_mono_nonneg_r; [apply Z.pow_nonneg; lia|exact Y1].
  - rewrite Z2Nat.id by lia. rewrite Z.pow_add_r by lia. change (2 ^ 1) with 2. rewrite Z.mul_assoc. apply Z.mul_le_mono_nonneg_r; [lia|].
    apply Z.lt_le_incl. apply E; lia.
  - rewrite Z2Nat.id by lia. lia.
  - change 2 with (2 ^ 1) at 1. apply Z.pow_le_mono_r; lia.
  - intros k K0 K1. rewrite Z2Nat.id in K0 by lia. apply E; lia.
Qed.
Lemma divided_exact n x y : 1 <= n -> 0 <= x < 2 ^ n -> 0 < y < 2 ^ n -> seems_zero n y = false -> seems_small n x = (x <? 2 ^ 64) -> seems_small n y = (y <? 2 ^ 64) ->
  divided n x y = Ok (x / y, x mod y).
Proof.
  intros Hn X Y Z0 Sx Sy. unfold divided. rewrite Z0, Sx, Sy.
  assert (K : forall z, 0 <= z -> (z <? 2 ^ 64) = true -> z mod 2 ^ 64 = z) by (intros z A B; apply Z.ltb_lt in B; apply Z.mod_small; lia).
  destruct (y <? 2 ^ 64) eqn:Qy; cbn [andb]; [rewrite (K y ltac:(lia) Qy)|]; rewrite ?andb_true_r, ?andb_false_r.
  - destruct (Z.eqb_spec y 1) as [-> | C1]; [rewrite Z.div_1_r, Z.mod_1_r; reflexivity|].
    destruct (Z.eqb_spec x y) as [-> | C2]; [rewrite Z.div_same, Z.mod_same by lia; reflexivity|].
    destruct (Z.ltb_spec x y) as [C3 | C3]; [rewrite Z.div_small, Z.mod_small by lia; reflexivity|].
    destruct (x <? 2 ^ 64) eqn:Qx.
    + rewrite (K x ltac:(lia) Qx). replace (y =? 0) with false by lia. reflexivity.
    + rewrite long_division_exact by lia. reflexivity.
  - destruct (Z.eqb_spec x y) as [-> | C2]; [rewrite Z.div_same, Z.mod_same by lia; reflexivity|].
    destruct (Z.ltb_spec x y) as [C3 | C3]; [rewrite Z.div_small, Z.mod_small by lia; reflexivity|].
    rewrite long_division_exact by lia. reflexivity.
Qed.
