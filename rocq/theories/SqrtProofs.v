(** The integer square root. *)
From Coq Require Import ZArith List Bool Lia.
From Verif Require Import Cpp ZBits BigNum Bit Logic Spec SpecExact SpecMachine SpecWide Client SpecProg SpecSqrt Sqrt BitProofs BitExt LogicMain Iff3 Iff8 Iff25 ProgExact BothProofs SaturateProofs LongProofs.
From Verif Require Iff17.
Import ListNotations.
Open Scope Z_scope.
Local Ltac Zify.zify_post_hook ::= idtac.

Lemma half_up n : 2 <= n -> let h := (n + 1) / 2 in 1 <= h /\ n <= 2 * h <= n + 1.
Proof. intros H h. pose proof (Z.div_mod (n + 1) 2 ltac:(lia)). pose proof (Z.mod_pos_bound (n + 1) 2 ltac:(lia)). unfold h. lia. Qed.
Lemma room_even n : 2 <= n <= 128 -> (n = room n \/ n + 1 <= room n) /\ Z.even (room n) = true.
Proof.
  intros H. destruct (room_range n ltac:(lia)) as (R & _ & S1 & S2). split; [lia|]. destruct (Z.le_gt_cases n 64) as [L|L].
  - destruct (S1 L) as [Q _]. destruct (MachineProofs.storage_cases n ltac:(lia)) as (_ & _ & C & _). rewrite Q. destruct C as [-> | [-> | [-> | ->]]]; reflexivity.
  - rewrite S2 by lia. unfold capacity. replace 64 with (2 * 32) by reflexivity. rewrite <- Z.mul_assoc. apply Z.even_mul.
Qed.
Lemma twice_fits n : 2 <= n <= 128 -> 2 * ((n + 1) / 2) <= room n.
Proof.
  intros H. destruct (room_even n H) as [C E]. destruct (half_up n ltac:(lia)) as [_ U]. set (h := (n + 1) / 2) in *. destruct C as [C|C]; [|lia]. apply Z.even_spec in E as [k E]. lia.
Qed.
Lemma square n x : 2 <= n <= 128 -> 0 <= x < 2 ^ ((n + 1) / 2) -> bit_mul (vec_of n false x) (vec_of n false x) = Ok (vec_of n false (x * x)) /\ 0 <= x * x < 2 ^ room n.
Proof.
  intros H X. pose proof (twice_fits n H) as T. destruct (half_up n ltac:(lia)) as [H1 U]. set (h := (n + 1) / 2) in *. assert (Rg : 0 <= x * x < 2 ^ room n).
  { split; [apply Z.mul_nonneg_nonneg; lia|]. apply Z.lt_le_trans with (2 ^ h * 2 ^ h); [apply Z.mul_lt_mono_nonneg; lia|]. rewrite <- Z.pow_add_r by lia. apply Z.pow_le_mono_r; lia. }
  split; [|exact Rg]. assert (K : 0 <= x < 2 ^ room n). { split; [lia|]. apply Z.lt_le_trans with (2 ^ h); [lia|]. apply Z.pow_le_mono_r; lia. }
  rewrite k_mul by (assumption || lia). unfold kept_product. destruct (Z.leb_spec n 64) as [L|L].
  - replace ((n <=? 16) && (2 ^ 31 <=? x * x)) with false; [cbn [omap bind]; rewrite Z.mod_small by exact Rg; reflexivity|].
    symmetry. destruct (Z.leb_spec n 16) as [L'|L']; [|reflexivity]. cbn [andb]. apply Z.leb_gt. apply Z.lt_le_trans with (2 ^ h * 2 ^ h); [apply Z.mul_lt_mono_nonneg; lia|]. rewrite <- Z.pow_add_r by lia. apply Z.pow_le_mono_r; lia.
  - assert (X64 : x < 2 ^ 64). { apply Z.lt_le_trans with (2 ^ h); [lia|]. apply Z.pow_le_mono_r; lia. }
    assert (S : seems_small n x = true). { apply Iff17.small_hollow; [lia| |]. - split; [lia|]. apply Z.lt_le_trans with (2 ^ h); [lia|]. apply Z.pow_le_mono_r; lia. - rewrite Z.div_small by lia. apply hollow_0. }
    rewrite S. cbn [andb]. cbn [omap bind]. rewrite (Z.mod_small x) by lia. rewrite Z.mod_small by exact Rg. reflexivity.
Qed.
Lemma root_masks_tl n m ms : root_masks n (m :: ms) -> root_masks n ms.
Proof.
  intros H i x Hx. destruct (H (S i) x Hx) as (A & B & C). split; [exact A|]. split; [exact B|]. rewrite C. f_equal. cbn [length]. lia.
Qed.
Lemma root_steps n y : 2 <= n <= 128 -> 0 <= y < 2 ^ n -> forall ms x, root_masks n ms -> let j := Z.of_nat (length ms) in
  0 <= x -> x * x <= y < (x + 2 ^ j) * (x + 2 ^ j) -> x + 2 ^ j <= 2 ^ ((n + 1) / 2) ->
  isqrt ms (vec_of n false x) (vec_of n false y) = Ok (vec_of n false (Z.sqrt y)).
Proof.
  intros Hn Y. destruct (half_up n ltac:(lia)) as [H1 U]. pose proof (twice_fits n Hn) as T2. pose proof (room_le n ltac:(lia)) as P. assert (Ph : 2 ^ ((n + 1) / 2) <= 2 ^ room n) by (apply Z.pow_le_mono_r; lia).
  assert (N31 : n < 2 ^ 31) by lia.
  induction ms as [|m ms IH]; intros x M j X0 X B.
  - unfold j in *. cbn [length] in *. change (2 ^ Z.of_nat 0) with 1 in *. unfold isqrt. cbn [ofold]. f_equal. f_equal. symmetry. apply Z.sqrt_unique. unfold Z.succ. lia.
  - destruct (M 0%nat m eq_refl) as (Tm & Dm & Nm). assert (Em : m = vec_of n false (2 ^ (j - 1))). { destruct (tidy_state n m ltac:(lia) Tm Dm) as [E _]. rewrite Nm in E. change (Z.of_nat 0) with 0 in E. rewrite Z.sub_0_r in E. exact E. }
    assert (J : 1 <= j) by (unfold j; cbn [length]; lia). assert (Pj : 2 ^ j = 2 * 2 ^ (j - 1)) by (rewrite <- Z.pow_succ_r by lia; f_equal; lia). pose proof (pow2_pos (j - 1) ltac:(lia)) as Pp.
    set (w := 2 ^ (j - 1)) in *. unfold isqrt. cbn [ofold]. rewrite Em. rewrite k_add by lia. cbn [bind]. rewrite Z.mod_small by lia. destruct (square n (x + w) Hn ltac:(lia)) as [-> RQ]. cbn [bind]. rewrite k_ge by lia. cbn [bind].
    assert (Ej : Z.of_nat (length ms) = j - 1) by (unfold j; cbn [length]; lia). pose proof (root_masks_tl n m ms M) as M'. rewrite Pj in *.
    destruct (Z.leb_spec ((x + w) * (x + w)) y) as [L|L].
    + apply (IH (x + w) M'); rewrite ?Ej; fold w; [lia| |lia]. replace (x + w + w) with (x + 2 * w) by lia. lia.
    + apply (IH x M'); rewrite ?Ej; fold w; [lia|lia|lia].
Qed.
Theorem isqrt_all n zero a ms : 2 <= n <= 128 -> typed a n false -> tidy a -> typed zero n false -> tidy zero -> num zero = 0 -> Z.of_nat (length ms) = (n + 1) / 2 -> root_masks n ms ->
  exists r, isqrt ms zero a = Ok r /\ typed r n false /\ tidy r /\ num r = Z.sqrt (num a).
Proof.
  intros Hn A Ta O To E L M. destruct (half_up n ltac:(lia)) as [H1 U]. assert (N31 : n < 2 ^ 31) by lia. destruct (tidy_state n a ltac:(lia) A Ta) as [EA RA]. destruct (tidy_state n zero ltac:(lia) O To) as [EO _]. rewrite E in EO. pose proof (room_le n ltac:(lia)) as P.
  set (y := num a) in *. clearbody y. subst a zero. pose proof (Z.sqrt_nonneg y) as S0. pose proof (Z.sqrt_le_lin y ltac:(lia)) as S1.
  exists (vec_of n false (Z.sqrt y)). split.
  - apply root_steps; [exact Hn|exact RA|exact M|lia| |rewrite L; lia]. rewrite L, Z.add_0_l, <- Z.pow_add_r by lia. split; [lia|]. apply Z.lt_le_trans with (2 ^ n); [lia|]. apply Z.pow_le_mono_r; lia.
  - split; [apply vec_of_typed; lia|]. split; [apply (tidy_u_iff _ n ltac:(lia) (vec_of_typed n false _ ltac:(lia))); rewrite kept_stored, Z.mod_small by lia; lia|]. rewrite vec_of_num, Z.mod_small by lia. reflexivity.
Qed.
Lemma masks_exist n h : 2 <= n < 2 ^ 31 -> Z.of_nat h <= n -> root_masks n (map (fun i => vec_of n false (2 ^ (Z.of_nat h - 1 - Z.of_nat i))) (seq 0 h)).
Proof.
  intros Hn Hh i m E. rewrite map_length, seq_length. apply nth_error_In in E as I. rewrite nth_error_map in E. destruct (nth_error (seq 0 h) i) as [k|] eqn:K; [|discriminate]. injection E as <-.
  assert (Ik : (i < h)%nat). { assert (nth_error (seq 0 h) i <> None) as Q by congruence. apply nth_error_Some in Q. rewrite seq_length in Q. exact Q. }
  assert (k = i) as ->. { apply nth_error_nth with (d := 0%nat) in K. rewrite seq_nth in K by exact Ik. lia. }
  assert (R : 0 <= 2 ^ (Z.of_nat h - 1 - Z.of_nat i) < 2 ^ n). { pose proof (pow2_pos (Z.of_nat h - 1 - Z.of_nat i) ltac:(lia)). split; [lia|]. apply Z.pow_lt_mono_r; lia. }
  pose proof (room_le n ltac:(lia)) as P. split; [apply vec_of_typed; lia|]. split; [apply (tidy_u_iff _ n ltac:(lia) (vec_of_typed n false _ ltac:(lia))); rewrite kept_stored, Z.mod_small by lia; exact R|]. rewrite vec_of_num, Z.mod_small by lia. reflexivity.
Qed.
