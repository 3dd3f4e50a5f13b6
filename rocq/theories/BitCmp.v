(** bit: comparisons. *)
From Coq Require Import ZArith List Bool Lia Zify ZifyBool.
From Verif Require Import Cpp BigNum Bit Logic Spec ZBits Words BigNumProofs BigArith BitProofs BitSlice BitExt BitOps BitShift.
Import ListNotations.
Open Scope Z_scope.

(** [low_halves_zero] in terms of words *)
Lemma words_num_word ws k : wf ws -> 0 <= k -> (words_num ws / 2 ^ (64 * k)) mod 2 ^ 64 = word ws k.
Proof.
  intros W. revert k. induction ws as [|w r IH]; intros k Hk.
  - cbn [words_num]. rewrite Z.div_0_l by (pose proof (pow2_pos (64 * k)); lia). unfold word. destruct (Z.to_nat k); reflexivity.
  - apply wf_cons in W. destruct W as [Hw Hr]. cbn [words_num].
    destruct (Z.eq_dec k 0) as [->|Nk].
    + rewrite word_0. change (2 ^ (64 * 0)) with 1. rewrite Z.div_1_r.
      rewrite Z.mul_comm, Z_mod_plus_full. apply Z.mod_small. exact Hw.
    + rewrite word_cons by lia. replace (64 * k) with (64 + 64 * (k - 1)) by lia. rewrite pow2_split by lia.
      rewrite <- Z.div_div by (pose proof (pow2_pos (64 * (k - 1))); lia).
      replace ((w + 2 ^ 64 * words_num r) / 2 ^ 64) with (words_num r); [apply IH; [exact Hr | lia]|].
      rewrite Z.mul_comm, Z.div_add by lia. rewrite (Z.div_small w) by exact Hw. lia.
Qed.
Lemma low_halves_words ws : wf ws -> (low_halves_zero (words_num ws) <-> Forall (fun w => low32 w = 0) ws).
Proof.
  intros W. split.
  - intros H. apply Forall_forall. intros w Hin. apply (In_nth _ _ 0) in Hin. destruct Hin as (k & Hk & <-).
    specialize (H (Z.of_nat k) ltac:(lia)).
    rewrite <- (mod_mod_pow2 _ 32 64), words_num_word in H by (assumption || lia). unfold word in H.
    rewrite Nat2Z.id in H. exact H.
  - intros H k Hk. rewrite <- (mod_mod_pow2 _ 32 64), words_num_word by (assumption || lia).
    unfold word. destruct (Nat.ltb_spec (Z.to_nat k) (length ws)).
    + rewrite Forall_forall in H. apply H. apply nth_In. assumption.
    + rewrite nth_overflow by lia. reflexivity.
Qed.
Lemma halves_visible ws : wf ws -> (halves_ok ws <-> visible (words_num ws)).
Proof.
  intros W. unfold halves_ok, visible. rewrite low_halves_words, all_zero_num by exact W. tauto.
Qed.
Lemma bn_any_exact ws : wf ws -> (bn_any_set ws = true <-> ~ low_halves_zero (words_num ws)).
Proof.
  intros W. rewrite low_halves_words by exact W. rewrite <- reduce_or_zero. unfold bn_any_set.
  destruct (Z.eqb_spec (reduce_or ws) 0); cbn [negb]; split; intros; congruence || tauto.
Qed.

(** * equality *)
Lemma bn_eq_native_spec n ws v : 1 <= n -> wfn n ws -> 0 <= v < 2 ^ 64 -> bn_eq_native ws v = (words_num ws =? v).
Proof.
  intros Hn [W L] Hv. unfold bn_eq_native. rewrite u64_id by exact Hv. rewrite words_num_tl.
  pose proof (word_range ws 0 W) as R. pose proof (words_num_nonneg (tl ws) (wf_tl ws W)) as P.
  assert (A : forallb (fun c => c =? 0) (tl ws) = (words_num (tl ws) =? 0)).
  { apply eq_true_iff_eq. rewrite Z.eqb_eq, (all_zero_num _ (wf_tl ws W)), forallb_forall, Forall_forall.
    split; intros H x Hx; specialize (H x Hx); lia. }
  rewrite A. destruct (Z.eqb_spec v (word ws 0)); cbn [negb]; lia.
Qed.

(** equality of arrays of words, shorter one first *)
Lemma words_eqb_short a b : wf a -> wf b -> wlen a <= wlen b ->
  words_eqb a b = (words_num a =? words_num b mod 2 ^ (64 * wlen a)) /\
  words_num (skipn (length a) b) = words_num b / 2 ^ (64 * wlen a).
Proof.
  intros Wa Wb L. unfold wlen in *.
  assert (E : words_num b = lown (length a) b + 2 ^ (64 * Z.of_nat (length a)) * words_num (skipn (length a) b)).
  { unfold lown. rewrite <- (firstn_skipn (length a) b) at 1. rewrite words_num_app. unfold wlen.
    rewrite firstn_length_le by lia. reflexivity. }
  pose proof (lown_bound (length a) b Wb) as B.
  rewrite words_eqb_prefix by assumption. rewrite Nat.min_l by lia. rewrite (lown_all (length a) a) by lia.
  rewrite E. set (P := 2 ^ (64 * Z.of_nat (length a))) in *. split.
  - rewrite (Z.mul_comm P), Z_mod_plus_full, (Z.mod_small (lown _ _)) by exact B. reflexivity.
  - rewrite (Z.mul_comm P), Z.div_add by lia. rewrite (Z.div_small (lown _ _)) by exact B. reflexivity.
Qed.
Lemma words_eqb_sym a b : words_eqb a b = words_eqb b a.
Proof. revert b. induction a as [|x a IH]; destruct b as [|y b]; cbn; try reflexivity. rewrite Z.eqb_sym, IH. reflexivity. Qed.

Lemma eq_split u w P : 0 < P -> 0 <= u < P -> 0 <= w -> (u =? w mod P) && (w / P =? 0) = (u =? w).
Proof.
  intros HP Hu Hw. pose proof (Z.div_mod w P ltac:(lia)). pose proof (Z.mod_pos_bound w P HP).
  apply eq_true_iff_eq. rewrite andb_true_iff, !Z.eqb_eq. split.
  - intros [E1 E2]. rewrite E2 in H. lia.
  - intros <-. rewrite Z.mod_small, Z.div_small by lia. auto.
Qed.

(** upper words of the longer operand, above the storage of the shorter one *)
Definition excess (z n : Z) : Z := z / 2 ^ (64 * nwords n).

Lemma reduce_or_visible r : wf r -> visible (words_num r) -> (reduce_or r =? 0) = (words_num r =? 0).
Proof.
  intros W H. apply eq_true_iff_eq. rewrite !Z.eqb_eq, reduce_or_zero, <- low_halves_words by exact W.
  split; [exact H|]. intros ->. intros k Hk. rewrite Z.div_0_l by (pose proof (pow2_pos (64 * k)); lia). reflexivity.
Qed.
Lemma bn_eq_u n1 s1 a n2 s2 b : 1 <= n1 -> 1 <= n2 -> s1 && s2 = false -> wfn n1 a -> wfn n2 b ->
  (nwords n1 = nwords n2 \/ visible (excess (words_num a) n2) /\ visible (excess (words_num b) n1)) ->
  bn_eq n1 s1 a n2 s2 b = Ok (words_num a =? words_num b).
Proof.
  intros H1 H2 S [Wa La] [Wb Lb] V. unfold bn_eq. rewrite S.
  pose proof (words_num_nonneg a Wa). pose proof (words_num_nonneg b Wb).
  pose proof (words_num_bound a Wa) as Ba. pose proof (words_num_bound b Wb) as Bb. rewrite La in Ba. rewrite Lb in Bb.
  pose proof (nwords_bounds n1 H1). pose proof (nwords_bounds n2 H2).
  destruct (Z.eq_dec (nwords n1) (nwords n2)) as [E|N].
  - replace (nwords n2 <=? nwords n1) with true by lia. replace (nwords n1 =? nwords n2) with true by lia.
    rewrite words_eqb_same by (assumption || lia). destruct (words_num a =? words_num b); reflexivity.
  - destruct V as [V | [V1 V2]]; [congruence|].
    destruct (Z.leb_spec (nwords n2) (nwords n1)).
    + replace (nwords n1 =? nwords n2) with false by lia. rewrite words_eqb_sym.
      destruct (words_eqb_short b a Wb Wa ltac:(lia)) as [E1 E2].
      replace (Z.to_nat (nwords n2)) with (length b) by (unfold wlen in *; lia).
      rewrite (reduce_or_visible (skipn (length b) a)); [|apply wf_skipn, Wa | rewrite E2, Lb; exact V1].
      rewrite E1, E2, Lb. rewrite (Z.eqb_sym (words_num a)).
      rewrite <- (eq_split (words_num b) (words_num a) (2 ^ (64 * nwords n2))); [|apply pow2_pos; lia | lia | lia].
      destruct (words_num b =? words_num a mod 2 ^ (64 * nwords n2)); reflexivity.
    + destruct (words_eqb_short a b Wa Wb ltac:(lia)) as [E1 E2].
      replace (Z.to_nat (nwords n1)) with (length a) by (unfold wlen in *; lia).
      rewrite (reduce_or_visible (skipn (length a) b)); [|apply wf_skipn, Wb | rewrite E2, La; exact V2].
      rewrite E1, E2, La.
      rewrite <- (eq_split (words_num a) (words_num b) (2 ^ (64 * nwords n1))); [|apply pow2_pos; lia | lia | lia].
      destruct (words_num a =? words_num b mod 2 ^ (64 * nwords n1)); reflexivity.
Qed.
(** in any case [==] is never false for equal numbers *)
Lemma bn_eq_complete n1 s1 a n2 s2 b : 1 <= n1 -> 1 <= n2 -> s1 && s2 = false -> wfn n1 a -> wfn n2 b ->
  exists e, bn_eq n1 s1 a n2 s2 b = Ok e /\ (words_num a = words_num b -> e = true).
Proof.
  intros H1 H2 S [Wa La] [Wb Lb]. unfold bn_eq. rewrite S.
  pose proof (words_num_nonneg a Wa). pose proof (words_num_nonneg b Wb).
  pose proof (words_num_bound a Wa) as Ba. pose proof (words_num_bound b Wb) as Bb. rewrite La in Ba. rewrite Lb in Bb.
  pose proof (nwords_bounds n1 H1). pose proof (nwords_bounds n2 H2).
  assert (Z0 : forall r, wf r -> words_num r = 0 -> (reduce_or r =? 0) = true).
  { intros r W E. apply Z.eqb_eq, reduce_or_zero. apply all_zero_num in E; [|exact W].
    eapply Forall_impl; [|exact E]. intros ? ->. reflexivity. }
  destruct (Z.leb_spec (nwords n2) (nwords n1)).
  - rewrite words_eqb_sym. destruct (words_eqb_short b a Wb Wa ltac:(lia)) as [E1 E2].
    replace (Z.to_nat (nwords n2)) with (length b) by (unfold wlen in *; lia). rewrite E1, Lb.
    destruct (Z.eqb_spec (words_num b) (words_num a mod 2 ^ (64 * nwords n2))) as [Q|Q].
    + destruct (nwords n1 =? nwords n2); eexists; (split; [reflexivity|]); [reflexivity|].
      intros Eq. apply Z0; [apply wf_skipn, Wa|]. rewrite E2, Lb, Eq. apply Z.div_small. lia.
    + eexists; split; [reflexivity|]. intros Eq. rewrite Eq, Z.mod_small in Q by lia. congruence.
  - destruct (words_eqb_short a b Wa Wb ltac:(lia)) as [E1 E2].
    replace (Z.to_nat (nwords n1)) with (length a) by (unfold wlen in *; lia). rewrite E1, La.
    destruct (Z.eqb_spec (words_num a) (words_num b mod 2 ^ (64 * nwords n1))) as [Q|Q].
    + eexists; (split; [reflexivity|]).
      intros Eq. apply Z0; [apply wf_skipn, Wb|]. rewrite E2, La, <- Eq. apply Z.div_small. lia.
    + eexists; split; [reflexivity|]. intros Eq. rewrite <- Eq, Z.mod_small in Q by lia. congruence.
Qed.

Lemma hty_range n s v : in_ity (hty n s) v = true -> - 2 ^ 63 <= v < 2 ^ 64.
Proof. intros I. apply in_ity_range in I. destruct (hty n s); cbn in I; lia. Qed.

(** native against native *)
Lemma ext_value b : vec b -> bw b <= 64 -> extendable b -> stored b = value b.
Proof.
  intros V W [T E]. unfold value. destruct (bsgn b) eqn:S.
  - apply tidy_s_stored; (assumption || auto).
  - symmetry. apply num_of_tidy; assumption.
Qed.
Lemma eq_native a b : vec a -> vec b -> bw a <= 64 -> bw b <= 64 -> bsgn a = bsgn b -> extendable a -> extendable b ->
  iwidth (hty (bw b) (bsgn b)) <= iwidth (hty (bw a) (bsgn a)) ->
  bit_eq a b = Ok (value a =? value b).
Proof.
  intros Va Vb Wa Wb S Xa Xb Le. pose proof (ext_value a Va Wa Xa) as Ea. pose proof (ext_value b Vb Wb Xb) as Eb.
  destruct (vec_cases a Va) as [(x & E1 & _ & I1 & S1) | (x & _ & N & _)]; [|lia].
  destruct (vec_cases b Vb) as [(y & E2 & _ & I2 & S2) | (y & _ & N & _)]; [|lia].
  unfold bit_eq. rewrite E1, E2, (bsize_bw a _ eq_refl). cbn zeta.
  assert (I3 : in_ity (hty (bw a) (bsgn a)) y = true).
  { pose proof (bw_pos a). pose proof (bw_pos b). rewrite <- S in *. revert I2 Le. rewrite !in_ity_range.
    destruct (Z.eq_dec (bw a) 1) as [Q|Q]; [rewrite Q|].
    - rewrite hty_1. destruct (Z.eq_dec (bw b) 1) as [Q2|Q2]; [rewrite Q2, hty_1; auto|].
      intros _ Le. exfalso. pose proof (hty_width (bw b) (bsgn a)). cbn [iwidth] in Le. lia.
    - rewrite (hty_signed (bw a)) by lia. destruct (Z.eq_dec (bw b) 1) as [Q2|Q2]; [rewrite Q2, hty_1|].
      + cbn [isigned iwidth]. intros R _. change (2 ^ 1) with 2 in R.
        pose proof (hty_width (bw a) (bsgn a)). pose proof (pow2_mono 1 (iwidth (hty (bw a) (bsgn a)) - 1)).
        pose proof (pow2_mono 1 (iwidth (hty (bw a) (bsgn a)))). change (2 ^ 1) with 2 in *.
        destruct (bsgn a); [|lia]. destruct Xb as [_ Xb]. rewrite Q2, <- S in Xb. specialize (Xb eq_refl). lia.
      + rewrite hty_signed by lia. intros R Le. pose proof (iwidth_pos (hty (bw b) (bsgn a))).
        pose proof (pow2_mono (iwidth (hty (bw b) (bsgn a)) - 1) (iwidth (hty (bw a) (bsgn a)) - 1)).
        pose proof (pow2_mono (iwidth (hty (bw b) (bsgn a))) (iwidth (hty (bw a) (bsgn a)))).
        destruct (bsgn a); lia. }
  rewrite (conv_id _ y I3). unfold c_eq. rewrite uac_same. cbn zeta.
  rewrite !conv_promote by assumption. congruence.
Qed.
(** multi-word against multi-word, at most one of them signed; same sign for the value reading *)
Lemma eq_big a b : vec a -> vec b -> 65 <= bw a -> 65 <= bw b -> bsgn a && bsgn b = false -> tidy a -> tidy b ->
  (nwords (bw a) = nwords (bw b) \/ visible (excess (num a) (bw b)) /\ visible (excess (num b) (bw a))) ->
  bit_eq a b = Ok (num a =? num b).
Proof.
  intros Va Vb Wa Wb S Ta Tb H.
  destruct (vec_cases a Va) as [(x & _ & N & _) | (x & E1 & N1 & I1 & S1)]; [lia|].
  destruct (vec_cases b Vb) as [(y & _ & N & _) | (y & E2 & N2 & I2 & S2)]; [lia|].
  rewrite (num_of_tidy_big a x E1 Ta), (num_of_tidy_big b y E2 Tb) in *.
  unfold bit_eq. rewrite E1, E2, (bsize_bw a _ eq_refl), (bsize_bw b _ eq_refl). apply bn_eq_u; (assumption || lia).
Qed.
Lemma eq_mixed a b : vec a -> vec b -> bw a <= 64 -> 65 <= bw b -> bsgn a = false -> tidy a -> tidy b ->
  bit_eq a b = Ok (num a =? num b) /\ bit_eq b a = Ok (num a =? num b).
Proof.
  intros Va Vb Wa Wb S Ta Tb.
  destruct (vec_cases a Va) as [(x & E1 & N1 & I1 & S1) | (x & _ & N & _)]; [|lia].
  destruct (vec_cases b Vb) as [(y & _ & N & _) | (y & E2 & N2 & I2 & S2)]; [lia|].
  rewrite (num_of_tidy a Ta S), S1, (num_of_tidy_big b y E2 Tb).
  assert (R : 0 <= x < 2 ^ 64).
  { pose proof (hty_range _ _ _ I1). unfold tidy in Ta. rewrite E1, S in Ta. cbn [andb] in Ta. lia. }
  unfold bit_eq. rewrite E1, E2. rewrite !(bn_eq_native_spec (bw b)) by (assumption || lia).
  rewrite Z.eqb_sym. auto.
Qed.

(** * order *)
Definition rel_of (op : bit -> bit -> outcome bool) (R : Z -> Z -> bool) (a b : bit) (x y : Z) : Prop :=
  op a b = Ok (R x y).

Lemma uac_signed_conv n s m v : in_ity (hty n s) v = true -> s = true -> 2 <= n <= 64 -> 2 <= m <= 64 ->
  conv (uac (hty n s) (hty m true)) v = v /\ conv (uac (hty m true) (hty n s)) v = v.
Proof.
  intros I -> Hn Hm. split; apply conv_id; revert I; unfold hty;
  repeat match goal with |- context [if ?c then _ else _] => destruct c eqn:? end; rewrite !in_ity_range; cbn; lia.
Qed.
Lemma rel_native_s a b : vec a -> vec b -> 2 <= bw a <= 64 -> 2 <= bw b <= 64 -> bsgn a = true -> bsgn b = true ->
  tidy a -> tidy b -> forall cmp big, bit_rel cmp big a b = Ok (cmp (snum a) (snum b)).
Proof.
  intros Va Vb Wa Wb Sa Sb Ta Tb cmp big.
  pose proof (tidy_s_stored a Va Wa Sa Ta) as Ea. pose proof (tidy_s_stored b Vb Wb Sb Tb) as Eb.
  destruct (vec_cases a Va) as [(x & E1 & _ & I1 & S1) | (x & _ & N & _)]; [|lia].
  destruct (vec_cases b Vb) as [(y & E2 & _ & I2 & S2) | (y & _ & N & _)]; [|lia].
  unfold bit_rel. rewrite E1, E2, (bsize_bw a _ eq_refl), (bsize_bw b _ eq_refl), Sa, Sb. cbn [andb]. cbn zeta.
  rewrite Sa in I1. rewrite Sb in I2.
  destruct (uac_signed_conv _ _ (bw b) x I1 eq_refl Wa Wb) as [-> _].
  destruct (uac_signed_conv _ _ (bw a) y I2 eq_refl Wb Wa) as [_ ->]. congruence.
Qed.
Lemma rel_native_u a b : vec a -> vec b -> bw a <= 64 -> bw b <= 64 -> bsgn a && bsgn b = false ->
  tidy a -> tidy b -> 0 <= value a -> 0 <= value b ->
  forall cmp big, bit_rel cmp big a b = Ok (cmp (value a) (value b)).
Proof.
  intros Va Vb Wa Wb S Ta Tb Pa Pb cmp big.
  pose proof (tidy_value_stored a Va Ta Pa) as Ea. pose proof (tidy_value_stored b Vb Tb Pb) as Eb.
  destruct (vec_cases a Va) as [(x & E1 & _ & I1 & S1) | (x & _ & N & _)]; [|lia].
  destruct (vec_cases b Vb) as [(y & E2 & _ & I2 & S2) | (y & _ & N & _)]; [|lia].
  unfold bit_rel. rewrite E1, E2, S. apply hty_range in I1, I2. rewrite !u64_id by lia. congruence.
Qed.
(** 64-bit signed against unsigned: the unsigned reading *)
Lemma rel_native_64 a b : vec a -> vec b -> bw a = 64 -> bw b = 64 -> bsgn a && bsgn b = false ->
  forall cmp big, bit_rel cmp big a b = Ok (cmp (num a) (num b)).
Proof.
  intros Va Vb Wa Wb S cmp big.
  destruct (vec_cases a Va) as [(x & E1 & _ & I1 & S1) | (x & _ & N & _)]; [|lia].
  destruct (vec_cases b Vb) as [(y & E2 & _ & I2 & S2) | (y & _ & N & _)]; [|lia].
  unfold bit_rel. rewrite E1, E2, S. unfold num. rewrite S1, S2, Wa, Wb. reflexivity.
Qed.

Lemma bn_gt_u n1 s1 a n2 s2 b : s1 && s2 = false -> wfn n1 a -> wfn n2 b ->
  bn_gt n1 s1 a n2 s2 b = Ok (words_num b <? words_num a).
Proof. intros S Wa Wb. unfold bn_gt, bn_gt_f. rewrite S, bn_ugt_spec by assumption. reflexivity. Qed.

Lemma bn_negative_spec n ws : 1 <= n -> wfn n ws -> bn_negative n ws = Z.testbit (words_num ws) (n - 1).
Proof.
  intros Hn [W L]. unfold bn_negative. rewrite bn_get_spec by (assumption || lia). replace (n - 1 <? n) with true by lia. reflexivity.
Qed.

(** magnitude of a negative number after [negate] *)
Lemma negate_neg n ws : 1 <= n -> wfn n ws -> 0 <= words_num ws < 2 ^ n -> twos n (words_num ws) < 0 ->
  words_num (bn_negate n ws) = 2 ^ (64 * nwords n) - 2 ^ n - twos n (words_num ws) /\
  Z.testbit (words_num (bn_negate n ws)) (n - 1) = (twos n (words_num ws) =? - 2 ^ (n - 1)).
Proof.
  intros Hn W R Neg. destruct (bn_negate_spec n ws Hn W) as [_ E].
  pose proof (nwords_bounds n Hn) as Nb.
  assert (P : 2 ^ (64 * nwords n) = 2 ^ n * 2 ^ (64 * nwords n - n)) by (rewrite <- pow2_split by lia; f_equal; lia).
  assert (0 < 2 ^ n) by (apply pow2_pos; lia). assert (0 < 2 ^ (64 * nwords n - n)) by (apply pow2_pos; lia).
  assert (P1 : 2 ^ n = 2 * 2 ^ (n - 1)) by (rewrite <- Z.pow_succ_r by lia; f_equal; lia).
  assert (Tz : twos n (words_num ws) = words_num ws - 2 ^ n).
  { unfold twos in *. destruct (Z.testbit (words_num ws) (n - 1)); lia. }
  pose proof (twos_range n (words_num ws) Hn R) as TR.
  assert (Pz : 0 < words_num ws) by lia.
  assert (E2 : words_num (bn_negate n ws) = 2 ^ (64 * nwords n) - words_num ws).
  { rewrite E. rewrite <- (Z_mod_plus_full _ 1), Z.mul_1_l. rewrite Z.mod_small; nia. }
  split; [lia|]. rewrite E2.
  assert (M : (2 ^ (64 * nwords n) - words_num ws) mod 2 ^ n = - twos n (words_num ws)).
  { rewrite Tz, P. replace (2 ^ n * 2 ^ (64 * nwords n - n) - words_num ws)
      with (- (words_num ws - 2 ^ n) + (2 ^ (64 * nwords n - n) - 1) * 2 ^ n) by ring.
    rewrite Z_mod_plus_full. apply Z.mod_small. lia. }
  apply (f_equal (fun z => Z.testbit z (n - 1))) in M. rewrite testbit_mod_pow2 in M by lia.
  replace (n - 1 <? n) with true in M by lia. cbn [andb] in M. rewrite M.
  destruct (Z.eqb_spec (twos n (words_num ws)) (- 2 ^ (n - 1))) as [Q|Q].
  - rewrite Q, Z.opp_involutive, Z.pow2_bits_true by lia. reflexivity.
  - apply (testbit_small _ (n - 1)); lia.
Qed.

Lemma twos_sign n z : 1 <= n -> 0 <= z < 2 ^ n -> (twos n z <? 0) = Z.testbit z (n - 1).
Proof. intros Hn R. unfold twos. destruct (Z.testbit z (n - 1)); lia. Qed.

(** signed comparison of multi-word numbers *)
Lemma gt_step f n1 a n2 b : 1 <= n1 -> 1 <= n2 -> wfn n1 a -> wfn n2 b ->
  bn_gt_f (S f) n1 true a n2 true b =
  let sa := Z.testbit (words_num a) (n1 - 1) in let sb := Z.testbit (words_num b) (n2 - 1) in
  if sa && negb sb then Ok false
  else if negb sa && sb then Ok true
  else if sa && sa then bn_gt_f f n2 true (bn_negate n2 b) n1 true (bn_negate n1 a)
  else Ok (words_num b <? words_num a).
Proof.
  intros. cbn [bn_gt_f andb]. rewrite (bn_negative_spec n1 a), (bn_negative_spec n2 b), bn_ugt_spec by assumption. reflexivity.
Qed.
Lemma bn_gt_signed n1 a n2 b : 1 <= n1 -> 1 <= n2 -> wfn n1 a -> wfn n2 b ->
  0 <= words_num a < 2 ^ n1 -> 0 <= words_num b < 2 ^ n2 ->
  let x := twos n1 (words_num a) in let y := twos n2 (words_num b) in
  (0 <= x \/ 0 <= y \/ n1 = n2 /\ x <> - 2 ^ (n1 - 1) /\ y <> - 2 ^ (n2 - 1)) ->
  bn_gt n1 true a n2 true b = Ok (y <? x).
Proof.
  intros H1 H2 Wa Wb Ra Rb x y C. unfold bn_gt. rewrite gt_step by assumption. cbn zeta.
  rewrite <- (twos_sign n1), <- (twos_sign n2) by assumption. fold x y.
  assert (Ex : x = if x <? 0 then words_num a - 2 ^ n1 else words_num a).
  { unfold x. rewrite twos_sign by assumption. unfold twos. destruct (Z.testbit (words_num a) (n1 - 1)); reflexivity. }
  assert (Ey : y = if y <? 0 then words_num b - 2 ^ n2 else words_num b).
  { unfold y. rewrite twos_sign by assumption. unfold twos. destruct (Z.testbit (words_num b) (n2 - 1)); reflexivity. }
  destruct (Z.ltb_spec x 0), (Z.ltb_spec y 0); cbn [andb negb].
  - destruct C as [C | [C | (<- & C1 & C2)]]; [lia | lia |].
    destruct (negate_neg n1 a H1 Wa Ra) as [Na Ba]; [fold x; lia|].
    destruct (negate_neg n1 b H2 Wb Rb) as [Nb Bb]; [fold y; lia|]. fold x in Na, Ba. fold y in Nb, Bb.
    destruct (bn_negate_spec n1 a H1 Wa) as [Wna _]. destruct (bn_negate_spec n1 b H2 Wb) as [Wnb _].
    rewrite gt_step by assumption. cbn zeta. rewrite Ba, Bb.
    replace (x =? - 2 ^ (n1 - 1)) with false by lia. replace (y =? - 2 ^ (n1 - 1)) with false by lia. cbn [andb negb].
    rewrite Na, Nb. f_equal. lia.
  - f_equal. lia.
  - f_equal. lia.
  - f_equal. lia.
Qed.
(** the comparison of the least value with itself never ends, whatever the fuel *)
Lemma bn_gt_min_loop n a : 1 <= n -> wfn n a -> words_num a = 2 ^ (n - 1) ->
  forall fuel, bn_gt_f fuel n true a n true a = Fuel.
Proof.
  intros Hn W E.
  assert (P1 : 2 ^ n = 2 * 2 ^ (n - 1)) by (rewrite <- Z.pow_succ_r by lia; f_equal; lia).
  assert (0 < 2 ^ (n - 1)) by (apply pow2_pos; lia).
  assert (G : forall fuel x y, wfn n x -> wfn n y -> Z.testbit (words_num x) (n - 1) = true ->
     Z.testbit (words_num y) (n - 1) = true -> words_num x mod 2 ^ n = 2 ^ (n - 1) -> words_num y mod 2 ^ n = 2 ^ (n - 1) ->
     bn_gt_f fuel n true x n true y = Fuel).
  { assert (Ng : forall x, wfn n x -> words_num x mod 2 ^ n = 2 ^ (n - 1) ->
       wfn n (bn_negate n x) /\ words_num (bn_negate n x) mod 2 ^ n = 2 ^ (n - 1) /\
       Z.testbit (words_num (bn_negate n x)) (n - 1) = true).
    { intros x Wx Mx. destruct (bn_negate_spec n x Hn Wx) as [Wn En]. split; [exact Wn|].
      assert (M : words_num (bn_negate n x) mod 2 ^ n = 2 ^ (n - 1)).
      { pose proof (nwords_bounds n Hn). rewrite En, mod_mod_pow2 by lia.
        rewrite <- (Z.sub_0_l (words_num x)), Zminus_mod, Mx, Z.mod_0_l by lia.
        rewrite Z.sub_0_l. rewrite <- (Z_mod_plus_full _ 1), Z.mul_1_l. rewrite Z.mod_small; lia. }
      split; [exact M|]. apply (f_equal (fun z => Z.testbit z (n - 1))) in M. rewrite testbit_mod_pow2 in M by lia.
      replace (n - 1 <? n) with true in M by lia. cbn [andb] in M. rewrite M. apply Z.pow2_bits_true. lia. }
    induction fuel as [|f IH]; intros x y Wx Wy Bx By Mx My; [reflexivity|].
    rewrite gt_step by assumption. cbn zeta. rewrite Bx, By. cbn [andb negb].
    destruct (Ng x Wx Mx) as (W1 & M1 & B1). destruct (Ng y Wy My) as (W2 & M2 & B2). apply IH; assumption. }
  intros fuel. apply G; try assumption; rewrite E; try (apply Z.pow2_bits_true; lia); apply Z.mod_small; lia.
Qed.

Lemma gt_big_u a b : vec a -> vec b -> 65 <= bw a -> 65 <= bw b -> bsgn a && bsgn b = false -> tidy a -> tidy b ->
  bit_gt a b = Ok (num b <? num a) /\ bit_lt a b = Ok (num a <? num b).
Proof.
  intros Va Vb Wa Wb S Ta Tb.
  destruct (vec_cases a Va) as [(x & _ & N & _) | (x & E1 & N1 & I1 & S1)]; [lia|].
  destruct (vec_cases b Vb) as [(y & _ & N & _) | (y & E2 & N2 & I2 & S2)]; [lia|].
  rewrite (num_of_tidy_big a x E1 Ta), (num_of_tidy_big b y E2 Tb) in *.
  unfold bit_gt, bit_lt, bit_rel. rewrite E1, E2. unfold bn_lt.
  assert (S' : bsgn b && bsgn a = false) by (rewrite andb_comm; assumption).
  rewrite (bn_gt_u (bsize a) _ x (bsize b) _ y S I1 I2), (bn_gt_u (bsize b) _ y (bsize a) _ x S' I2 I1). auto.
Qed.
Lemma ge_big_u a b : vec a -> vec b -> 65 <= bw a -> 65 <= bw b -> bsgn a && bsgn b = false -> tidy a -> tidy b ->
  (nwords (bw a) = nwords (bw b) \/ visible (excess (num a) (bw b)) /\ visible (excess (num b) (bw a))) ->
  bit_ge a b = Ok (num b <=? num a) /\ bit_le a b = Ok (num a <=? num b).
Proof.
  intros Va Vb Wa Wb S Ta Tb H.
  destruct (vec_cases a Va) as [(x & _ & N & _) | (x & E1 & N1 & I1 & S1)]; [lia|].
  destruct (vec_cases b Vb) as [(y & _ & N & _) | (y & E2 & N2 & I2 & S2)]; [lia|].
  rewrite (num_of_tidy_big a x E1 Ta), (num_of_tidy_big b y E2 Tb) in *.
  unfold bit_ge, bit_le, bit_rel. rewrite E1, E2. unfold bn_le, bn_ge. rewrite !(bsize_bw a _ eq_refl), !(bsize_bw b _ eq_refl).
  assert (S' : bsgn b && bsgn a = false) by (rewrite andb_comm; assumption).
  rewrite (bn_eq_u (bw a) _ x (bw b) _ y), (bn_eq_u (bw b) _ y (bw a) _ x) by (assumption || lia || (intuition congruence)).
  rewrite !bn_gt_u by assumption. cbn [bind].
  split; [destruct (Z.ltb_spec (words_num y) (words_num x)) | destruct (Z.ltb_spec (words_num x) (words_num y))]; f_equal; lia.
Qed.
Lemma gt_big_s a b : vec a -> vec b -> 65 <= bw a -> 65 <= bw b -> bsgn a = true -> bsgn b = true -> tidy a -> tidy b ->
  (0 <= snum a \/ 0 <= snum b \/ bw a = bw b /\ snum a <> - 2 ^ (bw a - 1) /\ snum b <> - 2 ^ (bw b - 1)) ->
  bit_gt a b = Ok (snum b <? snum a) /\ bit_lt a b = Ok (snum a <? snum b).
Proof.
  intros Va Vb Wa Wb Sa Sb Ta Tb H.
  destruct (vec_cases a Va) as [(x & _ & N & _) | (x & E1 & N1 & I1 & S1)]; [lia|].
  destruct (vec_cases b Vb) as [(y & _ & N & _) | (y & E2 & N2 & I2 & S2)]; [lia|].
  unfold snum in *. pose proof (num_of_tidy_big a x E1 Ta) as Na. pose proof (num_of_tidy_big b y E2 Tb) as Nb.
  rewrite Na, Nb in *. unfold tidy in Ta, Tb. rewrite E1 in Ta. rewrite E2 in Tb.
  unfold bit_gt, bit_lt, bit_rel. rewrite E1, E2, Sa, Sb. unfold bn_lt. rewrite !(bsize_bw a _ eq_refl), !(bsize_bw b _ eq_refl).
  rewrite (bn_gt_signed (bw a) x (bw b) y), (bn_gt_signed (bw b) y (bw a) x) by (assumption || lia). auto.
Qed.
