(** Exact behaviour of division, negation, conversions, one-bit operations, out-of-range reads and
    constant part-select updates. *)
From Coq Require Import ZArith List Bool Lia Zify ZifyBool.
From Verif Require Import Cpp BigNum Bit Logic Spec SpecExact ZBits Words BigNumProofs BigArith BitProofs BitSlice BitExt BitOps BitShift BitArith BitMain BitMain2 BitMain3 BitCmp BitMain4 Exact2 Exact3.
Import ListNotations.
Open Scope Z_scope.

(** * division *)
Lemma div_zero_ub a b n : vec a -> vec b -> bw a = n -> bw b = n -> blsb b <= bmsb b -> n <= 64 -> stored b = 0 ->
  bit_div a b = UB /\ bit_rem a b = UB.
Proof.
  intros Va Vb Wa Wb Be Hn Z0. pose proof (bw_pos a) as Hp. rewrite Wa in Hp.
  destruct (vec_cases_n a n Va Wa) as [(x & Ea & Na & Ia & Sa & Ma) | (x & Ea & Na & _)]; [|lia].
  destruct (vec_cases_n b n Vb Wb) as [(y & Eb & Nb & Ib & Sb & Mb) | (y & Eb & Nb & _)]; [|lia].
  rewrite Sb in Z0. subst y.
  unfold bit_div, bit_rem, bit_arith. rewrite (bsize_bw a n Wa), (bsize_bw b n Wb), Z.eqb_refl.
  unfold bit_div_same, bit_rem_same, bit_bin, requires, same_size_op. cbn zeta.
  rewrite (bsize_bw a n Wa), (bsize_bw b n Wb), Z.eqb_refl.
  replace (blsb b <=? bmsb b) with true by lia. cbn [andb]. rewrite Ea, Eb. unfold c_div, c_rem. cbn zeta.
  replace (conv (uac (hty n (bsgn a)) (hty n (bsgn b))) 0 =? 0) with true; [split; reflexivity|].
  symmetry. apply Z.eqb_eq. destruct (uac _ _); reflexivity.
Qed.
Lemma div_overflow_ub a b n : n = 32 \/ n = 64 -> typed a n true -> typed b n true -> stored a = - 2 ^ (n - 1) -> stored b = - 1 ->
  bit_div a b = UB /\ bit_rem a b = UB.
Proof.
  intros Hn Ta Tb A B. pose proof (typed_vec _ _ _ Ta) as Va. pose proof (typed_vec _ _ _ Tb) as Vb.
  pose proof (typed_bw a n true ltac:(lia) Ta) as Wa. pose proof (typed_bw b n true ltac:(lia) Tb) as Wb.
  pose proof (plain_be b n true Tb ltac:(lia)) as Be. pose proof (typed_sgn _ _ _ Ta) as Ga. pose proof (typed_sgn _ _ _ Tb) as Gb.
  destruct (vec_cases_n a n Va Wa) as [(x & Ea & Na & Ia & Sa & Ma) | (x & Ea & Na & _)]; [|lia].
  destruct (vec_cases_n b n Vb Wb) as [(y & Eb & Nb & Ib & Sb & Mb) | (y & Eb & Nb & _)]; [|lia].
  rewrite Sa in A. rewrite Sb in B. subst x y.
  unfold bit_div, bit_rem, bit_arith. rewrite (bsize_bw a n Wa), (bsize_bw b n Wb), Z.eqb_refl.
  unfold bit_div_same, bit_rem_same, bit_bin, requires, same_size_op. cbn zeta.
  rewrite (bsize_bw a n Wa), (bsize_bw b n Wb), Z.eqb_refl.
  replace (blsb b <=? bmsb b) with true by lia. cbn [andb]. rewrite Ea, Eb, Ga, Gb.
  destruct Hn as [-> | ->]; split; vm_compute; reflexivity.
Qed.
(** widening keeps [stored] of an extendable native vector *)
Lemma ext_stored x n s : 1 <= n <= 64 -> typed x n s -> extendable x -> stored x = value x.
Proof.
  intros Hn T [Y E]. pose proof (typed_vec _ _ _ T) as V. pose proof (typed_bw x n s ltac:(lia) T) as W. pose proof (typed_sgn _ _ _ T) as S.
  unfold value. rewrite S in *. destruct s.
  - apply tidy_s_stored; auto; lia.
  - symmetry. apply num_of_tidy; auto.
Qed.
Lemma arith_ext a b na nb sa sb m : 1 <= na -> 1 <= nb -> typed a na sa -> typed b nb sb -> extendable a -> extendable b -> m = Z.max na nb ->
  exists a' b', typed a' m sa /\ typed b' m sb /\ tidy a' /\ tidy b' /\ value a' = value a /\ value b' = value b /\ forall op, bit_arith op a b = op a' b'.
Proof.
  intros Ha Hb Ta Tb Ea Eb ->. set (m := Z.max na nb) in *.
  pose proof (typed_lt a na sa Ha Ta). pose proof (typed_lt b nb sb Hb Tb).
  destruct (bit_extend_gen a na sa m ltac:(lia) ltac:(lia) Ta Ea) as (a' & E1 & T1 & N1 & V1 & Y1).
  destruct (bit_extend_gen b nb sb m ltac:(lia) ltac:(lia) Tb Eb) as (b' & E2 & T2 & N2 & V2 & Y2).
  exists a', b'. repeat (split; [assumption|]). intros op.
  unfold bit_arith, bit_mixed. rewrite (typed_bsize a na _ Ha Ta), (typed_bsize b nb _ Hb Tb).
  destruct (Z.eqb_spec na nb) as [E|].
  - assert (na = m /\ nb = m) as [M1 M2] by lia.
    rewrite <- M1 in E1. rewrite <- M2 in E2. rewrite (bit_extend_same a na sa Ha Ta) in E1.
    rewrite (bit_extend_same b nb sb Hb Tb) in E2. congruence.
  - cbn zeta. fold m. rewrite E1, E2. reflexivity.
Qed.
Lemma quot_half A B : 2 <= Z.abs B -> 2 * Z.abs (Z.quot A B) <= Z.abs A.
Proof.
  intros H. rewrite <- Z.quot_abs by lia. rewrite Z.quot_div_nonneg by lia.
  assert (Z.abs A / Z.abs B <= Z.abs A / 2) by (apply Z.div_le_compat_l; lia).
  pose proof (Z.mul_div_le (Z.abs A) 2 ltac:(lia)). lia.
Qed.
(** signed operands of any two native widths *)
Lemma signed_division a b na nb m : 2 <= na <= 64 -> 2 <= nb <= 64 -> m = Z.max na nb -> typed a na true -> typed b nb true -> tidy a -> tidy b ->
  (value b = 0 -> bit_div a b = UB /\ bit_rem a b = UB) /\
  ((m = 32 \/ m = 64) -> value a = - 2 ^ (m - 1) -> value b = - 1 -> bit_div a b = UB /\ bit_rem a b = UB) /\
  (value b <> 0 -> ~ (value a = - 2 ^ (m - 1) /\ value b = - 1) ->
   exists q r, bit_div a b = Ok q /\ bit_rem a b = Ok r /\ typed q m true /\ typed r m true /\
     value a = value q * value b + value r /\ Z.abs (value r) < Z.abs (value b) /\ 0 <= value r * value a).
Proof.
  intros Hna Hnb Em Ta Tb Ya Yb.
  assert (Xa : extendable a) by (split; [exact Ya|]; rewrite (typed_bw a na true ltac:(lia) Ta); lia).
  assert (Xb : extendable b) by (split; [exact Yb|]; rewrite (typed_bw b nb true ltac:(lia) Tb); lia).
  destruct (arith_ext a b na nb true true m ltac:(lia) ltac:(lia) Ta Tb Xa Xb Em) as (a' & b' & T1 & T2 & Y1 & Y2 & V1 & V2 & G).
  assert (Hm : 2 <= m <= 64) by lia.
  assert (H : bit_div a b = bit_div a' b' /\ bit_rem a b = bit_rem a' b').
  { unfold bit_div, bit_rem. rewrite !G. unfold bit_arith. rewrite (typed_bsize a' m _ ltac:(lia) T1), (typed_bsize b' m _ ltac:(lia) T2), Z.eqb_refl. auto. }
  destruct H as [-> ->].
  assert (Z1 : extendable a') by (split; [exact Y1|]; rewrite (typed_bw a' m true ltac:(lia) T1); lia).
  assert (Z2 : extendable b') by (split; [exact Y2|]; rewrite (typed_bw b' m true ltac:(lia) T2); lia).
  pose proof (ext_stored a' m true ltac:(lia) T1 Z1) as S1. pose proof (ext_stored b' m true ltac:(lia) T2 Z2) as S2.
  rewrite <- V1, <- V2. split; [|split].
  - intros B0. apply div_zero_ub with (n := m); try (eapply typed_vec; eassumption); try (eapply typed_bw; [|eassumption]; lia);
      try (eapply plain_be; [eassumption|lia]); lia.
  - intros M A B. apply div_overflow_ub with (n := m); auto; congruence.
  - intros B0 O. assert (Q1 : snum a' = value a') by (unfold value; rewrite (typed_sgn _ _ _ T1); reflexivity).
    assert (Q2 : snum b' = value b') by (unfold value; rewrite (typed_sgn _ _ _ T2); reflexivity).
    destruct (division_signed a' b' m Hm T1 T2 Y1 Y2 ltac:(lia)) as (q & r & Eq & Er & Tq & Tr & Nq & Nr).
    { rewrite Q1, Q2. tauto. }
    exists q, r. repeat (split; [assumption|]).
    pose proof (snum_range a') as R1. pose proof (snum_range b') as R2. rewrite (typed_bw a' m true ltac:(lia) T1) in R1. rewrite (typed_bw b' m true ltac:(lia) T2) in R2.
    rewrite Q1, Q2 in *. set (A := value a') in *. set (B := value b') in *.
    pose proof (Z.quot_rem' A B) as D. pose proof (Z.rem_bound_abs A B B0) as Rb. pose proof (Z.rem_sign_mul A B B0) as Sg.
    assert (Rr : - 2 ^ (m - 1) <= Z.rem A B < 2 ^ (m - 1)) by lia.
    assert (Rq : - 2 ^ (m - 1) <= Z.quot A B < 2 ^ (m - 1)).
    { destruct (Z.eq_dec B 1) as [->|]; [rewrite Z.quot_1_r; lia|]. destruct (Z.eq_dec B (-1)) as [->|].
      - replace (Z.quot A (-1)) with (- A) by (change (-1) with (- (1)); rewrite Z.quot_opp_r, Z.quot_1_r by lia; reflexivity). lia.
      - assert (H2 : 2 <= Z.abs B) by lia. pose proof (quot_half A B H2). clear - R1 H. lia. }
    assert (Vq : value q = Z.quot A B) by (unfold value; rewrite (typed_sgn _ _ _ Tq); eapply snum_of_num; [|exact Tq|exact Nq|exact Rq]; lia).
    assert (Vr : value r = Z.rem A B) by (unfold value; rewrite (typed_sgn _ _ _ Tr); eapply snum_of_num; [|exact Tr|exact Nr|exact Rr]; lia).
    rewrite Vq, Vr. split; [lia|]. split; [exact Rb|]. exact Sg.
Qed.
(** unsigned division by zero, native *)
Lemma unsigned_division_zero a b na nb : 1 <= na <= 64 -> 1 <= nb <= 64 -> typed a na false -> typed b nb false -> tidy a -> tidy b ->
  num b = 0 -> bit_div a b = UB /\ bit_rem a b = UB.
Proof.
  intros Hna Hnb Ta Tb Ya Yb B0.
  assert (Xa : extendable a) by (split; [exact Ya|]; rewrite (typed_sgn _ _ _ Ta); discriminate).
  assert (Xb : extendable b) by (split; [exact Yb|]; rewrite (typed_sgn _ _ _ Tb); discriminate).
  destruct (arith_ext a b na nb false false _ ltac:(lia) ltac:(lia) Ta Tb Xa Xb eq_refl) as (a' & b' & T1 & T2 & Y1 & Y2 & V1 & V2 & G).
  set (m := Z.max na nb) in *.
  assert (H : bit_div a b = bit_div a' b' /\ bit_rem a b = bit_rem a' b').
  { unfold bit_div, bit_rem. rewrite !G. unfold bit_arith. rewrite (typed_bsize a' m _ ltac:(lia) T1), (typed_bsize b' m _ ltac:(lia) T2), Z.eqb_refl. auto. }
  destruct H as [-> ->]. apply div_zero_ub with (n := m); try (eapply typed_vec; eassumption); try (eapply typed_bw; [|eassumption]; lia);
    try (eapply plain_be; [eassumption|lia]); try lia.
  assert (Z2 : extendable b') by (split; [exact Y2|]; rewrite (typed_sgn _ _ _ T2); discriminate).
  rewrite (ext_stored b' m false ltac:(lia) T2 Z2), V2, value_u by (eapply typed_sgn; eassumption). exact B0.
Qed.
(** multi-word division by zero, or by a number that looks like zero: both results are zero *)
Lemma big_division_unseen a b n s : 65 <= n -> typed a n false -> typed b n s -> low_halves_zero (num b) -> tidy b ->
  exists q r, bit_div a b = Ok q /\ bit_rem a b = Ok r /\ typed q n false /\ typed r n false /\ num q = 0 /\ num r = 0.
Proof.
  intros Hn Ta Tb L Yb. pose proof (typed_lt a n _ ltac:(lia) Ta) as Hlt. pose proof (typed_vec _ _ _ Ta) as Va. pose proof (typed_vec _ _ _ Tb) as Vb.
  pose proof (typed_bw a n _ ltac:(lia) Ta) as Wa. pose proof (typed_bw b n _ ltac:(lia) Tb) as Wb.
  pose proof (plain_be b n _ Tb ltac:(lia)) as Be. pose proof (typed_sgn _ _ _ Ta) as Ga. pose proof (typed_sgn _ _ _ Tb) as Gb.
  destruct (vec_cases_n a n Va Wa) as [(x & Ea & Na & _) | (x & Ea & Na & Ia & Sa & Ma)]; [lia|].
  destruct (vec_cases_n b n Vb Wb) as [(y & Eb & Nb & _) | (y & Eb & Nb & Ib & Sb & Mb)]; [lia|].
  rewrite (num_of_tidy_big b y Eb Yb) in L.
  assert (A : bn_any_set y = false). { destruct (bn_any_set y) eqn:A; [|reflexivity]. apply bn_any_exact in A; [contradiction|apply Ib]. }
  pose proof (bn_zero_wfn n ltac:(lia)) as Wz.
  unfold bit_div, bit_rem, bit_arith. rewrite (bsize_bw a n Wa), (bsize_bw b n Wb), Z.eqb_refl.
  unfold bit_div_same, bit_rem_same, bit_bin, requires, same_size_op. cbn zeta.
  rewrite (bsize_bw a n Wa), (bsize_bw b n Wb), Z.eqb_refl.
  replace (blsb b <=? bmsb b) with true by lia. cbn [andb]. rewrite Ea, Eb, Ga. unfold bn_div_mod. rewrite A. cbn [negb omap bind fst snd andb].
  do 2 eexists. split; [reflexivity|]. split; [reflexivity|]. split; [apply typed_big; [lia|exact Wz]|]. split; [apply typed_big; [lia|exact Wz]|].
  rewrite !num_plain_big by lia. rewrite bn_zero_num. split; apply Z.mod_0_l, Z.pow_nonzero; lia.
Qed.

(** * unary minus *)
Lemma neg_ub a n : n = 32 \/ n = 64 -> typed a n true -> stored a = - 2 ^ (n - 1) -> bit_neg a = UB.
Proof.
  intros Hn Ta A. pose proof (typed_vec _ _ _ Ta) as Va. pose proof (typed_bw a n _ ltac:(lia) Ta) as Wa. pose proof (typed_sgn _ _ _ Ta) as Ga.
  destruct (vec_cases_n a n Va Wa) as [(x & Ea & Na & Ia & Sa & Ma) | (x & Ea & Na & _)]; [|lia].
  rewrite Sa in A. subst x. unfold bit_neg. rewrite Ea, Ga, (bsize_bw a n Wa). destruct Hn as [-> | ->]; reflexivity.
Qed.

(** * one bit *)
Lemma add_single a b sa sb : typed a 1 sa -> typed b 1 sb ->
  exists r, bit_add a b = Ok r /\ typed r 1 (sa && sb) /\ num r = Z.lor (num a) (num b).
Proof.
  intros Ta Tb. pose proof (typed_vec _ _ _ Ta) as Va. pose proof (typed_vec _ _ _ Tb) as Vb.
  pose proof (typed_bw a 1 _ ltac:(lia) Ta) as Wa. pose proof (typed_bw b 1 _ ltac:(lia) Tb) as Wb.
  pose proof (plain_be b 1 _ Tb ltac:(lia)) as Be. pose proof (typed_sgn _ _ _ Ta) as Ga. pose proof (typed_sgn _ _ _ Tb) as Gb.
  destruct (vec_cases_n a 1 Va Wa) as [(x & Ea & Na & Ia & Sa & Ma) | (x & Ea & Na & _)]; [|lia].
  destruct (vec_cases_n b 1 Vb Wb) as [(y & Eb & Nb & Ib & Sb & Mb) | (y & Eb & Nb & _)]; [|lia].
  unfold bit_add, bit_arith. rewrite (bsize_bw a 1 Wa), (bsize_bw b 1 Wb), Z.eqb_refl.
  unfold bit_add_same, bit_bin, requires, same_size_op. cbn zeta. rewrite (bsize_bw a 1 Wa), (bsize_bw b 1 Wb), Z.eqb_refl.
  replace (blsb b <=? bmsb b) with true by lia. cbn [andb]. rewrite Ea, Eb, Ga, Gb, Ma, Mb. rewrite hty_1 in Ia, Ib. apply in_bool in Ia. apply in_bool in Ib.
  rewrite !hty_1. assert (Q : c_add TBool TBool x y = Ok (x + y)) by (destruct Ia as [-> | ->], Ib as [-> | ->]; reflexivity). rewrite Q. cbn [bind].
  eexists. split; [reflexivity|]. rewrite <- (hty_1 (sa && sb)), nat_bit_eq by lia. split; [apply typed_nat; lia|].
  rewrite nat_bit_num1 by (rewrite width_plain; lia). destruct Ia as [-> | ->], Ib as [-> | ->]; reflexivity.
Qed.
Lemma assign_single d x s m t : 1 <= m <= 64 -> typed d 1 s -> typed x m t ->
  exists r, bit_assign d x = Ok r /\ typed r 1 s /\ num r = if stored x =? 0 then 0 else 1.
Proof.
  intros Hm Td Tx. pose proof (typed_vec _ _ _ Tx) as Vx. pose proof (typed_bw x m _ ltac:(lia) Tx) as Wx.
  destruct (vec_cases_n x m Vx Wx) as [(v & Ex & _ & Ix & Sx & _) | (v & Ex & N & _)]; [|lia].
  unfold bit_assign, holder_assign. rewrite (typed_bsize d 1 s ltac:(lia) Td), Ex, Sx.
  destruct Td as (Vd & [P1 P2] & Gd). rewrite P1, P2, Gd. change (native_num 1) with true. cbn [bind].
  eexists. split; [reflexivity|]. change (1 - 1) with (1 - 1). rewrite nat_bit_eq by lia. split; [apply typed_nat; lia|].
  apply nat_bit_num1. apply width_plain. lia.
Qed.
