(** bit: the final form of the lemmas behind PropsBit.v, third part (arithmetic, conversions, updates). *)
From Coq Require Import ZArith List Bool Lia Zify ZifyBool.
From Verif Require Import Cpp BigNum Bit Logic Spec ZBits Words BigNumProofs BigArith BitProofs BitSlice BitExt BitOps
  BitShift BitCmp BitArith BitMain BitMain2.
Import ListNotations.
Open Scope Z_scope.

(** ** addition and subtraction *)
(** both operands signed and stored in an [int32_t]/[int64_t]: the only case in which + and - can overflow *)
Definition no_overflow (z : Z) (a b : bit) (n : Z) : Prop :=
  bsgn a = true -> bsgn b = true -> 17 <= n <= 64 ->
  tidy a /\ tidy b /\ (n = 32 \/ n = 64 -> - 2 ^ (n - 1) <= z < 2 ^ (n - 1)).

Lemma snum_range b : - 2 ^ (bw b - 1) <= snum b < 2 ^ (bw b - 1).
Proof. apply twos_range; [apply bw_pos | apply num_range]. Qed.
Lemma add_ok_of a b n (z : Z -> Z -> Z) : (forall x y c, - c <= x < c -> - c <= y < c -> - (2 * c) <= z x y < 2 * c) ->
  vec a -> vec b -> bw a = n -> bw b = n -> no_overflow (z (value a) (value b)) a b n -> add_ok z a b n.
Proof.
  intros Hz Va Vb Wa Wb O. unfold add_ok.
  destruct (bsgn a) eqn:Sa; [|auto]. destruct (bsgn b) eqn:Sb; [|auto].
  destruct (Z.leb_spec n 16); [auto|]. destruct (Z.leb_spec n 64); [|left; lia]. do 3 right.
  destruct (O Sa Sb ltac:(lia)) as (Ta & Tb & F).
  assert (Xa : stored a = value a) by (unfold value; rewrite Sa; apply tidy_s_stored; auto; lia).
  assert (Xb : stored b = value b) by (unfold value; rewrite Sb; apply tidy_s_stored; auto; lia).
  rewrite Xa, Xb. unfold fits, cwidth.
  pose proof (snum_range a) as Ra. pose proof (snum_range b) as Rb. rewrite Wa in Ra. rewrite Wb in Rb.
  assert (Va' : value a = snum a) by (unfold value; rewrite Sa; reflexivity).
  assert (Vb' : value b = snum b) by (unfold value; rewrite Sb; reflexivity).
  destruct (Z.eq_dec n 32) as [E|N1]; [specialize (F (or_introl E)); rewrite E in *; exact F|].
  destruct (Z.eq_dec n 64) as [E|N2]; [specialize (F (or_intror E)); rewrite E in *; exact F|].
  rewrite Va', Vb' in *.
  pose proof (Hz (snum a) (snum b) (2 ^ (n - 1)) ltac:(lia) ltac:(lia)) as B. rewrite <- Z.pow_succ_r in B by lia.
  destruct (Z.leb_spec n 32).
  - pose proof (pow2_mono (Z.succ (n - 1)) 31 ltac:(lia)). change (32 - 1) with 31. lia.
  - pose proof (pow2_mono (Z.succ (n - 1)) 63 ltac:(lia)). change (64 - 1) with 63. lia.
Qed.
Lemma add_bounds x y c : - c <= x < c -> - c <= y < c -> - (2 * c) <= x + y < 2 * c. Proof. lia. Qed.
Lemma sub_bounds x y c : - c <= x < c -> - c <= y < c -> - (2 * c) <= x - y < 2 * c. Proof. lia. Qed.

Lemma add_same_width a b n : vec a -> vec b -> bw a = n -> bw b = n -> blsb b <= bmsb b -> 2 <= n ->
  no_overflow (value a + value b) a b n ->
  exists r, bit_add a b = Ok r /\ typed r n (bsgn a && bsgn b) /\ num r = (num a + num b) mod 2 ^ n.
Proof.
  intros. unfold bit_add, bit_arith. rewrite (bsize_bw a n), (bsize_bw b n), Z.eqb_refl by assumption.
  apply bit_add_same_spec; try assumption. apply add_ok_of; auto using add_bounds.
Qed.
Lemma sub_same_width a b n : vec a -> vec b -> bw a = n -> bw b = n -> blsb b <= bmsb b ->
  no_overflow (value a - value b) a b n ->
  exists r, bit_sub a b = Ok r /\ typed r n (bsgn a && bsgn b) /\ num r = (num a - num b) mod 2 ^ n.
Proof.
  intros. unfold bit_sub, bit_arith. rewrite (bsize_bw a n), (bsize_bw b n), Z.eqb_refl by assumption.
  apply bit_sub_same_spec; try assumption. apply add_ok_of; auto using sub_bounds.
Qed.

(** different widths: both operands are extended first *)
Lemma plain_be b n s : typed b n s -> 1 <= n -> blsb b <= bmsb b.
Proof. intros (_ & [E1 E2] & _) H. rewrite E1, E2. lia. Qed.
Lemma typed_vec b n s : typed b n s -> vec b. Proof. intros H. apply H. Qed.
Lemma typed_sgn b n s : typed b n s -> bsgn b = s. Proof. intros H. apply H. Qed.

Lemma mixed_arith same (zop : Z -> Z -> Z) (D : bit -> bit -> Z -> Prop) a b na nb sa sb :
  (forall x y m, 0 < m -> zop x y mod m = zop (x mod m) (y mod m) mod m) ->
  1 <= na -> 1 <= nb -> na <> nb -> typed a na sa -> typed b nb sb -> extendable a -> extendable b ->
  (forall a' b', typed a' (Z.max na nb) sa -> typed b' (Z.max na nb) sb -> tidy a' -> tidy b' ->
     value a' = value a -> value b' = value b ->
     exists r, same a' b' = Ok r /\ typed r (Z.max na nb) (sa && sb) /\ num r = zop (num a') (num b') mod 2 ^ Z.max na nb) ->
  exists r, bit_arith same a b = Ok r /\ typed r (Z.max na nb) (sa && sb) /\
    num r = zop (value a) (value b) mod 2 ^ Z.max na nb.
Proof.
  intros Zm Ha Hb Ne Ta Tb Ea Eb F. set (m := Z.max na nb) in *.
  pose proof (typed_lt a na sa Ha Ta). pose proof (typed_lt b nb sb Hb Tb).
  destruct (bit_extend_gen a na sa m ltac:(lia) ltac:(lia) Ta Ea) as (a' & E1 & T1 & N1 & V1 & Y1).
  destruct (bit_extend_gen b nb sb m ltac:(lia) ltac:(lia) Tb Eb) as (b' & E2 & T2 & N2 & V2 & Y2).
  unfold bit_arith, bit_mixed. rewrite (typed_bsize a na sa Ha Ta), (typed_bsize b nb sb Hb Tb).
  replace (na =? nb) with false by lia. cbn zeta. fold m. rewrite E1, E2. cbn [bind].
  destruct (F a' b' T1 T2 Y1 Y2 V1 V2) as (r & E & T & N). exists r. split; [exact E|]. split; [exact T|].
  rewrite N, N1, N2. symmetry. apply Zm. apply pow2_pos. lia.
Qed.
Lemma add_mixed_width a b na nb sa sb : 1 <= na -> 1 <= nb -> na <> nb -> typed a na sa -> typed b nb sb ->
  extendable a -> extendable b ->
  (sa = true -> sb = true -> Z.max na nb = 32 \/ Z.max na nb = 64 ->
    - 2 ^ (Z.max na nb - 1) <= value a + value b < 2 ^ (Z.max na nb - 1)) ->
  exists r, bit_add a b = Ok r /\ typed r (Z.max na nb) (sa && sb) /\ num r = (value a + value b) mod 2 ^ Z.max na nb.
Proof.
  intros Ha Hb Ne Ta Tb Ea Eb O. apply (mixed_arith _ Z.add (fun _ _ _ => True)); auto using add_zmod.
  intros a' b' T1 T2 Y1 Y2 V1 V2. rewrite <- (typed_sgn _ _ _ T1), <- (typed_sgn _ _ _ T2).
  apply bit_add_same_spec; try (eapply typed_vec; eassumption); try (eapply typed_bw; [|eassumption]; lia);
    try (eapply plain_be; [eassumption|lia]); try lia.
  apply add_ok_of; auto using add_bounds; try (eapply typed_vec; eassumption); try (eapply typed_bw; [|eassumption]; lia).
  rewrite V1, V2. intros S1 S2 _. rewrite (typed_sgn _ _ _ T1) in S1. rewrite (typed_sgn _ _ _ T2) in S2. auto.
Qed.
Lemma sub_mixed_width a b na nb sa sb : 1 <= na -> 1 <= nb -> na <> nb -> typed a na sa -> typed b nb sb ->
  extendable a -> extendable b ->
  (sa = true -> sb = true -> Z.max na nb = 32 \/ Z.max na nb = 64 ->
    - 2 ^ (Z.max na nb - 1) <= value a - value b < 2 ^ (Z.max na nb - 1)) ->
  exists r, bit_sub a b = Ok r /\ typed r (Z.max na nb) (sa && sb) /\ num r = (value a - value b) mod 2 ^ Z.max na nb.
Proof.
  intros Ha Hb Ne Ta Tb Ea Eb O. apply (mixed_arith _ Z.sub (fun _ _ _ => True)); auto using sub_zmod.
  intros a' b' T1 T2 Y1 Y2 V1 V2. rewrite <- (typed_sgn _ _ _ T1), <- (typed_sgn _ _ _ T2).
  apply bit_sub_same_spec; try (eapply typed_vec; eassumption); try (eapply typed_bw; [|eassumption]; lia);
    try (eapply plain_be; [eassumption|lia]); try lia.
  apply add_ok_of; auto using sub_bounds; try (eapply typed_vec; eassumption); try (eapply typed_bw; [|eassumption]; lia).
  rewrite V1, V2. intros S1 S2 _. rewrite (typed_sgn _ _ _ T1) in S1. rewrite (typed_sgn _ _ _ T2) in S2. auto.
Qed.
Lemma negation a n s : 1 <= n <= 64 -> typed a n s ->
  (s = true -> 17 <= n -> tidy a /\ (n = 32 \/ n = 64 -> snum a <> - 2 ^ (n - 1))) ->
  exists r, bit_neg a = Ok r /\ typed r n s /\ num r = (- num a) mod 2 ^ n.
Proof.
  intros Hn T C. apply bit_neg_spec; try assumption; try lia.
  destruct s; [|auto]. destruct (Z.leb_spec n 16); [auto|]. right; right.
  destruct (C eq_refl ltac:(lia)) as [Y N]. pose proof (typed_bw a n true ltac:(lia) T) as W.
  rewrite (tidy_s_stored a) by (try (eapply typed_vec; eassumption); try (eapply typed_sgn; eassumption); try assumption; lia).
  pose proof (snum_range a) as R. rewrite W in R. unfold cwidth.
  destruct (Z.eq_dec n 32) as [E|N1]; [rewrite E in *; apply N; auto|].
  destruct (Z.eq_dec n 64) as [E|N2]; [rewrite E in *; apply N; auto|].
  destruct (Z.leb_spec n 32).
  - pose proof (pow2_mono (n - 1 + 1) 31 ltac:(lia)). rewrite pow2_split in H1 by lia. 
    assert (0 < 2 ^ (n - 1)) by (apply pow2_pos; lia). change (32 - 1) with 31. lia.
  - pose proof (pow2_mono (n - 1 + 1) 63 ltac:(lia)). rewrite pow2_split in H1 by lia. 
    assert (0 < 2 ^ (n - 1)) by (apply pow2_pos; lia). change (64 - 1) with 63. lia.
Qed.
Lemma negation_rejected a : vec a -> 65 <= bw a -> bit_neg a = IllFormed.
Proof.
  intros V H. destruct (vec_cases a V) as [(x & _ & N & _) | (x & E & _)]; [lia|]. unfold bit_neg. rewrite E. reflexivity.
Qed.

(** ** multiplication *)
(** the cases in which the C++ product is defined *)
Definition mul_ok (a b : bit) (n : Z) : Prop :=
  n <= 8 \/ 17 <= n <= 64 /\ bsgn a && bsgn b = false \/
  n <= 64 /\ extendable a /\ extendable b /\ fits (if n <=? 32 then 32 else 64) (value a * value b).
Lemma tiny_stored b n : vec b -> bw b = n -> n <= 8 -> - 2 ^ 7 <= stored b < 2 ^ 8.
Proof.
  intros V W Hn. pose proof (bw_pos b). destruct (vec_cases_n b n V W) as [(x & _ & N & I & -> & _) | (x & _ & N & _)]; [|lia].
  revert I. unfold hty. destruct (bsgn b);
  repeat match goal with |- context [if ?c then _ else _] => destruct c eqn:? end; rewrite in_ity_range; cbn; lia.
Qed.
Lemma mul_same_native a b n : vec a -> vec b -> bw a = n -> bw b = n -> blsb b <= bmsb b -> mul_ok a b n ->
  exists r, bit_mul_same a b = Ok r /\ typed r n (bsgn a && bsgn b) /\ num r = (num a * num b) mod 2 ^ n.
Proof.
  intros Va Vb Wa Wb Be [D | [[D1 D2] | (D1 & Ea & Eb & D2)]]; apply bit_mul_native; try assumption; try lia.
  - right. pose proof (tiny_stored a n Va Wa D). pose proof (tiny_stored b n Vb Wb D). unfold fits, cwidth.
    replace (n <=? 32) with true by lia. change (2 ^ (32 - 1)) with (2 ^ 31). nia.
  - left. split; [lia | exact D2].
  - right. rewrite (ext_value a), (ext_value b) by (assumption || lia). exact D2.
Qed.
Lemma mul_same_width a b n : vec a -> vec b -> bw a = n -> bw b = n -> blsb b <= bmsb b -> mul_ok a b n ->
  exists r, bit_mul a b = Ok r /\ typed r n (bsgn a && bsgn b) /\ num r = (num a * num b) mod 2 ^ n.
Proof.
  intros. unfold bit_mul, bit_arith. rewrite (bsize_bw a n), (bsize_bw b n), Z.eqb_refl by assumption.
  apply mul_same_native; assumption.
Qed.
Lemma mul_big_width a b n ka kb : vec a -> vec b -> bw a = n -> bw b = n -> blsb b <= bmsb b -> 65 <= n -> tidy a -> tidy b ->
  visible (num a / 2 ^ 64) -> visible (num b / 2 ^ 64) -> 0 <= ka -> 0 <= kb ->
  num a < 2 ^ (64 * ka) -> num b < 2 ^ (64 * kb) -> 64 * (ka + kb) < n + 64 ->
  exists r, bit_mul a b = Ok r /\ typed r n (bsgn a && bsgn b) /\ num r = (num a * num b) mod 2 ^ n.
Proof.
  intros. unfold bit_mul, bit_arith. rewrite (bsize_bw a n), (bsize_bw b n), Z.eqb_refl by assumption.
  apply (bit_mul_big a b n ka kb); try assumption. pose proof (nwords_bounds n ltac:(lia)). lia.
Qed.
Lemma mul_mixed_width a b na nb : 1 <= na -> 1 <= nb -> na <> nb -> typed a na false -> typed b nb false ->
  tidy a -> tidy b -> Z.max na nb <= 64 -> (Z.max na nb <= 8 \/ 17 <= Z.max na nb \/ value a * value b < 2 ^ 31) ->
  exists r, bit_mul a b = Ok r /\ typed r (Z.max na nb) false /\ num r = (value a * value b) mod 2 ^ Z.max na nb.
Proof.
  intros Ha Hb Ne Ta Tb Ya Yb Hm O. 
  assert (Ea : extendable a) by (split; [exact Ya | rewrite (typed_sgn _ _ _ Ta); discriminate]).
  assert (Eb : extendable b) by (split; [exact Yb | rewrite (typed_sgn _ _ _ Tb); discriminate]).
  apply (mixed_arith _ Z.mul (fun _ _ _ => True) a b na nb false false); auto using mul_zmod.
  intros a' b' T1 T2 Y1 Y2 V1 V2.
  assert (S1 := typed_sgn _ _ _ T1). assert (S2 := typed_sgn _ _ _ T2).
  replace (false && false) with (bsgn a' && bsgn b') by (rewrite S1; reflexivity).
  apply mul_same_native; try (eapply typed_vec; eassumption); try (eapply typed_bw; [|eassumption]; lia);
    try (eapply plain_be; [eassumption|lia]); try lia.
  unfold mul_ok. rewrite V1, V2, S1, S2. destruct O as [O | [O | O]]; [auto | right; left; split; [lia|reflexivity] |].
  destruct (Z.leb_spec 17 (Z.max na nb)); [right; left; split; [lia|reflexivity]|].
  right; right. split; [lia|]. split; [split; [assumption|congruence]|]. split; [split; [assumption|congruence]|].
  replace (Z.max na nb <=? 32) with true by lia. unfold fits. change (2 ^ (32 - 1)) with (2 ^ 31).
  rewrite !value_u in * by (eapply typed_sgn; eassumption). pose proof (num_range a). pose proof (num_range b).
  pose proof (pow2_pos 31). nia.
Qed.

(** ** division *)
Definition div_visible (a b : bit) (n : Z) : Prop :=
  65 <= n -> visible (num b) /\ visible (num b / 2 ^ 64) /\ visible (num a / 2 ^ 64).
Lemma divrem_same a b n : vec a -> vec b -> bw a = n -> bw b = n -> blsb b <= bmsb b ->
  bsgn a = false -> bsgn b = false -> tidy a -> tidy b -> num b <> 0 -> div_visible a b n ->
  (exists q, bit_div_same a b = Ok q /\ typed q n false /\ num q = num a / num b /\ tidy q) /\
  (exists r, bit_rem_same a b = Ok r /\ typed r n false /\ num r = num a mod num b /\ tidy r).
Proof.
  intros Va Vb Wa Wb Be Sa Sb Ta Tb Nz C. destruct (Z.leb_spec n 64).
  - apply divrem_native_u; assumption.
  - destruct (C ltac:(lia)) as (C1 & C2 & C3). apply divrem_big_u; (assumption || lia).
Qed.
Lemma division a b na nb : 1 <= na -> 1 <= nb -> typed a na false -> typed b nb false -> tidy a -> tidy b ->
  num b <> 0 -> div_visible a b (Z.max na nb) ->
  exists q r, bit_div a b = Ok q /\ bit_rem a b = Ok r /\
    typed q (Z.max na nb) false /\ typed r (Z.max na nb) false /\ tidy q /\ tidy r /\
    num a = num q * num b + num r /\ 0 <= num r < num b.
Proof.
  intros Ha Hb Ta Tb Ya Yb Nz C. set (m := Z.max na nb) in *.
  pose proof (typed_lt a na _ Ha Ta). pose proof (typed_lt b nb _ Hb Tb).
  destruct (bit_extend_u_tidy a na m ltac:(lia) ltac:(lia) Ta Ya) as (a' & E1 & T1 & N1 & Y1).
  destruct (bit_extend_u_tidy b nb m ltac:(lia) ltac:(lia) Tb Yb) as (b' & E2 & T2 & N2 & Y2).
  destruct (divrem_same a' b' m) as [(q & Eq & Tq & Nq & Yq) (r & Er & Tr & Nr & Yr)];
    try (eapply typed_vec; eassumption); try (eapply typed_bw; [|eassumption]; lia);
    try (eapply plain_be; [eassumption|lia]); try (eapply typed_sgn; eassumption); try assumption; try congruence.
  { unfold div_visible in *. rewrite N1, N2. exact C. }
  exists q, r. 
  assert (G : forall op, bit_arith op a b = op a' b').
  { intros op. unfold bit_arith, bit_mixed. rewrite (typed_bsize a na _ Ha Ta), (typed_bsize b nb _ Hb Tb).
    destruct (Z.eqb_spec na nb) as [E|].
    - assert (na = m /\ nb = m) as [M1 M2] by lia. 
      rewrite <- M1 in E1. rewrite <- M2 in E2. rewrite (bit_extend_same a na false Ha Ta) in E1.
      rewrite (bit_extend_same b nb false Hb Tb) in E2. congruence.
    - cbn zeta. fold m. rewrite E1, E2. reflexivity. }
  unfold bit_div, bit_rem. rewrite !G. repeat (split; [assumption|]).
  rewrite Nq, Nr, N1, N2. pose proof (num_range b). split; [|apply Z.mod_pos_bound; lia].
  rewrite Z.mul_comm. apply Z.div_mod. exact Nz.
Qed.
Lemma division_signed a b n : 2 <= n <= 64 -> typed a n true -> typed b n true -> tidy a -> tidy b -> snum b <> 0 ->
  ~ ((n = 32 \/ n = 64) /\ snum a = - 2 ^ (n - 1) /\ snum b = -1) ->
  exists q r, bit_div a b = Ok q /\ bit_rem a b = Ok r /\ typed q n true /\ typed r n true /\
    num q = Z.quot (snum a) (snum b) mod 2 ^ n /\ num r = Z.rem (snum a) (snum b) mod 2 ^ n.
Proof.
  intros Hn Ta Tb Ya Yb Nz O.
  destruct (divrem_native_s a b n) as [(q & Eq & Tq & Nq) (r & Er & Tr & Nr)];
    try (eapply typed_vec; eassumption); try (eapply typed_bw; [|eassumption]; lia);
    try (eapply plain_be; [eassumption|lia]); try (eapply typed_sgn; eassumption); try assumption.
  exists q, r. unfold bit_div, bit_rem, bit_arith.
  rewrite (typed_bsize a n _ ltac:(lia) Ta), (typed_bsize b n _ ltac:(lia) Tb), Z.eqb_refl. auto 10.
Qed.
