(** Exactly when arithmetic is undefined; mixed-sign order, assignment, concatenation with a 2-state vector, part-select update. *)
From Coq Require Import ZArith List Bool Lia.
From Verif Require Exact.
From Verif Require Import Cpp BigNum Bit Logic More Spec SpecExact SpecMachine SpecWide BitExt BitOps ZBits Words BigNumProofs BitProofs BitCmp BitShift BitMain BitMain2 BitMain3 BitMain5 Exact3 Exact4 MachineProofs ReachProofs WideProofs WideProofs2 WideProofs3 WideProofs4 LogicRed LogicProofs LogicConv LogicConv2 SpecIff Iff Iff2 Iff3 Iff4 Iff5 Iff6 Iff7 Iff8 Iff9.
Import ListNotations.
Open Scope Z_scope.
Local Ltac Zify.zify_post_hook ::= idtac.

(** * undefined behaviour *)
Lemma fitting_fits w z : fitting w z = true <-> signed_fits w z.
Proof. unfold fitting, signed_fits. lia. Qed.
Lemma quot_abs_le A B : Z.abs (Z.quot A B) <= Z.abs A.
Proof.
  destruct (Z.eq_dec B 0) as [->|B0]; [destruct A; cbn; lia|]. rewrite <- Z.quot_abs by lia. rewrite Z.quot_div_nonneg by lia. apply Z.div_le_upper_bound; nia.
Qed.
Lemma quot_fits_iff n sa sb A B : 1 <= n <= 64 -> B <> 0 -> (sa && sb = true -> - 2 ^ (n - 1) <= A < 2 ^ (n - 1)) -> (n <= 16 -> - 2 ^ 16 <= A <= 2 ^ 16) ->
  with_sign n sa sb = true -> fitting (computing n) (Z.quot A B) = false <-> sa && sb = true /\ (n = 32 \/ n = 64) /\ A = - 2 ^ (n - 1) /\ B = - 1.
Proof.
  intros Hn B0 R R16 Ws. rewrite <- not_true_iff_false, fitting_fits. pose proof (quot_abs_le A B) as Q.
  destruct (Z.le_gt_cases n 16) as [G|G].
  - specialize (R16 G). split; [|lia]. intros X. exfalso. apply X. unfold signed_fits, computing. replace (n <=? 32) with true by lia. change (2 ^ (32 - 1)) with 2147483648. change (2 ^ 16) with 65536 in *. lia.
  - unfold with_sign in Ws. replace (n <=? 16) with false in Ws by lia. cbn [orb] in Ws. specialize (R Ws). assert (M : 2 ^ (n - 1) <= 2 ^ (computing n - 1)) by (apply Z.pow_le_mono_r; [lia|]; pose proof (computing_pow n); lia). pose proof (pow2_pos (n - 1) ltac:(lia)) as PP.
    split.
    + intros X. split; [exact Ws|]. destruct (Z.eq_dec B (-1)) as [->|N1].
      * replace (Z.quot A (-1)) with (- A) in X by (change (-1) with (- (1)); rewrite Z.quot_opp_r, Z.quot_1_r by lia; reflexivity). unfold signed_fits in X. assert (K : A = - 2 ^ (n - 1) /\ 2 ^ (n - 1) = 2 ^ (computing n - 1)) by lia. destruct K as [K1 K2].
        split; [|auto]. apply Z.pow_inj_r in K2; [|lia|lia|unfold computing; destruct (n <=? 32); lia]. unfold computing in K2. destruct (Z.leb_spec n 32); lia.
      * exfalso. apply X. destruct (Z.eq_dec B 1) as [->|N2]; [rewrite Z.quot_1_r; unfold signed_fits; lia|]. pose proof (quot_half A B ltac:(lia)). unfold signed_fits. lia.
    + intros (_ & N32 & -> & ->). replace (Z.quot (- 2 ^ (n - 1)) (-1)) with (2 ^ (n - 1)) by (rewrite Z.quot_opp_l by lia; change (-1) with (- (1)); rewrite Z.quot_opp_r, Z.quot_1_r by lia; lia). unfold signed_fits. destruct N32 as [-> | ->]; [change (computing 32) with 32|change (computing 64) with 64]; lia.
Qed.
Lemma stored_native_range b n s : 1 <= n <= 64 -> typed b n s -> tidy b -> (s = true -> 2 <= n -> - 2 ^ (n - 1) <= stored b < 2 ^ (n - 1)) /\ (n <= 16 -> - 2 ^ 16 <= stored b <= 2 ^ 16) /\ (stored b = 0 <-> num b = 0) /\ (2 <= n -> stored b = value b).
Proof.
  intros Hn T D. assert (H1 : 1 <= n) by lia. pose proof (typed_bw _ _ _ H1 T) as W. destruct T as (V & _ & S1). destruct (Z.eq_dec n 1) as [E|E].
  - rewrite E in *. destruct (stored_one b V W) as [-> C]. change (2 ^ 16) with 65536. split; [intros _ X; exfalso; lia|]. split; [intros _; lia|]. split; [tauto|]. intros X; exfalso; lia.
  - rewrite (tidy_stored b) by (assumption || lia). destruct (value_range b) as (R & Rs & Ru). rewrite W, S1 in *. assert (P : 2 ^ n = 2 * 2 ^ (n - 1)) by (rewrite <- Z.pow_succ_r by lia; f_equal; lia).
    split; [intros Q _; specialize (Rs Q); lia|]. split; [intros G; assert (2 ^ n <= 2 ^ 16) by (apply Z.pow_le_mono_r; lia); pose proof (pow2_pos (n - 1) ltac:(lia)); lia|]. split; [|reflexivity].
    unfold value. destruct (bsgn b) eqn:Sg; [|reflexivity]. unfold snum. pose proof (num_range b) as Rn. rewrite W in *. unfold twos. destruct (Z.testbit (num b) (n - 1)) eqn:Q; [|tauto]. split; [lia|]. intros X. rewrite X, Z.bits_0 in Q. discriminate.
Qed.
Lemma divided_ub n x y : 65 <= n -> 0 <= y < 2 ^ n -> divided n x y <> UB.
Proof.
  intros Hn Ry. pose proof (in_capacity n y ltac:(lia) Ry) as Cy. pose proof (seems_zero_hollow n y Hn Cy) as Zy. pose proof (seems_small_hollow n y Hn Cy) as Sy. unfold divided.
  destruct (seems_zero n y); [discriminate|]. destruct (seems_small n y && (y mod 2 ^ 64 =? 1)); [discriminate|]. destruct (x =? y); [discriminate|]. destruct (x <? y); [discriminate|].
  destruct (seems_small n x && seems_small n y) eqn:E; [|discriminate]. apply andb_prop in E. destruct E as [_ E]. destruct (Z.eqb_spec (y mod 2 ^ 64) 0) as [L0|]; [|discriminate]. exfalso.
  enough (X : false = true) by discriminate. apply Zy, hollow_split; [lia|]. split; [|now apply Sy]. change (2 ^ 64) with (2 ^ 32 * 2 ^ 32) in L0. rewrite Z.rem_mul_r in L0 by lia. pose proof (Z.mod_pos_bound y (2 ^ 32) ltac:(lia)). pose proof (Z.mod_pos_bound (y / 2 ^ 32) (2 ^ 32) ltac:(lia)). lia.
Qed.
Lemma undefined_iff a b n sa sb : 1 <= n -> typed a n sa -> typed b n sb -> tidy a -> tidy b ->
  (bit_add a b = UB <-> overflows Z.add a b n) /\ (bit_sub a b = UB <-> overflows Z.sub a b n) /\
  (n <= 64 -> bit_mul a b = UB <-> (n <= 16 \/ bsgn a && bsgn b = true) /\ ~ signed_fits (computing n) (value a * value b)) /\
  (n <= 64 -> bit_div a b = UB <-> num b = 0 \/ (bsgn a && bsgn b = true /\ (n = 32 \/ n = 64) /\ value a = - 2 ^ (n - 1) /\ value b = - 1)) /\
  (n <= 64 -> bit_rem a b = UB <-> num b = 0 \/ (bsgn a && bsgn b = true /\ (n = 32 \/ n = 64) /\ value a = - 2 ^ (n - 1) /\ value b = - 1)) /\
  (65 <= n -> bit_mul a b = UB <-> ~ (hollow (num a / 2 ^ 64) /\ hollow (num b / 2 ^ 64)) /\ num a <> 0 /\ num b <> 0 /\ (n + 63) / 64 <= Z.log2 (num a) / 64 + Z.log2 (num b) / 64 + 1) /\
  (65 <= n -> bit_div a b <> UB /\ bit_rem a b <> UB).
Proof.
  intros Hn Ta Tb Ya Yb. pose proof (typed_bw _ _ _ Hn Ta) as Wa. pose proof (typed_bw _ _ _ Hn Tb) as Wb. destruct (typed_pairs a b n n sa sb Hn Hn Ta Tb) as [P W]. rewrite Z.max_id in W.
  pose proof (proj1 Ta) as Va. pose proof (proj1 Tb) as Vb. assert (L : blsb b <= bmsb b) by (destruct Tb as (_ & [-> ->] & _); lia).
  assert (Bs : (value a = - 2 ^ (n - 1) /\ value b = -1 -> n = 32 \/ n = 64 -> stored a = - 2 ^ (n - 1) /\ stored b = -1) /\ (n = 32 \/ n = 64 -> stored a = value a /\ stored b = value b)).
  { split; [intros [A1 A2] N1|intros N1]; rewrite !tidy_stored by (assumption || lia); auto. }
  split; [|split; [|split; [|split; [|split; [|split]]]]].
  - destruct (Z.eq_dec n 1) as [E|N1]; [|destruct (Z.le_gt_cases n 64) as [G|G]].
    + split; [|intros (_ & X & _); lia]. rewrite E in *. destruct (stored_one a Va Wa) as [Ea Ca], (stored_one b Vb Wb) as [Eb Cb]. one_bit add_any any_sum Va Wa Vb Wb Ea Eb.
      assert (F : fitting (computing 1) (num a + num b) = true) by (unfold fitting; destruct Ca as [-> | ->], Cb as [-> | ->]; reflexivity). rewrite F. discriminate.
    + destruct (add_exact a b n Va Vb Wa Wb L ltac:(lia)) as [X Y]. rewrite (tidy_stored a), (tidy_stored b) in * by (assumption || lia). pose proof (sum_fits Z.add a b n ltac:(lia) ltac:(lia) Wa Wb ltac:(lia)) as F. split.
      * intros U. unfold overflows in *. destruct (bsgn a && bsgn b) eqn:Q.
        -- destruct (fits_dec (computing n) (value a + value b)) as [K|K]; [destruct (X (or_intror K)) as (r & Er & _); congruence|]. assert (N32 : (n = 32 \/ n = 64) \/ ~ (n = 32 \/ n = 64)) by lia. destruct N32 as [N32|N32]; [|exfalso; apply K; destruct (proj2 F) as [[_ D]|D]; [intros (_ & D & _); contradiction|discriminate|exact D]].
           split; [reflexivity|]. split; [exact N32|]. destruct N32 as [-> | ->]; exact K.
        -- exfalso. destruct (proj2 F) as [D|D]; [intros (D & _); discriminate| |]; destruct X as (r & Er & _); auto; congruence.
      * intros O. assert (K : ~ ((17 <= n /\ bsgn a && bsgn b = false) \/ signed_fits (computing n) (value a + value b))) by (intros K; now apply F in K). apply Y; [right; apply O|tauto].
    + destruct (wide_sum Z.add bit_add a b n) as (r & Er & Nr); try assumption; try lia; [intros; symmetry; apply Zplus_mod|intros; rewrite add_any by assumption; unfold any_sum; now rewrite H1|]. rewrite Er. split; [discriminate|intros (_ & X & _); lia].
  - destruct (Z.eq_dec n 1) as [E|N1]; [|destruct (Z.le_gt_cases n 64) as [G|G]].
    + split; [|intros (_ & X & _); lia]. rewrite E in *. destruct (stored_one a Va Wa) as [Ea Ca], (stored_one b Vb Wb) as [Eb Cb]. one_bit sub_any any_difference Va Wa Vb Wb Ea Eb.
      assert (F : fitting (computing 1) (num a - num b) = true) by (unfold fitting; destruct Ca as [-> | ->], Cb as [-> | ->]; reflexivity). rewrite F. discriminate.
    + destruct (sub_exact a b n Va Vb Wa Wb L ltac:(lia)) as [X Y]. rewrite (tidy_stored a), (tidy_stored b) in * by (assumption || lia). pose proof (sum_fits Z.sub a b n ltac:(lia) ltac:(lia) Wa Wb ltac:(lia)) as F. split.
      * intros U. unfold overflows in *. destruct (bsgn a && bsgn b) eqn:Q.
        -- destruct (fits_dec (computing n) (value a - value b)) as [K|K]; [destruct (X (or_intror K)) as (r & Er & _); congruence|]. assert (N32 : (n = 32 \/ n = 64) \/ ~ (n = 32 \/ n = 64)) by lia. destruct N32 as [N32|N32]; [|exfalso; apply K; destruct (proj2 F) as [[_ D]|D]; [intros (_ & D & _); contradiction|discriminate|exact D]].
           split; [reflexivity|]. split; [exact N32|]. destruct N32 as [-> | ->]; exact K.
        -- exfalso. destruct (proj2 F) as [D|D]; [intros (D & _); discriminate| |]; destruct X as (r & Er & _); auto; congruence.
      * intros O. assert (K : ~ ((17 <= n /\ bsgn a && bsgn b = false) \/ signed_fits (computing n) (value a - value b))) by (intros K; now apply F in K). apply Y; [right; apply O|tauto].
    + destruct (wide_sum Z.sub bit_sub a b n) as (r & Er & Nr); try assumption; try lia; [intros; symmetry; apply Zminus_mod|intros; rewrite sub_any by assumption; unfold any_difference; now rewrite H1|]. rewrite Er. split; [discriminate|intros (_ & X & _); lia].
  - intros G. destruct (Z.eq_dec n 1) as [E|N1].
    + rewrite E in *. destruct (stored_one a Va Wa) as [Ea Ca], (stored_one b Vb Wb) as [Eb Cb]. one_bit mul_any any_product Va Wa Vb Wb Ea Eb.
      assert (F : fitting (computing 1) (num a * num b) = true) by (unfold fitting; destruct Ca as [-> | ->], Cb as [-> | ->]; reflexivity). rewrite F. split; [discriminate|]. intros [_ X]. exfalso. apply X.
      destruct (value_range a) as (R1 & _), (value_range b) as (R2 & _). rewrite Wa in R1. rewrite Wb in R2. unfold signed_fits. change (2 ^ (computing 1 - 1)) with 2147483648. change (2 ^ (1 - 1)) with 1 in *. change (2 ^ 1) with 2 in *. nia.
    + destruct (mul_exact a b n Va Vb Wa Wb L ltac:(lia)) as [X Y]. rewrite (tidy_stored a), (tidy_stored b) in * by (assumption || lia). split; [|intros [K1 K2]; now apply Y].
      intros U. destruct (fits_dec (computing n) (value a * value b)) as [K|K]; [destruct (X (or_intror K)) as (r & Er & _); congruence|]. split; [|exact K]. destruct (bsgn a && bsgn b); [now right|]. destruct (Z.le_gt_cases n 16); [now left|]. destruct X as (r & Er & _); [left; split; [lia|reflexivity]|congruence].
  - intros G. rewrite div_any by assumption. unfold any_quotient, small. rewrite Wa, Wb. replace (n <=? 64) with true by lia. cbn [andb]. unfold computed. cbv zeta. rewrite P, W. cbn [negb].
    destruct (stored_native_range a n sa ltac:(lia) Ta Ya) as (A1 & A2 & _ & A4), (stored_native_range b n sb ltac:(lia) Tb Yb) as (_ & _ & B3 & B4). rewrite (typed_sgn _ _ _ Ta), (typed_sgn _ _ _ Tb).
    destruct (Z.eqb_spec (stored b) 0) as [E0|E0]; cbn [orb]; [split; auto; intros _; left; tauto|]. destruct (with_sign n sa sb) eqn:Ws; cbn [andb].
    + unfold operand. rewrite Ws. assert (R : n <> 1 -> sa && sb = true -> - 2 ^ (n - 1) <= stored a < 2 ^ (n - 1)) by (intros N1 Q; apply andb_prop in Q; apply A1; [tauto|lia]).
      destruct (Z.eq_dec n 1) as [E|N1].
      * rewrite E in *. destruct (stored_one a Va Wa) as [Ea Ca], (stored_one b Vb Wb) as [Eb Cb]. rewrite Ea, Eb. assert (F : fitting (computing 1) (num a ÷ num b) = true) by (unfold fitting; destruct Ca as [-> | ->], Cb as [-> | ->]; reflexivity). rewrite F. split; [discriminate|]. intros [X|X]; lia.
      * pose proof (quot_fits_iff n sa sb (stored a) (stored b) ltac:(lia) E0 (R N1) A2 Ws) as Q. rewrite A4, B4 in * by lia. destruct (fitting (computing n) (value a ÷ value b)); cbn [negb]; [split; [discriminate|]; intros [X|X]; [tauto|]; now apply Q in X|]. split; [intros _; right; now apply Q|reflexivity].
    + split; [discriminate|]. intros [X|(X & _)]; [tauto|]. exfalso. unfold with_sign in Ws. rewrite X, orb_true_r in Ws. discriminate.
  - intros G. rewrite rem_any by assumption. unfold any_remainder, small. rewrite Wa, Wb. replace (n <=? 64) with true by lia. cbn [andb]. unfold remainder. cbv zeta. rewrite P, W. cbn [negb].
    destruct (stored_native_range a n sa ltac:(lia) Ta Ya) as (A1 & A2 & _ & A4), (stored_native_range b n sb ltac:(lia) Tb Yb) as (_ & _ & B3 & B4). rewrite (typed_sgn _ _ _ Ta), (typed_sgn _ _ _ Tb).
    destruct (Z.eqb_spec (stored b) 0) as [E0|E0]; cbn [orb]; [split; auto; intros _; left; tauto|]. destruct (with_sign n sa sb) eqn:Ws; cbn [andb].
    + unfold operand. rewrite Ws. assert (R : n <> 1 -> sa && sb = true -> - 2 ^ (n - 1) <= stored a < 2 ^ (n - 1)) by (intros N1 Q; apply andb_prop in Q; apply A1; [tauto|lia]).
      destruct (Z.eq_dec n 1) as [E|N1].
      * rewrite E in *. destruct (stored_one a Va Wa) as [Ea Ca], (stored_one b Vb Wb) as [Eb Cb]. rewrite Ea, Eb. assert (F : fitting (computing 1) (num a ÷ num b) = true) by (unfold fitting; destruct Ca as [-> | ->], Cb as [-> | ->]; reflexivity). rewrite F. split; [discriminate|]. intros [X|X]; lia.
      * pose proof (quot_fits_iff n sa sb (stored a) (stored b) ltac:(lia) E0 (R N1) A2 Ws) as Q. rewrite A4, B4 in * by lia. destruct (fitting (computing n) (value a ÷ value b)); cbn [negb]; [split; [discriminate|]; intros [X|X]; [tauto|]; now apply Q in X|]. split; [intros _; right; now apply Q|reflexivity].
    + split; [discriminate|]. intros [X|(X & _)]; [tauto|]. exfalso. unfold with_sign in Ws. rewrite X, orb_true_r in Ws. discriminate.
  - intros G. rewrite mul_any by assumption. unfold any_product, small. rewrite Wa, Wb. replace (n <=? 64) with false by lia. cbn [andb]. unfold combined. cbv zeta. rewrite P, W. cbn [negb]. unfold widened. rewrite Wa, Wb, Z.eqb_refl, !stored_num by (assumption || right; lia).
    pose proof (num_range a) as Ra. pose proof (num_range b) as Rb. rewrite Wa in Ra. rewrite Wb in Rb.
    pose proof (seems_small_hollow n (num a) G (in_capacity n _ ltac:(lia) Ra)) as Sx. pose proof (seems_small_hollow n (num b) G (in_capacity n _ ltac:(lia) Rb)) as Sy.
    destruct (seems_small n (num a) && seems_small n (num b)) eqn:E.
    + apply andb_prop in E. split; [discriminate|]. intros [X _]. exfalso. tauto.
    + assert (K : ~ (hollow (num a / 2 ^ 64) /\ hollow (num b / 2 ^ 64))) by (intros [A B]; apply Sx in A; apply Sy in B; rewrite A, B in E; discriminate).
      destruct (Z.eqb_spec (num a) 0) as [A0|A0]; cbn [orb]; [split; [discriminate|]; intros (_ & X & _); contradiction|]. destruct (Z.eqb_spec (num b) 0) as [B0|B0]; [split; [discriminate|]; intros (_ & _ & X & _); contradiction|].
      unfold words_in. destruct (Z.ltb_spec (Z.log2 (num a) / 64 + Z.log2 (num b) / 64 + 1) ((n + 63) / 64)); [split; [discriminate|]; intros (_ & _ & _ & X); lia|]. split; auto.
  - intros G. pose proof (num_range b) as Rb. rewrite Wb in Rb. rewrite div_any, rem_any by assumption. unfold any_quotient, any_remainder, small. rewrite Wa, Wb. replace (n <=? 64) with false by lia. cbn [andb]. unfold combined. cbv zeta. rewrite P, W. cbn [negb]. unfold widened. rewrite Wa, Wb, Z.eqb_refl, !stored_num by (assumption || right; lia).
    destruct (bsgn a); [split; discriminate|]. pose proof (divided_ub n (num a) (num b) G Rb) as D. destruct (divided n (num a) (num b)) as [[q r]| | | |]; try (exfalso; now apply D); split; discriminate.
Qed.

(** * order of a signed and an unsigned vector *)
Lemma mixed_stored x : vec x -> tidy x -> bw x <= 64 -> bsgn x = true ->
  stored x mod 2 ^ 64 = if (bw x =? 1) || (0 <=? value x) then num x else 2 ^ 64 + value x.
Proof.
  intros V D L Sx. pose proof (num_range x) as R. pose proof (bw_pos x) as P. assert (M : 2 ^ bw x <= 2 ^ 64) by (apply Z.pow_le_mono_r; lia). destruct (Z.eqb_spec (bw x) 1) as [E|E]; cbn [orb].
  - destruct (stored_one x V E) as [-> _]. apply Z.mod_small. lia.
  - rewrite tidy_stored by (assumption || lia). destruct (value_range x) as (Rv & Rs & _). specialize (Rs Sx). assert (P2 : 2 ^ bw x = 2 * 2 ^ (bw x - 1)) by (rewrite <- Z.pow_succ_r by lia; f_equal; lia).
    destruct (Z.leb_spec 0 (value x)) as [G|G].
    + rewrite Z.mod_small by lia. unfold value in *. rewrite Sx in *. unfold snum, twos in *. destruct (Z.testbit (num x) (bw x - 1)); lia.
    + symmetry. apply Z.mod_unique with (-1); lia.
Qed.
Lemma mixed_num x : bsgn x = true -> num x = value x \/ (value x < 0 /\ num x = 2 ^ bw x + value x).
Proof. intros Sx. pose proof (num_range x). unfold value. rewrite Sx. unfold snum, twos. destruct (Z.testbit (num x) (bw x - 1)); lia. Qed.
Lemma ok_bool (c d : bool) : Ok c = Ok d <-> (c = true <-> d = true).
Proof. destruct c, d; split; try reflexivity; try discriminate; intuition congruence. Qed.
Lemma mixed_order_iff x y : vec x -> vec y -> tidy x -> tidy y -> bw x <= 64 -> bw y <= 64 -> bsgn x = true -> bsgn y = false ->
  (bit_gt x y = Ok (num y <? num x) <-> bw x = 1 \/ 0 <= value x \/ num y < num x \/ 2 ^ 64 + value x <= num y) /\
  (bit_le x y = Ok (num x <=? num y) <-> bw x = 1 \/ 0 <= value x \/ num y < num x \/ 2 ^ 64 + value x <= num y) /\
  (bit_lt x y = Ok (num x <? num y) <-> bw x = 1 \/ 0 <= value x \/ num y <= num x \/ 2 ^ 64 + value x < num y) /\
  (bit_ge x y = Ok (num y <=? num x) <-> bw x = 1 \/ 0 <= value x \/ num y <= num x \/ 2 ^ 64 + value x < num y) /\
  (bit_lt y x = Ok (num y <? num x) <-> bw x = 1 \/ 0 <= value x \/ num y < num x \/ 2 ^ 64 + value x <= num y) /\
  (bit_ge y x = Ok (num x <=? num y) <-> bw x = 1 \/ 0 <= value x \/ num y < num x \/ 2 ^ 64 + value x <= num y) /\
  (bit_gt y x = Ok (num x <? num y) <-> bw x = 1 \/ 0 <= value x \/ num y <= num x \/ 2 ^ 64 + value x < num y) /\
  (bit_le y x = Ok (num y <=? num x) <-> bw x = 1 \/ 0 <= value x \/ num y <= num x \/ 2 ^ 64 + value x < num y).
Proof.
  intros Vx Vy Dx Dy Lx Ly Sx Sy. rewrite !gt_any, !lt_any, !ge_any, !le_any by assumption. unfold any_greater, any_less, any_greater_equal, any_less_equal, any_order, small, ordered, both_signed. rewrite Sx, Sy. cbn [andb]. replace (bw x <=? 64) with true by lia. replace (bw y <=? 64) with true by lia.
  rewrite (mixed_stored x Vx Dx Lx Sx), (stored_num y Vy Dy (or_introl Sy)), (unsigned_64 y Ly), !Z.gtb_ltb, !Z.geb_leb.
  pose proof (mixed_num x Sx) as Nx. pose proof (bw_pos x) as Px. assert (M : 2 ^ bw x <= 2 ^ 64) by (apply Z.pow_le_mono_r; lia). rewrite !ok_bool, !Z.ltb_lt, !Z.leb_le.
  destruct (Z.eqb_spec (bw x) 1) as [E|E]; cbn [orb]; [repeat split; auto; tauto|]. destruct (Z.leb_spec 0 (value x)) as [G|G]; [repeat split; auto; tauto|]. assert (Nx' : num x = 2 ^ bw x + value x) by (pose proof (num_range x); lia). clear Nx. repeat split; lia.
Qed.

(** * assignment *)
Lemma assign_iff dst src n m s s2 : 1 <= n -> 1 <= m -> typed dst n s -> typed src m s2 -> tidy src ->
  (exists r, bit_assign dst src = Ok r /\ num r = value src mod 2 ^ n) <->
  ((n <= 64 /\ m <= 64) \/ n = m) /\ (n = 1 -> num src = 0 \/ Z.odd (num src) = true) /\ (2 <= n -> m = 1 -> s2 = true -> num src = 0).
Proof.
  intros Hn Hm Td Ts D. pose proof (typed_bw _ _ _ Hn Td) as Wd. pose proof (typed_bw _ _ _ Hm Ts) as Ws. rewrite assign_any by (exact (proj1 Td) || exact (proj1 Ts)). unfold any_assign, small. rewrite Wd, Ws.
  pose proof (proj1 Ts) as Vs. assert (Ss : bsgn src = s2) by apply Ts. pose proof (num_range src) as R. rewrite Ws in R.
  assert (E1 : width (bmsb dst) (blsb dst) = n) by exact Wd. assert (Vm : value src mod 2 = num src mod 2). { unfold value. destruct (bsgn src); [|reflexivity]. unfold snum, twos. destruct (Z.testbit (num src) (bw src - 1)); [|reflexivity]. rewrite Ws. replace (2 ^ m) with (2 ^ (m - 1) * 2) by (rewrite Z.mul_comm, <- Z.pow_succ_r by lia; f_equal; lia). rewrite <- (Z.mod_add (num src) (- 2 ^ (m - 1)) 2) by lia. f_equal. lia. }
  destruct (((n <=? 64) && (m <=? 64)) || (negb (n <=? 64) && (m =? n))) eqn:Q.
  2: { split; [intros (r & X & _); discriminate|]. lia. }
  assert (Nr : num (rewritten dst (stored src)) = if n =? 1 then (if stored src =? 0 then 0 else 1) else stored src mod 2 ^ n).
  { unfold rewritten. destruct (Z.eqb_spec n 1) as [E|E]; [|rewrite object_num by lia; now rewrite E1]. unfold object. rewrite E1, E. cbn [Z.leb Z.compare Pos.compare Pos.compare_cont]. unfold num, stored at 1. cbn [bval]. unfold bw. cbn [bmsb blsb]. rewrite E1, E. unfold store. cbn [Z.eqb Pos.eqb]. destruct (stored src =? 0); reflexivity. }
  assert (X : (exists r, Ok (rewritten dst (stored src)) = Ok r /\ num r = value src mod 2 ^ n) <-> num (rewritten dst (stored src)) = value src mod 2 ^ n) by (split; [intros (r & X & Y); injection X as <-; exact Y|intros Y; eauto]). rewrite X, Nr. clear X Nr.
  assert (Z0 : n <= 64 -> m <= 64 -> (stored src = 0 <-> num src = 0)) by (intros; apply (stored_native_range src m s2); (assumption || lia)).
  destruct (Z.eqb_spec n 1) as [E|E].
  - rewrite E in *. change (2 ^ 1) with 2. rewrite Vm, Zmod_odd. destruct (Z.eqb_spec (stored src) 0) as [S0|S0].
    + rewrite Z0 in S0 by lia. rewrite S0. cbn. split; [intros _|reflexivity]. split; [lia|]. split; [auto|lia].
    + rewrite Z0 in S0 by lia. destruct (Z.odd (num src)); split; try discriminate; try reflexivity; [intros _; split; [lia|]; split; [auto|lia]|]. intros (_ & H & _). destruct (H eq_refl); [contradiction|discriminate].
  - destruct (Z.eq_dec m 1) as [E2|E2].
    + rewrite E2 in *. destruct (stored_one src Vs Ws) as [-> C]. assert (Vv : value src = if s2 then - num src else num src). { unfold value. rewrite Ss. destruct s2; [|reflexivity]. unfold snum. rewrite Ws. destruct C as [-> | ->]; reflexivity. }
      rewrite Vv. assert (2 ^ 2 <= 2 ^ n) by (apply Z.pow_le_mono_r; lia). change (2 ^ 2) with 4 in *. destruct s2; [|split; [intros _; split; [lia|]; split; [lia|discriminate]|reflexivity]].
      split; [intros K; split; [lia|]; split; [lia|]|intros (_ & _ & K); rewrite K by lia; reflexivity]. intros _ _ _. destruct C as [C|C]; [exact C|]. rewrite C in K. rewrite Z.mod_small in K by lia. assert (- (1) mod 2 ^ n = 2 ^ n - 1) by (symmetry; apply Z.mod_unique with (-1); lia). lia.
    + split; [intros _; split; [lia|]; split; lia|]. intros _. destruct (Z.le_gt_cases m 64) as [G|G]; [rewrite tidy_stored by (assumption || lia); reflexivity|]. rewrite stored_num by (assumption || right; lia). unfold value. destruct (bsgn src); [|reflexivity]. unfold snum, twos. destruct (Z.testbit (num src) (bw src - 1)); [|reflexivity]. assert (n = m) as -> by lia. rewrite Ws. rewrite <- (Z.mod_add (num src) (-1) (2 ^ m)) by (pose proof (pow2_pos m); lia). f_equal. all: try lia.
Qed.

(** * concatenation with a 2-state vector *)
Lemma concat_bit_iff a b na nb : 1 <= na -> 1 <= nb -> na + nb < 64 -> (na + nb <= 32 \/ 33 <= na) -> ltyped a na false -> typed b nb false -> ltidy a -> tidy b ->
  (exists r, logic_concat_bit a b = Ok r /\ forall p, 0 <= p < na + nb -> sym_at r p = if p <? nb then sym_of_bool (bit_at b p) else sym_at a (p - nb)) <-> known a.
Proof.
  intros Ha Hb L C Ta Tb Da Db. destruct (lconcat_bit a b na nb Ha Hb L C Ta Tb Da Db) as (r & E & T & H). rewrite E. split.
  - intros (r' & E' & H'). injection E' as <-. destruct (first_not (fun p => negb (unknown (sym_at a p))) (lw a)) as [K|(p & Hp & K & M)].
    + rewrite (ltyped_lw a na false Ha Ta). lia.
    + intros p Hp. specialize (K p Hp). now apply negb_true_iff in K.
    + exfalso. rewrite (ltyped_lw a na false Ha Ta) in *. specialize (H p ltac:(lia)). specialize (H' p ltac:(lia)). rewrite H in H'. apply negb_false_iff in K. assert (Mk : bit_at (l_xz a) p = true) by (unfold sym_at, sym_of in K; destruct (bit_at (l_xz a) p), (bit_at (l_val a) p); try discriminate; reflexivity). rewrite Mk in H'.
      destruct (Z.ltb_spec p nb).
      * destruct (bit_at b p); discriminate.
      * specialize (M (p - nb) ltac:(lia)). apply negb_true_iff in M. rewrite <- H' in M. destruct (bit_at (l_val a) (p - nb)); discriminate.
  - intros K. exists r. split; [reflexivity|]. intros p Hp. rewrite H by exact Hp. destruct (lconcat_bit_known a b na nb Ha Hb L C Ta Tb Da Db K) as (r' & E' & _ & H'). rewrite E in E'. injection E' as <-. rewrite <- H by exact Hp. now apply H'.
Qed.

(** * part-select update *)
Lemma update_step_bad x n s op k so st i : 1 <= n -> 1 <= k -> ltyped x n s -> ltyped op k so -> 0 <= st <= i -> i < n -> 64 <= i - st < k -> unknown (sym_at op (i - st)) = true -> logic_update_step st op x i = UB.
Proof.
  intros Hn Hk Tx To Hi Hin Hq U. destruct (ltyped_plain x n s Hn Tx) as (X1 & X2 & X3 & X4). destruct (ltyped_plain op k so Hk To) as (O1 & O2 & O3 & O4).
  pose proof (ltyped_lt x n s Hn Tx) as Ln. pose proof (ltyped_lt op k so Hk To) as Lk.
  unfold logic_update_step. rewrite X1, X2, O1, O2. assert (big_endian (k - 1) 0 = true) as -> by (unfold big_endian; apply Z.leb_le; lia).
  assert (big_endian (n - 1) 0 = true) as -> by (unfold big_endian; apply Z.leb_le; lia). cbn [xorb].
  rewrite Z.max_r, Z.min_l by lia. rewrite !u64_id by lia. replace (i - st <? 0) with false by lia. replace (k - 1 <? i - st) with false by lia. cbn [orb]. rewrite i32_id by lia.
  rewrite (logic_get_spec op (i - st) O4 O3); [|unfold in_range; rewrite O1, O2; lia]. assert (Pl : place (lmsb op) (llsb op) (i - st) = i - st). { unfold place. rewrite O1, O2. rewrite (proj2 (Z.leb_le _ _)) by lia. lia. }
  rewrite Pl, U, (proj2 (Z.leb_le _ _)) by lia. reflexivity.
Qed.
Lemma update_loop_bad n s op k so st : 1 <= n -> 1 <= k -> ltyped op k so -> 0 <= st -> forall c x lo, st <= lo -> lo + Z.of_nat c <= n -> ltyped x n s ->
  (exists q, lo - st <= q < lo + Z.of_nat c - st /\ 64 <= q < k /\ unknown (sym_at op q) = true) -> ofold (logic_update_step st op) (map (fun j => lo + Z.of_nat j) (seq 0 c)) x = UB.
Proof.
  intros Hn Hk To Hs. induction c as [|c IH]; intros x lo Hlo Hc Tx (q & Hq & Hk' & U); [lia|]. cbn [seq map ofold]. rewrite Z.add_0_r.
  assert (D : (64 <= lo - st < k /\ unknown (sym_at op (lo - st)) = true) \/ ~ (64 <= lo - st < k /\ unknown (sym_at op (lo - st)) = true)) by (destruct (unknown (sym_at op (lo - st))); [assert (E : 64 <= lo - st < k \/ ~ 64 <= lo - st < k) by lia; tauto|right; intros [_ X]; discriminate]).
  destruct D as [[D1 D2]|D]; [rewrite (update_step_bad x n s op k so st lo); try assumption; try lia; reflexivity|].
  destruct (update_step x n s op k so st lo Hn Hk Tx To ltac:(lia) ltac:(lia)) as (x' & E & Tx' & _ & _).
  { intros V. unfold LogicConv2.padded in V. destruct (Z.ltb_spec (lo - st) k); [|discriminate]. destruct (Z.lt_ge_cases (lo - st) 64); [assumption|]. exfalso. apply D. split; [lia|exact V]. }
  rewrite E. cbn [bind]. rewrite <- seq_shift, map_map. rewrite <- (IH x' (lo + 1)); [f_equal; apply map_ext; intros; lia|lia|lia|exact Tx'|]. exists q. split; [|auto]. destruct (Z.eq_dec q (lo - st)) as [E2|E2]; [|lia]. exfalso. subst q. tauto.
Qed.
Lemma update_iff x n s op k so a b : 1 <= n -> 1 <= k -> ltyped x n s -> ltyped op k so -> 0 <= a < n -> 0 <= b < n ->
  ((exists r, logic_update_r x a b op = Ok r /\ forall p, 0 <= p < n -> sym_at r p =
      if (Z.min a b <=? p) && (p <=? Z.max a b) then (if p - Z.min a b <? k then sym_at op (p - Z.min a b) else S0) else sym_at x p) <->
   forall q, 64 <= q < k -> q <= Z.abs (a - b) -> unknown (sym_at op q) = false) /\
  (logic_update_r x a b op = UB <-> exists q, 64 <= q < k /\ q <= Z.abs (a - b) /\ unknown (sym_at op q) = true).
Proof.
  intros Hn Hk Tx To Ha Hb.
  assert (B : (exists q, 64 <= q < k /\ q <= Z.abs (a - b) /\ unknown (sym_at op q) = true) -> logic_update_r x a b op = UB).
  { intros (q & H1 & H2 & U). unfold logic_update_r, zrange. apply (update_loop_bad n s op k so); try assumption; try lia. exists q. split; [lia|auto]. }
  assert (G : (forall q, 64 <= q < k -> q <= Z.abs (a - b) -> unknown (sym_at op q) = false) \/ exists q, 64 <= q < k /\ q <= Z.abs (a - b) /\ unknown (sym_at op q) = true).
  { destruct (first_not (fun q => negb ((64 <=? q) && (q <=? Z.abs (a - b)) && unknown (sym_at op q))) k ltac:(lia)) as [K|(q & Hq & K & _)].
    - left. intros q H1 H2. specialize (K q ltac:(lia)). replace (64 <=? q) with true in K by lia. replace (q <=? Z.abs (a - b)) with true in K by lia. now apply negb_true_iff in K.
    - right. exists q. apply negb_false_iff, andb_prop in K. destruct K as [K1 K2]. apply andb_prop in K1. split; [lia|]. split; [lia|exact K2]. }
  destruct G as [G|G].
  - destruct (lupdate x n s op k so a b Hn Hk Tx To Ha Hb G) as (r & E & _ & _ & Q). split; [split; [auto|eauto]|]. rewrite E. split; [discriminate|]. intros (q & H1 & H2 & U). rewrite G in U by assumption. discriminate.
  - specialize (B G). rewrite B. split; [|tauto]. split; [intros (r & X & _); discriminate|]. intros K. destruct G as (q & H1 & H2 & U). rewrite K in U by assumption. discriminate.
Qed.

(** * 4-state division of known numbers *)
Lemma known_not_noticed n l : known l -> ~ noticed_at n l.
Proof. intros K (p & Hp & U & _). rewrite K in U by exact Hp. discriminate. Qed.
Lemma div_zero_iff lop : In lop [logic_div; logic_rem] -> forall a b, lvec a -> lvec b -> tidy (l_xz a) -> tidy (l_xz b) -> known a -> known b -> lsgn b = false -> tidy (l_val b) -> lop a b <> IllFormed ->
  (exists r, lop a b = Ok r /\ all_x r) <-> zero_at (Z.max (lw a) (lw b)) (num (l_val b)).
Proof.
  intros I a b Va Vb Ta Tb Ka Kb Sb Db N. rewrite (arith_x_iff true lop); try assumption; [|destruct I as [<-|[<-|[]]]; cbn; tauto|auto].
  pose proof (known_not_noticed (Z.max (lw a) (lw b)) a Ka). pose proof (known_not_noticed (Z.max (lw a) (lw b)) b Kb). tauto.
Qed.
(** * match *)
Lemma bit_match_iff a b : vec a -> vec b -> tidy a -> tidy b -> bsgn a = false -> bsgn b = false ->
  (bit_match a b = Ok (num a =? num b) <-> num a = num b \/ ~ confused a b) /\ (bit_nmatch a b = Ok (negb (num a =? num b)) <-> num a = num b \/ ~ confused a b).
Proof.
  intros Va Vb Da Db Sa Sb. pose proof (eq_iff a b Va Vb Da Db Sa Sb) as H. split; [exact H|]. unfold bit_nmatch, bit_match. rewrite <- H. destruct (bit_eq a b) as [x| | | |]; cbn; try (split; discriminate). split; intros E; injection E as E; f_equal; [destruct x, (num a =? num b); try reflexivity; discriminate|now rewrite E].
Qed.
