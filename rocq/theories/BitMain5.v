(** bit: the final form of the lemmas behind PropsBit.v, fifth part (storage above the width, definedness). *)
From Coq Require Import ZArith List Bool Lia Zify ZifyBool.
From Verif Require Import Cpp BigNum Bit Logic Spec ZBits Words BigNumProofs BigArith BitProofs BitSlice BitExt BitOps
  BitShift BitCmp BitArith BitMain BitMain2 BitMain3 BitMain4.
Import ListNotations.
Open Scope Z_scope.

Lemma shr_native_tidy a amt n k r : vec a -> vec amt -> bw a = n -> n <= 64 -> bw amt <= 64 -> stored amt = k -> 0 <= k < n ->
  bsgn a = false -> tidy a -> bit_shr a amt = Ok r -> tidy r.
Proof.
  intros Va Vk Wa Hn Wk Sk Hk Sg Ya E. pose proof (bw_pos a) as Hp. rewrite Wa in Hp.
  pose proof (num_of_tidy a Ya Sg) as Ns. pose proof (num_range a) as R. rewrite Wa, Ns in R.
  destruct (vec_cases_n a n Va Wa) as [(x & Ea & Na & Ia & Sa & Ma) | (x & Ea & Na & _)]; [|lia].
  destruct (vec_cases amt Vk) as [(y & Eb & Nb & Ib & Sb) | (y & Eb & Nb & _)]; [|lia].
  rewrite Sk in Sb. rewrite Sa in *. unfold bit_shr in E. rewrite Ea, Eb in E. rewrite (bsize_bw a n Wa) in E. cbn zeta in E.
  rewrite <- Sb in E. rewrite Sg in *. cbn [andb] in E.
  set (t := hty n false) in *. unfold t in E at 2. rewrite conv_amount in E by lia. fold t in E.
  unfold c_shr in E. cbn zeta in E. pose proof (hty_width n false ltac:(lia)) as Hw. fold t in Hw. pose proof (promote_width t).
  replace ((0 <=? k) && (k <? iwidth (promote t))) with true in E by lia. cbn [bind] in E.
  destruct (c_sub _ _ _ _) as [req| | | |]; cbn [bind] in E; try discriminate.
  unfold value_mask, c_shr in E. cbn zeta in E. destruct (_ && _) in E; cbn [bind] in E; [|discriminate].
  set (m := conv t (Z.shiftr u64max _)) in E. assert (Im : in_ity t m = true) by apply conv_in_ity. clearbody m.
  inversion E as [E']. clear E. rewrite nat_bit_eq by lia.
  assert (Rs : 0 <= Z.shiftr x k <= x).
  { rewrite Z.shiftr_div_pow2 by lia. assert (0 < 2 ^ k) by (apply pow2_pos; lia).
    split; [apply Z.div_pos; lia | apply Z.div_le_upper_bound; nia]. }
  assert (Ix : in_ity t (Z.shiftr x k) = true).
  { revert Ia. rewrite !in_ity_range. unfold t. destruct (Z.eq_dec n 1) as [->|]; [rewrite hty_1; cbn; lia|].
    rewrite hty_signed by lia. lia. }
  assert (Pm : 0 <= m).
  { revert Im. rewrite in_ity_range. unfold t. destruct (Z.eq_dec n 1) as [->|]; [rewrite hty_1; cbn; lia|].
    rewrite hty_signed by lia. lia. }
  unfold c_and. cbn zeta. rewrite uac_promote_l, uac_same. rewrite !conv_promote by assumption.
  apply nat_bit_tidy; rewrite width_plain by lia; [lia|]. apply land_range; lia.
Qed.

Lemma tidy_ops a b n : typed a n false -> typed b n false -> 1 <= n -> tidy a -> tidy b ->
  (forall r, bit_and a b = Ok r -> tidy r) /\ (forall r, bit_or a b = Ok r -> tidy r) /\ (forall r, bit_xor a b = Ok r -> tidy r) /\
  (num b <> 0 -> div_visible a b n -> (forall r, bit_div a b = Ok r -> tidy r) /\ (forall r, bit_rem a b = Ok r -> tidy r)) /\
  (forall amt r, vec amt -> tidy amt -> 0 <= value amt -> (n <= 64 -> bw amt <= 64 /\ value amt < n) -> bit_shr a amt = Ok r -> tidy r) /\
  (forall i x r, 0 <= i < n -> bit_set a i x = Ok r -> tidy r) /\
  (forall i j r, 0 <= i < n -> 0 <= j < n -> bit_slice_c a i j = Ok r -> tidy r) /\
  (forall m r, n <= m < 2 ^ 31 -> bit_extend a m = Ok r -> tidy r) /\
  (forall i j op k s r, 0 <= i < n -> 0 <= j < n -> 1 <= k -> typed op k s -> Z.abs (i - j) + 1 <= k -> bit_update_r a i j op = Ok r -> tidy r).
Proof.
  intros Ta Tb Hn Ya Yb. assert (Va := typed_vec _ _ _ Ta). assert (Vb := typed_vec _ _ _ Tb).
  assert (Wa := typed_bw _ _ _ Hn Ta). assert (Wb := typed_bw _ _ _ Hn Tb). assert (Sa := typed_sgn _ _ _ Ta). assert (Sb := typed_sgn _ _ _ Tb).
  assert (Be := plain_be _ _ _ Tb Hn).
  split; [|split; [|split; [|split; [|split; [|split; [|split; [|split]]]]]]].
  - intros r E. destruct (proj1 bit_and_spec2 a b n Va Vb Wa Wb Be) as (r' & E' & _ & _ & Y). rewrite E in E'. inversion E'; subst. apply Y; congruence.
  - intros r E. destruct (proj1 bit_or_spec2 a b n Va Vb Wa Wb Be) as (r' & E' & _ & _ & Y). rewrite E in E'. inversion E'; subst. apply Y; congruence.
  - intros r E. destruct (proj1 bit_xor_spec2 a b n Va Vb Wa Wb Be) as (r' & E' & _ & _ & Y). rewrite E in E'. inversion E'; subst. apply Y; congruence.
  - intros Nz C. destruct (division a b n n Hn Hn Ta Tb Ya Yb Nz ltac:(rewrite Z.max_id; exact C)) as (q & r & Eq & Er & _ & _ & Yq & Yr & _).
    split; intros r' E; congruence.
  - intros amt r Vk Yk Hk C E. destruct (Z.leb_spec n 64).
    + destruct (C ltac:(lia)). apply (shr_native_tidy a amt n (value amt) r); try assumption; try lia. apply tidy_value_stored; assumption.
    + destruct (shr_big a amt n (value amt)) as (r' & E' & _ & _ & Y); try assumption; try lia; [apply tidy_value_stored; assumption|]. congruence.
  - intros i x r Hi E. destruct (rd_plain a n false i Ta Hn) as (_ & R2 & _).
    destruct (bit_set_spec a i x Va ltac:(rewrite R2, Wa; lia)) as (r' & E' & _ & _ & _ & _ & _ & Y). rewrite E in E'. inversion E'; subst. auto.
  - intros i j r Hi Hj E. destruct (Z.leb_spec n 64) as [H|H].
    + destruct (bit_slice_c_unsigned a n i j Hn Ta Hi Hj (or_introl H)) as (r' & E' & _ & _ & Y). congruence.
    + destruct (Z.eq_dec (Z.abs (i - j) + 1) 65) as [E65|N65].
      * rewrite (slice_65_rejected a n i j) in E by (assumption || lia). discriminate.
      * destruct (bit_slice_c_unsigned a n i j Hn Ta Hi Hj (or_intror N65)) as (r' & E' & _ & _ & Y). congruence.
  - intros m r Hm E. destruct (bit_extend_u_tidy a n m ltac:(lia) ltac:(lia) Ta Ya) as (r' & E' & _ & _ & Y). congruence.
  - intros i j op k s r Hi Hj Hk To Hw E. destruct (update_runtime a n false op k s i j Hn Hk Ta To Hi Hj Hw) as (r' & E' & _ & _ & Y).
    rewrite E in E'. inversion E'; subst. auto.
Qed.
Lemma tidy_counter : exists a r1 r2 r3 r4 amt, typed a 4 false /\ tidy a /\ typed amt 4 false /\ tidy amt /\
  bit_add a a = Ok r1 /\ ~ tidy r1 /\ bit_mul a a = Ok r2 /\ ~ tidy r2 /\ bit_shl a amt = Ok r3 /\ ~ tidy r3 /\ bit_not a = r4 /\ ~ tidy r4.
Proof.
  exists (bit_of_native 3 0 false 9), (mkBit 3 0 false (HN 18)), (mkBit 3 0 false (HN 81)), (mkBit 3 0 false (HN 18)), (mkBit 3 0 false (HN 246)), (bit_of_native 3 0 false 1).
  conc.
Qed.

(** definedness *)
Lemma defined_ops a b n : typed a n false -> typed b n false -> 1 <= n ->
  (exists r, bit_add a b = Ok r) /\ (exists r, bit_sub a b = Ok r) /\
  (n <= 8 \/ 17 <= n <= 64 -> exists r, bit_mul a b = Ok r) /\
  (n <= 64 -> tidy a -> tidy b -> num b <> 0 -> (exists q, bit_div a b = Ok q) /\ (exists r, bit_rem a b = Ok r)) /\
  (n <= 64 -> exists r, bit_neg a = Ok r).
Proof.
  intros Ta Tb Hn. assert (Va := typed_vec _ _ _ Ta). assert (Vb := typed_vec _ _ _ Tb).
  assert (Wa := typed_bw _ _ _ Hn Ta). assert (Wb := typed_bw _ _ _ Hn Tb). assert (Sa := typed_sgn _ _ _ Ta). assert (Sb := typed_sgn _ _ _ Tb).
  assert (Be := plain_be _ _ _ Tb Hn).
  assert (NO : forall z, no_overflow z a b n) by (intros z H; congruence).
  split; [|split; [|split; [|split]]].
  - destruct (Z.eq_dec n 1) as [E1|N1].
    + destruct (vec_cases_n a n Va Wa) as [(x & Ea & _ & Ia & _) | (x & _ & N & _)]; [|lia].
      destruct (vec_cases_n b n Vb Wb) as [(y & Eb & _ & Ib & _) | (y & _ & N & _)]; [|lia].
      unfold bit_add, bit_arith. rewrite (bsize_bw a n Wa), (bsize_bw b n Wb), Z.eqb_refl.
      unfold bit_add_same, bit_bin, requires, same_size_op. cbn zeta. rewrite (bsize_bw a n Wa), (bsize_bw b n Wb), Z.eqb_refl.
      replace (blsb b <=? bmsb b) with true by lia. cbn [andb]. rewrite Ea, Eb, Sa, Sb in *. rewrite E1 in *. rewrite hty_1 in *. apply in_bool in Ia, Ib.
      destruct Ia as [-> | ->], Ib as [-> | ->]; eexists; reflexivity.
    + destruct (add_same_width a b n Va Vb Wa Wb Be ltac:(lia) (NO _)) as (r & E & _). eauto.
  - destruct (sub_same_width a b n Va Vb Wa Wb Be (NO _)) as (r & E & _). eauto.
  - intros C. destruct (mul_same_width a b n Va Vb Wa Wb Be) as (r & E & _); [|eauto].
    destruct C; [left; assumption | right; left]. split; [lia|]. rewrite Sa. reflexivity.
  - intros H Ya Yb Nz. destruct (division a b n n Hn Hn Ta Tb Ya Yb Nz) as (q & r & Eq & Er & _); [intros H'; lia|]. eauto.
  - intros H. destruct (negation a n false ltac:(lia) Ta) as (r & E & _); [discriminate|]. eauto.
Qed.
Lemma undefined_counter :
  (exists a b, typed a 32 true /\ typed b 32 true /\ tidy a /\ tidy b /\ bit_add a b = UB) /\
  (exists a, typed a 16 false /\ tidy a /\ bit_mul a a = UB) /\
  (exists a, typed a 128 false /\ tidy a /\ bit_mul a a = UB) /\
  (exists a b, typed a 8 false /\ typed b 8 false /\ bit_div a b = UB).
Proof.
  split; [|split; [|split]].
  - exists (bit_of_native 31 0 true (2 ^ 31 - 1)), (bit_of_native 31 0 true 1). conc.
  - exists (bit_of_native 15 0 false 65535). conc.
  - exists (mkBit 127 0 false (HB [0; 1])). conc.
  - exists (bit_of_native 7 0 false 5), (bit_of_native 7 0 false 0). conc.
Qed.

(** counterexamples *)
Lemma reductions_counter :
  (exists b, typed b 1 false /\ num b = 1 /\ bit_r_and b = false) /\
  (exists b, typed b 8 true /\ tidy b /\ num b = 255 /\ bit_r_and b = false) /\
  (exists b, typed b 128 false /\ tidy b /\ bit_at b 32 = true /\ bit_any_set b = false) /\
  (exists b, typed b 128 false /\ tidy b /\ num b = 1 /\ bit_r_and b = true).
Proof.
  split; [|split; [|split]].
  - exists (bit_of_native 0 0 false 1). conc.
  - exists (bit_of_native 7 0 true (-1)). conc.
  - exists (mkBit 127 0 false (HB [2 ^ 32; 0])). conc.
  - exists (mkBit 127 0 false (HB [1; 0])). conc.
Qed.
Lemma visible_low z : z mod 2 ^ 32 <> 0 -> visible z.
Proof.
  intros H L. exfalso. apply H. specialize (L 0 ltac:(lia)). change (64 * 0) with 0 in L. rewrite Z.pow_0_r, Z.div_1_r in L. exact L.
Qed.
Definition u8c := bit_of_native 7 0 false 200.
Lemma c24_ex : let u8 := bit_of_native 7 0 false 200 in let u70 := bit_of_arith 69 0 false (2 ^ 63 + 9) in
  vec u8 /\ tidy u8 /\ bsgn u8 = false /\ 2 <= bw u8 <= 64 /\ vec u70 /\ tidy u70 /\ 65 <= bw u70 /\ visible (num u70).
Proof. do 7 (split; [conc|]). apply visible_low. conc. Qed.
Lemma shr_counter : exists a k, typed a 8 false /\ typed k 8 false /\ num k = 8 /\ bit_shr a k = UB.
Proof. exists (bit_of_native 7 0 false 200), (bit_of_native 7 0 false 8). conc. Qed.
Lemma shl_counter :
  (exists a k, typed a 8 false /\ typed k 8 false /\ num k = 32 /\ bit_shl a k = UB) /\
  (exists a k r, typed a 1 false /\ typed k 1 false /\ num k = 1 /\ bit_shl a k = Ok r /\ num r <> (num a * 2 ^ 1) mod 2 ^ 1).
Proof.
  split.
  - exists (bit_of_native 7 0 false 200), (bit_of_native 7 0 false 32). conc.
  - exists (bit_of_native 0 0 false 1), (bit_of_native 0 0 false 1), (bit_of_native 0 0 false 1). conc.
Qed.
Lemma ashr_counter : exists a k r, typed a 128 true /\ tidy a /\ value a = -2 /\ typed k 8 false /\ num k = 1 /\
  bit_ashr a k = Ok r /\ num r <> (value a / 2 ^ 1) mod 2 ^ 128.
Proof.
  exists (mkBit 127 0 true (HB [u64max - 1; u64max])), (bit_of_native 7 0 false 1), (mkBit 127 0 false (HB [u64max; 2 ^ 63 + 2 ^ 62 - 1])). conc.
Qed.
Lemma order_counter : exists a b, typed a 8 false /\ typed b 128 false /\ tidy a /\ tidy b /\
  bit_gt a b = UB /\ bit_lt a b = UB /\ bit_ge a b = UB /\ bit_le a b = UB.
Proof. exists (bit_of_native 7 0 false 200), (mkBit 127 0 false (HB [5; 7])). conc. Qed.
Lemma signed_order_counter : exists a ws, typed a 70 true /\ tidy a /\ bval a = HB ws /\ bit_gt a a = Fuel /\
  forall fuel, bn_gt_f fuel 70 true ws 70 true ws = Fuel.
Proof. exists min70, [0; 2 ^ 5]. do 4 (split; [conc|]). exact min70_loop. Qed.
Lemma mixed_sign_counter : exists a b, typed a 8 true /\ typed b 8 false /\ tidy a /\ tidy b /\ num a = num b /\ bit_gt a b = Ok true.
Proof. exists (bit_of_native 7 0 true (-1)), (bit_of_native 7 0 false 255). conc. Qed.
Lemma add_counter : exists a r, typed a 1 false /\ bit_add a a = Ok r /\ num r <> (num a + num a) mod 2 ^ 1.
Proof. exists (bit_of_native 0 0 false 1), (bit_of_native 0 0 false 1). conc. Qed.
Lemma sub_counter : exists a b, typed a 32 true /\ typed b 32 true /\ tidy a /\ tidy b /\ bit_sub a b = UB /\ bit_neg a = UB.
Proof. exists (bit_of_native 31 0 true (- 2 ^ 31)), (bit_of_native 31 0 true 1). conc. Qed.
Lemma mul_counter : (exists a, typed a 16 false /\ tidy a /\ bit_mul a a = UB) /\
  (exists a, typed a 128 false /\ tidy a /\ bit_mul a a = UB).
Proof. split; [exists (bit_of_native 15 0 false 65535) | exists (mkBit 127 0 false (HB [0; 1]))]; conc. Qed.
Lemma div_counter : exists a b q, typed a 128 false /\ typed b 128 false /\ tidy a /\ tidy b /\ num b = 2 ^ 32 /\ num a = 2 ^ 40 /\
  bit_div a b = Ok q /\ num q = 0.
Proof. exists (mkBit 127 0 false (HB [2 ^ 40; 0])), (mkBit 127 0 false (HB [2 ^ 32; 0])), (mkBit 127 0 false (HB [0; 0])). conc. Qed.
Lemma c40_ex : let u8 := bit_of_native 7 0 false 200 in let u4 := bit_of_native 3 0 false 5 in let w := mkBit 127 0 false (HB [2 ^ 63 + 5; 7]) in
  typed u8 8 false /\ typed u4 4 false /\ tidy u8 /\ tidy u4 /\ num u4 <> 0 /\
  typed w 128 false /\ tidy w /\ num w <> 0 /\ visible (num w) /\ visible (num w / 2 ^ 64).
Proof. do 8 (split; [conc|]). split; apply visible_low; conc. Qed.
Lemma sdiv_counter : exists a b, typed a 32 true /\ typed b 32 true /\ tidy a /\ tidy b /\ snum b <> 0 /\ bit_div a b = UB.
Proof. exists (bit_of_native 31 0 true (- 2 ^ 31)), (bit_of_native 31 0 true (-1)). conc. Qed.
Lemma queries_ok n ws : 65 <= n -> words_ok n ws = true -> visible (words_num ws / 2 ^ 64) ->
  bn_is_one ws = (words_num ws =? 1) /\ bn_fit_in_64 ws = (words_num ws <? 2 ^ 64).
Proof. intros Hn W. apply words_ok_wfn in W. apply (queries n); assumption. Qed.
Lemma to_number_counter : exists a r, typed a 4 false /\ tidy a /\ bit_add a a = Ok r /\ typed r 4 false /\ num r = 0 /\ bit_to_num r = Ok 16.
Proof. exists (bit_of_native 3 0 false 8), (mkBit 3 0 false (HN 16)). conc. Qed.
