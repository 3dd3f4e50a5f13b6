(** bit: the final form of the lemmas behind the property theorems (access, slices, widths). *)
From Coq Require Import ZArith List Bool Lia Zify ZifyBool.
From Verif Require Import Cpp BigNum Bit Logic Spec ZBits Words BigNumProofs BigArith BitProofs BitSlice BitExt BitOps.
Import ListNotations.
Open Scope Z_scope.

Ltac conc := repeat split; vm_compute; reflexivity || discriminate || (intro; discriminate) || (intros [? ?]; discriminate).

Definition same_type (a b : bit) : Prop := bmsb a = bmsb b /\ blsb a = blsb b /\ bsgn a = bsgn b.

Lemma bw_same a b : bmsb a = bmsb b -> blsb a = blsb b -> bw a = bw b.
Proof. unfold bw. congruence. Qed.

(** C01 *)
Lemma set_get_zero_based b i x : vec b -> Z.min (bmsb b) (blsb b) = 0 -> in_range (bmsb b) (blsb b) i ->
  (forall j, in_range (bmsb b) (blsb b) j -> bit_get b j = Ok (bit_at b (place (bmsb b) (blsb b) j))) /\
  exists b', bit_set b i x = Ok b' /\ vec b' /\ bmsb b' = bmsb b /\ blsb b' = blsb b /\ bsgn b' = bsgn b /\
    bit_get b' i = Ok x /\
    (forall j, in_range (bmsb b) (blsb b) j -> j <> i -> bit_get b' j = bit_get b j).
Proof.
  intros V M R.
  assert (G : forall b, vec b -> Z.min (bmsb b) (blsb b) = 0 -> forall j, in_range (bmsb b) (blsb b) j ->
    bit_get b j = Ok (bit_at b (place (bmsb b) (blsb b) j))).
  { clear. intros b V M j Hj. destruct (pos_zero_based b j M Hj) as (E1 & _ & E3). rewrite <- E1. apply bit_get_spec; [exact V | lia]. }
  split; [apply G; assumption|].
  destruct (pos_zero_based b i M R) as (E1 & E2 & E3).
  destruct (bit_set_spec b i x V ltac:(lia)) as (b' & S & V' & Hm & Hl & Hs & B & _).
  exists b'. repeat (split; [assumption|]). rewrite E2 in B. split.
  - rewrite G by (rewrite ?Hm, ?Hl; assumption). rewrite Hm, Hl, B, Z.eqb_refl by exact E3. reflexivity.
  - intros j Hj Nj. rewrite !G by (rewrite ?Hm, ?Hl; assumption). rewrite Hm, Hl.
    destruct (pos_zero_based b j M Hj) as (_ & _ & F3). rewrite B by exact F3.
    destruct (Z.eqb_spec (place (bmsb b) (blsb b) j) (place (bmsb b) (blsb b) i)) as [E|_]; [|reflexivity].
    apply place_inj in E. contradiction.
Qed.

(** C02: [operator[]] is right for ascending ranges, [set] for descending ones *)
Lemma get_ascending b j : vec b -> bmsb b < blsb b -> in_range (bmsb b) (blsb b) j ->
  bit_get b j = Ok (bit_at b (place (bmsb b) (blsb b) j)).
Proof.
  intros V L R. assert (E : rd_pos b j = place (bmsb b) (blsb b) j).
  { unfold rd_pos, place. destruct (blsb b <=? bmsb b) eqn:C; [lia | reflexivity]. }
  rewrite <- E. apply bit_get_spec; [exact V|]. rewrite E. unfold place, bw, width, in_range in *.
  destruct (blsb b <=? bmsb b) eqn:C; lia.
Qed.
Lemma set_descending b i x : vec b -> blsb b <= bmsb b -> in_range (bmsb b) (blsb b) i ->
  exists b', bit_set b i x = Ok b' /\ vec b' /\ bmsb b' = bmsb b /\ blsb b' = blsb b /\ bsgn b' = bsgn b /\
    forall p, 0 <= p < bw b -> bit_at b' p = if p =? place (bmsb b) (blsb b) i then x else bit_at b p.
Proof.
  intros V L R. assert (E : wr_pos b i = place (bmsb b) (blsb b) i).
  { unfold wr_pos, rd_pos, place. destruct (blsb b <=? bmsb b) eqn:C; lia. }
  destruct (bit_set_spec b i x V) as (b' & S & V' & Hm & Hl & Hs & B & _).
  { rewrite E. unfold place, bw, width, in_range in *. destruct (blsb b <=? bmsb b) eqn:C; lia. }
  exists b'. rewrite E in B. auto 10.
Qed.

(** slices in terms of positions *)
Lemma field_bits r x w k n : 0 <= k -> 0 <= w -> 0 <= n -> num r = field (num x) k w ->
  forall p, 0 <= p < w -> bit_at r p = bit_at x (k + p).
Proof.
  intros Hk Hw Hn E p Hp. unfold bit_at. rewrite E, field_testbit by lia.
  replace (p <? w) with true by lia. rewrite Z.add_comm. reflexivity.
Qed.

Lemma slice_const_unsigned x n a b : 1 <= n -> typed x n false -> 0 <= a < n -> 0 <= b < n ->
  (n <= 64 \/ Z.abs (a - b) + 1 <> 65) ->
  exists r, bit_slice_c x a b = Ok r /\ typed r (Z.abs (a - b) + 1) false /\ tidy r /\
    forall p, 0 <= p < Z.abs (a - b) + 1 -> bit_at r p = bit_at x (Z.min a b + p).
Proof.
  intros Hn T Ha Hb H. destruct (bit_slice_c_unsigned x n a b Hn T Ha Hb H) as (r & E & Tr & Nr & Ti).
  exists r. repeat (split; [assumption|]). apply (field_bits r x _ _ n); (lia || exact Nr).
Qed.
Lemma slice_const_signed x n a b : typed x n true -> 0 <= a < n -> 0 <= b < n ->
  (2 <= n <= 64 /\ a <> b /\ Z.max a b + 2 <= iwidth (hty n true)) \/ (65 <= n /\ Z.abs (a - b) + 1 <> 65) ->
  exists r, bit_slice_c x a b = Ok r /\ typed r (Z.abs (a - b) + 1) false /\
    forall p, 0 <= p < Z.abs (a - b) + 1 -> bit_at r p = bit_at x (Z.min a b + p).
Proof.
  intros T Ha Hb [(Hn & D & M) | (Hn & D)].
  - destruct (bit_slice_c_signed x n a b Hn T Ha Hb D M) as (r & E & Tr & Nr).
    exists r. repeat (split; [assumption|]). apply (field_bits r x _ _ n); (lia || exact Nr).
  - destruct (bit_slice_c_signed_big x n a b Hn T Ha Hb D) as (r & E & Tr & Nr & _).
    exists r. repeat (split; [assumption|]). apply (field_bits r x _ _ n); (lia || exact Nr).
Qed.
Lemma slice_runtime x n s a b : 2 <= n -> typed x n s -> 0 <= a < n -> 0 <= b < n ->
  exists r, bit_slice_r x (Z.abs (a - b) + 1) a b = Ok r /\ typed r (Z.abs (a - b) + 1) false /\
    forall p, 0 <= p < Z.abs (a - b) + 1 -> bit_at r p = bit_at x (Z.min a b + p).
Proof.
  intros Hn T Ha Hb. destruct (bit_slice_r_spec x n s a b Hn T Ha Hb) as (r & E & Tr & Nr & _).
  exists r. repeat (split; [assumption|]). apply (field_bits r x _ _ n); (lia || exact Nr).
Qed.
Lemma i32_id z : - 2 ^ 31 <= z < 2 ^ 31 -> i32 z = z.
Proof. intros. apply swrap_id; lia. Qed.
Lemma slice_indexed x n s k (up : bool) base : 2 <= n -> typed x n s -> 1 <= k -> 0 <= base < n ->
  (if up then base + k <= n else k <= base + 1) ->
  exists r, bit_slice_idx x k up base = Ok r /\ typed r k false /\
    forall p, 0 <= p < k -> bit_at r p = bit_at x ((if up then base else base - k + 1) + p).
Proof.
  intros Hn T Hk Hb H. pose proof (typed_lt x n s ltac:(lia) T). unfold bit_slice_idx. rewrite i32_id by lia. cbn zeta.
  destruct up.
  - destruct (slice_runtime x n s base (base + (k - 1)) Hn T Hb ltac:(lia)) as (r & E & Tr & Nr).
    replace (Z.abs (base - (base + (k - 1))) + 1) with k in * by lia.
    exists r. repeat (split; [assumption|]). intros p Hp. rewrite Nr by lia. f_equal. lia.
  - destruct (slice_runtime x n s base (base - (k - 1)) Hn T Hb ltac:(lia)) as (r & E & Tr & Nr).
    replace (Z.abs (base - (base - (k - 1))) + 1) with k in * by lia.
    exists r. repeat (split; [assumption|]). intros p Hp. rewrite Nr by lia. f_equal. lia.
Qed.

(** C08, C09 *)
Lemma extend_zero x n m : 1 <= n <= m -> m < 2 ^ 31 -> typed x n false -> tidy x ->
  exists r, bit_extend x m = Ok r /\ typed r m false /\ num r = num x /\ tidy r.
Proof. apply bit_extend_u_tidy. Qed.
Lemma extend_sign x n m : 2 <= n <= 64 -> n <= m < 2 ^ 31 -> typed x n true -> tidy x ->
  exists r, bit_extend x m = Ok r /\ typed r m true /\ snum r = snum x /\ tidy r.
Proof. apply bit_extend_s_tidy. Qed.

(** C13 *)
Definition bit_at_bits (r : bit) (n : Z) (f : Z -> bool) : Prop := forall p, 0 <= p < n -> bit_at r p = f p.

Lemma bitwise_and_same a b n : vec a -> vec b -> bw a = n -> bw b = n -> blsb b <= bmsb b ->
  exists r, bit_and a b = Ok r /\ typed r n (bsgn a && bsgn b) /\
    forall p, 0 <= p < n -> bit_at r p = bit_at a p && bit_at b p.
Proof.
  intros Va Vb Wa Wb Be. destruct (proj1 bit_and_spec2 a b n Va Vb Wa Wb Be) as (r & E & T & N & _).
  exists r. repeat (split; [assumption|]). intros p _. unfold bit_at. rewrite N. apply Z.land_spec.
Qed.
Lemma bitwise_or_same a b n : vec a -> vec b -> bw a = n -> bw b = n -> blsb b <= bmsb b ->
  exists r, bit_or a b = Ok r /\ typed r n (bsgn a && bsgn b) /\
    forall p, 0 <= p < n -> bit_at r p = bit_at a p || bit_at b p.
Proof.
  intros Va Vb Wa Wb Be. destruct (proj1 bit_or_spec2 a b n Va Vb Wa Wb Be) as (r & E & T & N & _).
  exists r. repeat (split; [assumption|]). intros p _. unfold bit_at. rewrite N. apply Z.lor_spec.
Qed.
Lemma bitwise_xor_same a b n : vec a -> vec b -> bw a = n -> bw b = n -> blsb b <= bmsb b ->
  exists r, bit_xor a b = Ok r /\ typed r n (bsgn a && bsgn b) /\
    forall p, 0 <= p < n -> bit_at r p = xorb (bit_at a p) (bit_at b p).
Proof.
  intros Va Vb Wa Wb Be. destruct (proj1 bit_xor_spec2 a b n Va Vb Wa Wb Be) as (r & E & T & N & _).
  exists r. repeat (split; [assumption|]). intros p _. unfold bit_at. rewrite N. apply Z.lxor_spec.
Qed.
Lemma bitwise_not a : vec a -> typed (bit_not a) (bw a) false /\
  forall p, 0 <= p < bw a -> bit_at (bit_not a) p = negb (bit_at a p).
Proof.
  intros V. destruct (bit_not_spec a (bw a) V eq_refl) as [T N]. split; [exact T|]. intros p Hp.
  unfold bit_at. rewrite N. pose proof (num_range a) as R.
  replace (2 ^ bw a - 1 - num a) with (Z.lnot (num a) mod 2 ^ bw a).
  - rewrite testbit_mod_pow2, Z.lnot_spec by lia. replace (p <? bw a) with true by lia. reflexivity.
  - rewrite lnot_mod by lia. rewrite (Z.mod_small (num a)) by exact R. reflexivity.
Qed.

Lemma bitwise_mixed_bits op zop bop : bit_spec2 op zop ->
  (forall a b p, 0 <= p -> Z.testbit (zop a b) p = bop (Z.testbit a p) (Z.testbit b p)) ->
  forall a b na nb sa sb, 1 <= na -> 1 <= nb -> na <> nb -> typed a na sa -> typed b nb sb ->
    extendable a -> extendable b ->
    exists r, op a b = Ok r /\ typed r (Z.max na nb) (sa && sb) /\
      forall p, 0 <= p < Z.max na nb -> bit_at r p = bop (Z.testbit (value a) p) (Z.testbit (value b) p).
Proof.
  intros [_ H] Z a b na nb sa sb Hna Hnb D Ta Tb Xa Xb.
  destruct (H a b na nb sa sb Hna Hnb D Ta Tb Xa Xb) as (r & E & T & N & _).
  exists r. repeat (split; [assumption|]). intros p Hp. unfold bit_at. rewrite N, Z by lia.
  rewrite !testbit_mod_pow2 by lia. replace (p <? Z.max na nb) with true by lia. reflexivity.
Qed.

(** remaining pieces of PropsBit.v *)
Lemma set_get_offset_counter : exists b b' i, vec b /\ in_range (bmsb b) (blsb b) i /\
  bit_set b i true = Ok b' /\ bit_get b' i = Ok false.
Proof. exists (bit_zero 5 2 false). eexists. exists 2. conc. Qed.
Lemma access_any_range b i x : vec b -> in_range (bmsb b) (blsb b) i ->
  (bmsb b < blsb b -> bit_get b i = Ok (bit_at b (place (bmsb b) (blsb b) i))) /\
  (blsb b <= bmsb b -> exists b', bit_set b i x = Ok b' /\ vec b' /\
    bmsb b' = bmsb b /\ blsb b' = blsb b /\ bsgn b' = bsgn b /\
    forall p, 0 <= p < bw b -> bit_at b' p = if p =? place (bmsb b) (blsb b) i then x else bit_at b p).
Proof. intros V R. split; intro L; [apply get_ascending | apply set_descending]; assumption. Qed.
Lemma slice_65_rejected x n a b : 65 <= n -> typed x n false -> 0 <= a < n -> 0 <= b < n ->
  Z.abs (a - b) + 1 = 65 -> bit_slice_c x a b = IllFormed.
Proof.
  intros Hn T Ha Hb E. destruct (typed_cases x n false ltac:(lia) T) as [(v & _ & N & _) | (ws & Ex & _)]; [lia|].
  apply (bit_slice_c_65 x n a b ws); (assumption || lia || (rewrite Ex; reflexivity)).
Qed.
Lemma slice_signed_counter : exists x n a b, typed x n true /\ 0 <= a < n /\ 0 <= b < n /\ bit_slice_c x a b = UB.
Proof. exists (bit_of_native 7 0 true (-3)), 8, 7, 0. conc. Qed.
Lemma slice_runtime_counter : exists x r, typed x 1 false /\ bit_slice_r x 1 0 0 = Ok r /\ bit_at r 0 <> bit_at x 0.
Proof. exists (bit_of_native 0 0 false 1). eexists. conc. Qed.
Lemma extend_zero_counter : exists a x r, typed a 4 false /\ bit_add a a = Ok x /\ typed x 4 false /\
  bit_extend x 8 = Ok r /\ num r <> num x.
Proof. exists (bit_of_native 3 0 false 15). eexists. eexists. conc. Qed.
Lemma extend_sign_counter :
  (exists x r, typed x 70 true /\ tidy x /\ bit_extend x 80 = Ok r /\ snum r <> snum x) /\
  (exists x r, typed x 1 true /\ tidy x /\ bit_extend x 8 = Ok r /\ snum r <> snum x).
Proof.
  split; [exists (bit_of_arith 69 0 true 9) | exists (bit_of_native 0 0 true 1)]; eexists; conc.
Qed.
Lemma extend_sign_big x n m : 65 <= n < m -> m < 2 ^ 31 -> typed x n true -> tidy x ->
  exists r, bit_extend x m = Ok r /\ typed r m true /\ (snum r = snum x <-> snum x < 0).
Proof.
  intros Hn Hm T Ti. destruct (bit_extend_s_big x n m Hn Hm T Ti) as (r & E & Tr & N). exists r.
  split; [exact E|]. split; [exact Tr|]. pose proof (num_range x) as R.
  rewrite (typed_bw x n true) in R by (assumption || lia).
  assert (P : 2 ^ m = 2 * 2 ^ (m - 1)) by (rewrite <- Z.pow_succ_r by lia; f_equal; lia).
  assert (Pn : 2 ^ n = 2 * 2 ^ (n - 1)) by (rewrite <- Z.pow_succ_r by lia; f_equal; lia).
  pose proof (pow2_mono n (m - 1) ltac:(lia)).
  assert (Sr : snum r = num x - 2 ^ n).
  { apply (snum_of_num r m true (num x - 2 ^ n)); [lia | exact Tr | | lia].
    rewrite N. symmetry. rewrite <- (Z_mod_plus_full _ 1), Z.mul_1_l.
    replace (num x - 2 ^ n + 2 ^ m) with (num x + (2 ^ m - 2 ^ n)) by lia. apply Z.mod_small. lia. }
  rewrite Sr. unfold snum, twos. rewrite (typed_bw x n true) by (assumption || lia).
  destruct (Z.testbit (num x) (n - 1)); lia.
Qed.
Lemma concat_counter : exists a b r, typed a 31 false /\ typed b 2 false /\ tidy a /\ tidy b /\
  bit_concat a b = Ok r /\ num r <> num a * 2 ^ 2 + num b.
Proof. exists (bit_of_native 30 0 false (2 ^ 30)), (bit_of_native 1 0 false 1). eexists. conc. Qed.
Lemma concat_num a b na nb : 1 <= na -> 1 <= nb -> na + nb < 64 -> (na + nb <= 32 \/ 33 <= na) ->
  typed a na false -> typed b nb false -> tidy a -> tidy b ->
  exists r, bit_concat a b = Ok r /\ typed r (na + nb) false /\ num r = num a * 2 ^ nb + num b /\ tidy r.
Proof.
  intros Ha Hb L H. apply bit_concat_spec; try assumption. destruct H as [H | H].
  - pose proof (promote_32 (hty na false)). lia.
  - unfold hty. replace (na <=? 1) with false by lia. replace (na <=? 8) with false by lia.
    replace (na <=? 16) with false by lia. replace (na <=? 32) with false by lia. cbn. lia.
Qed.
Lemma concat_rejected a b : 64 <= bw a + bw b -> bit_concat a b = IllFormed.
Proof. intros H. unfold bit_concat. replace (bsize a + bsize b <? 64) with false; [reflexivity|]. unfold bw, bsize, width, vsize in *. lia. Qed.
Lemma bitwise_same_all a b n : vec a -> vec b -> bw a = n -> bw b = n -> blsb b <= bmsb b ->
  (exists r, bit_and a b = Ok r /\ typed r n (bsgn a && bsgn b) /\
     forall p, 0 <= p < n -> bit_at r p = bit_at a p && bit_at b p) /\
  (exists r, bit_or a b = Ok r /\ typed r n (bsgn a && bsgn b) /\
     forall p, 0 <= p < n -> bit_at r p = bit_at a p || bit_at b p) /\
  (exists r, bit_xor a b = Ok r /\ typed r n (bsgn a && bsgn b) /\
     forall p, 0 <= p < n -> bit_at r p = xorb (bit_at a p) (bit_at b p)) /\
  (typed (bit_not a) n false /\ forall p, 0 <= p < n -> bit_at (bit_not a) p = negb (bit_at a p)).
Proof.
  intros Va Vb Wa Wb Be.
  split; [apply bitwise_and_same | split; [apply bitwise_or_same | split; [apply bitwise_xor_same |]]]; try assumption.
  rewrite <- Wa. apply bitwise_not. exact Va.
Qed.
Lemma bitwise_mixed_counter : exists a x b r, typed a 4 false /\ bit_add a a = Ok x /\ typed x 4 false /\
  typed b 8 false /\ bit_or x b = Ok r /\ num r <> Z.lor (num x) (num b).
Proof. exists (bit_of_native 3 0 false 15). eexists. exists (bit_of_native 7 0 false 0). eexists. conc. Qed.
Lemma bitwise_mixed_all a b na nb sa sb : 1 <= na -> 1 <= nb -> na <> nb ->
  typed a na sa -> typed b nb sb -> extendable a -> extendable b ->
  (exists r, bit_and a b = Ok r /\ typed r (Z.max na nb) (sa && sb) /\
     forall p, 0 <= p < Z.max na nb -> bit_at r p = Z.testbit (value a) p && Z.testbit (value b) p) /\
  (exists r, bit_or a b = Ok r /\ typed r (Z.max na nb) (sa && sb) /\
     forall p, 0 <= p < Z.max na nb -> bit_at r p = Z.testbit (value a) p || Z.testbit (value b) p) /\
  (exists r, bit_xor a b = Ok r /\ typed r (Z.max na nb) (sa && sb) /\
     forall p, 0 <= p < Z.max na nb -> bit_at r p = xorb (Z.testbit (value a) p) (Z.testbit (value b) p)).
Proof.
  intros. split; [|split].
  - apply (bitwise_mixed_bits _ _ andb bit_and_spec2); auto using Z.land_spec.
  - apply (bitwise_mixed_bits _ _ orb bit_or_spec2); auto using Z.lor_spec.
  - apply (bitwise_mixed_bits _ _ xorb bit_xor_spec2); auto using Z.lxor_spec.
Qed.
