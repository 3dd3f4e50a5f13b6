(** bit: extension, concatenation, assignment, sign re-interpretation. *)
From Coq Require Import ZArith List Bool Lia Zify ZifyBool.
From Verif Require Import Cpp BigNum Bit Logic Spec ZBits Words BigNumProofs BigArith BitProofs BitSlice.
Import ListNotations.
Open Scope Z_scope.

Lemma typed_eta x n s : typed x n s -> x = mkBit (n - 1) 0 s (bval x).
Proof. intros (V & [P1 P2] & S). destruct x; cbn in *; subst. reflexivity. Qed.

Lemma typed_nat n s z : 1 <= n <= 64 -> typed (nat_bit (n - 1) 0 s z) n s.
Proof.
  intros. split; [apply nat_bit_vec; rewrite ?width_plain; unfold int_ok; lia | split; [split|]; reflexivity].
Qed.
Lemma typed_big n s ws : 65 <= n < 2 ^ 31 -> wfn n ws -> typed (mkBit (n - 1) 0 s (HB ws)) n s.
Proof.
  intros. split; [apply big_vec; rewrite ?width_plain; unfold int_ok; try lia; assumption | split; [split|]; reflexivity].
Qed.
Lemma typed_cases x n s : 1 <= n -> typed x n s ->
  (exists v, x = mkBit (n - 1) 0 s (HN v) /\ 1 <= n <= 64 /\ in_ity (hty n s) v = true) \/
  (exists ws, x = mkBit (n - 1) 0 s (HB ws) /\ 65 <= n < 2 ^ 31 /\ wfn n ws).
Proof.
  intros Hn T. pose proof (typed_eta x n s T) as E. destruct T as (V & P & S). pose proof (bw_plain x n Hn P) as W.
  destruct (vec_cases x V) as [(v & E1 & W1 & I & St) | (ws & E1 & W1 & I & St)]; rewrite W, ?S in *; rewrite E1 in E.
  - left. exists v. auto.
  - right. exists ws. auto.
Qed.
Lemma typed_bw x n s : 1 <= n -> typed x n s -> bw x = n.
Proof. intros H (_ & P & _). apply bw_plain; assumption. Qed.
Lemma typed_lt x n s : 1 <= n -> typed x n s -> n < 2 ^ 31.
Proof. intros H T. rewrite <- (typed_bw x n s H T). destruct T as ((_ & _ & _ & L) & _). exact L. Qed.
Lemma nat_bit_id n s v : 1 <= n -> in_ity (hty n s) v = true -> nat_bit (n - 1) 0 s v = mkBit (n - 1) 0 s (HN v).
Proof. intros Hn H. unfold nat_bit. rewrite width_plain by lia. rewrite conv_id by exact H. reflexivity. Qed.
Lemma num_plain_nat n s v : 1 <= n -> num (mkBit (n - 1) 0 s (HN v)) = v mod 2 ^ n.
Proof. intros. unfold num, stored, bw. cbn [bval bmsb blsb]. rewrite width_plain by lia. reflexivity. Qed.
Lemma num_plain_big n s ws : 1 <= n -> num (mkBit (n - 1) 0 s (HB ws)) = words_num ws mod 2 ^ n.
Proof. intros. unfold num, stored, bw. cbn [bval bmsb blsb]. rewrite width_plain by lia. reflexivity. Qed.

Lemma unsigned_range n v : 1 <= n <= 64 -> in_ity (hty n false) v = true -> 0 <= v < 2 ^ iwidth (hty n false).
Proof.
  intros Hn I. destruct (Z.eq_dec n 1) as [->|N].
  - apply in_bool in I. cbn. lia.
  - apply in_ity_range in I. rewrite hty_signed in I by lia. exact I.
Qed.
Lemma hty_mono n m s : n <= m -> iwidth (hty n s) <= iwidth (hty m s).
Proof.
  intros. unfold hty.
  destruct (Z.leb_spec n 1), (Z.leb_spec n 8), (Z.leb_spec n 16), (Z.leb_spec n 32),
    (Z.leb_spec m 1), (Z.leb_spec m 8), (Z.leb_spec m 16), (Z.leb_spec m 32); try lia; destruct s; cbn; lia.
Qed.

Lemma ones_words k : words_num (repeat u64max k) = 2 ^ (64 * Z.of_nat k) - 1.
Proof.
  induction k as [|k IH]; [reflexivity|]. cbn [repeat words_num]. rewrite IH. unfold u64max.
  replace (64 * Z.of_nat (S k)) with (64 + 64 * Z.of_nat k) by lia. rewrite pow2_split by lia. ring.
Qed.

(** the sign-filled array built for a negative native value *)
Lemma fill_words m v : 65 <= m -> - 2 ^ 63 <= v < 0 ->
  let ws := bn_mask_off m (u64 v :: repeat u64max (Z.to_nat (nwords m - 1))) in
  wfn m ws /\ words_num ws = v mod 2 ^ m.
Proof.
  intros Hm Hv ws. pose proof (nwords_bounds m ltac:(lia)) as B.
  set (l := u64 v :: repeat u64max (Z.to_nat (nwords m - 1))).
  assert (Wl : wfn m l).
  { split.
    - apply wf_cons. split; [apply u64_range | apply wf_repeat; unfold u64max; lia].
    - unfold wlen, l. cbn [length]. rewrite repeat_length. lia. }
  destruct (bn_mask_off_spec m l ltac:(lia) Wl) as [W E]. split; [exact W|]. unfold ws. fold l. rewrite E.
  assert (Nl : words_num l = v + 2 ^ (64 * nwords m)).
  { unfold l. cbn [words_num]. rewrite ones_words.
    replace (64 * Z.of_nat (Z.to_nat (nwords m - 1))) with (64 * nwords m - 64) by lia.
    assert (Ev : u64 v = v + 2 ^ 64) by (unfold u64; rewrite <- (Z_mod_plus_full v 1), Z.mul_1_l; apply Z.mod_small; lia).
    rewrite Ev. replace (64 * nwords m) with (64 + (64 * nwords m - 64)) by lia. rewrite pow2_split by lia.
    replace (64 + (64 * nwords m - 64) - 64) with (64 * nwords m - 64) by lia. ring. }
  rewrite Nl. replace (64 * nwords m) with (m + (64 * nwords m - m)) by lia. rewrite pow2_split by lia.
  rewrite (Z.mul_comm (2 ^ m)). apply Z_mod_plus_full.
Qed.

Lemma bit_extend_same x n s : 1 <= n -> typed x n s -> bit_extend x n = Ok x.
Proof.
  intros Hn T. pose proof (typed_bw x n s Hn T) as W. destruct T as (V & [P1 P2] & S).
  unfold bit_extend. rewrite <- bw_bsize, W, Z.ltb_irrefl, Z.eqb_refl. unfold bit_convert.
  rewrite P1, P2, S, !Z.eqb_refl, Bool.eqb_reflx. reflexivity.
Qed.

(** extension of an unsigned vector keeps the stored number *)
Lemma bit_extend_u x n m : 1 <= n <= m -> m < 2 ^ 31 -> typed x n false ->
  exists r, bit_extend x m = Ok r /\ typed r m false /\ stored r = stored x.
Proof.
  intros Hnm Hm T. destruct (Z.eq_dec n m) as [<-|Ne].
  { exists x. split; [apply (bit_extend_same x n false); (lia || assumption) | split; [exact T | reflexivity]]. }
  destruct (typed_cases x n false ltac:(lia) T) as [(v & -> & N & I) | (ws & -> & N & I)];
    unfold bit_extend, bsize, vsize; cbn [bmsb blsb bval bsgn]; replace (Z.abs (n - 1 - 0) + 1) with n by lia;
    replace (n <? m) with true by lia.
  - pose proof (unsigned_range n v N I) as Rv. pose proof (iwidth_pos (hty n false)).
    unfold native_num. destruct (Z.leb_spec m 64).
    + eexists. split; [reflexivity|]. unfold bit_of_native. replace (vsize (m - 1) 0) with m by (unfold vsize; lia).
      pose proof (typed_nat m false v ltac:(lia)) as T2. unfold nat_bit in T2. rewrite width_plain in T2 by lia.
      split; [exact T2|]. unfold stored. cbn [bval]. apply conv_id. apply in_ity_range. rewrite hty_signed by lia.
      pose proof (hty_mono n m false ltac:(lia)). pose proof (pow2_mono (iwidth (hty n false)) (iwidth (hty m false)) ltac:(lia)). lia.
    + cbn [andb]. eexists. split; [reflexivity|]. fold (bn_of_native m v).
      destruct (bn_of_native_spec m v ltac:(lia)) as [W2 E2].
      split; [apply typed_big; (assumption || lia)|]. unfold stored. cbn [bval]. rewrite E2. apply u64_id.
      pose proof (pow2_mono (iwidth (hty n false)) 64 ltac:(lia)). lia.
  - destruct (bn_extend_spec n false ws m Hnm I) as (r & E & W & H1 & _). rewrite E. cbn [bind].
    eexists. split; [reflexivity|]. split; [apply typed_big; (assumption || lia)|]. unfold stored. cbn [bval].
    apply H1. left. reflexivity.
Qed.

Lemma tidy_num_u x n : 1 <= n -> typed x n false -> tidy x -> num x = stored x.
Proof. intros Hn (_ & _ & S) T. apply num_of_tidy; assumption. Qed.
Lemma tidy_u_iff x n : 1 <= n -> typed x n false -> (tidy x <-> 0 <= stored x < 2 ^ n).
Proof.
  intros Hn T. pose proof (typed_bw x n false Hn T) as W. destruct T as (V & P & S).
  unfold tidy, stored. rewrite W, S. cbn [andb]. destruct (bval x); tauto.
Qed.
Lemma typed_stored_nonneg x n : 1 <= n -> typed x n false -> 0 <= stored x.
Proof.
  intros Hn T. destruct (typed_cases x n false Hn T) as [(v & -> & N & I) | (ws & -> & N & I)]; unfold stored; cbn [bval].
  - pose proof (unsigned_range n v N I). lia.
  - apply words_num_nonneg, I.
Qed.

Lemma bit_extend_u_tidy x n m : 1 <= n <= m -> m < 2 ^ 31 -> typed x n false -> tidy x ->
  exists r, bit_extend x m = Ok r /\ typed r m false /\ num r = num x /\ tidy r.
Proof.
  intros Hnm Hm T Ti. destruct (bit_extend_u x n m Hnm Hm T) as (r & E & T2 & S2).
  exists r. split; [exact E|]. split; [exact T2|].
  pose proof (tidy_u_iff x n ltac:(lia) T) as I1. pose proof (tidy_u_iff r m ltac:(lia) T2) as I2.
  assert (Tr : tidy r). { apply I2. rewrite S2. apply I1 in Ti. pose proof (pow2_mono n m ltac:(lia)). lia. }
  split; [|exact Tr]. rewrite (tidy_num_u r m), (tidy_num_u x n) by (assumption || lia). exact S2.
Qed.

(** extension of a signed native vector: the stored two's-complement value is extended *)
Lemma bit_extend_s x n m : 2 <= n <= 64 -> n <= m < 2 ^ 31 -> typed x n true ->
  exists r, bit_extend x m = Ok r /\ typed r m true /\ num r = stored x mod 2 ^ m /\ (m <= 64 -> stored r = stored x) /\
    (64 < m -> tidy r).
Proof.
  intros Hn Hm T. destruct (Z.eq_dec n m) as [<-|Ne].
  { exists x. split; [apply (bit_extend_same x n true); (lia || assumption)|]. split; [exact T|].
    split; [unfold num; rewrite (typed_bw x n true ltac:(lia) T); reflexivity|]. split; [reflexivity | lia]. }
  destruct (typed_cases x n true ltac:(lia) T) as [(v & -> & N & I) | (ws & -> & N & I)]; [|lia].
  unfold bit_extend, bsize, vsize; cbn [bmsb blsb bval bsgn]; replace (Z.abs (n - 1 - 0) + 1) with n by lia;
    replace (n <? m) with true by lia. unfold stored at 1 3. cbn [bval].
  apply in_ity_range in I. rewrite hty_signed in I by lia.
  pose proof (iwidth_pos (hty n true)). pose proof (hty_mono n m true ltac:(lia)).
  unfold native_num. destruct (Z.leb_spec m 64).
  - eexists. split; [reflexivity|]. unfold bit_of_native. replace (vsize (m - 1) 0) with m by (unfold vsize; lia).
    pose proof (typed_nat m true v ltac:(lia)) as T2. pose proof (nat_bit_num (m - 1) 0 true v) as N2.
    unfold nat_bit in T2, N2. rewrite width_plain in T2, N2 by lia.
    split; [exact T2|]. split; [apply N2; lia|]. split; [|lia]. intros _. unfold stored. cbn [bval].
    apply conv_id. apply in_ity_range. rewrite hty_signed by lia.
    pose proof (pow2_mono (iwidth (hty n true) - 1) (iwidth (hty m true) - 1) ltac:(lia)). lia.
  - eexists. split; [reflexivity|]. cbn [andb].
    pose proof (pow2_mono (iwidth (hty n true) - 1) 63 ltac:(lia)) as P63.
    destruct (Z.ltb_spec v 0).
    + destruct (bn_of_native_spec m v ltac:(lia)) as [W1 _]. pose proof (nwords_bounds m ltac:(lia)).
      assert (Hd : hd 0 (word_set (bn_zero m) 0 (u64 v)) = u64 v).
      { unfold bn_zero. destruct (Z.to_nat (nwords m)) eqn:En; [lia|]. reflexivity. }
      rewrite Hd. destruct (fill_words m v ltac:(lia) ltac:(lia)) as [W E].
      split; [apply typed_big; (assumption || lia)|]. rewrite num_plain_big, E by lia. rewrite Zmod_mod.
      split; [reflexivity|]. split; [lia|]. intros _. apply big_tidy. rewrite width_plain, E by lia.
      apply Z.mod_pos_bound, pow2_pos. lia.
    + fold (bn_of_native m v). destruct (bn_of_native_spec m v ltac:(lia)) as [W1 E1]. rewrite u64_id in E1 by lia.
      split; [apply typed_big; (assumption || lia)|]. rewrite num_plain_big, E1 by lia.
      split; [reflexivity|]. split; [lia|]. intros _. apply big_tidy. rewrite width_plain, E1 by lia.
      pose proof (pow2_mono 63 m ltac:(lia)). lia.
Qed.

(** sign extension keeps the value when the storage is tidy *)
Lemma tidy_snum x n : 2 <= n <= 64 -> typed x n true -> tidy x -> stored x = snum x.
Proof.
  intros Hn T Ti. pose proof (typed_bw x n true ltac:(lia) T) as W.
  destruct (typed_cases x n true ltac:(lia) T) as [(v & -> & N & I) | (ws & -> & N & I)]; [|lia].
  unfold snum, num. rewrite W, twos_swrap by lia. unfold tidy in Ti. rewrite W in Ti. cbn [bval bsgn andb] in Ti.
  replace (1 <? n) with true in Ti by lia. unfold stored. cbn [bval]. symmetry. apply swrap_id; lia.
Qed.
Lemma snum_of_num x n s v : 1 <= n -> typed x n s -> num x = v mod 2 ^ n -> - 2 ^ (n - 1) <= v < 2 ^ (n - 1) -> snum x = v.
Proof.
  intros Hn T E R. unfold snum. rewrite (typed_bw x n s Hn T), E, twos_swrap by lia. apply swrap_id; lia.
Qed.
Lemma bit_extend_s_tidy x n m : 2 <= n <= 64 -> n <= m < 2 ^ 31 -> typed x n true -> tidy x ->
  exists r, bit_extend x m = Ok r /\ typed r m true /\ snum r = snum x /\ tidy r.
Proof.
  intros Hn Hm T Ti. destruct (bit_extend_s x n m Hn Hm T) as (r & E & T2 & N2 & S2 & Ti2).
  pose proof (tidy_snum x n Hn T Ti) as Sx.
  assert (R : - 2 ^ (n - 1) <= snum x < 2 ^ (n - 1)).
  { unfold snum. rewrite (typed_bw x n true ltac:(lia) T). apply twos_range; [lia|].
    rewrite <- (typed_bw x n true ltac:(lia) T). apply num_range. }
  pose proof (pow2_mono (n - 1) (m - 1) ltac:(lia)).
  exists r. split; [exact E|]. split; [exact T2|]. split.
  - apply (snum_of_num r m true); [lia | exact T2 | rewrite N2, Sx; reflexivity | lia].
  - destruct (Z.leb_spec m 64); [|apply Ti2; lia].
    destruct (typed_cases r m true ltac:(lia) T2) as [(v & -> & Nm & I) | (ws & -> & Nm & I)]; [|lia].
    unfold tidy. rewrite (typed_bw _ m true ltac:(lia) T2). cbn [bval bsgn andb]. replace (1 <? m) with true by lia.
    specialize (S2 ltac:(lia)). unfold stored at 1 in S2. cbn [bval] in S2. rewrite S2, Sx. lia.
Qed.
(** multi-word: ones are filled in whatever the sign *)
Lemma bit_extend_s_big x n m : 65 <= n < m -> m < 2 ^ 31 -> typed x n true -> tidy x ->
  exists r, bit_extend x m = Ok r /\ typed r m true /\ num r = num x + (2 ^ m - 2 ^ n).
Proof.
  intros Hn Hm T Ti. destruct (typed_cases x n true ltac:(lia) T) as [(v & -> & N & I) | (ws & -> & N & I)]; [lia|].
  pose proof (typed_bw _ n true ltac:(lia) T) as W. unfold tidy in Ti. rewrite W in Ti. cbn [bval] in Ti.
  unfold bit_extend, bsize, vsize; cbn [bmsb blsb bval bsgn]; replace (Z.abs (n - 1 - 0) + 1) with n by lia.
  replace (n <? m) with true by lia.
  destruct (bn_extend_spec n true ws m ltac:(lia) I) as (r & E & Wr & _ & H2). rewrite E. cbn [bind].
  specialize (H2 eq_refl). eexists. split; [reflexivity|]. split; [apply typed_big; (assumption || lia)|].
  rewrite !num_plain_big by lia. rewrite (Z.mod_small (words_num ws)) by exact Ti.
  pose proof (pow2_mono n m ltac:(lia)). assert (0 < 2 ^ n) by (apply pow2_pos; lia).
  assert (E2 : words_num r = words_num ws + (2 ^ m - 2 ^ n)).
  { assert (E3 : 2 ^ m - 2 ^ n = Z.shiftl (2 ^ (m - n) - 1) n).
    { rewrite Z.shiftl_mul_pow2 by lia. replace m with (m - n + n) at 1 by lia. rewrite pow2_split by lia. ring. }
    rewrite E3. rewrite <- lor_disjoint_add.
    - apply Z.bits_inj'. intros p Hp. rewrite H2, Z.lor_spec, Z.shiftl_spec, testbit_ones by lia.
      rewrite orb_comm. f_equal. apply Bool.eq_iff_eq_true. rewrite !andb_true_iff, !Z.leb_le, !Z.ltb_lt. lia.
    - apply Z.bits_inj'. intros p Hp. rewrite Z.land_spec, Z.shiftl_spec, testbit_ones, Z.bits_0 by lia.
      destruct (Z.ltb_spec p n); [replace (0 <=? p - n) with false by lia; apply andb_false_r|].
      rewrite (testbit_small _ n) by lia. reflexivity. }
  rewrite E2. apply Z.mod_small. lia.
Qed.

(** * concatenation *)
Lemma bit_concat_spec a b na nb : 1 <= na -> 1 <= nb -> na + nb < 64 -> na + nb <= iwidth (promote (hty na false)) ->
  typed a na false -> typed b nb false -> tidy a -> tidy b ->
  exists r, bit_concat a b = Ok r /\ typed r (na + nb) false /\ num r = num a * 2 ^ nb + num b /\ tidy r.
Proof.
  intros Hna Hnb Hf Hw Ta Tb Tia Tib.
  pose proof (tidy_num_u a na Hna Ta Tia) as Na. pose proof (tidy_num_u b nb Hnb Tb Tib) as Nb.
  apply (tidy_u_iff a na Hna Ta) in Tia. apply (tidy_u_iff b nb Hnb Tb) in Tib. rewrite Na, Nb.
  destruct (typed_cases a na false Hna Ta) as [(va & -> & N & Ia) | (ws & -> & N & Ia)]; [|lia].
  destruct (typed_cases b nb false Hnb Tb) as [(vb & -> & N' & Ib) | (ws & -> & N' & Ib)]; [|lia].
  unfold stored in *. cbn [bval] in *.
  unfold bit_concat, bsize, vsize. cbn [bmsb blsb bval bsgn].
  replace (Z.abs (na - 1 - 0) + 1) with na by lia. replace (Z.abs (nb - 1 - 0) + 1) with nb by lia.
  replace (na + nb <? 64) with true by lia. unfold c_shl.
  replace ((0 <=? nb) && (nb <? iwidth (promote (hty na false)))) with true by lia. cbn [bind].
  eexists. split; [reflexivity|].
  set (f := na + nb) in *. unfold bit_of_native. replace (vsize (f - 1) 0) with f by (unfold vsize; lia).
  set (z := c_or _ _ _ _).
  replace (hty f false) with (hty (width (f - 1) 0) false) by (rewrite width_plain by lia; reflexivity).
  fold (nat_bit (f - 1) 0 false z). split; [apply typed_nat; lia|].
  assert (Ez : z mod 2 ^ f = va * 2 ^ nb + vb).
  { unfold z. rewrite c_or_mod by (pose proof (uac_width (promote (hty na false)) (hty nb false)); lia).
    rewrite lor_mod_pow2 by lia. rewrite conv_mod by (try apply promote_nb; lia).
    rewrite Z.shiftl_mul_pow2 by lia.
    assert (0 < 2 ^ nb) by (apply pow2_pos; lia). assert (0 < 2 ^ na) by (apply pow2_pos; lia).
    assert (Ef : 2 ^ f = 2 ^ na * 2 ^ nb) by (apply pow2_split; lia).
    rewrite (Z.mod_small (va * 2 ^ nb)) by nia. rewrite (Z.mod_small vb) by nia.
    apply lor_disjoint_add. apply Z.bits_inj'. intros p Hp. rewrite Z.land_spec, Z.bits_0.
    rewrite <- Z.shiftl_mul_pow2, Z.shiftl_spec by lia.
    destruct (Z.ltb_spec p nb); [rewrite Z.testbit_neg_r by lia; reflexivity|].
    rewrite (testbit_small vb nb) by lia. apply andb_false_r. }
  split; [rewrite nat_bit_num, width_plain by (rewrite ?width_plain; lia); exact Ez|].
  (* tidy: the or itself has no bits above f *)
  assert (0 < 2 ^ nb) by (apply pow2_pos; lia). assert (0 < 2 ^ na) by (apply pow2_pos; lia).
  assert (Ef : 2 ^ f = 2 ^ na * 2 ^ nb) by (apply pow2_split; lia).
  unfold tidy, nat_bit, bw. cbn [bval bmsb blsb bsgn andb]. rewrite !width_plain by lia.
  assert (Cz : conv (hty f false) z = va * 2 ^ nb + vb); [|rewrite Cz; nia].
  set (W := iwidth (promote (hty na false))) in *.
  assert (SL : conv (promote (hty na false)) (Z.shiftl va nb) =
     if isigned (promote (hty na false)) then swrap W (va * 2 ^ nb) else va * 2 ^ nb).
  { rewrite Z.shiftl_mul_pow2 by lia. unfold conv. destruct (promote (hty na false)) eqn:Ep; try (exfalso; apply (promote_nb _ Ep));
      cbn [isigned]; try reflexivity; apply Z.mod_small; fold W;
      (pose proof (pow2_mono f W ltac:(lia)); nia). }
  assert (Hz2 : conv (hty f false) z = z mod 2 ^ iwidth (hty f false)).
  { unfold conv. assert (Nf : hty f false <> TBool) by (apply hty_nb; lia).
    assert (Sf : isigned (hty f false) = false) by (apply hty_signed; lia).
    destruct (hty f false); try congruence; cbn [isigned] in *; congruence || reflexivity. }
  rewrite Hz2. set (wf := iwidth (hty f false)). pose proof (hty_width f false ltac:(lia)) as Hwf. fold wf in Hwf.
  assert (Hwfu : wf <= W).
  { unfold wf, W. destruct (Z.leb_spec f 32).
    - pose proof (promote_32 (hty na false)). pose proof (hty_mono f 32 false ltac:(lia)) as M. change (iwidth (hty 32 false)) with 32 in M. lia.
    - assert (32 < na).
      { destruct (Z.leb_spec na 32); [|lia]. exfalso. unfold W in Hw.
        assert (iwidth (promote (hty na false)) = 32); [|lia]. hty_cases na; try reflexivity; lia. }
      unfold W in *. unfold hty at 2. replace (na <=? 1) with false by lia. replace (na <=? 8) with false by lia.
      replace (na <=? 16) with false by lia. replace (na <=? 32) with false by lia. apply iwidth_pos. }
  unfold z. rewrite c_or_mod by (pose proof (uac_width (promote (hty na false)) (hty nb false)); pose proof (iwidth_pos (hty f false)); fold W in H1 |- *; lia).
  rewrite lor_mod_pow2 by lia. rewrite conv_mod by (try apply promote_nb; lia).
  rewrite Z.shiftl_mul_pow2 by lia. pose proof (pow2_mono f wf ltac:(lia)).
  rewrite (Z.mod_small (va * 2 ^ nb)) by nia. rewrite (Z.mod_small vb) by nia.
  apply lor_disjoint_add. apply Z.bits_inj'. intros p Hp. rewrite Z.land_spec, Z.bits_0.
  rewrite <- Z.shiftl_mul_pow2, Z.shiftl_spec by lia.
  destruct (Z.ltb_spec p nb); [rewrite Z.testbit_neg_r by lia; reflexivity|].
  rewrite (testbit_small vb nb) by lia. apply andb_false_r.
Qed.

(** * assignment *)
Lemma bit_assign_native dst src n s : 2 <= n <= 64 -> typed dst n s -> (exists v, bval src = HN v) ->
  exists r, bit_assign dst src = Ok r /\ typed r n s /\ num r = stored src mod 2 ^ n.
Proof.
  intros Hn T (v & E). pose proof (typed_bw dst n s ltac:(lia) T) as W. destruct T as (V & [P1 P2] & S).
  unfold bit_assign, holder_assign, native_num. rewrite <- bw_bsize, W, E. replace (n <=? 64) with true by lia.
  cbn [bind]. eexists. split; [reflexivity|]. rewrite P1, P2, S.
  pose proof (typed_nat n s v ltac:(lia)) as T2. pose proof (nat_bit_num (n - 1) 0 s v) as N2.
  unfold nat_bit in *. rewrite width_plain in * by lia. split; [exact T2|]. unfold stored. rewrite E. apply N2. lia.
Qed.
Lemma bit_assign_big dst src n s s2 : 65 <= n -> typed dst n s -> typed src n s2 ->
  exists r, bit_assign dst src = Ok r /\ typed r n s /\ stored r = stored src /\ num r = num src.
Proof.
  intros Hn T T2. pose proof (typed_bw dst n s ltac:(lia) T) as W. pose proof (typed_bw src n s2 ltac:(lia) T2) as W2.
  destruct (typed_cases src n s2 ltac:(lia) T2) as [(v & -> & N & I) | (ws & -> & N & I)]; [lia|].
  destruct T as (V & [P1 P2] & S).
  unfold bit_assign, holder_assign, native_num. rewrite <- bw_bsize, W. cbn [bval].
  replace (n <=? 64) with false by lia. rewrite <- bw_bsize, W2, Z.eqb_refl. cbn [bind].
  eexists. split; [reflexivity|]. rewrite P1, P2, S.
  split; [apply typed_big; assumption|]. split; [reflexivity|]. rewrite !num_plain_big by lia. reflexivity.
Qed.

(** * sign re-interpretation *)
Lemma bit_resign_spec s x n s0 : 1 <= n -> typed x n s0 ->
  typed (bit_resign s x) n s /\ num (bit_resign s x) = num x.
Proof.
  intros Hn T. destruct (typed_cases x n s0 Hn T) as [(v & -> & N & I) | (ws & -> & N & I)];
    unfold bit_resign, bsize, vsize; cbn [bmsb blsb bval bsgn]; replace (Z.abs (n - 1 - 0) + 1) with n by lia.
  - pose proof (typed_nat n s v ltac:(lia)) as T2. unfold nat_bit in T2. rewrite width_plain in T2 by lia. split; [exact T2|].
    destruct (Z.eq_dec n 1) as [->|N1].
    + cbn in I. assert (v = 0 \/ v = 1) as [-> | ->] by lia; reflexivity.
    + pose proof (nat_bit_num (n - 1) 0 s v) as N2. unfold nat_bit in N2. rewrite width_plain in N2 by lia.
      rewrite N2 by lia. rewrite num_plain_nat by lia. reflexivity.
  - split; [apply typed_big; assumption | rewrite !num_plain_big by lia; reflexivity].
Qed.
