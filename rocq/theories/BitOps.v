(** bit: bitwise operators, reductions, shifts. *)
From Coq Require Import ZArith List Bool Lia Zify ZifyBool.
From Verif Require Import Cpp BigNum Bit Logic Spec ZBits Words BigNumProofs BigArith BitProofs BitSlice BitExt.
Import ListNotations.
Open Scope Z_scope.

Lemma value_num_mod x n s : 1 <= n -> typed x n s -> value x mod 2 ^ n = num x.
Proof.
  intros Hn T. pose proof (typed_bw x n s Hn T) as W. pose proof (num_range x) as R. rewrite W in R.
  unfold value, snum, twos. rewrite W. assert (0 < 2 ^ n) by (apply pow2_pos; lia).
  destruct (bsgn x); [|apply Z.mod_small; exact R].
  destruct (Z.testbit (num x) (n - 1)); [|apply Z.mod_small; exact R].
  rewrite <- (Z_mod_plus_full _ 1). rewrite Z.mul_1_l. replace (num x - 2 ^ n + 2 ^ n) with (num x) by lia.
  apply Z.mod_small; exact R.
Qed.

Lemma bit_extend_gen x n s m : 1 <= n <= m -> m < 2 ^ 31 -> typed x n s -> extendable x ->
  exists r, bit_extend x m = Ok r /\ typed r m s /\ num r = value x mod 2 ^ m /\ value r = value x /\ tidy r.
Proof.
  intros Hn Hm T [Ti E]. pose proof (typed_bw x n s ltac:(lia) T) as W. pose proof T as (_ & _ & S). rewrite W, S in E.
  destruct s.
  - destruct (bit_extend_s_tidy x n m (E eq_refl) ltac:(lia) T Ti) as (r & E1 & T1 & V1 & Ti1).
    exists r. split; [exact E1|]. split; [exact T1|].
    assert (Vx : value x = snum x) by (unfold value; rewrite S; reflexivity).
    assert (Vr : value r = snum r) by (unfold value; destruct T1 as (_ & _ & ->); reflexivity).
    split; [|split; [congruence | exact Ti1]].
    rewrite <- (value_num_mod r m true) by (assumption || lia). congruence.
  - destruct (bit_extend_u_tidy x n m Hn Hm T Ti) as (r & E1 & T1 & V1 & Ti1).
    exists r. split; [exact E1|]. split; [exact T1|].
    assert (Vx : value x = num x) by (unfold value; rewrite S; reflexivity).
    assert (Vr : value r = num r) by (unfold value; destruct T1 as (_ & _ & ->); reflexivity).
    split; [|split; [congruence | exact Ti1]].
    rewrite <- (value_num_mod r m false) by (assumption || lia). congruence.
Qed.

Lemma bsize_bw x n : bw x = n -> bsize x = n. Proof. exact (fun h => h). Qed.
Lemma typed_bsize x n s : 1 <= n -> typed x n s -> bsize x = n. Proof. exact (typed_bw x n s). Qed.

Lemma nat_bit_eq n s z : 1 <= n -> mkBit (n - 1) 0 s (HN (conv (hty n s) z)) = nat_bit (n - 1) 0 s z.
Proof. intros. unfold nat_bit. rewrite width_plain by lia. reflexivity. Qed.

(** * mask_off *)
Lemma native_mask_num n s v : 2 <= n <= 64 -> in_ity (hty n s) v = true ->
  native_mask_off n s v mod 2 ^ n = v mod 2 ^ n /\ in_ity (hty n s) (native_mask_off n s v) = true /\
  (s = false -> 0 <= native_mask_off n s v < 2 ^ n).
Proof.
  intros Hn I. unfold native_mask_off. replace (1 <? n) with true by lia. cbn zeta.
  assert (Nb : hty n s <> TBool) by (apply hty_nb; lia). assert (Nbu : hty n false <> TBool) by (apply hty_nb; lia).
  pose proof (hty_width n s ltac:(lia)) as Hw. pose proof (iwidth_pos (hty n s)).
  rewrite (szbits_nb _ Nb).
  assert (Mx : cmax (hty n false) = 2 ^ iwidth (hty n s) - 1).
  { unfold cmax. rewrite hty_signed by lia. rewrite (hty_iw n s). reflexivity. }
  rewrite Mx, shiftr_ones by lia. replace (iwidth (hty n s) - (iwidth (hty n s) - n)) with n by lia.
  assert (C : c_and (hty n s) (promote (hty n false)) v (2 ^ n - 1) mod 2 ^ iwidth (hty n s) = v mod 2 ^ n).
  { rewrite c_and_mod by (pose proof (uac_width (hty n s) (promote (hty n false))); lia).
    rewrite land_ones_mod by lia. apply Z.mod_small.
    assert (0 <= v mod 2 ^ n < 2 ^ n) by (apply Z.mod_pos_bound, pow2_pos; lia).
    pose proof (pow2_mono n (iwidth (hty n s)) ltac:(lia)). lia. }
  split; [|split; [apply conv_in_ity|]].
  - rewrite conv_mod by (assumption || lia).
    rewrite <- (mod_mod_pow2 _ n (iwidth (hty n s))) by lia. rewrite C. apply mod_mod_pow2. lia.
  - intros ->. assert (E : conv (hty n false) (c_and (hty n false) (promote (hty n false)) v (2 ^ n - 1)) = v mod 2 ^ n).
    { rewrite <- C. unfold conv. pose proof (hty_signed n false ltac:(lia)) as Sg.
      destruct (hty n false); try congruence; cbn [isigned] in *; congruence || reflexivity. }
    rewrite E. apply Z.mod_pos_bound, pow2_pos. lia.
Qed.

Lemma bit_mask_off_spec x n s : 1 <= n -> typed x n s ->
  typed (bit_mask_off x) n s /\ num (bit_mask_off x) = num x /\ (s = false \/ 65 <= n -> tidy (bit_mask_off x)).
Proof.
  intros Hn T. destruct (typed_cases x n s Hn T) as [(v & -> & N & I) | (ws & -> & N & I)];
    unfold bit_mask_off, bsize, vsize; cbn [bmsb blsb bval bsgn]; replace (Z.abs (n - 1 - 0) + 1) with n by lia.
  - destruct (Z.eq_dec n 1) as [->|N1].
    + unfold native_mask_off. cbn [Z.ltb]. change (1 <? 1) with false. cbn iota. split; [exact T|]. split; [reflexivity|].
      intros [-> | Bad]; [|lia]. unfold tidy, bw, width. cbn. cbn in I. lia.
    + destruct (native_mask_num n s v ltac:(lia) I) as (M1 & M2 & M3).
      assert (T2 : typed (mkBit (n - 1) 0 s (HN (native_mask_off n s v))) n s).
      { rewrite <- nat_bit_id by (assumption || lia). apply typed_nat. lia. }
      split; [exact T2|]. rewrite !num_plain_nat by lia. split; [exact M1|]. intros [-> | Bad]; [|lia].
      apply (tidy_u_iff _ n ltac:(lia) T2). unfold stored. cbn [bval]. apply M3. reflexivity.
  - destruct (bn_mask_off_spec n ws ltac:(lia) I) as [W E]. split; [apply typed_big; assumption|].
    rewrite !num_plain_big, E by lia. split; [apply Zmod_mod|].
    intros _. apply big_tidy. rewrite width_plain, E by lia. apply Z.mod_pos_bound, pow2_pos. lia.
Qed.

(** * bitwise operators *)
(** [a] any vector of size n, [b] a descending one *)
Lemma vec_cases_n b n : vec b -> bw b = n ->
  (exists v, bval b = HN v /\ 1 <= n <= 64 /\ in_ity (hty n (bsgn b)) v = true /\ stored b = v /\ num b = v mod 2 ^ n) \/
  (exists ws, bval b = HB ws /\ 65 <= n < 2 ^ 31 /\ wfn n ws /\ stored b = words_num ws /\ num b = words_num ws mod 2 ^ n).
Proof.
  intros V <-. destruct (vec_cases b V) as [(v & H1 & H2 & H3 & H4) | (v & H1 & H2 & H3 & H4)]; [left | right];
    exists v; unfold num; rewrite H4; auto.
Qed.

Lemma uac_hty_width n s1 s2 : 1 <= n <= 64 -> n <= iwidth (uac (hty n s1) (hty n s2)).
Proof. intros. pose proof (uac_width (hty n s1) (hty n s2)). pose proof (hty_width n s1 ltac:(lia)). lia. Qed.

Section Bitwise.
Variables (zop : Z -> Z -> Z)
  (cop : ity -> ity -> Z -> Z -> Z) (gop : Z -> list Z -> list Z -> list Z).
Hypothesis zmod : forall a b n, 0 <= n -> zop a b mod 2 ^ n = zop (a mod 2 ^ n) (b mod 2 ^ n).
Hypothesis cmod : forall ta tb a b k, 0 <= k <= iwidth (uac ta tb) -> cop ta tb a b mod 2 ^ k = zop a b mod 2 ^ k.
Hypothesis c1 : forall a b, a = 0 \/ a = 1 -> b = 0 \/ b = 1 -> cop TBool TBool a b = zop a b.
Hypothesis csame : forall ta tb a b, cop ta tb a b = zop (conv (uac ta tb) a) (conv (uac ta tb) b).
Hypothesis z1 : forall a b, a = 0 \/ a = 1 -> b = 0 \/ b = 1 -> zop a b = 0 \/ zop a b = 1.
Hypothesis gspec : forall n a b, 1 <= n -> wfn n a -> wfn n b ->
  wfn n (gop n a b) /\ words_num (gop n a b) mod 2 ^ n = zop (words_num a) (words_num b) mod 2 ^ n.
Hypothesis gtidy : forall n a b, 1 <= n -> wfn n a -> wfn n b -> 0 <= words_num a < 2 ^ n -> 0 <= words_num b < 2 ^ n ->
  0 <= words_num (gop n a b) < 2 ^ n.
Hypothesis zrange_u : forall a b n, 0 <= n -> 0 <= a < 2 ^ n -> 0 <= b < 2 ^ n -> 0 <= zop a b < 2 ^ n.
Hypothesis zrange_s : forall a b n, 0 <= n -> - 2 ^ n <= a < 2 ^ n -> - 2 ^ n <= b < 2 ^ n -> - 2 ^ n <= zop a b < 2 ^ n.

Lemma bitwise_same a b n : vec a -> vec b -> bw a = n -> bw b = n -> blsb b <= bmsb b ->
  exists r, bit_bin (fun ta tb x y => Ok (cop ta tb x y)) (fun n x y => Ok (gop n x y)) a b = Ok r /\
    typed r n (bsgn a && bsgn b) /\ num r = zop (num a) (num b) /\
    (bsgn a = bsgn b -> tidy a -> tidy b -> tidy r).
Proof.
  intros Va Vb Wa Wb Be. pose proof (bw_pos a) as Hp. rewrite Wa in Hp.
  unfold bit_bin, requires, same_size_op. cbn zeta.
  replace (bsize a) with n by (rewrite <- bw_bsize; congruence). replace (bsize b) with n by (rewrite <- bw_bsize; congruence).
  rewrite Z.eqb_refl.
  replace (blsb b <=? bmsb b) with true by lia. cbn [andb].
  destruct (vec_cases_n a n Va Wa) as [(x & Ea & Na & Ia & Sa & Ma) | (x & Ea & Na & Ia & Sa & Ma)];
  destruct (vec_cases_n b n Vb Wb) as [(y & Eb & Nb & Ib & Sb & Mb) | (y & Eb & Nb & Ib & Sb & Mb)]; try lia;
  rewrite Ea, Eb; cbn [bind]; (eexists; split; [reflexivity|]).
  - set (s := bsgn a && bsgn b). set (z := cop _ _ _ _).
    rewrite nat_bit_eq by lia. split; [apply typed_nat; lia|].
    rewrite Ma, Mb, <- zmod by lia. split.
    + destruct (Z.eq_dec n 1) as [->|N1].
      * rewrite nat_bit_num1 by reflexivity. unfold z. rewrite !hty_1 in *. apply in_bool in Ia, Ib.
        rewrite c1 by assumption. destruct (z1 x y Ia Ib) as [-> | ->]; reflexivity.
      * rewrite nat_bit_num, width_plain by (rewrite ?width_plain; lia). unfold z. apply cmod.
        pose proof (uac_hty_width n (bsgn a) (bsgn b)). lia.
    + intros Es Ta Tb. unfold tidy in Ta, Tb. rewrite Ea in Ta. rewrite Eb in Tb. rewrite Wa in Ta. rewrite Wb in Tb.
      assert (Ss : s = bsgn a) by (unfold s; rewrite <- Es; apply andb_diag).
      rewrite <- Es in Ib, Tb.
      assert (Ez : z = zop x y).
      { unfold z. rewrite csame, <- Es, uac_same, !conv_promote by assumption. reflexivity. }
      rewrite Ss. destruct (bsgn a && (1 <? n)) eqn:C; rewrite ?C in Ta, Tb.
      * apply andb_true_iff in C. destruct C as [C1 C2]. rewrite C1.
        apply nat_bit_tidy_s; rewrite width_plain by lia; [lia|]. rewrite Ez. apply zrange_s; lia.
      * assert (R : 0 <= z < 2 ^ n) by (rewrite Ez; apply zrange_u; lia).
        destruct (bsgn a) eqn:Sg; rewrite ?Sg in C.
        -- cbn [andb] in C. assert (E1 : n = 1) by lia. clearbody z. clear - E1. rewrite E1.
           unfold tidy, nat_bit, bw, width. cbn. destruct (z =? 0); lia.
        -- apply nat_bit_tidy; rewrite width_plain by lia; lia.
  - destruct (gspec n x y ltac:(lia) Ia Ib) as [W E].
    split; [apply typed_big; assumption|]. rewrite num_plain_big by lia. split; [rewrite E, Ma, Mb; apply zmod; lia|].
    intros _ Ta Tb. unfold tidy in Ta, Tb. rewrite Ea, Wa in Ta. rewrite Eb, Wb in Tb.
    apply big_tidy. rewrite width_plain by lia. apply gtidy; (assumption || lia).
Qed.

Lemma bitwise_mixed a b na nb sa sb : 1 <= na -> 1 <= nb -> typed a na sa -> typed b nb sb ->
  extendable a -> extendable b ->
  let m := Z.max na nb in
  exists r, omap bit_mask_off (bit_mixed (bit_bin (fun ta tb x y => Ok (cop ta tb x y)) (fun n x y => Ok (gop n x y))) a b) = Ok r /\
    typed r m (sa && sb) /\ num r = zop (value a mod 2 ^ m) (value b mod 2 ^ m) /\ (sa && sb = false \/ 65 <= m -> tidy r).
Proof.
  intros Hna Hnb Ta Tb Xa Xb m.
  pose proof (typed_lt a na sa Hna Ta). pose proof (typed_lt b nb sb Hnb Tb).
  destruct (bit_extend_gen a na sa m ltac:(lia) ltac:(lia) Ta Xa) as (a' & Ea & Ta' & Na' & _).
  destruct (bit_extend_gen b nb sb m ltac:(lia) ltac:(lia) Tb Xb) as (b' & Eb & Tb' & Nb' & _).
  pose proof (typed_bw a' m sa ltac:(lia) Ta') as Wa. pose proof (typed_bw b' m sb ltac:(lia) Tb') as Wb.
  destruct Ta' as (Va & Pa & Sa). destruct Tb' as (Vb & Pb & Sb).
  destruct (bitwise_same a' b' m Va Vb Wa Wb ltac:(destruct Pb; lia)) as (r & Er & Tr & Nr & _).
  rewrite Sa, Sb in Tr.
  unfold bit_mixed. rewrite (typed_bsize a na sa), (typed_bsize b nb sb) by assumption. fold m.
  rewrite Ea. cbn [bind]. rewrite Eb. cbn [bind]. rewrite Er. unfold omap. cbn [bind].
  destruct (bit_mask_off_spec r m (sa && sb) ltac:(lia) Tr) as (T2 & N2 & Ti2).
  eexists. split; [reflexivity|]. split; [exact T2|]. rewrite N2, Nr, Na', Nb'. split; [reflexivity | exact Ti2].
Qed.
End Bitwise.

Lemma land_range_s a b n : 0 <= n -> - 2 ^ n <= a < 2 ^ n -> - 2 ^ n <= b < 2 ^ n -> - 2 ^ n <= Z.land a b < 2 ^ n.
Proof.
  intros Hn Ha Hb. assert (G : swrap (n + 1) (Z.land a b) = Z.land a b).
  { apply Z.bits_inj'. intros p Hp. destruct (Z.ltb_spec p (n + 1)).
    - pose proof (swrap_mod (n + 1) (Z.land a b) ltac:(lia)) as E. apply (f_equal (fun z => Z.testbit z p)) in E.
      rewrite !testbit_mod_pow2 in E by lia. replace (p <? n + 1) with true in E by lia. exact E.
    - pose proof (swrap_range (n + 1) (Z.land a b) ltac:(lia)) as R.
      pose proof (swrap_mod (n + 1) (Z.land a b) ltac:(lia)) as E. apply (f_equal (fun z => Z.testbit z n)) in E.
      rewrite !testbit_mod_pow2 in E by lia. replace (n <? n + 1) with true in E by lia. cbn [andb] in E.
      replace (n + 1 - 1) with n in R by lia.
      rewrite (sign_bits (n + 1) (swrap (n + 1) (Z.land a b)) p) by (replace (n + 1 - 1) with n by lia; lia).
      rewrite <- (sign_bits (n + 1) (swrap (n + 1) (Z.land a b)) n) by (replace (n + 1 - 1) with n by lia; lia).
      rewrite E, !Z.land_spec.
      rewrite (sign_bits (n + 1) a n), (sign_bits (n + 1) b n), (sign_bits (n + 1) a p), (sign_bits (n + 1) b p)
        by (replace (n + 1 - 1) with n by lia; lia). reflexivity. }
  rewrite <- G. pose proof (swrap_range (n + 1) (Z.land a b) ltac:(lia)) as R. replace (n + 1 - 1) with n in R by lia. exact R.
Qed.
Lemma lor_range_s a b n : 0 <= n -> - 2 ^ n <= a < 2 ^ n -> - 2 ^ n <= b < 2 ^ n -> - 2 ^ n <= Z.lor a b < 2 ^ n.
Proof.
  intros Hn Ha Hb. pose proof (land_range_s (Z.lnot a) (Z.lnot b) n Hn) as H.
  rewrite <- Z.lnot_lor in H. unfold Z.lnot in *. lia.
Qed.
Lemma lxor_range_s a b n : 0 <= n -> - 2 ^ n <= a < 2 ^ n -> - 2 ^ n <= b < 2 ^ n -> - 2 ^ n <= Z.lxor a b < 2 ^ n.
Proof.
  intros Hn Ha Hb.
  assert (E : Z.lxor a b = Z.land (Z.lor a b) (Z.lnot (Z.land a b))).
  { apply Z.bits_inj'. intros p Hp. rewrite Z.lxor_spec, Z.land_spec, Z.lor_spec, Z.lnot_spec, Z.land_spec by lia.
    destruct (Z.testbit a p), (Z.testbit b p); reflexivity. }
  rewrite E. apply land_range_s; [lia | apply lor_range_s; assumption |].
  pose proof (land_range_s a b n Hn Ha Hb). unfold Z.lnot. lia.
Qed.

Ltac zo := let x := fresh in let y := fresh in intros x y [-> | ->] [-> | ->]; cbn; auto.

Definition bit_spec2 (op : bit -> bit -> outcome bit) (zop : Z -> Z -> Z) : Prop :=
  (forall a b n, vec a -> vec b -> bw a = n -> bw b = n -> blsb b <= bmsb b ->
    exists r, op a b = Ok r /\ typed r n (bsgn a && bsgn b) /\ num r = zop (num a) (num b) /\
      (bsgn a = bsgn b -> tidy a -> tidy b -> tidy r)) /\
  (forall a b na nb sa sb, 1 <= na -> 1 <= nb -> na <> nb -> typed a na sa -> typed b nb sb ->
    extendable a -> extendable b ->
    exists r, op a b = Ok r /\ typed r (Z.max na nb) (sa && sb) /\
      num r = zop (value a mod 2 ^ Z.max na nb) (value b mod 2 ^ Z.max na nb) /\
      (sa && sb = false \/ 65 <= Z.max na nb -> tidy r)).

Lemma bit_and_spec2 : bit_spec2 bit_and Z.land.
Proof.
  assert (Z1 : forall a b, a = 0 \/ a = 1 -> b = 0 \/ b = 1 -> Z.land a b = 0 \/ Z.land a b = 1) by zo.
  assert (C1 : forall a b, a = 0 \/ a = 1 -> b = 0 \/ b = 1 -> c_and TBool TBool a b = Z.land a b) by zo.
  assert (G : forall n a b, 1 <= n -> wfn n a -> wfn n b ->
    wfn n (bn_and n a b) /\ words_num (bn_and n a b) mod 2 ^ n = Z.land (words_num a) (words_num b) mod 2 ^ n).
  { intros n a b Hn Ha Hb. destruct (bn_and_spec n a b Hn Ha Hb) as [W E]. split; [exact W|]. rewrite E. apply Zmod_mod. }
  assert (GT : forall n a b, 1 <= n -> wfn n a -> wfn n b -> 0 <= words_num a < 2 ^ n -> 0 <= words_num b < 2 ^ n ->
    0 <= words_num (bn_and n a b) < 2 ^ n).
  { intros n a b Hn Ha Hb _ _. destruct (bn_and_spec n a b Hn Ha Hb) as [_ ->]. apply Z.mod_pos_bound, pow2_pos. lia. }
  split; intros.
  - unfold bit_and. rewrite (bsize_bw a n H1), (bsize_bw b n H2), Z.eqb_refl.
    apply (bitwise_same Z.land c_and bn_and); auto using land_mod_pow2, c_and_mod, land_range_s; try lia.
    intros; apply land_range; lia.
  - unfold bit_and. rewrite (typed_bsize a na sa), (typed_bsize b nb sb) by assumption.
    replace (na =? nb) with false by lia.
    apply (bitwise_mixed Z.land c_and bn_and); auto using land_mod_pow2, c_and_mod, land_range_s.
    intros; apply land_range; lia.
Qed.
Lemma bit_or_spec2 : bit_spec2 bit_or Z.lor.
Proof.
  assert (Z1 : forall a b, a = 0 \/ a = 1 -> b = 0 \/ b = 1 -> Z.lor a b = 0 \/ Z.lor a b = 1) by zo.
  assert (C1 : forall a b, a = 0 \/ a = 1 -> b = 0 \/ b = 1 -> c_or TBool TBool a b = Z.lor a b) by zo.
  set (gop := fun (_ : Z) a b => bn_or a b).
  assert (G : forall n a b, 1 <= n -> wfn n a -> wfn n b ->
    wfn n (gop n a b) /\ words_num (gop n a b) mod 2 ^ n = Z.lor (words_num a) (words_num b) mod 2 ^ n).
  { intros n a b Hn Ha Hb. destruct (bn_or_spec n a b Ha Hb) as [W E]. split; [exact W|]. unfold gop. rewrite E. reflexivity. }
  assert (GT : forall n a b, 1 <= n -> wfn n a -> wfn n b -> 0 <= words_num a < 2 ^ n -> 0 <= words_num b < 2 ^ n ->
    0 <= words_num (gop n a b) < 2 ^ n).
  { intros n a b Hn Ha Hb ? ?. destruct (bn_or_spec n a b Ha Hb) as [_ E]. unfold gop. rewrite E. apply lor_range; lia. }
  split; intros.
  - unfold bit_or. rewrite (bsize_bw a n H1), (bsize_bw b n H2), Z.eqb_refl.
    apply (bitwise_same Z.lor c_or gop); auto using lor_mod_pow2, c_or_mod, lor_range_s, lor_range; lia.
  - unfold bit_or. rewrite (typed_bsize a na sa), (typed_bsize b nb sb) by assumption.
    replace (na =? nb) with false by lia.
    apply (bitwise_mixed Z.lor c_or gop); auto using lor_mod_pow2, c_or_mod, lor_range_s, lor_range.
Qed.
Lemma bit_xor_spec2 : bit_spec2 bit_xor Z.lxor.
Proof.
  assert (Z1 : forall a b, a = 0 \/ a = 1 -> b = 0 \/ b = 1 -> Z.lxor a b = 0 \/ Z.lxor a b = 1) by zo.
  assert (C1 : forall a b, a = 0 \/ a = 1 -> b = 0 \/ b = 1 -> c_xor TBool TBool a b = Z.lxor a b) by zo.
  set (gop := fun (_ : Z) a b => bn_xor a b).
  assert (G : forall n a b, 1 <= n -> wfn n a -> wfn n b ->
    wfn n (gop n a b) /\ words_num (gop n a b) mod 2 ^ n = Z.lxor (words_num a) (words_num b) mod 2 ^ n).
  { intros n a b Hn Ha Hb. destruct (bn_xor_spec n a b Ha Hb) as [W E]. split; [exact W|]. unfold gop. rewrite E. reflexivity. }
  assert (GT : forall n a b, 1 <= n -> wfn n a -> wfn n b -> 0 <= words_num a < 2 ^ n -> 0 <= words_num b < 2 ^ n ->
    0 <= words_num (gop n a b) < 2 ^ n).
  { intros n a b Hn Ha Hb ? ?. destruct (bn_xor_spec n a b Ha Hb) as [_ E]. unfold gop. rewrite E. apply lxor_range; lia. }
  split; intros.
  - unfold bit_xor. rewrite (bsize_bw a n H1), (bsize_bw b n H2), Z.eqb_refl.
    apply (bitwise_same Z.lxor c_xor gop); auto using lxor_mod_pow2, c_xor_mod, lxor_range_s, lxor_range; lia.
  - unfold bit_xor. rewrite (typed_bsize a na sa), (typed_bsize b nb sb) by assumption.
    replace (na =? nb) with false by lia.
    apply (bitwise_mixed Z.lxor c_xor gop); auto using lxor_mod_pow2, c_xor_mod, lxor_range_s, lxor_range.
Qed.

Lemma lnot_mod z n : 0 <= n -> Z.lnot z mod 2 ^ n = 2 ^ n - 1 - z mod 2 ^ n.
Proof.
  intros Hn. assert (0 < 2 ^ n) by (apply pow2_pos; lia). pose proof (Z.mod_pos_bound z (2 ^ n) ltac:(lia)).
  unfold Z.lnot. replace (Z.pred (- z)) with (2 ^ n - 1 - z mod 2 ^ n + (- 1 - z / 2 ^ n) * 2 ^ n).
  - rewrite Z_mod_plus_full. apply Z.mod_small. lia.
  - pose proof (Z.div_mod z (2 ^ n) ltac:(lia)). lia.
Qed.
Lemma bit_not_spec a n : vec a -> bw a = n ->
  typed (bit_not a) n false /\ num (bit_not a) = 2 ^ n - 1 - num a.
Proof.
  intros V W. pose proof (bw_pos a) as Hp. rewrite W in Hp. unfold bit_not. rewrite (bsize_bw a n W).
  destruct (vec_cases_n a n V W) as [(x & Ea & Na & Ia & Sa & Ma) | (x & Ea & Na & Ia & Sa & Ma)]; rewrite Ea, Ma.
  - destruct (Z.eqb_spec n 1) as [->|N1].
    + cbn in Ia. assert (x = 0 \/ x = 1) as [-> | ->] by lia; cbn; (split; [|reflexivity]);
        (split; [|split; [split|]; reflexivity]); repeat split; cbn; lia.
    + rewrite nat_bit_eq by lia. split; [apply typed_nat; lia|].
      rewrite nat_bit_num, width_plain by (rewrite ?width_plain; lia).
      rewrite c_not_mod by (pose proof (hty_width n (bsgn a)); pose proof (promote_width (hty n (bsgn a))); lia).
      apply lnot_mod. lia.
  - destruct (bn_not_spec n x (proj1 Ia)) as (W1 & L1 & E1). destruct Ia as [Ia1 Ia2].
    split; [apply typed_big; [lia | split; [exact W1 | lia]]|]. rewrite num_plain_big, E1, Ia2 by lia.
    rewrite <- lnot_mod by lia.
    pose proof (nwords_bounds n ltac:(lia)).
    replace (64 * nwords n) with (n + (64 * nwords n - n)) by lia. rewrite pow2_split by lia.
    apply mod_eq_shift with (k := 2 ^ (64 * nwords n - n)); [apply pow2_pos; lia | unfold Z.lnot; lia].
Qed.
