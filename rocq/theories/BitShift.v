(** bit: reductions and shifts. *)
From Coq Require Import ZArith List Bool Lia Zify ZifyBool.
From Verif Require Import Cpp BigNum Bit Logic Spec ZBits Words BigNumProofs BigArith BitProofs BitSlice BitExt BitOps.
Import ListNotations.
Open Scope Z_scope.

Lemma tidy_value_stored b : vec b -> tidy b -> 0 <= value b -> stored b = value b.
Proof.
  intros V T. pose proof (bw_pos b) as Hp. unfold tidy in T. unfold value, snum, twos, num.
  destruct (vec_cases b V) as [(v & E & W & I & S) | (ws & E & W & I & S)]; rewrite S; rewrite E in T.
  - destruct (bsgn b) eqn:Sg; cbn [andb] in T.
    + destruct (Z.ltb_spec 1 (bw b)).
      * intros _. assert (P : 2 ^ bw b = 2 * 2 ^ (bw b - 1)) by (rewrite <- Z.pow_succ_r by lia; f_equal; lia).
        rewrite testbit_mod_pow2 by lia. replace (bw b - 1 <? bw b) with true by lia. cbn [andb].
        rewrite (sign_bits (bw b) v) by lia. destruct (Z.ltb_spec v 0).
        -- rewrite <- (Z_mod_plus_full v 1), Z.mul_1_l, Z.mod_small by lia. lia.
        -- rewrite Z.mod_small by lia. reflexivity.
      * assert (B : bw b = 1) by lia. rewrite B in *. change (2 ^ 1) with 2 in *. rewrite Z.mod_small by lia.
        assert (v = 0 \/ v = 1) as [-> | ->] by lia; cbn; lia.
    + intros _. rewrite Z.mod_small by exact T. reflexivity.
  - rewrite Z.mod_small by exact T. destruct (bsgn b); [|reflexivity].
    destruct (Z.testbit (words_num ws) (bw b - 1)); lia.
Qed.

(** * reductions *)
Lemma ones_S n z : 0 <= n -> ones (n + 1) z = ones n z + Z.b2z (Z.testbit z n).
Proof.
  intros Hn. unfold ones. replace (Z.to_nat (n + 1)) with (Z.to_nat n + 1)%nat by lia.
  rewrite seq_app, filter_app, app_length. cbn [seq filter plus]. rewrite Z2Nat.id by lia.
  destruct (Z.testbit z n); cbn [length Z.b2z]; lia.
Qed.
Lemma parity_ones n z : 0 <= n -> parity (Z.to_nat n) z = Z.odd (ones n z).
Proof.
  intros Hn. revert n Hn. apply natlike_ind; [reflexivity|]. intros n Hn IH.
  replace (Z.succ n) with (n + 1) by lia. rewrite ones_S by lia. rewrite Z2Nat.inj_add by lia.
  replace (Z.to_nat n + Z.to_nat 1)%nat with (S (Z.to_nat n)) by lia. cbn [parity]. rewrite IH, Z2Nat.id by lia.
  rewrite Z.odd_add. destruct (Z.testbit z n); reflexivity.
Qed.
Lemma ones_ext n a b : (forall p, 0 <= p < n -> Z.testbit a p = Z.testbit b p) -> ones n a = ones n b.
Proof.
  intros H. unfold ones. do 2 f_equal. apply filter_ext_in. intros k Hk. apply in_seq in Hk. apply H. lia.
Qed.

Lemma bit_r_and_u b : vec b -> 2 <= bw b <= 64 -> bsgn b = false -> tidy b ->
  bit_r_and b = (num b =? 2 ^ bw b - 1).
Proof.
  intros V W S T. rewrite num_of_tidy by assumption.
  destruct (vec_cases b V) as [(v & E & _ & I & Sv) | (ws & E & W2 & _)]; [|lia].
  rewrite Sv. unfold bit_r_and. rewrite E, S, (bsize_bw b _ eq_refl). rewrite S in I.
  assert (Nb : hty (bw b) false <> TBool) by (apply hty_nb; lia). pose proof (hty_width (bw b) false ltac:(lia)).
  rewrite szbits_nb by exact Nb. unfold cmax. rewrite hty_signed by lia. rewrite shiftr_ones by lia.
  set (w := iwidth (hty (bw b) false)) in *. replace (w - (w - bw b)) with (bw b) by lia.
  unfold c_eq. cbn zeta. replace (uac (hty (bw b) false) (promote (hty (bw b) false))) with (promote (hty (bw b) false))
    by (destruct (hty (bw b) false); reflexivity).
  rewrite !conv_promote; [reflexivity | | exact I].
  apply in_ity_range. rewrite hty_signed by lia. fold w.
  assert (0 < 2 ^ bw b) by (apply pow2_pos; lia). pose proof (pow2_mono (bw b) w ltac:(lia)). lia.
Qed.
Lemma bit_any_native b v : vec b -> bval b = HN v -> tidy b -> bit_any_set b = negb (num b =? 0).
Proof.
  intros V E T. unfold bit_any_set. rewrite E. f_equal. pose proof (bw_pos b).
  destruct (vec_cases b V) as [(v' & E' & W & I & S) | (ws & E' & _)]; rewrite E in E'; [|discriminate].
  injection E' as <-. unfold num. rewrite S. unfold tidy in T. rewrite E in T.
  destruct (bsgn b && (1 <? bw b)) eqn:C.
  - assert (P : 2 ^ bw b = 2 * 2 ^ (bw b - 1)) by (rewrite <- Z.pow_succ_r by lia; f_equal; lia).
    destruct (Z.ltb_spec v 0).
    + rewrite <- (Z_mod_plus_full v 1), Z.mul_1_l, Z.mod_small by lia. lia.
    + rewrite Z.mod_small by lia. reflexivity.
  - rewrite Z.mod_small by exact T. reflexivity.
Qed.
Lemma bit_any_big b ws : vec b -> bval b = HB ws -> tidy b -> halves_ok ws -> bit_any_set b = negb (num b =? 0).
Proof.
  intros V E T H. unfold bit_any_set. rewrite E. rewrite (num_of_tidy_big b ws E T).
  destruct (vec_cases b V) as [(v' & E' & _) | (ws' & E' & _ & [I _] & _)]; rewrite E in E'; [discriminate|].
  injection E' as <-. apply bn_any_set_spec; assumption.
Qed.
Lemma bit_r_xor_big b : vec b -> 65 <= bw b -> bit_r_xor b = Ok (Z.odd (ones (bw b) (num b))).
Proof.
  intros V W. destruct (vec_cases b V) as [(v' & E & W2 & _) | (ws & E & _ & [I _] & S)]; [lia|].
  unfold bit_r_xor. rewrite E, (bsize_bw b _ eq_refl). f_equal. rewrite bn_r_xor_spec by (assumption || lia).
  rewrite parity_ones by lia. f_equal. apply ones_ext. intros p Hp. rewrite <- S. symmetry. apply bit_at_stored. lia.
Qed.

(** * shifts *)
Lemma value_mask_spec t n req : t <> TBool \/ n = 1 -> 1 <= n <= 64 -> 1 <= req <= n -> n <= iwidth t ->
  exists m, value_mask t req = Ok m /\ m mod 2 ^ n = 2 ^ req - 1 /\ in_ity t m = true.
Proof.
  intros Ht Hn Hr Hw. unfold value_mask. rewrite (u64_id req) by lia.
  rewrite (u64_id (64 - req)) by lia. unfold c_shr. change (iwidth (promote TU64)) with 64.
  replace ((0 <=? 64 - req) && (64 - req <? 64)) with true by lia. cbn [bind].
  unfold u64max. rewrite shiftr_ones by lia. replace (64 - (64 - req)) with req by lia.
  assert (0 < 2 ^ req) by (apply pow2_pos; lia). pose proof (pow2_mono req n ltac:(lia)).
  eexists. split; [reflexivity|]. split; [|apply conv_in_ity].
  destruct Ht as [Ht | ->].
  - rewrite conv_mod by (assumption || lia). apply Z.mod_small. lia.
  - assert (req = 1) by lia. subst req. destruct t; reflexivity.
Qed.

Lemma conv_amount n s k : 1 <= n <= 64 -> 0 <= k < n -> conv (hty n s) k = k.
Proof.
  intros Hn Hk. apply conv_id, in_ity_range. unfold hty.
  repeat match goal with |- context [if ?c then _ else _] => destruct c eqn:? end; cbn; lia.
Qed.
Lemma conv_amount_wide n s k : 2 <= n <= 64 -> 0 <= k < 64 -> conv (hty n s) k = k.
Proof.
  intros Hn Hk. apply conv_id, in_ity_range. unfold hty.
  repeat match goal with |- context [if ?c then _ else _] => destruct c eqn:? end; cbn; lia.
Qed.

Lemma shr_native a amt n k : vec a -> vec amt -> bw a = n -> n <= 64 -> bw amt <= 64 -> stored amt = k -> 0 <= k < n ->
  exists r, bit_shr a amt = Ok r /\ typed r n (bsgn a && bsgn amt) /\ num r = num a / 2 ^ k.
Proof.
  intros Va Vk Wa Hn Wk Sk Hk. pose proof (bw_pos a) as Hp. rewrite Wa in Hp.
  destruct (vec_cases_n a n Va Wa) as [(x & Ea & Na & Ia & Sa & Ma) | (x & Ea & Na & _)]; [|lia].
  destruct (vec_cases amt Vk) as [(y & Eb & Nb & Ib & Sb) | (y & Eb & Nb & _)]; [|lia].
  rewrite Sk in Sb. subst y.
  unfold bit_shr. rewrite Ea, Eb. rewrite (bsize_bw a n Wa), (bsize_bw amt _ eq_refl). cbn zeta.
  rewrite conv_amount by lia. set (t := hty n (bsgn a)) in *. pose proof (hty_width n (bsgn a) ltac:(lia)) as Hw. fold t in Hw.
  pose proof (promote_width t) as Hpw. unfold c_shr at 1. cbn zeta.
  replace ((0 <=? k) && (k <? iwidth (promote t))) with true by lia. cbn [bind].
  (* n - k *)
  assert (Req : c_sub TI32 (hty (bw amt) (bsgn amt)) n k = Ok (n - k)).
  { unfold c_sub. cbn zeta. set (tb := hty (bw amt) (bsgn amt)) in *.
    assert (Ik : conv (uac TI32 tb) k = k) by (apply conv_id, in_ity_range; destruct tb; cbn; lia).
    assert (In : conv (uac TI32 tb) n = n) by (apply conv_id, in_ity_range; destruct tb; cbn; lia).
    rewrite Ik, In. unfold arith. destruct (isigned (uac TI32 tb)) eqn:Sg.
    - replace (in_ity (uac TI32 tb) (n - k)) with true; [reflexivity|]. symmetry. apply in_ity_range.
      rewrite Sg. destruct tb; cbn; lia.
    - rewrite Z.mod_small; [reflexivity|]. destruct tb; cbn; lia. }
  rewrite Req. cbn [bind].
  destruct (value_mask_spec t n (n - k)) as (m & Em & Mm & Im); try lia.
  { destruct (Z.eq_dec n 1); [right; assumption | left; apply hty_nb; lia]. }
  rewrite Em. cbn [bind]. eexists. split; [reflexivity|]. rewrite nat_bit_eq by lia.
  split; [apply typed_nat; lia|].
  set (z := c_and _ _ _ _).
  assert (Zn : z mod 2 ^ n = (num a / 2 ^ k) mod 2 ^ n).
  { unfold z. rewrite c_and_mod by (pose proof (uac_width (promote t) t); lia).
    rewrite land_mod_pow2, Mm by lia. rewrite land_ones_mod by lia. rewrite mod_mod_pow2 by lia.
    rewrite Z.shiftr_div_pow2 by lia. rewrite Ma. assert (0 < 2 ^ k) by (apply pow2_pos; lia).
    apply Z.bits_inj'. intros p Hpp. rewrite !testbit_mod_pow2, !Z.div_pow2_bits, testbit_mod_pow2 by lia.
    replace (p + k <? n) with (p <? n - k) by lia.
    destruct (Z.ltb_spec p (n - k)); cbn [andb]; [replace (p <? n) with true by lia | rewrite andb_false_r]; reflexivity. }
  assert (R : 0 <= num a / 2 ^ k < 2 ^ n).
  { pose proof (num_range a) as R. rewrite Wa in R. assert (0 < 2 ^ k) by (apply pow2_pos; lia).
    split; [apply Z.div_pos; lia | apply Z.div_lt_upper_bound; [lia|]; nia]. }
  rewrite (Z.mod_small (num a / 2 ^ k)) in Zn by exact R.
  destruct (Z.eq_dec n 1) as [E1|N1].
  - (* one bit *)
    assert (Zb : z = 0 \/ z = 1).
    { assert (K0 : k = 0) by lia. unfold z, t in *. rewrite K0, E1 in *. rewrite hty_1 in *. apply in_bool in Ia, Im.
      clear - Ia Im. destruct Ia as [-> | ->], Im as [-> | ->]; vm_compute; auto. }
    rewrite <- Zn. clearbody z.
    rewrite nat_bit_num1 by (rewrite width_plain; lia). destruct Zb as [-> | ->]; rewrite E1; reflexivity.
  - rewrite nat_bit_num, width_plain by (rewrite ?width_plain; lia). exact Zn.
Qed.

Lemma shr_big a amt n k : vec a -> vec amt -> bw a = n -> 65 <= n -> stored amt = k -> 0 <= k ->
  exists r, bit_shr a amt = Ok r /\ typed r n (bsgn a && bsgn amt) /\ num r = num a / 2 ^ k /\ tidy r.
Proof.
  intros Va Vk Wa Hn Sk Hk.
  destruct (vec_cases_n a n Va Wa) as [(x & Ea & Na & _) | (x & Ea & Na & Ia & Sa & Ma)]; [lia|].
  assert (R : 0 <= num a / 2 ^ k < 2 ^ n).
  { pose proof (num_range a) as R. rewrite Wa in R. assert (0 < 2 ^ k) by (apply pow2_pos; lia).
    split; [apply Z.div_pos; lia | apply Z.div_lt_upper_bound; [lia|]; nia]. }
  assert (G : forall ws, wfn n ws -> words_num ws = num a / 2 ^ k ->
    let r := mkBit (n - 1) 0 (bsgn a && bsgn amt) (HB ws) in
    typed r n (bsgn a && bsgn amt) /\ num r = num a / 2 ^ k /\ tidy r).
  { intros ws W E r. split; [apply typed_big; assumption|]. unfold r. rewrite num_plain_big, E by lia.
    split; [apply Z.mod_small; exact R|]. apply big_tidy. rewrite width_plain, E by lia. exact R. }
  unfold bit_shr. rewrite Ea, (bsize_bw a n Wa).
  destruct (vec_cases amt Vk) as [(y & Eb & Nb & Ib & Sb) | (y & Eb & Nb & [Ib _] & Sb)]; rewrite Eb; rewrite Sk in Sb;
    (eexists; split; [reflexivity|]).
  - subst y. assert (k < 2 ^ 64). { apply in_ity_range in Ib. destruct (hty (bw amt) (bsgn amt)); cbn in Ib; lia. }
    rewrite u64_id by lia. destruct (bn_shr_spec n x k ltac:(lia) Hk Ia) as [W E]. apply G; [exact W|]. rewrite E, Ma. reflexivity.
  - destruct (bn_shr_big_spec n x y ltac:(lia) Ib Ia) as [W E]. apply G; [exact W|]. rewrite E, Ma, Sb. reflexivity.
Qed.

(** left shift *)
Lemma shl_native a amt n k : vec a -> vec amt -> bw a = n -> n <= 64 -> bw amt <= 64 -> stored amt = k ->
  0 <= k -> (2 <= n /\ k < iwidth (promote (hty n (bsgn a)))) \/ k = 0 ->
  exists r, bit_shl a amt = Ok r /\ typed r n (bsgn a && bsgn amt) /\ num r = (num a * 2 ^ k) mod 2 ^ n.
Proof.
  intros Va Vk Wa Hn Wk Sk Hk0 Hk. pose proof (bw_pos a) as Hp. rewrite Wa in Hp.
  destruct (vec_cases_n a n Va Wa) as [(x & Ea & Na & Ia & Sa & Ma) | (x & Ea & Na & _)]; [|lia].
  destruct (vec_cases amt Vk) as [(y & Eb & Nb & Ib & Sb) | (y & Eb & Nb & _)]; [|lia].
  rewrite Sk in Sb. subst y.
  unfold bit_shl. rewrite Ea, Eb. rewrite (bsize_bw a n Wa). cbn zeta.
  set (t := hty n (bsgn a)) in *. pose proof (hty_width n (bsgn a) ltac:(lia)) as Hw. fold t in Hw.
  pose proof (promote_width t) as Hpw. pose proof (promote_32 t). pose proof (iwidth_pos (promote t)).
  assert (Ck : conv t k = k). { destruct Hk as [Hk | ->]; [apply conv_amount_wide; lia | destruct t; reflexivity]. }
  rewrite Ck. unfold c_shl. cbn zeta. replace ((0 <=? k) && (k <? iwidth (promote t))) with true by lia. cbn [bind].
  eexists. split; [reflexivity|]. rewrite nat_bit_eq by lia. split; [apply typed_nat; lia|].
  rewrite Z.shiftl_mul_pow2 by lia. rewrite Ma, Z.mul_mod_idemp_l by (pose proof (pow2_pos n); lia).
  destruct (Z.eq_dec n 1) as [E1|N1].
  - assert (K0 : k = 0) by lia. rewrite nat_bit_num1 by (rewrite width_plain; lia).
    unfold t in *. rewrite K0, E1 in *. rewrite hty_1 in *. apply in_bool in Ia. clear - Ia. destruct Ia as [-> | ->]; reflexivity.
  - rewrite nat_bit_num, width_plain by (rewrite ?width_plain; lia).
    rewrite conv_mod by (apply promote_nb || lia). reflexivity.
Qed.
Lemma shl_big a amt n k : vec a -> vec amt -> bw a = n -> 65 <= n -> stored amt = k -> 0 <= k ->
  exists r, bit_shl a amt = Ok r /\ typed r n (bsgn a && bsgn amt) /\ num r = (num a * 2 ^ k) mod 2 ^ n /\ tidy r.
Proof.
  intros Va Vk Wa Hn Sk Hk.
  destruct (vec_cases_n a n Va Wa) as [(x & Ea & Na & _) | (x & Ea & Na & Ia & Sa & Ma)]; [lia|].
  assert (P : 0 < 2 ^ n) by (apply pow2_pos; lia).
  assert (G : forall ws, wfn n ws -> words_num ws = (words_num x * 2 ^ k) mod 2 ^ n ->
    let r := mkBit (n - 1) 0 (bsgn a && bsgn amt) (HB ws) in
    typed r n (bsgn a && bsgn amt) /\ num r = (num a * 2 ^ k) mod 2 ^ n /\ tidy r).
  { intros ws W E r. split; [apply typed_big; assumption|]. unfold r. rewrite num_plain_big, E by lia.
    rewrite Zmod_mod, Ma, Z.mul_mod_idemp_l by lia. split; [reflexivity|].
    apply big_tidy. rewrite width_plain, E by lia. apply Z.mod_pos_bound. lia. }
  unfold bit_shl. rewrite Ea, (bsize_bw a n Wa).
  destruct (vec_cases amt Vk) as [(y & Eb & Nb & Ib & Sb) | (y & Eb & Nb & [Ib _] & Sb)]; rewrite Eb; rewrite Sk in Sb;
    (eexists; split; [reflexivity|]).
  - subst y. assert (k < 2 ^ 64). { apply in_ity_range in Ib. destruct (hty (bw amt) (bsgn amt)); cbn in Ib; lia. }
    rewrite u64_id by lia. destruct (bn_shl_spec n x k ltac:(lia) Hk Ia) as [W E]. apply G; assumption.
  - destruct (bn_shl_big_spec n x y ltac:(lia) Ib Ia) as [W E]. apply G; [exact W|]. rewrite E, Sb. reflexivity.
Qed.

(** arithmetic right shift *)
Lemma ashr_native a amt n k : vec a -> vec amt -> bw a = n -> 2 <= n <= 64 -> bw amt <= 64 -> stored amt = k ->
  0 <= k < iwidth (promote (hty n (bsgn a))) ->
  exists r, bit_ashr a amt = Ok r /\ typed r n (bsgn a && bsgn amt) /\ num r = (stored a / 2 ^ k) mod 2 ^ n.
Proof.
  intros Va Vk Wa Hn Wk Sk Hk.
  destruct (vec_cases_n a n Va Wa) as [(x & Ea & Na & Ia & Sa & Ma) | (x & Ea & Na & _)]; [|lia].
  destruct (vec_cases amt Vk) as [(y & Eb & Nb & Ib & Sb) | (y & Eb & Nb & _)]; [|lia].
  rewrite Sk in Sb. subst y.
  unfold bit_ashr. rewrite Ea, Eb. rewrite (bsize_bw a n Wa). cbn zeta.
  set (t := hty n (bsgn a)) in *. pose proof (iwidth_pos (promote t)).
  replace (conv t k) with k by (symmetry; apply conv_amount_wide; lia). unfold c_shr. cbn zeta.
  replace ((0 <=? k) && (k <? iwidth (promote t))) with true by lia. cbn [bind].
  eexists. split; [reflexivity|]. rewrite nat_bit_eq by lia. split; [apply typed_nat; lia|].
  rewrite Z.shiftr_div_pow2 by lia. rewrite nat_bit_num, width_plain by (rewrite ?width_plain; lia). rewrite Sa. reflexivity.
Qed.
Lemma tidy_s_stored b : vec b -> 2 <= bw b <= 64 -> bsgn b = true -> tidy b -> stored b = snum b.
Proof.
  intros V W Sg T. unfold tidy in T. unfold snum, twos, num.
  destruct (vec_cases b V) as [(v & E & _ & I & S) | (ws & E & W2 & _)]; [|lia]. rewrite S. rewrite E, Sg in T.
  replace (true && (1 <? bw b)) with true in T by lia.
  assert (P : 2 ^ bw b = 2 * 2 ^ (bw b - 1)) by (rewrite <- Z.pow_succ_r by lia; f_equal; lia).
  rewrite testbit_mod_pow2 by lia. replace (bw b - 1 <? bw b) with true by lia. cbn [andb].
  rewrite (sign_bits (bw b) v) by lia. destruct (Z.ltb_spec v 0).
  - rewrite <- (Z_mod_plus_full v 1), Z.mul_1_l, Z.mod_small by lia. lia.
  - rewrite Z.mod_small by lia. reflexivity.
Qed.

(** * multi-word arithmetic shift *)
Lemma bn_ashr_big_eq n s ws ks : 1 <= n < 2 ^ 64 -> wf ks -> wfn n ws ->
  bn_ashr_big n s ws ks = bn_ashr n s ws (words_num ks).
Proof.
  intros Hn W Hws. unfold bn_ashr_big. destruct (bn_amount_high ks) eqn:E.
  - apply (bn_amount_high_spec ks W) in E. unfold bn_ashr. destruct s.
    + replace (n - 1 <? words_num ks) with true by lia. reflexivity.
    + unfold bn_shr. replace (n <? words_num ks) with true by lia. reflexivity.
  - rewrite (bn_amount_low ks W E). reflexivity.
Qed.
Lemma snum_testbit n z p : 1 <= n -> 0 <= z < 2 ^ n -> 0 <= p ->
  Z.testbit (twos n z) p = if p <? n then Z.testbit z p else Z.testbit z (n - 1).
Proof.
  intros Hn Hz Hp. pose proof (twos_range n z Hn Hz) as R. unfold twos in *.
  assert (P : 2 ^ n = 2 * 2 ^ (n - 1)) by (rewrite <- Z.pow_succ_r by lia; f_equal; lia).
  destruct (Z.testbit z (n - 1)) eqn:T.
  - destruct (Z.ltb_spec p n).
    + assert (E : (z - 2 ^ n) mod 2 ^ n = z mod 2 ^ n) by (apply mod_eq_shift with (k := -1); lia).
      apply (f_equal (fun u => Z.testbit u p)) in E. rewrite !testbit_mod_pow2 in E by lia.
      replace (p <? n) with true in E by lia. exact E.
    + rewrite (sign_bits n) by lia. lia.
  - destruct (Z.ltb_spec p n); [reflexivity|]. apply (testbit_small z n); lia.
Qed.
Lemma bn_ashr_num n ws k : 1 <= n -> 0 <= k -> wfn n ws -> 0 <= words_num ws < 2 ^ n ->
  wfn n (bn_ashr n true ws k) /\
  words_num (bn_ashr n true ws k) = (twos n (words_num ws) / 2 ^ k) mod 2 ^ n
    - (if (twos n (words_num ws) <? 0) && (k <? n) then 2 ^ (n - 1 - k) else 0).
Proof.
  intros Hn Hk Hws R. destruct (bn_ashr_signed n ws k Hn Hk Hws) as [W B]. split; [exact W|].
  set (z := words_num ws) in *. set (e := (twos n z / 2 ^ k) mod 2 ^ n).
  assert (Eb : forall p, 0 <= p -> Z.testbit e p = (p <? n) && (if p <? n - k then Z.testbit z (p + k) else Z.testbit z (n - 1))).
  { intros p Hp. unfold e. rewrite testbit_mod_pow2, Z.div_pow2_bits, snum_testbit by lia.
    replace (p + k <? n) with (p <? n - k) by lia. reflexivity. }
  assert (Sg : (twos n z <? 0) = Z.testbit z (n - 1)).
  { unfold twos. destruct (Z.testbit z (n - 1)); lia. }
  rewrite Sg. destruct (Z.testbit z (n - 1)) eqn:T; cbn [andb].
  - destruct (Z.ltb_spec k n).
    + assert (E2 : e = words_num (bn_ashr n true ws k) + 2 ^ (n - 1 - k)); [|lia].
      rewrite <- lor_disjoint_add.
      * apply Z.bits_inj'. intros p Hp. rewrite Eb, Z.lor_spec, B, Z.pow2_bits_eqb by lia.
        destruct (Z.ltb_spec p n); cbn [andb].
        -- destruct (Z.eqb_spec (n - 1 - k) p).
           ++ subst p. replace (n - 1 - k <? n - k) with true by lia. replace (n - 1 - k + k) with (n - 1) by lia.
              rewrite T, orb_true_r. reflexivity.
           ++ rewrite orb_false_r. destruct (Z.ltb_spec p (n - 1 - k)).
              ** replace (p <? n - k) with true by lia. reflexivity.
              ** replace (p <? n - k) with false by lia. replace (p =? n - 1 - k) with false by lia. reflexivity.
        -- replace (n - 1 - k =? p) with false by lia. reflexivity.
      * apply Z.bits_inj'. intros p Hp. rewrite Z.land_spec, B, Z.pow2_bits_eqb, Z.bits_0 by lia.
        destruct (Z.eqb_spec (n - 1 - k) p); [|apply andb_false_r]. subst p.
        replace (n - 1 - k <? n - 1 - k) with false by lia. replace (n - 1 - k =? n - 1 - k) with true by lia.
        replace (k <? n) with true by lia. cbn. rewrite andb_false_r. reflexivity.
    + rewrite Z.sub_0_r. apply Z.bits_inj'. intros p Hp. rewrite Eb, B by lia.
      replace (p <? n - 1 - k) with false by lia. replace (p <? n - k) with false by lia.
      replace (k <? n) with false by lia. rewrite andb_false_r. reflexivity.
  - rewrite Z.sub_0_r. apply Z.bits_inj'. intros p Hp. rewrite Eb, B by lia.
    destruct (Z.ltb_spec p n); cbn [andb]; [|reflexivity]. rewrite andb_false_r.
    destruct (Z.ltb_spec p (n - 1 - k)).
    + replace (p <? n - k) with true by lia. reflexivity.
    + destruct (Z.ltb_spec p (n - k)); [|reflexivity]. replace (p + k) with (n - 1) by lia. symmetry. exact T.
Qed.
Lemma ashr_big a amt n k : vec a -> vec amt -> bw a = n -> 65 <= n -> tidy a -> stored amt = k -> 0 <= k ->
  exists r, bit_ashr a amt = Ok r /\ typed r n (bsgn a && bsgn amt) /\ tidy r /\
    num r = (value a / 2 ^ k) mod 2 ^ n - (if (value a <? 0) && (k <? n) then 2 ^ (n - 1 - k) else 0).
Proof.
  intros Va Vk Wa Hn Ta Sk Hk.
  destruct (vec_cases_n a n Va Wa) as [(x & Ea & Na & _) | (x & Ea & Na & Ia & Sa & Ma)]; [lia|].
  pose proof (num_of_tidy_big a x Ea Ta) as Nx. unfold tidy in Ta. rewrite Ea, Wa in Ta.
  assert (0 < 2 ^ n) by (apply pow2_pos; lia). assert (0 < 2 ^ k) by (apply pow2_pos; lia).
  assert (Exact : wfn n (bn_ashr n (bsgn a) x k) /\ words_num (bn_ashr n (bsgn a) x k) =
    (value a / 2 ^ k) mod 2 ^ n - (if (value a <? 0) && (k <? n) then 2 ^ (n - 1 - k) else 0)).
  { unfold value, snum. rewrite Nx, Wa. destruct (bsgn a).
    - apply bn_ashr_num; (assumption || lia).
    - unfold bn_ashr. destruct (bn_shr_spec n x k ltac:(lia) Hk Ia) as [W E]. split; [exact W|].
      rewrite E, Z.mod_small by exact Ta. replace (words_num x <? 0) with false by lia. cbn [andb]. rewrite Z.sub_0_r.
      symmetry. apply Z.mod_small. split; [apply Z.div_pos; lia | apply Z.div_lt_upper_bound; nia]. }
  destruct Exact as [W E].
  assert (R : 0 <= words_num (bn_ashr n (bsgn a) x k) < 2 ^ n).
  { split; [apply words_num_nonneg, W|]. rewrite E. pose proof (Z.mod_pos_bound (value a / 2 ^ k) (2 ^ n) ltac:(lia)).
    destruct ((value a <? 0) && (k <? n)) eqn:C; [pose proof (pow2_pos (n - 1 - k))|]; lia. }
  assert (Sh : bit_ashr a amt = Ok (mkBit (n - 1) 0 (bsgn a && bsgn amt) (HB (bn_ashr n (bsgn a) x k)))).
  { unfold bit_ashr. rewrite Ea, (bsize_bw a n Wa).
    destruct (vec_cases amt Vk) as [(y & Eb & Nb & Ib & Sb) | (y & Eb & Nb & [Ib _] & Sb)]; rewrite Eb; rewrite Sk in Sb.
    - subst y. assert (k < 2 ^ 64). { apply in_ity_range in Ib. destruct (hty (bw amt) (bsgn amt)); cbn in Ib; lia. }
      rewrite u64_id by lia. reflexivity.
    - rewrite bn_ashr_big_eq by (assumption || lia). rewrite <- Sb. reflexivity. }
  exists (mkBit (n - 1) 0 (bsgn a && bsgn amt) (HB (bn_ashr n (bsgn a) x k))).
  split; [exact Sh|]. split; [apply typed_big; assumption|].
  split; [apply big_tidy; rewrite width_plain by lia; exact R|]. rewrite num_plain_big by lia.
  rewrite Z.mod_small by exact R. exact E.
Qed.
