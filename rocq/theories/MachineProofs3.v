(** Unary operators, conversions, single positions, slices and concatenation against the reference machine. *)
From Coq Require Import ZArith List Bool Lia Zify ZifyBool.
From Verif Require Import Cpp BigNum Bit Logic Spec SpecExact SpecMachine ZBits Words BigNumProofs BigArith BitProofs BitSlice BitExt BitOps BitShift BitArith MachineProofs MachineProofs2.
Import ListNotations.
Open Scope Z_scope.
Local Ltac Zify.zify_post_hook ::= idtac.

Lemma storage_pow n : 2 <= n <= 64 -> 0 < 2 ^ storage n.
Proof. intros H. destruct (storage_cases n H) as (? & ? & S & _). apply pow2_pos. lia. Qed.
Lemma store_mod_eq n s z : 2 <= n <= 64 -> store n s z mod 2 ^ storage n = z mod 2 ^ storage n.
Proof.
  intros H. destruct (storage_cases n H) as (? & ? & S & _). unfold store. replace (n =? 1) with false by lia.
  unfold wrap. destruct s; [fold (swrap (storage n) z); apply swrap_mod; lia|]. apply Z.mod_mod. apply Z.pow_nonzero; lia.
Qed.
Lemma store_store n s t z : 2 <= n <= 64 -> store n s (store n t z) = store n s z.
Proof. intros H. apply store_mod; [exact H|]. apply store_mod_eq. exact H. Qed.

(** * assignment and conversion *)
Lemma assign_machine d a : vec d -> vec a -> bw d <= 64 -> bw a <= 64 -> bit_assign d a = Ok (written d (stored a)).
Proof.
  intros Vd Va Hd Ha. native a x Ea Na Ia Sa. pose proof (bw_pos d).
  unfold bit_assign, holder_assign, native_num. rewrite (bsize_bw d _ eq_refl). replace (bw d <=? 64) with true by lia.
  rewrite Ea, Sa. cbn [bind]. rewrite conv_store by lia. reflexivity.
Qed.
Lemma assign_arith_machine d v : vec d -> bw d <= 64 -> bit_assign_arith d v = Ok (written d v).
Proof.
  intros Vd Hd. native d x Ed Nd Id Sd. unfold bit_assign_arith. rewrite Ed, (bsize_bw d _ eq_refl), conv_store by lia. reflexivity.
Qed.
Lemma resign_machine s a : vec a -> bw a <= 64 -> bit_resign s a = vector (bw a) s (stored a).
Proof.
  intros Va Ha. native a x Ea Na Ia Sa. unfold bit_resign. rewrite Ea, Sa, (bsize_bw a _ eq_refl), conv_store by lia. reflexivity.
Qed.
Lemma mask_off_any a : vec a -> bw a <= 64 -> bit_mask_off a = written a (stored a mod 2 ^ bw a).
Proof.
  intros Va Ha. native a x Ea Na Ia Sa. destruct (Z.eq_dec (bw a) 1) as [E | E].
  - unfold bit_mask_off, written, native_mask_off. rewrite Ea, Sa, (bsize_bw a _ eq_refl), E. rewrite E, hty_1 in Ia. apply in_bool in Ia.
    apply f_equal, f_equal. destruct Ia as [-> | ->]; reflexivity.
  - pose proof (mask_off_machine (bw a) (bsgn a) x ltac:(lia)) as M. unfold bit_mask_off in *. unfold written. rewrite Ea.
    unfold vector in M. cbn [bmsb blsb bsgn bval] in M. rewrite (store_in (bw a) (bsgn a) x Na Ia) in M.
    injection M as M. unfold bsize, vsize in M |- *. cbn [bmsb blsb] in M. change (Z.abs (bmsb a - blsb a) + 1) with (bw a).
    replace (Z.abs (bw a - 1 - 0) + 1) with (bw a) in M by lia. rewrite M, Sa. reflexivity.
Qed.

(** * unary operators *)
Lemma neg_core n s x : 1 <= n <= 64 -> in_ity (hty n s) x = true ->
  c_neg (hty n s) x = if (16 <? n) && s && negb (fitting (computing n) (- x)) then UB
                      else Ok (if (16 <? n) && negb s then - x mod 2 ^ computing n else - x).
Proof.
  intros H I. unfold c_neg. cbn zeta. unfold arith.
  assert (Sg : isigned (promote (hty n s)) = (n <=? 16) || s) by (rewrite <- uac_same, uac_sign, andb_diag by exact H; reflexivity).
  rewrite Sg, promote_computing by exact H. destruct (Z.leb_spec n 16) as [L | L].
  - cbn [orb]. replace (16 <? n) with false by lia. cbn [andb].
    rewrite in_ity_fitting by (rewrite Sg; reflexivity || (replace (n <=? 16) with true by lia; reflexivity)).
    rewrite promote_computing by exact H. replace (fitting (computing n) (- x)) with true; [reflexivity|]. symmetry.
    apply in_values in I; [|exact H]. unfold fitting, computing. replace (n <=? 32) with true by lia. cbn.
    destruct (n =? 1); [lia|]. unfold storage in I. destruct (n <=? 8); [cbn in I; destruct s; lia|].
    destruct (Z.leb_spec n 16); [cbn in I; destruct s; lia|lia].
  - cbn [orb]. replace (16 <? n) with true by lia. cbn [andb]. destruct s; cbn [negb andb]; [|reflexivity].
    rewrite in_ity_fitting by (rewrite Sg; replace (n <=? 16) with false by lia; reflexivity).
    rewrite promote_computing by exact H. destruct (fitting _ _); reflexivity.
Qed.
Lemma neg_store n s t x : 1 <= n <= 64 -> store n t (if (16 <? n) && negb s then - x mod 2 ^ computing n else - x) = store n t (- x).
Proof.
  intros H. destruct ((16 <? n) && negb s) eqn:Q; [|reflexivity]. destruct (storage_cases n ltac:(lia)) as (? & ? & S & _).
  apply store_mod; [lia|]. apply mod_mod_pow2. lia.
Qed.
Lemma neg_machine a : vec a -> bw a <= 64 -> bit_neg a = negated a.
Proof.
  intros Va Ha. native a x Ea Na Ia Sa. unfold bit_neg, negated. rewrite Ea, Sa, (bsize_bw a _ eq_refl), neg_core by (lia || assumption).
  destruct (_ && negb (fitting _ _)); [reflexivity|]. cbn [bind]. unfold bit_of_native, written. apply f_equal, f_equal, f_equal.
  change (vsize (bmsb a) (blsb a)) with (bw a). rewrite conv_store by lia. apply neg_store. lia.
Qed.
Lemma not_machine a : vec a -> bw a <= 64 -> bit_not a = inverse a.
Proof.
  intros Va Ha. native a x Ea Na Ia Sa. unfold bit_not, inverse, vector. rewrite Ea, Sa, (bsize_bw a _ eq_refl). cbn zeta. apply f_equal.
  destruct (Z.eqb_spec (bw a) 1) as [E | E]; apply f_equal.
  - rewrite E, hty_1 in Ia. apply in_bool in Ia. rewrite E. destruct Ia as [-> | ->]; reflexivity.
  - destruct (storage_cases (bw a) ltac:(lia)) as (? & ? & S & _). rewrite conv_store by lia. apply store_mod; [lia|].
    rewrite c_not_mod by (rewrite promote_computing; lia). replace (Z.lnot x) with (- x - 1) by (unfold Z.lnot; lia). reflexivity.
Qed.
Lemma negate_machine a : vec a -> bw a <= 64 -> bit_negate a = two_complement a.
Proof.
  intros Va Ha. native a x Ea Na Ia Sa. unfold bit_negate, two_complement. rewrite Ea, Sa, (bsize_bw a _ eq_refl). cbn zeta.
  set (n := bw a) in *. set (s := bsgn a) in *. clearbody n s. destruct (Z.eq_dec n 1) as [-> | N].
  { rewrite hty_1 in *. apply in_bool in Ia. destruct s, Ia as [-> | ->]; reflexivity. }
  set (t := hty n s) in *.
  assert (W : iwidth (promote t) = computing n) by (apply promote_computing; lia).
  assert (Sg : isigned (promote t) = (n <=? 16) || s) by (unfold t; rewrite <- uac_same, uac_sign, andb_diag by lia; reflexivity).
  assert (U : uac (promote t) TI32 = promote t) by (destruct t; reflexivity).
  assert (C : c_add (promote t) TI32 (c_not t x) 1 = arith (promote t) (c_not t x + 1)).
  { unfold c_add. cbn zeta. rewrite U. rewrite (conv_id _ (c_not t x)) by (apply conv_in_ity).
    rewrite (conv_id _ 1) by (apply in_ity_range; rewrite Sg, W; unfold computing; destruct (_ || _), (n <=? 32); cbn; lia). reflexivity. }
  rewrite C. clear C.
  destruct (storage_cases n ltac:(lia)) as (L1 & L2 & S & _).
  assert (P : 0 < 2 ^ computing n) by (destruct (computing_two n) as [-> | ->]; reflexivity).
  assert (Nt : c_not t x = if (n <=? 16) || s then - x - 1 else (- x - 1) mod 2 ^ computing n).
  { unfold c_not. cbn zeta. replace (Z.lnot x) with (- x - 1) by (unfold Z.lnot; lia).
    destruct ((n <=? 16) || s) eqn:Q.
    - apply conv_id. apply in_promote in Ia. fold t in Ia. apply in_ity_range in Ia. apply in_ity_range. rewrite Sg, W in *. lia.
    - unfold conv. rewrite <- W. destruct (promote t); cbn in Sg; try discriminate; try reflexivity. }
  rewrite Nt. clear Nt. unfold arith. rewrite Sg, W.
  assert (K : forall z, z mod 2 ^ storage n = (- x) mod 2 ^ storage n ->
    bit_mask_off (mkBit (n - 1) 0 false (HN (conv (hty n false) z))) = vector n false (- x mod 2 ^ n)).
  { intros z D. rewrite conv_store by lia. fold (vector n false z). rewrite mask_off_machine by lia.
    rewrite <- (mod_mod_pow2 z n (storage n)), D, mod_mod_pow2 by lia. reflexivity. }
  destruct ((n <=? 16) || s) eqn:Q.
  - rewrite in_ity_fitting by exact Sg. rewrite W. replace (- x - 1 + 1) with (- x) by lia.
    assert (G : (16 <? n) && s && negb (fitting (computing n) (- x)) = negb (fitting (computing n) (- x))).
    { destruct (Z.leb_spec n 16) as [L | L].
      - replace (16 <? n) with false by lia. cbn [andb]. symmetry. apply negb_false_iff.
        apply in_values in Ia; [|lia]. replace (n =? 1) with false in Ia by lia. unfold fitting, computing. replace (n <=? 32) with true by lia. cbn.
        unfold storage in Ia. destruct (n <=? 8); [cbn in Ia; destruct s; lia|]. destruct (Z.leb_spec n 16); [cbn in Ia; destruct s; lia|lia].
      - cbn [orb] in Q. rewrite Q. replace (16 <? n) with true by lia. reflexivity. }
    rewrite G. destruct (fitting _ _); [|reflexivity]. cbn [negb bind]. apply f_equal, K. reflexivity.
  - apply orb_false_iff in Q. destruct Q as [_ Q]. rewrite Q, andb_false_r. cbn [andb bind]. apply f_equal, K.
    rewrite mod_mod_pow2 by lia. rewrite <- (mod_mod_pow2 ((- x - 1) mod 2 ^ computing n + 1) (storage n) (computing n)) by lia.
    rewrite Zplus_mod_idemp_l. rewrite mod_mod_pow2 by lia. f_equal. lia.
Qed.

(** * ++ and -- *)
Lemma one_vec : vec bit_one. Proof. apply (typed_vec 1 false 1); [lia|reflexivity]. Qed.
Lemma vector_vec n s z : 1 <= n <= 64 -> vec (vector n s z) /\ bw (vector n s z) = n /\ stored (vector n s z) = store n s z.
Proof.
  intros H. split; [|split; [unfold bw, width, vector; cbn; lia|reflexivity]].
  unfold vector. apply typed_vec; [exact H|]. rewrite <- conv_store by exact H. apply conv_in_ity.
Qed.
Lemma step_core (zop : Z -> Z -> Z) d a : (forall x, zop x 1 = x + d) -> d = 1 \/ d = -1 -> vec a -> bw a <= 64 ->
  (let! r := computed zop false a bit_one in bit_assign a r) = stepped d a.
Proof.
  intros Zd D Va Ha. native a x Ea Na Ia Sa. unfold computed, stepped. cbn zeta.
  assert (W1 : bw bit_one = 1) by reflexivity.
  assert (P : pairs_up a bit_one = (bw a =? 1) || bsgn a || ((blsb a =? 0) && (0 <=? bmsb a))).
  { unfold pairs_up. rewrite W1. destruct (Z.eqb_spec (bw a) 1) as [E | E]; [reflexivity|]. replace (bw a <? 1) with false by lia. reflexivity. }
  rewrite P. destruct (_ || _); [|reflexivity]. cbn [negb].
  assert (Wd : wider a bit_one = bw a) by (unfold wider; rewrite W1; lia). rewrite Wd.
  change (stored bit_one) with 1. change (bsgn bit_one) with false.
  assert (B : both_signed a bit_one = false) by (unfold both_signed; apply andb_false_r). rewrite B.
  assert (WS : with_sign (bw a) (bsgn a) false = (bw a <=? 16)) by (unfold with_sign; rewrite andb_false_r; apply orb_false_r).
  assert (O1 : operand (bw a) (bsgn a) false 1 = 1).
  { unfold operand. destruct (with_sign _ _ _); [reflexivity|]. destruct (computing_two (bw a)) as [-> | ->]; reflexivity. }
  rewrite O1, Zd, WS. unfold operand. rewrite WS. rewrite Sa.
  assert (F : (bw a <=? 16) && negb (fitting (computing (bw a)) ((if bw a <=? 16 then x else x mod 2 ^ computing (bw a)) + d)) = false).
  { destruct (Z.leb_spec (bw a) 16) as [L | L]; [|reflexivity]. cbn [andb]. apply negb_false_iff.
    apply in_values in Ia; [|lia]. unfold fitting, computing. replace (bw a <=? 32) with true by lia. cbn.
    destruct (Z.eqb_spec (bw a) 1); [lia|]. unfold storage in Ia.
    destruct (bw a <=? 8); [cbn in Ia; destruct (bsgn a); lia|]. destruct (Z.leb_spec (bw a) 16); [cbn in Ia; destruct (bsgn a); lia|lia]. }
  rewrite F. cbn [orb bind]. destruct (vector_vec (bw a) false ((if bw a <=? 16 then x else x mod 2 ^ computing (bw a)) + d) ltac:(lia)) as (V & Wv & Sv).
  rewrite assign_machine by (auto; lia). rewrite Sv. unfold written. apply f_equal, f_equal, f_equal.
  destruct (Z.eq_dec (bw a) 1) as [E | E].
  - rewrite E in *. rewrite hty_1 in Ia. apply in_bool in Ia. destruct Ia as [-> | ->], D as [-> | ->]; reflexivity.
  - rewrite store_store by lia. destruct (bw a <=? 16) eqn:Q; [reflexivity|]. destruct (storage_cases (bw a) ltac:(lia)) as (L1 & L2 & S & _).
    apply store_mod; [lia|]. rewrite <- (mod_mod_pow2 _ (storage (bw a)) (computing (bw a))) by lia.
    rewrite Zplus_mod_idemp_l. apply mod_mod_pow2. lia.
Qed.
Lemma inc_machine a : vec a -> bw a <= 64 -> bit_inc a = stepped 1 a.
Proof.
  intros Va Ha. unfold bit_inc. rewrite add_machine by (try apply one_vec; auto; vm_compute; discriminate).
  apply step_core; auto.
Qed.
Lemma dec_machine a : vec a -> bw a <= 64 -> bit_dec a = stepped (-1) a.
Proof.
  intros Va Ha. unfold bit_dec. rewrite sub_machine by (try apply one_vec; auto; vm_compute; discriminate).
  apply step_core; auto.
Qed.

(** * single positions *)
Lemma get_machine a i : vec a -> bw a <= 64 -> bit_get a i = position a i.
Proof.
  intros Va Ha. native a x Ea Na Ia Sa. unfold bit_get, position, slot, big_endian. rewrite Ea, Sa, (bsize_bw a _ eq_refl). cbn zeta.
  set (j := if blsb a <=? bmsb a then i else blsb a - i). unfold c_shr. cbn zeta. rewrite promote_computing by lia.
  destruct ((0 <=? j) && (j <? computing (bw a))) eqn:J; [|reflexivity]. cbn [bind]. rewrite get_native, Z.shiftr_spec by lia.
  rewrite Z.add_0_l. reflexivity.
Qed.
Lemma native_set_machine n s v j x : 1 <= n <= 64 -> in_ity (hty n s) v = true -> 0 <= j ->
  native_set (hty n s) v j x = if j <? 64 then Ok (store n s (if x then Z.setbit v j else Z.clearbit v j)) else UB.
Proof.
  intros H I Hj. unfold native_set, c_shl. cbn [promote iwidth]. replace (0 <=? j) with true by lia. cbn [andb].
  destruct (Z.ltb_spec j 64) as [L | L]; [|reflexivity]. cbn [bind].
  assert (E : conv TU64 (Z.shiftl 1 j) = 2 ^ j).
  { rewrite Z.shiftl_1_l. cbn [conv isigned iwidth]. apply Z.mod_small. split; [apply Z.pow_nonneg; lia|]. apply Z.pow_lt_mono_r; lia. }
  rewrite E. rewrite !conv_store by exact H.
  assert (N : forall p, 0 <= p -> Z.testbit (c_not TU64 (2 ^ j)) p = (p <? 64) && negb (p =? j)).
  { intros p Hp. unfold c_not. cbn [promote conv isigned iwidth]. rewrite testbit_mod_pow2 by lia. destruct (p <? 64); [|reflexivity]. cbn [andb].
    rewrite Z.lnot_spec by lia. rewrite Z.pow2_bits_eqb by lia. f_equal. lia. }
  assert (Ka : forall z, c_and (hty n s) TU64 v z = Z.land (v mod 2 ^ 64) (z mod 2 ^ 64)) by (intros z; unfold c_and; rewrite uac_u64; reflexivity).
  assert (Ko : forall z, c_or (hty n s) TU64 v z = Z.lor (v mod 2 ^ 64) (z mod 2 ^ 64)) by (intros z; unfold c_or; rewrite uac_u64; reflexivity).
  destruct (Z.eq_dec n 1) as [-> | Nn].
  - rewrite hty_1 in *. apply in_bool in I. unfold store. cbn [Z.eqb Pos.eqb]. rewrite Ka, Ko.
    assert (P : 0 < 2 ^ j) by (apply pow2_pos; lia).
    destruct x; apply f_equal.
    + assert (T : forall u, u <> 0 -> (if u =? 0 then 0 else 1) = 1) by (intros u Hu; destruct (Z.eqb_spec u 0); lia).
      rewrite !T; [reflexivity| |].
      * intros Q. assert (B : Z.testbit (Z.setbit v j) j = true) by (apply Z.setbit_eq; lia). rewrite Q, Z.testbit_0_l in B. discriminate.
      * rewrite (Z.mod_small (2 ^ j)) by (split; [lia|apply Z.pow_lt_mono_r; lia]). intros Q. apply Z.lor_eq_0_iff in Q. lia.
    + enough (A : Z.land (v mod 2 ^ 64) (c_not TU64 (2 ^ j) mod 2 ^ 64) = Z.clearbit v j) by (rewrite A; reflexivity).
      apply Z.bits_inj'. intros p Hp. rewrite Z.land_spec, !testbit_mod_pow2, N by lia. rewrite Z.clearbit_eqb by lia.
      destruct (Z.ltb_spec p 64) as [Lp | Lp]; cbn [andb]; [f_equal; f_equal; lia|]. destruct I as [-> | ->]; [rewrite Z.testbit_0_l; reflexivity|].
      rewrite (testbit_small 1 1) by lia. reflexivity.
  - destruct (storage_cases n ltac:(lia)) as (L1 & L2 & S & _).
    destruct x; apply f_equal; apply store_mod; try lia; apply Z.bits_inj'; intros p Hp; rewrite !testbit_mod_pow2 by lia;
    (destruct (Z.ltb_spec p (storage n)); [|reflexivity]); cbn [andb].
    + rewrite Ko, Z.lor_spec, !testbit_mod_pow2 by lia. replace (p <? 64) with true by lia. cbn [andb].
      rewrite Z.setbit_eqb, Z.pow2_bits_eqb by lia. apply orb_comm.
    + rewrite Ka, Z.land_spec, !testbit_mod_pow2, N by lia. replace (p <? 64) with true by lia. cbn [andb].
      rewrite Z.clearbit_eqb by lia. f_equal. f_equal. lia.
Qed.
Lemma set_machine a i x : vec a -> bw a <= 64 -> int_ok i -> bit_set a i x = with_position a i x.
Proof.
  intros Va Ha Hi. native a v Ea Na Ia Sa. destruct Va as (_ & Im & Il & _).
  unfold bit_set, with_position, slot, big_endian. rewrite Ea, Sa, (bsize_bw a _ eq_refl). cbn zeta.
  set (j := (if blsb a <=? bmsb a then i else blsb a - i) - Z.min (blsb a) (bmsb a)).
  assert (B : - 2 ^ 34 < j < 2 ^ 34) by (subst j; unfold int_ok in *; destruct (blsb a <=? bmsb a); lia). clearbody j. unfold u64.
  destruct (Z_lt_le_dec j 0) as [L | L].
  - replace (0 <=? j) with false by lia. cbn [andb].
    rewrite <- (Z_mod_plus_full j 1), Z.mod_small by lia. rewrite native_set_machine by (lia || assumption).
    replace (j + 1 * 2 ^ 64 <? 64) with false by lia. reflexivity.
  - replace (0 <=? j) with true by lia. cbn [andb]. rewrite Z.mod_small by lia. rewrite native_set_machine by (lia || assumption).
    destruct (j <? 64); reflexivity.
Qed.
Lemma set_bit0_machine a i x : vec a -> bw a <= 64 -> bit_set_bit0 a i x = bit_set a i x.
Proof. intros Va Ha. native a v Ea Na Ia Sa. unfold bit_set_bit0, bit_set. rewrite Ea. reflexivity. Qed.
