(** bit: part selects, extension, concatenation, conversions between widths. *)
From Coq Require Import ZArith List Bool Lia Zify ZifyBool.
From Verif Require Import Cpp BigNum Bit Logic Spec ZBits Words BigNumProofs BigArith BitProofs.
Import ListNotations.
Open Scope Z_scope.

Lemma uac_same t : uac t t = promote t. Proof. destruct t; reflexivity. Qed.

Lemma slice_core n s v mn sh : 2 <= n <= 64 -> in_ity (hty n s) v = true ->
  let t := hty n s in let tu := hty n false in let w := iwidth t in
  0 <= mn < w -> 0 <= sh < w ->
  exists m1 m2 r, c_shl tu (cmax tu) mn = Ok m1 /\ c_shr tu (cmax tu) sh = Ok m2 /\
    c_shr (promote t) (c_and t t v (conv t (Z.land (u64 m1) (u64 m2)))) mn = Ok r /\
    (forall p, 0 <= p -> p + mn < w -> Z.testbit r p = (p + mn <? w - sh) && Z.testbit v (p + mn)) /\
    (s = false -> forall p, 0 <= p -> w <= p + mn -> Z.testbit r p = false) /\
    (s = false -> 0 <= r).
Proof.
  intros Hn Hv t tu w Hmn Hsh.
  assert (Nt : t <> TBool) by (apply hty_nb; lia). assert (Ntu : tu <> TBool) by (apply hty_nb; lia).
  assert (Wu : iwidth tu = w) by (symmetry; apply hty_iw).
  pose proof (iwidth_pos t). pose proof (promote_width t). pose proof (promote_width tu).
  pose proof (iwidth_pos (promote tu)).
  assert (Mx : cmax tu = 2 ^ w - 1) by (unfold cmax; unfold tu; rewrite hty_signed by lia; fold tu; rewrite Wu; reflexivity).
  unfold c_shl, c_shr. rewrite Mx.
  replace ((0 <=? mn) && (mn <? iwidth (promote tu))) with true by lia.
  replace ((0 <=? sh) && (sh <? iwidth (promote tu))) with true by lia.
  rewrite promote_idem. replace ((0 <=? mn) && (mn <? iwidth (promote t))) with true by lia.
  do 3 eexists. split; [reflexivity|]. split; [reflexivity|]. split; [reflexivity|].
  set (mask := Z.land _ _).
  assert (BM : forall p, 0 <= p < w -> Z.testbit mask p = (mn <=? p) && (p <? w - sh)).
  { intros p Hp. unfold mask, u64. rewrite Z.land_spec, !testbit_mod_pow2 by lia. replace (p <? 64) with true by lia.
    cbn [andb]. rewrite conv_testbit by (try apply promote_nb; lia). rewrite Z.shiftl_spec, testbit_ones by lia.
    rewrite shiftr_ones, testbit_ones by lia.
    apply Bool.eq_iff_eq_true. rewrite !andb_true_iff, !Z.leb_le, !Z.ltb_lt. lia. }
  assert (Iand : c_and t t v (conv t mask) = Z.land v (conv t mask)).
  { unfold c_and. rewrite uac_same. cbn zeta. rewrite !conv_promote by (try apply conv_in_ity; exact Hv). reflexivity. }
  rewrite Iand.
  split; [|split].
  - intros p Hp Hpm. rewrite Z.shiftr_spec, Z.land_spec, conv_testbit, BM by (assumption || lia).
    replace (mn <=? p + mn) with true by lia. rewrite andb_comm. reflexivity.
  - intros -> p Hp Hpm. fold tu in t. apply in_ity_range in Hv. rewrite hty_signed in Hv by lia.
    rewrite Z.shiftr_spec, Z.land_spec by lia. rewrite (testbit_small v w) by (assumption || lia). reflexivity.
  - intros ->. apply in_ity_range in Hv. rewrite hty_signed in Hv by lia.
    apply Z.shiftr_nonneg, Z.land_nonneg. left. lia.
Qed.

Lemma sign_bits w z q : - 2 ^ (w - 1) <= z < 2 ^ (w - 1) -> 1 <= w -> w - 1 <= q -> Z.testbit z q = (z <? 0).
Proof.
  intros Hz Hw Hq. destruct (Z.ltb_spec z 0).
  - assert (H1 : Z.testbit (Z.lnot z) q = false) by (apply (testbit_small _ (w - 1)); unfold Z.lnot; lia).
    rewrite Z.lnot_spec in H1 by lia. apply negb_false_iff in H1. exact H1.
  - apply (testbit_small _ (w - 1)); lia.
Qed.

(** bits of a field *)
Definition field (z k n : Z) : Z := (z / 2 ^ k) mod 2 ^ n.
Lemma field_range z k n : 0 <= n -> 0 <= field z k n < 2 ^ n.
Proof. intros. apply Z.mod_pos_bound, pow2_pos. lia. Qed.
Lemma field_testbit z k n p : 0 <= k -> 0 <= n -> 0 <= p -> Z.testbit (field z k n) p = (p <? n) && Z.testbit z (p + k).
Proof. intros. apply testbit_div_mod; lia. Qed.
Lemma field_num b k n : 0 <= k -> 0 <= n -> k + n <= bw b -> field (num b) k n = field (stored b) k n.
Proof.
  intros. apply Z.bits_inj'. intros p Hp. rewrite !field_testbit by lia. unfold num.
  rewrite testbit_mod_pow2 by lia. destruct (Z.ltb_spec p n); [|reflexivity].
  replace (p + k <? bw b) with true by lia. reflexivity.
Qed.

Lemma int_d n d : 0 <= d < n -> n < 2 ^ 31 -> int_ok d /\ int_ok 0. Proof. unfold int_ok. lia. Qed.
Lemma width_d d : 0 <= d -> width d 0 = d + 1. Proof. unfold width. lia. Qed.

(** slice<a,b>() *)
Lemma bit_slice_c_unsigned x n a b : 1 <= n -> typed x n false -> 0 <= a < n -> 0 <= b < n ->
  (n <= 64 \/ Z.abs (a - b) + 1 <> 65) ->
  exists r, bit_slice_c x a b = Ok r /\ typed r (Z.abs (a - b) + 1) false /\
    num r = field (num x) (Z.min a b) (Z.abs (a - b) + 1) /\ tidy r.
Proof.
  intros Hn (V & P & S) Ha Hb H65. pose proof (bw_plain x n Hn P) as W. destruct P as [P1 P2].
  pose proof V as (_ & _ & _ & V3).
  set (d := Z.abs (a - b)) in *. assert (Hd : 0 <= d < n) by lia.
  rewrite field_num by lia.
  pose proof (field_range (stored x) (Z.min a b) (d + 1) ltac:(lia)) as FR.
  unfold bit_slice_c, requires. rewrite <- bw_bsize, W, P2.
  replace ((Z.max a b <? n) && (0 <=? b)) with true by lia. fold d.
  destruct (int_d n d Hd ltac:(lia)) as [I1 I2].
  destruct (vec_cases x V) as [(v & E & W1 & I & St) | (ws & E & W1 & I & St)]; rewrite E; rewrite St in *; rewrite W in *.
  - assert (G : native_slice_c (bmsb x) 0 (bsgn x) v a b =
                Ok (conv (hty (d + 1) false) (field v (Z.min a b) (d + 1)))).
    { unfold native_slice_c. rewrite ?P1, ?P2, ?S. fold d.
      replace (vsize (n - 1) 0) with n by (unfold vsize; lia).
      replace (Z.min (n - 1) 0) with 0 by lia. rewrite !Z.sub_0_r.
      destruct (Z.eqb_spec n 1) as [N1|N1].
      - replace (d + 1) with 1 by lia. cbn [Z.eqb andb]. replace (Z.min a b) with 0 by lia. do 2 f_equal.
        pose proof (holder_1 v x V E ltac:(lia)) as [-> | ->]; reflexivity.
      - rewrite andb_false_r. rewrite S in I. cbn zeta.
        assert (Nb : hty n false <> TBool) by (apply hty_nb; lia).
        pose proof (hty_width n false ltac:(lia)). pose proof (iwidth_pos (hty n false)).
        rewrite (szbits_nb _ Nb). rewrite u64_id by lia.
        destruct (slice_core n false v (Z.min a b) (iwidth (hty n false) - Z.max a b - 1) ltac:(lia) I ltac:(lia) ltac:(lia))
          as (m1 & m2 & r & E1 & E2 & E3 & B1 & B2 & B3).
        rewrite E1. cbn [bind]. rewrite E2. cbn [bind]. rewrite E3. cbn [bind]. do 2 f_equal.
        apply Z.bits_inj'. intros p Hp. rewrite field_testbit by lia.
        destruct (Z.ltb_spec (p + Z.min a b) (iwidth (hty n false))).
        + rewrite B1 by lia. destruct (Z.testbit v (p + Z.min a b)); [rewrite !andb_true_r | rewrite !andb_false_r; reflexivity].
          apply Bool.eq_iff_eq_true. rewrite !Z.ltb_lt. lia.
        + rewrite B2 by (reflexivity || lia). symmetry. replace (p <? d + 1) with false by lia. reflexivity. }
    rewrite G. cbn [bind]. eexists. split; [reflexivity|].
    change (mkBit d 0 false (HN (conv (hty (d + 1) false) (field v (Z.min a b) (d + 1)))))
      with (mkBit d 0 false (HN (conv (hty (d + 1) false) (field v (Z.min a b) (d + 1))))).
    replace (hty (d + 1) false) with (hty (width d 0) false) by (rewrite width_d by lia; reflexivity).
    fold (nat_bit d 0 false (field v (Z.min a b) (d + 1))).
    pose proof (width_d d ltac:(lia)) as Wd.
    split; [split; [apply nat_bit_vec; assumption || lia | split; [split; cbn; lia | reflexivity]]|].
    split; [apply nat_bit_num_small; rewrite Wd; lia | apply nat_bit_tidy; rewrite Wd; lia].
  - replace (0 <=? Z.min a b) with true by lia.
    destruct (bn_slice_c_spec n ws a b Hn I Ha Hb) as (r & E1 & W2 & N2). fold d in W2, N2. rewrite E1. cbn [bind].
    fold (field (words_num ws) (Z.min a b) (d + 1)) in N2.
    unfold native_num. destruct (Z.leb_spec d 64).
    + replace (d + 1 <=? 64) with true by lia. eexists. split; [reflexivity|].
      pose proof (width_d d ltac:(lia)) as Wd. rewrite <- Wd. fold (nat_bit d 0 false (word r 0)).
      assert (Ew : word r 0 = field (words_num ws) (Z.min a b) (d + 1)).
      { rewrite <- N2. rewrite words_num_tl. destruct W2 as [W2 L2].
        assert (nwords (d + 1) = 1) by (pose proof (nwords_bounds (d + 1) ltac:(lia)); lia).
        destruct r as [|w0 [|w1 r]]; unfold wlen in L2; cbn [length] in L2; try lia. cbn [tl words_num]. lia. }
      rewrite Ew.
      split; [split; [apply nat_bit_vec; assumption || lia | split; [split; cbn; lia | reflexivity]]|].
      rewrite Wd.
      split; [apply nat_bit_num_small; rewrite Wd; lia | apply nat_bit_tidy; rewrite Wd; lia].
    + eexists. split; [reflexivity|]. pose proof (width_d d ltac:(lia)) as Wd.
      split; [split; [apply big_vec; try assumption; rewrite Wd; (lia || exact W2) | split; [split; cbn; lia | reflexivity]]|].
      rewrite big_num_eq, Wd, N2. split; [apply Z.mod_small; exact FR|].
      apply big_tidy. rewrite Wd, N2. exact FR.
Qed.

Lemma bit_slice_c_65 x n a b ws : bval x = HB ws -> typed x n false -> 1 <= n -> 0 <= a < n -> 0 <= b < n ->
  Z.abs (a - b) + 1 = 65 -> bit_slice_c x a b = IllFormed.
Proof.
  intros E (V & P & S) Hn Ha Hb H. pose proof (bw_plain x n Hn P) as W. destruct P as [P1 P2].
  unfold bit_slice_c, requires. rewrite <- bw_bsize, W, P2, E.
  replace ((Z.max a b <? n) && (0 <=? b)) with true by lia. replace (0 <=? Z.min a b) with true by lia.
  destruct (vec_cases x V) as [(v & E1 & _) | (w & E1 & W1 & I & St)]; rewrite E in E1; [discriminate|].
  injection E1 as <-. rewrite W in *. destruct (bn_slice_c_spec n ws a b Hn I Ha Hb) as (r & -> & _). cbn [bind].
  unfold native_num. replace (Z.abs (a - b) <=? 64) with true by lia. replace (Z.abs (a - b) + 1 <=? 64) with false by lia.
  reflexivity.
Qed.

(** a signed native vector: the declared positions are right when at least two bits are selected and the
    top one is below the top of the holder *)
Lemma bit_slice_c_signed x n a b : 2 <= n <= 64 -> typed x n true -> 0 <= a < n -> 0 <= b < n -> a <> b ->
  Z.max a b + 2 <= iwidth (hty n true) ->
  exists r, bit_slice_c x a b = Ok r /\ typed r (Z.abs (a - b) + 1) false /\
    num r = field (num x) (Z.min a b) (Z.abs (a - b) + 1).
Proof.
  intros Hn (V & P & S) Ha Hb Hab Htop. pose proof (bw_plain x n ltac:(lia) P) as W. destruct P as [P1 P2].
  pose proof V as (_ & _ & _ & V3).
  set (d := Z.abs (a - b)) in *. assert (Hd : 1 <= d < n) by lia.
  rewrite field_num by lia.
  unfold bit_slice_c, requires. rewrite <- bw_bsize, W, P2.
  replace ((Z.max a b <? n) && (0 <=? b)) with true by lia. fold d.
  destruct (int_d n d ltac:(lia) ltac:(lia)) as [I1 I2].
  destruct (vec_cases x V) as [(v & E & W1 & I & St) | (ws & E & W1 & I & St)]; [|lia].
  rewrite E; rewrite St in *; rewrite W in *.
  unfold native_slice_c. rewrite ?P1, ?P2, ?S. fold d.
  replace (vsize (n - 1) 0) with n by (unfold vsize; lia).
  replace (Z.min (n - 1) 0) with 0 by lia. rewrite !Z.sub_0_r.
  replace (n =? 1) with false by lia. rewrite andb_false_r. rewrite S in I. cbn zeta.
  assert (Nb : hty n true <> TBool) by (apply hty_nb; lia).
  pose proof (hty_width n true ltac:(lia)). pose proof (iwidth_pos (hty n true)).
  rewrite (szbits_nb _ Nb). rewrite u64_id by lia.
  destruct (slice_core n true v (Z.min a b) (iwidth (hty n true) - Z.max a b - 2) ltac:(lia) I ltac:(lia) ltac:(lia))
    as (m1 & m2 & r & E1 & E2 & E3 & B1 & _ & _).
  rewrite E1. cbn [bind]. rewrite E2. cbn [bind]. rewrite E3. cbn [bind].
  eexists. split; [reflexivity|]. pose proof (width_d d ltac:(lia)) as Wd. rewrite <- Wd.
  fold (nat_bit d 0 false r).
  split; [split; [apply nat_bit_vec; assumption || lia | split; [split; cbn; lia | reflexivity]]|].
  rewrite nat_bit_num by lia. apply Z.bits_inj'. intros p Hp.
  rewrite field_testbit, testbit_mod_pow2 by lia. destruct (Z.ltb_spec p (width d 0)); [|reflexivity].
  rewrite B1 by lia. replace (p + Z.min a b <? _) with true by lia. reflexivity.
Qed.

Lemma bit_slice_c_signed_big x n a b : 65 <= n -> typed x n true -> 0 <= a < n -> 0 <= b < n ->
  Z.abs (a - b) + 1 <> 65 ->
  exists r, bit_slice_c x a b = Ok r /\ typed r (Z.abs (a - b) + 1) false /\
    num r = field (num x) (Z.min a b) (Z.abs (a - b) + 1) /\ tidy r.
Proof.
  intros Hn (V & P & S) Ha Hb H65.
  set (y := mkBit (bmsb x) (blsb x) false (bval x)).
  pose proof (bw_plain x n ltac:(lia) P) as W.
  destruct (vec_cases x V) as [(v & E & W1 & I & St) | (ws & E & W1 & I & St)]; [lia|].
  assert (Ty : typed y n false).
  { split; [|split; [exact P | reflexivity]]. unfold y. rewrite E. destruct V as (_ & V1 & V2 & V3). apply big_vec; assumption. }
  assert (Es : bit_slice_c x a b = bit_slice_c y a b).
  { unfold bit_slice_c, y. cbn [bval]. rewrite E. reflexivity. }
  rewrite Es. change (num x) with (num y).
  apply (bit_slice_c_unsigned y n); (assumption || lia).
Qed.

(** slice<k>(a, b) *)
Lemma bit_slice_r_spec x n s a b : 2 <= n -> typed x n s -> 0 <= a < n -> 0 <= b < n ->
  exists r, bit_slice_r x (Z.abs (a - b) + 1) a b = Ok r /\ typed r (Z.abs (a - b) + 1) false /\
    num r = field (num x) (Z.min a b) (Z.abs (a - b) + 1) /\ (s = false \/ 65 <= n -> tidy r).
Proof.
  intros Hn (V & P & S) Ha Hb. pose proof (bw_plain x n ltac:(lia) P) as W. destruct P as [P1 P2].
  pose proof V as (_ & _ & _ & V3).
  set (d := Z.abs (a - b)) in *. assert (Hd : 0 <= d < n) by lia.
  rewrite field_num by lia.
  pose proof (field_range (stored x) (Z.min a b) (d + 1) ltac:(lia)) as FR.
  destruct (int_d n d Hd ltac:(lia)) as [I1 I2].
  pose proof (width_d d ltac:(lia)) as Wd.
  unfold bit_slice_r, requires, native_num. rewrite <- bw_bsize, W. replace (d + 1 - 1) with d by lia.
  destruct (vec_cases x V) as [(v & E & W1 & I & St) | (ws & E & W1 & I & St)]; rewrite E; rewrite St in *; rewrite W in *.
  - replace (d + 1 <=? 64) with true by lia. unfold native_slice_r. rewrite ?P1, ?P2, ?S.
    replace (vsize (n - 1) 0) with n by (unfold vsize; lia).
    replace (Z.min (n - 1) 0) with 0 by lia. rewrite !Z.sub_0_r. rewrite S in I. cbn zeta.
    assert (Nb : hty n s <> TBool) by (apply hty_nb; lia).
    pose proof (hty_width n s ltac:(lia)). pose proof (iwidth_pos (hty n s)).
    rewrite (szbits_nb _ Nb). rewrite u64_id by lia.
    destruct (slice_core n s v (Z.min a b) (iwidth (hty n s) - Z.max a b - 1) ltac:(lia) I ltac:(lia) ltac:(lia))
      as (m1 & m2 & r & E1 & E2 & E3 & B1 & B2 & B3).
    rewrite E1. cbn [bind]. rewrite E2. cbn [bind]. rewrite E3. cbn [bind].
    eexists. split; [reflexivity|]. rewrite <- Wd. fold (nat_bit d 0 false r).
    split; [split; [apply nat_bit_vec; assumption || lia | split; [split; cbn; lia | reflexivity]]|].
    assert (Low : forall p, 0 <= p <= d -> Z.testbit r p = Z.testbit v (p + Z.min a b)).
    { intros p Hp. rewrite B1 by lia. replace (p + Z.min a b <? _) with true by lia. reflexivity. }
    assert (Mid : forall p, d < p -> p + Z.min a b < iwidth (hty n s) -> Z.testbit r p = false).
    { intros p Hp Hq. rewrite B1 by lia. replace (p + Z.min a b <? _) with false by lia. reflexivity. }
    split.
    + destruct (Z.eq_dec d 0) as [D0|D0].
      * (* one bit: zero test *)
        rewrite nat_bit_num1 by lia. rewrite Wd, D0.
        assert (F : field v (Z.min a b) (0 + 1) = if Z.testbit v (Z.min a b) then 1 else 0).
        { apply Z.bits_inj'. intros p Hp. rewrite field_testbit by lia.
          destruct (Z.eq_dec p 0) as [->|Np]; [replace (0 + Z.min a b) with (Z.min a b) by lia; destruct (Z.testbit v (Z.min a b)); reflexivity|].
          replace (p <? 0 + 1) with false by lia. cbn [andb].
          destruct (Z.testbit v (Z.min a b)); [symmetry; apply (testbit_small 1 1); lia | rewrite Z.bits_0; reflexivity]. }
        rewrite F. destruct (Z.testbit v (Z.min a b)) eqn:T.
        -- destruct (Z.eqb_spec r 0) as [->|]; [|reflexivity].
           specialize (Low 0 ltac:(lia)). rewrite Z.bits_0, Z.add_0_l, T in Low. discriminate.
        -- destruct (Z.eqb_spec r 0) as [->|Nr]; [reflexivity|]. exfalso. apply Nr.
           apply Z.bits_inj'. intros p Hp. rewrite Z.bits_0.
           destruct (Z.eq_dec p 0) as [->|Np]; [rewrite (Low 0), Z.add_0_l by lia; exact T|].
           destruct (Z.ltb_spec (p + Z.min a b) (iwidth (hty n s))); [apply Mid; lia|].
           (* above the holder: copies of the top holder bit of the masked value *)
           destruct s; [|apply B2; (reflexivity || lia)].
           (* signed: r = shiftr (land v m) mn with land v m in range of t *)
           unfold c_shr in E3. rewrite promote_idem in E3.
           destruct ((0 <=? Z.min a b) && (Z.min a b <? iwidth (promote (hty n true)))); [|discriminate].
           injection E3 as E3.
           set (m := conv (hty n true) (Z.land (u64 m1) (u64 m2))) in *.
           assert (Iand : c_and (hty n true) (hty n true) v m = Z.land v m).
           { unfold c_and. rewrite uac_same. cbn zeta. rewrite !conv_promote by (try apply conv_in_ity; exact I). reflexivity. }
           rewrite Iand in E3.
           set (w := iwidth (hty n true)) in *.
           assert (SE : forall z q, in_ity (hty n true) z = true -> w - 1 <= q -> Z.testbit z q = Z.testbit z (w - 1)).
           { intros z q Hz Hq. apply in_ity_range in Hz. rewrite hty_signed in Hz by lia. fold w in Hz.
             rewrite !(sign_bits w z) by lia. reflexivity. }
           rewrite <- E3. rewrite Z.shiftr_spec, Z.land_spec by lia.
           rewrite (SE v), (SE m) by (try apply conv_in_ity; try exact I; lia).
           rewrite <- Z.land_spec.
           destruct (Z.eq_dec (w - 1) (Z.min a b)) as [Ew|Ew].
           ++ rewrite Ew. rewrite Z.land_spec, T. reflexivity.
           ++ specialize (Mid (w - 1 - Z.min a b) ltac:(lia) ltac:(lia)). rewrite <- E3, Z.shiftr_spec in Mid by lia.
              replace (w - 1 - Z.min a b + Z.min a b) with (w - 1) in Mid by lia. exact Mid.
      * rewrite nat_bit_num by lia. apply Z.bits_inj'. intros p Hp.
        rewrite field_testbit, testbit_mod_pow2 by lia. destruct (Z.ltb_spec p (width d 0)); [|reflexivity].
        rewrite Low by lia. reflexivity.
    + intros [-> | Bad]; [|lia]. 
      assert (Er : r = field v (Z.min a b) (d + 1)).
      { apply Z.bits_inj'. intros p Hp. rewrite field_testbit by lia.
        destruct (Z.ltb_spec p (d + 1)); [apply Low; lia|].
        destruct (Z.ltb_spec (p + Z.min a b) (iwidth (hty n false))); [apply Mid; lia | apply B2; (reflexivity || lia)]. }
      rewrite Er. apply nat_bit_tidy; rewrite ?Wd; lia.
  - destruct (bn_slice_r_spec n ws (d + 1) a b ltac:(lia) ltac:(lia) I) as (r & E1 & W2 & N2);
      [unfold u64max; lia | unfold u64max; lia |].
    rewrite !u64_id by lia. rewrite E1. cbn [bind]. fold d in N2.
    assert (N3 : words_num r = field (words_num ws) (Z.min a b) (d + 1)).
    { rewrite N2. replace (Z.min (d + 1) (d + 1)) with (d + 1) by lia.
      change ((words_num ws mod 2 ^ n / 2 ^ Z.min a b) mod 2 ^ (d + 1)) with (field (words_num ws mod 2 ^ n) (Z.min a b) (d + 1)).
      rewrite <- W, <- St. apply field_num; lia. }
    destruct (Z.leb_spec (d + 1) 64).
    + eexists. split; [reflexivity|]. rewrite <- Wd. fold (nat_bit d 0 false (word r 0)).
      assert (Ew : word r 0 = field (words_num ws) (Z.min a b) (d + 1)).
      { rewrite <- N3. rewrite words_num_tl. destruct W2 as [W2 L2].
        assert (nwords (d + 1) = 1) by (pose proof (nwords_bounds (d + 1) ltac:(lia)); lia).
        destruct r as [|w0 [|w1 r]]; unfold wlen in L2; cbn [length] in L2; try lia. cbn [tl words_num]. lia. }
      rewrite Ew.
      split; [split; [apply nat_bit_vec; assumption || lia | split; [split; cbn; lia | reflexivity]]|].
      split; [rewrite Wd; apply nat_bit_num_small; rewrite Wd; lia | intros _; apply nat_bit_tidy; rewrite Wd; lia].
    + eexists. split; [reflexivity|].
      split; [split; [apply big_vec; try assumption; rewrite Wd; (lia || exact W2) | split; [split; cbn; lia | reflexivity]]|].
      rewrite big_num_eq, Wd, N3. split; [apply Z.mod_small; exact FR|].
      intros _. apply big_tidy. rewrite Wd, N3. exact FR.
Qed.
