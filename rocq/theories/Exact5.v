(** Exact behaviour of out-of-range reads, constant part-select updates, sign re-interpretation, equality of
    native vectors; which operations keep the storage above the width in order. *)
From Coq Require Import ZArith List Bool Lia Zify ZifyBool.
From Verif Require Import Cpp BigNum Bit Logic Spec SpecExact ZBits Words BigNumProofs BigArith BitProofs BitSlice BitExt BitOps BitShift BitArith BitMain BitMain2 BitMain3 BitCmp BitMain4 BitMain5 Exact2 Exact3 Exact Exact4.
Import ListNotations.
Open Scope Z_scope.

(** * reading a position outside the range *)
Lemma read_exact x n s i : 1 <= n <= 64 -> typed x n s ->
  (0 <= i < computing n -> bit_get x i = Ok (Z.testbit (stored x) i)) /\ (i < 0 \/ computing n <= i -> bit_get x i = UB).
Proof.
  intros Hn T. pose proof (typed_bw x n s ltac:(lia) T) as W. destruct (rd_plain x n s i T ltac:(lia)) as (R & _ & _).
  unfold bit_get, big_endian. fold (rd_pos x i). rewrite R, (typed_bsize x n s ltac:(lia) T), (typed_sgn _ _ _ T).
  destruct (vec_cases_n x n (typed_vec _ _ _ T) W) as [(v & E & N & I & S & M) | (v & E & N & _)]; [|lia].
  rewrite E, S. unfold c_shr. cbn zeta. rewrite computing_hty by lia. split; intros Hi.
  - replace ((0 <=? i) && (i <? computing n)) with true by lia. cbn [bind]. rewrite get_native, Z.shiftr_spec by lia. rewrite Z.add_0_l. reflexivity.
  - replace ((0 <=? i) && (i <? computing n)) with false by lia. reflexivity.
Qed.
Lemma read_outside x n i : 1 <= n <= 64 -> typed x n false -> tidy x -> n <= i < computing n -> bit_get x i = Ok false.
Proof.
  intros Hn T Y Hi. rewrite (proj1 (read_exact x n false i Hn T)) by lia. f_equal.
  apply (tidy_u_iff _ n ltac:(lia) T) in Y. apply (testbit_small (stored x) n); lia.
Qed.
Lemma read_outside_signed x n i : 2 <= n <= 64 -> typed x n true -> tidy x -> n <= i < computing n -> bit_get x i = Ok (bit_at x (n - 1)).
Proof.
  intros Hn T Y Hi. rewrite (proj1 (read_exact x n true i ltac:(lia) T)) by lia. f_equal.
  pose proof (typed_bw x n true ltac:(lia) T) as W.
  rewrite (tidy_s_stored x (typed_vec _ _ _ T)) by (try assumption; try (eapply typed_sgn; eassumption); lia).
  unfold snum. rewrite W. pose proof (num_range x) as R. rewrite W in R. rewrite snum_testbit by lia.
  replace (i <? n) with false by lia. reflexivity.
Qed.
Lemma read_outside_big x n s i : 65 <= n -> typed x n s -> int_ok i -> i < 0 \/ n <= i -> bit_get x i = Ok false.
Proof.
  intros Hn T Io Hi. pose proof (typed_lt x n s ltac:(lia) T). pose proof (typed_bw x n s ltac:(lia) T) as W. destruct (rd_plain x n s i T ltac:(lia)) as (R & _ & _).
  unfold bit_get, big_endian. fold (rd_pos x i). rewrite R, (typed_bsize x n s ltac:(lia) T).
  destruct (vec_cases_n x n (typed_vec _ _ _ T) W) as [(v & E & N & _) | (v & E & N & I & _)]; [lia|].
  rewrite E. unfold bn_get. unfold int_ok in Io.
  replace (u64 i <? n) with false; [reflexivity|]. unfold u64. destruct Hi.
  - replace (i mod 2 ^ 64) with (i + 2 ^ 64); [lia|]. apply Z.mod_unique with (-1); lia.
  - rewrite Z.mod_small by lia. lia.
Qed.

Lemma zrange_split a m b : a <= m <= b -> zrange a b = zrange a m ++ zrange m b.
Proof.
  intros H. unfold zrange. replace (Z.to_nat (b - a)) with (Z.to_nat (m - a) + Z.to_nat (b - m))%nat by lia.
  rewrite seq_app, map_app. f_equal. cbn [plus]. rewrite <- (Nat.add_0_r (Z.to_nat (m - a))) at 1. 
  generalize (Z.to_nat (b - m)). intros k. assert (E : m = a + Z.of_nat (Z.to_nat (m - a))) by lia. set (j := Z.to_nat (m - a)) in *. clearbody j. clear H. subst m.
  generalize 0%nat. revert j. induction k as [|k IH]; intros j o; [reflexivity|]. cbn [seq map]. f_equal; [lia|].
  replace (S (j + o)) with (j + S o)%nat by lia. apply IH.
Qed.
Lemma ofold_app {A B} (f : B -> A -> outcome B) l1 l2 x : ofold f (l1 ++ l2) x = (let! y := ofold f l1 x in ofold f l2 y).
Proof. revert x. induction l1 as [|a l1 IH]; intros x; [reflexivity|]. cbn [ofold app]. destruct (f x a); cbn [bind]; auto. Qed.

(** * update<hi, lo>: the source is read at the destination index *)
Lemma update_loop_gen x n s op f lo hi : 1 <= n -> typed x n s -> 0 <= lo <= hi -> hi < n ->
  (forall i, lo <= i <= hi -> bit_get op i = Ok (f i)) ->
  exists r, ofold (fun x i => let! v := bit_get op i in bit_set_bit0 x i v) (zrange lo (hi + 1)) x = Ok r /\ typed r n s /\
    (forall p, 0 <= p < n -> bit_at r p = if (lo <=? p) && (p <=? hi) then f p else bit_at x p).
Proof.
  intros Hn Tx Hlo Hhi Hf.
  set (Inv := fun i y => typed y n s /\ (forall p, 0 <= p < n -> bit_at y p = if (lo <=? p) && (p <? i) then f p else bit_at x p)).
  destruct (zrange_ofold_ind (fun x i => let! v := bit_get op i in bit_set_bit0 x i v) Inv lo (hi + 1) x)
    as (r & E & Tr & Br); [lia | | |].
  - split; [exact Tx|]. intros p Hp. replace ((lo <=? p) && (p <? lo)) with false by lia. reflexivity.
  - intros i y Hi (Ty & By). rewrite Hf by lia. cbn [bind].
    destruct (rd_plain y n s i Ty Hn) as (_ & R2 & R3). pose proof (typed_bw y n s Hn Ty) as Wy.
    destruct (bit_set_bit0_spec y i (f i)) as (y' & E' & V' & F1 & F2 & F3 & B' & Y');
      [eapply typed_vec; eassumption | exact R3 | rewrite R2, Wy; lia |].
    exists y'. split; [exact E'|]. split; [eapply typed_of_fields; eassumption|].
    intros p Hp. rewrite B' by lia. rewrite R2. destruct (Z.eqb_spec p i) as [->|Ne].
    + replace ((lo <=? i) && (i <? i + 1)) with true by lia. reflexivity.
    + rewrite By by lia. replace ((lo <=? p) && (p <? i + 1)) with ((lo <=? p) && (p <? i)) by lia. reflexivity.
  - exists r. split; [exact E|]. split; [exact Tr|]. intros p Hp. rewrite Br by lia.
    replace ((lo <=? p) && (p <? hi + 1)) with ((lo <=? p) && (p <=? hi)) by lia. reflexivity.
Qed.
Lemma update_c_loop x n s op k so a b : 1 <= n -> 1 <= k -> typed x n s -> typed op k so -> 0 <= a < n -> 0 <= b < n ->
  bit_update_c x a b op = ofold (fun x i => let! v := bit_get op i in bit_set_bit0 x i v) (zrange (Z.min a b) (Z.max a b + 1)) x.
Proof.
  intros Hn Hk Tx To Ha Hb. unfold bit_update_c, requires. rewrite (typed_bsize x n s Hn Tx).
  replace ((a <? n) && (b <? n)) with true by lia.
  apply (ofold_ext_in (fun y => bmsb y = bmsb x /\ blsb y = blsb x)); [| |auto].
  - intros y i [F1 F2]. rewrite F1, F2. unfold big_endian.
    destruct Tx as (_ & [-> ->] & _). destruct To as (_ & [-> ->] & _).
    replace (0 <=? k - 1) with true by lia. replace (0 <=? n - 1) with true by lia. reflexivity.
  - intros y i y' [F1 F2] G. destruct (bit_get op i); cbn [bind] in G; try discriminate.
    apply set0_fields in G. destruct G. split; congruence.
Qed.
Lemma update_c_exact x n s op k a b : 1 <= n -> 1 <= k -> typed x n s -> typed op k false -> tidy op -> 0 <= a < n -> 0 <= b < n ->
  (k <= 64 -> Z.max a b < computing k) ->
  exists r, bit_update_c x a b op = Ok r /\ typed r n s /\
    (forall p, 0 <= p < n -> bit_at r p = if (Z.min a b <=? p) && (p <=? Z.max a b) then bit_at op p else bit_at x p).
Proof.
  intros Hn Hk Tx To Yo Ha Hb Hc. rewrite (update_c_loop x n s op k false) by assumption. pose proof (typed_lt x n s Hn Tx).
  pose proof (typed_bw op k false Hk To) as Wo.
  apply (update_loop_gen x n s op (bit_at op)); try assumption; try lia.
  intros i Hi. destruct (Z.ltb_spec i k).
  - destruct (rd_plain op k false i To Hk) as (R & _ & _).
    rewrite (bit_get_spec op i) by (try (eapply typed_vec; eassumption); rewrite R, Wo; lia). rewrite R. reflexivity.
  - assert (B : bit_at op i = false) by (unfold bit_at; pose proof (num_range op) as Rn; rewrite Wo in Rn; apply (testbit_small (num op) k); lia).
    rewrite B. destruct (Z.leb_spec k 64).
    + apply read_outside with (n := k); auto; lia.
    + eapply read_outside_big; [|exact To| |]; unfold int_ok; lia.
Qed.
Lemma update_c_ub x n s op k so a b : 1 <= n -> 1 <= k <= 64 -> typed x n s -> typed op k so -> 0 <= a < n -> 0 <= b < n ->
  computing k <= Z.max a b -> bit_update_c x a b op = UB.
Proof.
  intros Hn Hk Tx To Ha Hb Hc. rewrite (update_c_loop x n s op k so) by (assumption || lia).
  set (f := fun x i => let! v := bit_get op i in bit_set_bit0 x i v).
  assert (G : forall i, computing k <= i -> forall y, f y i = UB).
  { intros i Hi y. unfold f. rewrite (proj2 (read_exact op k so i Hk To)) by lia. reflexivity. }
  pose proof (computing_cases k Hk).
  (* positions below the limit succeed, the next one does not *)
  destruct (Z.leb_spec (computing k) (Z.min a b)).
  - rewrite (zrange_cons (Z.min a b) (Z.max a b + 1)) by lia. cbn [ofold]. rewrite G by lia. reflexivity.
  - rewrite (zrange_split (Z.min a b) (computing k) (Z.max a b + 1)) by lia. rewrite ofold_app.
    destruct (update_loop_gen x n s op (fun i => Z.testbit (stored op) i) (Z.min a b) (computing k - 1)) as (y & E & Ty & _); try assumption; try lia.
    { intros i Hi. apply (proj1 (read_exact op k so i Hk To)). lia. }
    replace (computing k - 1 + 1) with (computing k) in E by lia. fold f in E. rewrite E. cbn [bind].
    rewrite (zrange_cons (computing k) (Z.max a b + 1)) by lia. cbn [ofold]. rewrite G by lia. reflexivity.
Qed.

(** * sign re-interpretation at widths that do not fill the storage *)
Lemma resign_reading x n s : 2 <= n <= 64 -> n < storage n -> typed x n s -> tidy x ->
  bit_to_num (bit_to_signed x) = Ok (value x) /\
  bit_to_num (bit_to_unsigned x) = Ok (if value x <? 0 then value x + 2 ^ storage n else value x).
Proof.
  intros Hn Hs T Y. assert (X : extendable x) by (split; [exact Y|]; rewrite (typed_bw x n s ltac:(lia) T); lia).
  pose proof (ext_stored x n s ltac:(lia) T X) as Sv.
  destruct (vec_cases_n x n (typed_vec _ _ _ T) (typed_bw x n s ltac:(lia) T)) as [(v & E & N & I & S & M) | (v & E & N & _)]; [|lia].
  unfold bit_to_num, bit_to_signed, bit_to_unsigned, bit_resign. rewrite (typed_bsize x n s ltac:(lia) T), E. cbn [bval]. rewrite <- Sv, S.
  assert (R : - 2 ^ (storage n - 1) <= v < 2 ^ (storage n - 1)).
  { pose proof (pow2_mono n (storage n - 1) ltac:(lia)). pose proof (pow2_mono (n - 1) (storage n - 1) ltac:(lia)). unfold tidy in Y. rewrite E in Y.
    rewrite (typed_bw x n s ltac:(lia) T) in Y. destruct (bsgn x && (1 <? n)); lia. }
  split; f_equal.
  - apply conv_id, in_ity_range. rewrite hty_signed, storage_hty by lia. exact R.
  - pose proof (hty_nb n false ltac:(lia)). pose proof (hty_signed n false ltac:(lia)) as Sg.
    assert (C : conv (hty n false) v = v mod 2 ^ storage n).
    { rewrite <- (storage_hty n false) by lia. destruct (hty n false); cbn in Sg; try congruence; reflexivity. }
    assert (P : 2 ^ storage n = 2 * 2 ^ (storage n - 1)) by (rewrite <- Z.pow_succ_r by lia; f_equal; lia).
    rewrite C. destruct (Z.ltb_spec v 0); [symmetry; apply Z.mod_unique with (-1); lia | apply Z.mod_small; lia].
Qed.

(** * equality of native unsigned vectors: the right operand is first reduced to the storage of the left *)
Lemma eq_exact a b : vec a -> vec b -> bsgn a = false -> bsgn b = false -> tidy a -> tidy b -> 2 <= bw a <= 64 -> bw b <= 64 ->
  bit_eq a b = Ok (num a =? num b mod 2 ^ storage (bw a)).
Proof.
  intros Va Vb Ga Gb Ya Yb Ha Hb. pose proof (bw_pos b). rewrite (num_of_tidy a Ya Ga), (num_of_tidy b Yb Gb).
  destruct (vec_cases a Va) as [(x & Ea & Na & Ia & Sa) | (x & Ea & Na & _)]; [|lia].
  destruct (vec_cases b Vb) as [(y & Eb & Nb & Ib & Sb) | (y & Eb & Nb & _)]; [|lia].
  unfold bit_eq. rewrite Ea, Eb, Sa, Sb, Ga. rewrite Ga in Ia. rewrite (bsize_bw a _ eq_refl). cbn zeta. f_equal.
  pose proof (hty_nb (bw a) false ltac:(lia)). pose proof (hty_signed (bw a) false ltac:(lia)) as Sg.
  assert (C : conv (hty (bw a) false) y = y mod 2 ^ storage (bw a)).
  { rewrite <- (storage_hty (bw a) false) by lia. destruct (hty (bw a) false); cbn in Sg; try congruence; reflexivity. }
  unfold c_eq. cbn zeta. rewrite uac_same, !conv_promote by (exact Ia || apply conv_in_ity). rewrite C. reflexivity.
Qed.

(** * storage above the width *)
(** widths that fill the storage have none *)
Lemma full_always_tidy b : vec b -> (bw b = 8 \/ bw b = 16 \/ bw b = 32 \/ bw b = 64 \/ (65 <= bw b /\ bw b mod 64 = 0)) -> tidy b.
Proof.
  intros V C. unfold tidy. destruct (vec_cases b V) as [(v & E & N & I & S) | (v & E & N & I & S)]; rewrite E.
  - assert (C' : bw b = 8 \/ bw b = 16 \/ bw b = 32 \/ bw b = 64) by lia. apply in_ity_range in I.
    clear C N S. destruct C' as [Q | [Q | [Q | Q]]]; rewrite Q in *; destruct (bsgn b); exact I.
  - assert (M : bw b mod 64 = 0) by lia. assert (R : 0 <= words_num v < 2 ^ (64 * nwords (bw b))) by (destruct I as [I1 <-]; split; [apply words_num_nonneg | apply words_num_bound]; assumption).
    assert (Q : 64 * nwords (bw b) = bw b) by (unfold nwords; rewrite M; change (0 =? 0) with true; cbv iota; rewrite (Z.div_mod (bw b) 64) at 2 by lia; rewrite M; lia). rewrite Q in R. exact R.
Qed.
Lemma tidy_signed a b n : 2 <= n <= 64 -> typed a n true -> typed b n true -> tidy a -> tidy b ->
  (forall r, bit_and a b = Ok r -> tidy r) /\ (forall r, bit_or a b = Ok r -> tidy r) /\ (forall r, bit_xor a b = Ok r -> tidy r) /\
  (forall amt r, vec amt -> bsgn amt = true -> bw amt <= 64 -> tidy amt -> 0 <= value amt -> bit_ashr a amt = Ok r -> tidy r) /\
  (forall m r, n <= m < 2 ^ 31 -> bit_extend a m = Ok r -> tidy r).
Proof.
  intros Hn Ta Tb Ya Yb. assert (Va := typed_vec _ _ _ Ta). assert (Vb := typed_vec _ _ _ Tb).
  assert (Wa := typed_bw a n true ltac:(lia) Ta). assert (Wb := typed_bw b n true ltac:(lia) Tb). assert (Sa := typed_sgn _ _ _ Ta). assert (Sb := typed_sgn _ _ _ Tb).
  assert (Be := plain_be b n true Tb ltac:(lia)). split; [|split; [|split; [|split]]].
  - intros r E. destruct (proj1 bit_and_spec2 a b n Va Vb Wa Wb Be) as (r' & E' & _ & _ & Y). rewrite E in E'. inversion E'; subst. apply Y; congruence.
  - intros r E. destruct (proj1 bit_or_spec2 a b n Va Vb Wa Wb Be) as (r' & E' & _ & _ & Y). rewrite E in E'. inversion E'; subst. apply Y; congruence.
  - intros r E. destruct (proj1 bit_xor_spec2 a b n Va Vb Wa Wb Be) as (r' & E' & _ & _ & Y). rewrite E in E'. inversion E'; subst. apply Y; congruence.
  - intros amt r Vk Sk Wk Yk Hk E. pose proof (bw_pos amt). unfold bit_ashr in E.
    destruct (vec_cases_n a n Va Wa) as [(x & Ea & Na & Ia & Xa & Ma) | (x & Ea & Na & _)]; [|lia].
    destruct (vec_cases amt Vk) as [(y & Eb & Nb & Ib & Xb) | (y & Eb & Nb & _)]; [|lia].
    rewrite Ea, Eb, (bsize_bw a n Wa), Sa, Sk in E. cbn zeta in E. unfold c_shr in E. cbn zeta in E.
    destruct ((0 <=? conv (hty n true) y) && (conv (hty n true) y <? iwidth (promote (hty n true)))) eqn:C; [|discriminate].
    cbn [bind andb] in E. injection E as <-. rewrite nat_bit_eq by lia. apply nat_bit_tidy_s; rewrite width_plain by lia; [lia|].
    rewrite Z.shiftr_div_pow2 by lia. unfold tidy in Ya. rewrite Ea, Sa, Wa in Ya. replace (true && (1 <? n)) with true in Ya by lia.
    set (k := conv (hty n true) y) in *. assert (0 < 2 ^ k) by (apply pow2_pos; lia).
    split; [apply Z.div_le_lower_bound; nia | apply Z.div_lt_upper_bound; nia].
  - intros m r Hm E. destruct (bit_extend_s_tidy a n m Hn Hm Ta Ya) as (r' & E' & _ & _ & Y). congruence.
Qed.
Lemma read_counter : exists x i, typed x 4 false /\ tidy x /\ 4 <= i /\ bit_get x i = UB.
Proof. exists (bit_of_native 3 0 false 5), 40. conc. Qed.
Lemma unseen_ex : let u8_200 := bit_of_native 7 0 false 200 in let u128_big := mkBit 127 0 false (HB [2 ^ 63 + 5; 7]) in
  typed u8_200 8 false /\ typed (bit_of_native 3 0 false 0) 4 false /\ num (bit_of_native 3 0 false 0) = 0 /\ tidy u8_200 /\
  typed u128_big 128 false /\ typed (mkBit 127 0 false (HB [2 ^ 32; 0])) 128 false /\ low_halves_zero (2 ^ 32) /\ num (mkBit 127 0 false (HB [2 ^ 32; 0])) = 2 ^ 32 /\ tidy (mkBit 127 0 false (HB [2 ^ 32; 0])).
Proof.
  cbv zeta. do 6 (split; [conc|]). split; [|conc].
  intros k Hk. destruct (Z.eq_dec k 0) as [->|]; [reflexivity|].
  rewrite Z.div_small; [reflexivity|]. split; [lia|]. apply Z.pow_lt_mono_r; lia.
Qed.
Lemma slice_one_storage x n p : 2 <= n <= 64 -> typed x n true -> 0 <= p < n -> p + 2 <= storage n ->
  exists r, bit_slice_c x p p = Ok r /\ typed r 1 false /\ num r = Z.b2z (Z.testbit (stored x) p || Z.testbit (stored x) (p + 1)).
Proof. intros Hn. rewrite <- (storage_hty n true) by exact Hn. exact (Exact.slice_one_exact x n p Hn). Qed.
