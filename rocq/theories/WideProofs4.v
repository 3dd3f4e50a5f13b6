(** Multi-word positions, slices, change of width, queries and compound assignment against the reference machine of SpecWide.v. *)
From Coq Require Import ZArith List Bool Lia Zify ZifyBool.
From Verif Require Import Cpp BigNum Bit Logic Spec SpecExact SpecMachine SpecWide ZBits Words BigNumProofs BigArith BitProofs BitSlice BitExt BitOps BitShift BitArith BitCmp MachineProofs MachineProofs2 MachineProofs3 MachineProofs4 WideProofs WideProofs2 WideProofs3.
Import ListNotations.
Open Scope Z_scope.
Local Ltac Zify.zify_post_hook ::= idtac.

(** * single positions *)
Lemma endian_slot a i : (if big_endian (bmsb a) (blsb a) then i else blsb a - i) = slot a i.
Proof. reflexivity. Qed.
Lemma get_any a i : vec a -> bit_get a i = any_position a i.
Proof.
  intros V. unfold any_position. destruct (small_dec a V) as [[-> H] | [-> H]]; [apply get_machine; assumption|].
  wide a x Ea Na Ia Sa. unfold bit_get. cbn zeta. rewrite endian_slot, Ea, (bsize_bw a _ eq_refl), Sa. change (slot a i mod 2 ^ 64) with (u64 (slot a i)).
  pose proof (u64_range (slot a i)). rewrite bn_get_spec by (try apply Ia; lia). reflexivity.
Qed.
Lemma placed_words a x j v : 65 <= bw a -> wfn (bw a) x -> stored a = words_num x -> 0 <= j ->
  mkBit (bmsb a) (blsb a) (bsgn a) (HB (bn_set (bw a) x j v)) = placed a j v.
Proof.
  intros H W S0 Hj. unfold placed. rewrite rewritten_wide by exact H. do 2 apply f_equal. destruct (wfn_cap (bw a) x ltac:(lia) W) as (C & _ & _).
  assert (W' : wfn (bw a) (bn_set (bw a) x j v)) by (split; [apply bn_set_wf; apply W | rewrite bn_set_len; apply W]).
  rewrite <- (words_of_self (bw a) (bn_set (bw a) x j v)) by (assumption || lia). apply f_equal. rewrite S0.
  apply Z.bits_inj'. intros p Hp. rewrite bn_set_spec by (try apply W; lia). destruct (Z.ltb_spec j (bw a)) as [L | L].
  - rewrite andb_true_r. destruct v; [rewrite Z.setbit_eqb by lia|rewrite Z.clearbit_eqb by lia]; rewrite (Z.eqb_sym j p); destruct (p =? j); cbn [orb negb]; rewrite ?andb_false_r, ?andb_true_r; reflexivity.
  - rewrite andb_false_r. reflexivity.
Qed.
Lemma set_any a i x : vec a -> int_ok i -> bit_set a i x = any_with_position a i x.
Proof.
  intros V I0. unfold any_with_position. destruct (small_dec a V) as [[-> H] | [-> H]]; [apply set_machine; assumption|].
  wide a w Ea Na Ia Sa. unfold bit_set. cbn zeta. rewrite endian_slot, Ea, (bsize_bw a _ eq_refl). change ((slot a i - Z.min (blsb a) (bmsb a)) mod 2 ^ 64) with (u64 (slot a i - Z.min (blsb a) (bmsb a))).
  apply f_equal. apply placed_words; try assumption. apply u64_range.
Qed.
Lemma set_bit0_any a i x : vec a -> int_ok i -> bit_set_bit0 a i x = any_with_position_bit a i x.
Proof.
  intros V I0. unfold any_with_position_bit. destruct (small_dec a V) as [[-> H] | [-> H]].
  - rewrite set_bit0_machine by assumption. apply set_machine; assumption.
  - wide a w Ea Na Ia Sa. unfold bit_set_bit0. cbn zeta. rewrite endian_slot, Ea, (bsize_bw a _ eq_refl). change (slot a i mod 2 ^ 64) with (u64 (slot a i)).
    apply f_equal. apply placed_words; try assumption. apply u64_range.
Qed.

(** * slices *)
Lemma word_native m r : 1 <= m <= 64 -> wfn m r -> word r 0 = words_num r.
Proof.
  intros H [W L]. pose proof (nwords_bounds m ltac:(lia)). unfold wlen in L. destruct r as [|w [|w' r]]; cbn [length] in L; try lia.
  rewrite word_0. cbn [words_num]. lia.
Qed.
Lemma narrow_result m r z : 1 <= m -> wfn m r -> words_num r = z ->
  (if native_num m then mkBit (m - 1) 0 false (HN (conv (hty m false) (word r 0))) else mkBit (m - 1) 0 false (HB r)) = vec_of m false z.
Proof.
  intros H W E. unfold native_num. destruct (Z.leb_spec m 64) as [C | C].
  - rewrite (word_native m) by (assumption || lia). rewrite conv_store by lia. rewrite vec_of_small by lia. rewrite E. reflexivity.
  - rewrite vec_of_wide by lia. rewrite <- E, words_of_self by (assumption || lia). reflexivity.
Qed.
Lemma slice_c_any a i j : vec a -> int_ok i -> int_ok j -> bit_slice_c a i j = any_slice a i j.
Proof.
  intros V I1 I2. unfold any_slice. destruct (small_dec a V) as [[-> H] | [-> H]]; [apply slice_c_machine; assumption|].
  wide a x Ea Na Ia Sa. unfold bit_slice_c, requires. cbn zeta. rewrite (bsize_bw a _ eq_refl), Ea, Sa. set (m := Z.abs (i - j) + 1).
  destruct ((Z.max i j <? bw a) && (blsb a <=? j)) eqn:B; [|reflexivity]. cbn [andb].
  destruct (Z.leb_spec 0 (Z.min i j)) as [P | P]; [|reflexivity]. cbn [negb orb].
  destruct (bn_slice_c_spec (bw a) x i j ltac:(lia) Ia ltac:(lia) ltac:(lia)) as (r & -> & W & E). fold m in W, E. cbn [bind].
  destruct (Z.eqb_spec m 65) as [Q | Q].
  - unfold native_num. replace (Z.abs (i - j) <=? 64) with true by (unfold m in Q; lia). replace (m <=? 64) with false by lia. reflexivity.
  - rewrite <- (narrow_result m r _ ltac:(unfold m; lia) W E). replace (m - 1) with (Z.abs (i - j)) by (unfold m; lia). unfold native_num. fold m.
    destruct (Z.leb_spec m 64) as [C | C].
    + replace (Z.abs (i - j) <=? 64) with true by (unfold m in *; lia). reflexivity.
    + replace (Z.abs (i - j) <=? 64) with false by (unfold m in *; lia). reflexivity.
Qed.
Lemma slice_r_any a m i j : vec a -> 1 <= m -> int_ok i -> int_ok j -> bit_slice_r a m i j = any_slice_dynamic a m i j.
Proof.
  intros V Hm I1 I2. unfold any_slice_dynamic. destruct (small_dec a V) as [[-> H] | [-> H]]; [apply slice_r_machine; assumption|].
  wide a x Ea Na Ia Sa. unfold bit_slice_r. cbn zeta. rewrite (bsize_bw a _ eq_refl), Ea. change (i mod 2 ^ 64) with (u64 i). change (j mod 2 ^ 64) with (u64 j).
  pose proof (u64_range i) as R1. pose proof (u64_range j) as R2. change (2 ^ 64 - 1) with u64max.
  destruct (Z.eqb_spec (Z.max (u64 i) (u64 j)) u64max) as [Q | Q].
  - unfold bn_slice_r. cbn zeta. rewrite Q, Z.eqb_refl. reflexivity.
  - assert (U : u64max = 2 ^ 64 - 1) by reflexivity. destruct (bn_slice_r_spec (bw a) x m (u64 i) (u64 j) ltac:(lia) Hm Ia ltac:(lia) ltac:(lia)) as (r & -> & W & E). cbn [bind].
    replace (Z.abs (u64 i - u64 j)) with (Z.max (u64 i) (u64 j) - Z.min (u64 i) (u64 j)) in E by lia.
    unfold num. rewrite Sa. rewrite <- (narrow_result m r _ Hm W E). destruct (native_num m); reflexivity.
Qed.
Lemma vec_of_convert m s z : bit_convert (m - 1) 0 s (vec_of m false z) = if s then IllFormed else Ok (vec_of m false z).
Proof.
  unfold bit_convert, vec_of, object. cbn zeta. cbn [bmsb blsb bsgn]. rewrite Z.eqb_refl. cbn [Z.eqb andb]. destruct s; reflexivity.
Qed.
Lemma extend_any a m : vec a -> 1 <= m < 2 ^ 31 -> bit_extend a m = any_resize a m.
Proof.
  intros V Hm. unfold any_resize. destruct (small a && (m <=? 64)) eqn:Q.
  - apply extend_machine; [exact V|unfold small in Q; lia|unfold small in Q; lia].
  - destruct (Z.ltb_spec (bw a) m) as [L | L]; [|destruct (Z.eqb_spec m (bw a)) as [E | E]].
    + rewrite extend_wide by (assumption || (unfold small in Q; lia)). replace (bw a <? m) with true by lia. reflexivity.
    + subst m. rewrite bit_extend_same_wide by (assumption || (unfold small in Q; lia)). reflexivity.
    + unfold bit_extend. cbn zeta. rewrite (bsize_bw a _ eq_refl). replace (bw a <? m) with false by lia. replace (m =? bw a) with false by lia.
      rewrite slice_c_any by (assumption || (unfold int_ok; lia)). unfold any_slice. replace (small a) with false by (unfold small in *; lia).
      cbn zeta. replace (Z.abs (m - 1 - 0) + 1) with m by lia.
      destruct (_ || _); [reflexivity|]. cbn [bind]. apply vec_of_convert.
Qed.
Lemma concat_any a b : vec a -> vec b -> bit_concat a b = joined a b.
Proof.
  intros Va Vb. destruct (small_dec a Va) as [[_ H] | [_ H]], (small_dec b Vb) as [[_ H'] | [_ H']]; [apply concat_machine; assumption|..];
    unfold bit_concat, joined; cbn zeta; rewrite (bsize_bw a _ eq_refl), (bsize_bw b _ eq_refl); pose proof (bw_pos a); pose proof (bw_pos b);
    replace (bw a + bw b <? 64) with false by lia; replace (64 <=? bw a + bw b) with true by lia; reflexivity.
Qed.

(** * queries *)
Lemma any_set_any a : vec a -> bit_any_set a = any_true a.
Proof.
  intros V. unfold any_true. destruct (small_dec a V) as [[-> H] | [-> H]]; [apply any_machine; assumption|].
  wide a x Ea Na Ia Sa. unfold bit_any_set. rewrite Ea, Sa, seems_zero_words, negb_involutive by (assumption || lia). reflexivity.
Qed.
Lemma odd_ones_parity k z : odd_ones k z = parity k z.
Proof. reflexivity. Qed.
Lemma r_and_any a : vec a -> bit_r_and a = any_all_ones a.
Proof.
  intros V. unfold any_all_ones. destruct (small_dec a V) as [[-> H] | [-> H]]; [apply r_and_machine; assumption|].
  wide a x Ea Na Ia Sa. unfold bit_r_and. rewrite Ea, Sa, (bsize_bw a _ eq_refl), bn_r_xor_spec by (try apply Ia; lia). reflexivity.
Qed.
Lemma highest_any a : vec a -> bit_highest_bit a = any_top_one a.
Proof.
  intros V. unfold any_top_one. destruct (small_dec a V) as [[-> H] | [-> H]]; [apply highest_machine; assumption|].
  wide a x Ea Na Ia Sa. unfold bit_highest_bit. rewrite Ea, Sa, (bsize_bw a _ eq_refl). destruct (Z.eqb_spec (words_num x) 0) as [E | E]; [|apply bn_highest_scan_spec; (assumption || lia)].
  rewrite words_in_nwords. unfold bn_highest_bit. apply all_zero_num in E; [|apply Ia]. rewrite Forall_forall in E.
  assert (G : forall l, bn_highest_scan (nwords (bw a)) x l = nwords (bw a)).
  { induction l as [|k l IH]; [reflexivity|]. cbn [bn_highest_scan].
    assert (Z0 : word x (nwords (bw a) - k - 1) = 0) by (unfold word; destruct (nth_in_or_default (Z.to_nat (nwords (bw a) - k - 1)) x 0) as [IN | ->]; [apply E; exact IN|reflexivity]).
    rewrite Z0. exact IH. }
  apply G.
Qed.
Lemma to_uint64_any a : vec a -> bit_to_uint64 a = stored a mod 2 ^ 64.
Proof.
  intros V. destruct (vec_cases a V) as [(x & Ea & Na & Ia & Sa) | (x & Ea & Na & Ia & Sa)]; unfold bit_to_uint64; rewrite Ea, Sa; [reflexivity|].
  unfold bn_to_uint64. apply word0_mod. apply Ia.
Qed.

(** * compound assignment *)
Lemma compound_any op r a b : op a b = r -> (forall x, r = Ok x -> vec x) -> vec a -> bit_compound op a b = any_assigned true a b r.
Proof.
  intros <- N Va. unfold bit_compound, any_assigned, requires. rewrite updatable_ok. destruct (updatable a b); [|reflexivity]. cbn [negb].
  destruct (op a b) as [x| | | |]; try reflexivity. cbn [bind]. rewrite assign_any by (auto). unfold any_assign.
  destruct (_ || _); [|reflexivity]. cbn [bind]. rewrite mask_off_every by (apply rewritten_vec; exact Va). reflexivity.
Qed.
Lemma shift_assign_any op r a b : op a b = r -> (forall x, r = Ok x -> vec x) -> vec a -> bit_shift_assign op a b = any_assigned false a b r.
Proof.
  intros <- N Va. unfold bit_shift_assign, any_assigned, requires. rewrite updatable_ok. destruct (updatable a b); [|reflexivity]. cbn [negb].
  destruct (op a b) as [x| | | |]; try reflexivity. cbn [bind]. rewrite assign_any by auto. destruct (any_assign a x); reflexivity.
Qed.
