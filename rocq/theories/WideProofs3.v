(** Multi-word comparisons, unary operators, assignment and single positions against the reference machine of SpecWide.v. *)
From Coq Require Import ZArith List Bool Lia Zify ZifyBool.
From Verif Require Import Cpp BigNum Bit Logic Spec SpecExact SpecMachine SpecWide ZBits Words BigNumProofs BigArith BitProofs BitSlice BitExt BitOps BitShift BitArith BitCmp MachineProofs MachineProofs2 MachineProofs3 MachineProofs4 WideProofs WideProofs2.
Import ListNotations.
Open Scope Z_scope.
Local Ltac Zify.zify_post_hook ::= idtac.

(** * equality *)
Lemma lown_mod k ws : wf ws -> lown k ws = words_num ws mod 2 ^ (64 * Z.of_nat k).
Proof.
  intros W. pose proof (lown_bound k ws W) as B. 
  assert (E : words_num ws = lown k ws + 2 ^ (64 * Z.of_nat k) * words_num (skipn k ws)).
  { clear. unfold lown. revert ws. induction k as [|k IH]; intros ws; [cbn [firstn skipn words_num]; rewrite Z.mul_0_r, Z.pow_0_r; lia|].
    destruct ws as [|w ws]; [cbn [firstn skipn words_num]; lia|]. cbn [firstn skipn words_num]. rewrite (IH ws) at 1.
    replace (64 * Z.of_nat (S k)) with (64 + 64 * Z.of_nat k) by lia. rewrite (Z.pow_add_r 2 64) by lia. ring. }
  rewrite E, Z.mul_comm, Z.mod_add by (apply Z.pow_nonzero; lia). symmetry. apply Z.mod_small. exact B.
Qed.
Lemma eq_native_words ws v : wf ws -> bn_eq_native ws v = (words_num ws =? v mod 2 ^ 64).
Proof.
  intros W. unfold bn_eq_native. change (u64 v) with (v mod 2 ^ 64). pose proof (Z.mod_pos_bound v (2 ^ 64) ltac:(lia)) as B.
  pose proof (wf_tl ws W) as Wt. pose proof (words_num_nonneg _ Wt) as N. pose proof (word_range ws 0 W) as R. rewrite words_num_tl.
  assert (T : forallb (fun c => c =? 0) (tl ws) = (words_num (tl ws) =? 0)).
  { apply Bool.eq_iff_eq_true. rewrite Z.eqb_eq, all_zero_num by exact Wt. rewrite forallb_forall, Forall_forall. split; intros H c Hc; specialize (H c Hc); lia. }
  rewrite T. destruct (Z.eqb_spec (v mod 2 ^ 64) (word ws 0)) as [E | E]; cbn [negb].
  - rewrite E. destruct (Z.eqb_spec (words_num (tl ws)) 0); lia.
  - symmetry. apply Z.eqb_neq. intros Q. apply E. assert (words_num (tl ws) = 0) by nia. lia.
Qed.
Lemma eq_any a b : vec a -> vec b -> bit_eq a b = any_equal a b.
Proof.
  intros Va Vb. unfold any_equal, small, both_signed. destruct (vec_cases a Va) as [(x & Ea & Na & Ia & Sa) | (x & Ea & Na & Ia & Sa)];
    destruct (vec_cases b Vb) as [(y & Eb & Nb & Ib & Sb) | (y & Eb & Nb & Ib & Sb)].
  - replace ((bw a <=? 64) && (bw b <=? 64)) with true by lia. apply eq_machine; (assumption || lia).
  - replace (bw a <=? 64) with true by lia. replace (bw b <=? 64) with false by lia. cbn [andb]. unfold bit_eq. rewrite Ea, Eb, Sa, Sb.
    rewrite eq_native_words by apply Ib. reflexivity.
  - replace (bw a <=? 64) with false by lia. replace (bw b <=? 64) with true by lia. cbn [andb]. unfold bit_eq. rewrite Ea, Eb, Sa, Sb.
    rewrite eq_native_words by apply Ia. reflexivity.
  - replace (bw a <=? 64) with false by lia. replace (bw b <=? 64) with false by lia. cbn [andb]. unfold bit_eq.
    rewrite Ea, Eb, (bsize_bw a _ eq_refl), (bsize_bw b _ eq_refl). unfold bn_eq. destruct (bsgn a && bsgn b) eqn:G.
    + destruct (Z.ltb_spec (bw a) (bw b)) as [L | L]; [|reflexivity].
      pose proof (bit_extend_wide_wide a (bw b) Va ltac:(lia)) as X. unfold bit_extend in X. cbn zeta in X. rewrite Ea, (bsize_bw a _ eq_refl) in X.
      replace (bw a <? bw b) with true in X by lia.
      destruct (bn_extend_spec (bw a) (bsgn a) x (bw b) ltac:(lia) Ia) as (r & Er & W & _). rewrite Er in X |- *. cbn [bind] in X |- *.
      rewrite vec_of_wide in X by lia. injection X as X. rewrite words_eqb_same; [|apply W|apply Ib|destruct W, Ib; lia].
      rewrite X, words_of_num, Sb by lia. rewrite Z.mod_small by (apply widened_range; (assumption || lia)). reflexivity.
    + rewrite Sa, Sb, !words_of_self by (assumption || lia). cbn zeta. rewrite !words_in_nwords, !blank_reduce.
      pose proof (nwords_bounds (bw a) ltac:(lia)) as NA. pose proof (nwords_bounds (bw b) ltac:(lia)) as NBb.
      rewrite words_eqb_prefix by (apply Ia || apply Ib). rewrite !lown_mod by (apply Ia || apply Ib). destruct Ia as [Wx Lx], Ib as [Wy Ly]. unfold wlen in Lx, Ly.
      replace (64 * Z.of_nat (Nat.min (length x) (length y))) with (64 * Z.min (nwords (bw a)) (nwords (bw b))) by lia.
      destruct (_ =? _); cbn [andb]; [|destruct (nwords (bw b) <=? nwords (bw a)); reflexivity].
      destruct (Z.leb_spec (nwords (bw b)) (nwords (bw a))) as [L | L].
      * replace (Z.min (nwords (bw a)) (nwords (bw b))) with (nwords (bw b)) by lia. rewrite (skipn_all2 y) by lia. cbn [blank forallb]. rewrite andb_true_r.
        destruct (Z.eqb_spec (nwords (bw a)) (nwords (bw b))) as [E | E]; [|reflexivity]. rewrite (skipn_all2 x) by lia. reflexivity.
      * replace (Z.min (nwords (bw a)) (nwords (bw b))) with (nwords (bw a)) by lia. rewrite (skipn_all2 x) by lia. reflexivity.
Qed.
Lemma ne_any a b : vec a -> vec b -> bit_ne a b = omap negb (any_equal a b).
Proof.
  intros Va Vb. rewrite <- eq_any by assumption. destruct (small a && small b) eqn:Q.
  - apply small_true in Q. rewrite ne_machine, eq_machine by tauto. reflexivity.
  - unfold bit_ne, bit_eq. destruct (vec_cases a Va) as [(x & Ea & Na & Ia & Sa) | (x & Ea & Na & Ia & Sa)];
    destruct (vec_cases b Vb) as [(y & Eb & Nb & Ib & Sb) | (y & Eb & Nb & Ib & Sb)]; rewrite Ea, Eb; [unfold small in Q; lia|reflexivity..].
Qed.

(** * order *)
Lemma negate_bit n ws : 1 <= n -> wfn n ws -> Z.testbit (words_num ws) (n - 1) = true ->
  Z.testbit (words_num (bn_negate n ws)) (n - 1) = (words_num ws mod 2 ^ n =? 2 ^ (n - 1)) /\
  words_num (bn_negate n ws) mod 2 ^ n = 2 ^ n - words_num ws mod 2 ^ n.
Proof.
  intros Hn W B. destruct (bn_negate_spec n ws Hn W) as [_ E]. pose proof (nwords_bounds n Hn) as Nb.
  assert (P1 : 2 ^ n = 2 * 2 ^ (n - 1)) by (rewrite <- Z.pow_succ_r by lia; f_equal; lia). assert (0 < 2 ^ (n - 1)) by (apply pow2_pos; lia).
  assert (M : words_num (bn_negate n ws) mod 2 ^ n = (- words_num ws) mod 2 ^ n) by (rewrite E; apply mod_mod_pow2; lia).
  set (m := words_num ws mod 2 ^ n) in *. assert (Rm : 0 <= m < 2 ^ n) by (apply Z.mod_pos_bound; lia).
  assert (Bm : Z.testbit m (n - 1) = true) by (unfold m; rewrite testbit_mod_pow2 by lia; rewrite B; lia).
  assert (Lm : 2 ^ (n - 1) <= m).
  { destruct (Z_lt_le_dec m (2 ^ (n - 1))) as [L | L]; [|exact L]. rewrite (testbit_small m (n - 1)) in Bm by lia. discriminate. }
  assert (M2 : (- words_num ws) mod 2 ^ n = 2 ^ n - m).
  { rewrite Z_mod_nz_opp_full; [reflexivity|]. fold m. lia. }
  rewrite M2 in M. split; [|exact M].
  replace (Z.testbit (words_num (bn_negate n ws)) (n - 1)) with (Z.testbit (2 ^ n - m) (n - 1)) by (rewrite <- M, testbit_mod_pow2 by lia; replace (n - 1 <? n) with true by lia; reflexivity).
  destruct (Z.eqb_spec m (2 ^ (n - 1))) as [Q | Q].
  - rewrite Q, P1. replace (2 * 2 ^ (n - 1) - 2 ^ (n - 1)) with (2 ^ (n - 1)) by lia. apply Z.pow2_bits_true. lia.
  - apply (testbit_small _ (n - 1)); lia.
Qed.
Lemma gt_min_loop n1 n2 : 1 <= n1 -> 1 <= n2 -> forall fuel, (forall a b, wfn n1 a -> wfn n2 b -> words_num a mod 2 ^ n1 = 2 ^ (n1 - 1) -> words_num b mod 2 ^ n2 = 2 ^ (n2 - 1) ->
  bn_gt_f fuel n1 true a n2 true b = Fuel) /\ (forall a b, wfn n2 a -> wfn n1 b -> words_num a mod 2 ^ n2 = 2 ^ (n2 - 1) -> words_num b mod 2 ^ n1 = 2 ^ (n1 - 1) ->
  bn_gt_f fuel n2 true a n1 true b = Fuel).
Proof.
  intros H1 H2.
  assert (T : forall n a, 1 <= n -> words_num a mod 2 ^ n = 2 ^ (n - 1) -> Z.testbit (words_num a) (n - 1) = true).
  { intros n a Hn E. pose proof (testbit_mod_pow2 (words_num a) n (n - 1) ltac:(lia)) as X. rewrite E, Z.pow2_bits_true in X by lia.
    replace (n - 1 <? n) with true in X by lia. symmetry. exact X. }
  assert (Ng : forall n a, 1 <= n -> wfn n a -> words_num a mod 2 ^ n = 2 ^ (n - 1) -> wfn n (bn_negate n a) /\ words_num (bn_negate n a) mod 2 ^ n = 2 ^ (n - 1)).
  { intros n a Hn W E. split; [apply bn_negate_spec; assumption|]. destruct (negate_bit n a Hn W (T n a Hn E)) as [_ ->]. rewrite E.
    assert (P1 : 2 ^ n = 2 * 2 ^ (n - 1)) by (rewrite <- Z.pow_succ_r by lia; f_equal; lia). lia. }
  induction fuel as [|f [IH1 IH2]]; [split; reflexivity|]. split; intros a b Wa Wb Ea Eb; rewrite gt_step by assumption; cbn zeta.
  - rewrite (T n1 a), (T n2 b) by assumption. cbn [andb negb]. destruct (Ng n1 a H1 Wa Ea), (Ng n2 b H2 Wb Eb). apply IH2; assumption.
  - rewrite (T n2 a), (T n1 b) by assumption. cbn [andb negb]. destruct (Ng n2 a H2 Wa Ea), (Ng n1 b H1 Wb Eb). apply IH1; assumption.
Qed.
Lemma gt_wide a b x y : 65 <= bw a -> 65 <= bw b -> wfn (bw a) x -> wfn (bw b) y -> stored a = words_num x -> stored b = words_num y ->
  bn_gt (bw a) (bsgn a) x (bw b) (bsgn b) y = wide_greater a b.
Proof.
  intros Ha Hb Wx Wy Sa Sb. unfold wide_greater, both_signed. destruct (bsgn a && bsgn b) eqn:G; [|rewrite Sa, Sb; apply bn_gt_u; assumption].
  apply andb_true_iff in G. destruct G as [-> ->]. rewrite !snum_neg. unfold smallest, num. rewrite Sa, Sb. unfold bn_gt.
  change 8%nat with (S (S 6)). remember 6%nat as f eqn:Ef. clear Ef.
  rewrite gt_step by (assumption || lia). cbn zeta.
  destruct (Z.testbit (words_num x) (bw a - 1)) eqn:Ba, (Z.testbit (words_num y) (bw b - 1)) eqn:Bb; cbn [andb negb]; try reflexivity.
  destruct (bn_negate_spec (bw a) x ltac:(lia) Wx) as [Wnx Enx]. destruct (bn_negate_spec (bw b) y ltac:(lia) Wy) as [Wny Eny].
  destruct (negate_bit (bw a) x ltac:(lia) Wx Ba) as [NBa NMa]. destruct (negate_bit (bw b) y ltac:(lia) Wy Bb) as [NBb NMb].
  destruct (Z.eqb_spec (words_num x mod 2 ^ bw a) (2 ^ (bw a - 1))) as [Qa | Qa], (Z.eqb_spec (words_num y mod 2 ^ bw b) (2 ^ (bw b - 1))) as [Qb | Qb];
    try (rewrite gt_step by (assumption || lia); cbn zeta; rewrite NBa, NBb; cbn [andb negb]; reflexivity).
  - assert (P1 : forall n, 1 <= n -> 2 ^ n = 2 * 2 ^ (n - 1)) by (intros n Hn; rewrite <- Z.pow_succ_r by lia; f_equal; lia).
    apply (gt_min_loop (bw a) (bw b)); try assumption; try lia; [rewrite NMb, Qb, (P1 (bw b)) by lia|rewrite NMa, Qa, (P1 (bw a)) by lia]; lia.
  - rewrite gt_step by (assumption || lia). cbn zeta. rewrite NBa, NBb. cbn [andb negb]. rewrite Enx, Eny, !capacity_nwords. reflexivity.
Qed.
Lemma ge_wide a b x y : vec a -> vec b -> bval a = HB x -> bval b = HB y -> 65 <= bw a -> 65 <= bw b -> wfn (bw a) x -> wfn (bw b) y -> stored a = words_num x -> stored b = words_num y ->
  bn_ge (bw a) (bsgn a) x (bw b) (bsgn b) y = wide_greater_equal a b.
Proof.
  intros Va Vb Ea Eb Ha Hb Wx Wy Sa Sb. unfold wide_greater_equal. rewrite <- eq_any by assumption. unfold bit_eq. rewrite Ea, Eb, (bsize_bw a _ eq_refl), (bsize_bw b _ eq_refl).
  unfold bn_ge. rewrite gt_wide by assumption.
  assert (C : (exists e, bn_eq (bw a) (bsgn a) x (bw b) (bsgn b) y = Ok e) \/ bn_eq (bw a) (bsgn a) x (bw b) (bsgn b) y = IllFormed).
  { pose proof (eq_any a b Va Vb) as Q. unfold bit_eq in Q. rewrite Ea, Eb, (bsize_bw a _ eq_refl), (bsize_bw b _ eq_refl) in Q. rewrite Q. unfold any_equal.
    repeat match goal with |- context [if ?c then _ else _] => destruct c end; try (right; reflexivity); left; eexists; reflexivity. }
  destruct C as [(e & ->) | ->]; [|reflexivity]. destruct (wide_greater a b) as [g| | | |]; try reflexivity. cbn [bind]. destruct g; reflexivity.
Qed.
Lemma order_any cmp big wide a b : (forall x y, bval a = HB x -> bval b = HB y -> 65 <= bw a -> 65 <= bw b -> wfn (bw a) x -> wfn (bw b) y -> stored a = words_num x -> stored b = words_num y ->
    big (bw a) (bsgn a) x (bw b) (bsgn b) y = wide a b) -> vec a -> vec b -> bit_rel cmp big a b = any_order cmp wide a b.
Proof.
  intros B Va Vb. unfold any_order, small. destruct (vec_cases a Va) as [(x & Ea & Na & Ia & Sa) | (x & Ea & Na & Ia & Sa)];
    destruct (vec_cases b Vb) as [(y & Eb & Nb & Ib & Sb) | (y & Eb & Nb & Ib & Sb)].
  - replace (bw a <=? 64) with true by lia. replace (bw b <=? 64) with true by lia. apply rel_machine; (assumption || lia).
  - replace (bw a <=? 64) with true by lia. replace (bw b <=? 64) with false by lia. unfold bit_rel. rewrite Ea, Eb. reflexivity.
  - replace (bw a <=? 64) with false by lia. replace (bw b <=? 64) with true by lia. unfold bit_rel. rewrite Ea, Eb. reflexivity.
  - replace (bw a <=? 64) with false by lia. replace (bw b <=? 64) with false by lia. unfold bit_rel. rewrite Ea, Eb.
    apply B; (assumption || lia).
Qed.
Lemma gt_any a b : vec a -> vec b -> bit_gt a b = any_greater a b.
Proof. intros Va Vb. apply order_any; try assumption. intros. apply gt_wide; assumption. Qed.
Lemma lt_any a b : vec a -> vec b -> bit_lt a b = any_less a b.
Proof. intros Va Vb. apply order_any; try assumption. intros. unfold bn_lt. apply gt_wide; assumption. Qed.
Lemma ge_any a b : vec a -> vec b -> bit_ge a b = any_greater_equal a b.
Proof. intros Va Vb. apply order_any; try assumption. intros. apply ge_wide; assumption. Qed.
Lemma le_any a b : vec a -> vec b -> bit_le a b = any_less_equal a b.
Proof. intros Va Vb. apply order_any; try assumption. intros. unfold bn_le. apply ge_wide; assumption. Qed.

(** * unary operators *)
Lemma small_dec a : vec a -> (small a = true /\ bw a <= 64) \/ (small a = false /\ 65 <= bw a).
Proof. intros _. unfold small. destruct (Z.leb_spec (bw a) 64); [left; lia|right; lia]. Qed.
Lemma neg_any a : vec a -> bit_neg a = any_minus a.
Proof.
  intros V. unfold any_minus. destruct (small_dec a V) as [[-> H] | [-> H]]; [apply neg_machine; assumption|].
  wide a x Ea Na Ia Sa. unfold bit_neg. rewrite Ea. reflexivity.
Qed.
Lemma negate_any a : vec a -> bit_negate a = any_two_complement a.
Proof.
  intros V. unfold any_two_complement. destruct (small_dec a V) as [[-> H] | [-> H]]; [apply negate_machine; assumption|].
  wide a x Ea Na Ia Sa. unfold bit_negate. cbn zeta. rewrite Ea, (bsize_bw a _ eq_refl), Sa, vec_of_wide by lia.
  destruct (bn_negate_spec (bw a) x ltac:(lia) Ia) as [W E]. do 3 apply f_equal. apply big_eq; [lia|exact W|]. rewrite capacity_nwords. exact E.
Qed.
Lemma not_any a : vec a -> bit_not a = any_inverse a.
Proof.
  intros V. unfold any_inverse. destruct (small_dec a V) as [[-> H] | [-> H]]; [apply not_machine; assumption|].
  wide a x Ea Na Ia Sa. unfold bit_not. cbn zeta. rewrite Ea, (bsize_bw a _ eq_refl), Sa, vec_of_wide by lia.
  destruct Ia as [Wx Lx]. destruct (bn_not_spec (bw a) x Wx) as (W & L & E). do 2 apply f_equal. apply big_eq; [lia|split; [exact W|lia]|].
  rewrite E, Lx, capacity_nwords. pose proof (words_num_nonneg x Wx). pose proof (words_num_bound x Wx) as B. rewrite Lx in B.
  symmetry. rewrite <- (Z_mod_plus_full _ 1), Z.mul_1_l. rewrite Z.mod_small; lia.
Qed.
Lemma rewritten_eq a z z' : 65 <= bw a -> z mod 2 ^ capacity (bw a) = z' mod 2 ^ capacity (bw a) -> rewritten a z = rewritten a z'.
Proof. intros H E. rewrite !rewritten_wide by exact H. rewrite (words_of_eq _ z z') by (assumption || lia). reflexivity. Qed.
Lemma assign_any d a : vec d -> vec a -> bit_assign d a = any_assign d a.
Proof.
  intros Vd Va. unfold any_assign. destruct (small_dec d Vd) as [[Ed Hd] | [Ed Hd]], (small_dec a Va) as [[Ea Ha] | [Ea Ha]]; rewrite Ed, ?Ea; cbn [andb orb negb].
  - rewrite rewritten_small by exact Hd. apply assign_machine; assumption.
  - wide a x Fa Na Ia Sa. unfold bit_assign, holder_assign. rewrite (bsize_bw d _ eq_refl), Fa. unfold native_num. replace (bw d <=? 64) with true by lia. reflexivity.
  - replace (bw a =? bw d) with false by lia. unfold bit_assign, holder_assign. rewrite (bsize_bw d _ eq_refl). unfold native_num. replace (bw d <=? 64) with false by lia.
    destruct (vec_cases a Va) as [(x & Fa & _) | (x & Fa & Na & _)]; [rewrite Fa; reflexivity|lia].
  - wide a x Fa Na Ia Sa. unfold bit_assign, holder_assign. rewrite (bsize_bw d _ eq_refl), (bsize_bw a _ eq_refl), Fa. unfold native_num.
    replace (bw d <=? 64) with false by lia. destruct (Z.eqb_spec (bw a) (bw d)) as [E | E]; [|reflexivity]. cbn [bind].
    rewrite rewritten_wide, Sa, <- E, words_of_self by (assumption || lia). reflexivity.
Qed.
Lemma assign_arith_any d v : vec d -> bit_assign_arith d v = any_assign_number d v.
Proof.
  intros V. unfold any_assign_number. destruct (small_dec d V) as [[-> H] | [-> H]].
  - rewrite rewritten_small by exact H. apply assign_arith_machine; assumption.
  - wide d x Ea Na Ia Sa. unfold bit_assign_arith. rewrite Ea. reflexivity.
Qed.
Lemma resign_any s a : vec a -> bit_resign s a = vec_of (bw a) s (stored a).
Proof.
  intros V. destruct (small_dec a V) as [[_ H] | [_ H]].
  - rewrite vec_of_small by (pose proof (bw_pos a); lia). apply resign_machine; assumption.
  - wide a x Ea Na Ia Sa. unfold bit_resign. cbn zeta. rewrite Ea, (bsize_bw a _ eq_refl), Sa, vec_of_wide, words_of_self by (assumption || lia). reflexivity.
Qed.
Lemma step_any op d f a : (forall x y, vec x -> vec y -> op x y = f x y) ->
  (forall x, f x bit_one = combined (fun u v => Ok (u + d * v)) x bit_one \/ bw x <= 64) -> vec a -> 65 <= bw a ->
  (let! r := op a bit_one in bit_assign a r) = if own_type a then Ok (rewritten a (stored a + d)) else IllFormed.
Proof.
  intros O F V H. assert (V1 : vec bit_one) by (split; [reflexivity|repeat split; cbv; intros; discriminate]).
  rewrite O by assumption. destruct (F a) as [E | L]; [|lia]. rewrite E, combined_match.
  assert (B1 : bw bit_one = 1) by reflexivity. assert (W : wider a bit_one = bw a) by (unfold wider; lia). rewrite W.
  unfold pairs_up. rewrite B1. replace (bw a =? 1) with false by lia. replace (bw a <? 1) with false by lia. fold (own_type a).
  destruct (own_type a); cbn [negb]; [|reflexivity]. unfold wide_result, omap. cbn [bind].
  assert (NB : bw a < 2 ^ 31) by apply V. rewrite assign_any; [|exact V|apply vec_of_vec; lia].
  unfold any_assign, small. rewrite vec_of_bw by lia. replace (bw a <=? 64) with false by lia. rewrite Z.eqb_refl. cbn [andb orb negb].
  rewrite stored_vec_of by lia. apply f_equal. apply rewritten_eq; [exact H|]. rewrite Z.mod_mod by (apply Z.pow_nonzero; [lia|rewrite capacity_nwords; pose proof (nwords_bounds (bw a)); lia]).
  f_equal. unfold widened. rewrite Z.eqb_refl, B1. replace (1 =? bw a) with false by lia. change (small bit_one) with true. cbn [stored bit_one bval].
  rewrite Z.mod_small by (pose proof (pow_mono2 1 (bw a)); lia). lia.
Qed.
Lemma inc_any a : vec a -> bit_inc a = any_step 1 a.
Proof.
  intros V. unfold any_step. destruct (small_dec a V) as [[-> H] | [-> H]]; [apply inc_machine; assumption|].
  apply (step_any bit_add 1 any_sum); [intros; apply add_any; assumption| |exact V|exact H].
  intros x. destruct (Z.leb_spec (bw x) 64) as [C | C]; [right; lia|left]. unfold any_sum, small. replace (bw x <=? 64) with false by lia. cbn [andb].
  unfold combined. cbn zeta. rewrite Z.mul_1_l. reflexivity.
Qed.
Lemma dec_any a : vec a -> bit_dec a = any_step (-1) a.
Proof.
  intros V. unfold any_step. destruct (small_dec a V) as [[-> H] | [-> H]]; [apply dec_machine; assumption|].
  apply (step_any bit_sub (-1) any_difference); [intros; apply sub_any; assumption| |exact V|exact H].
  intros x. destruct (Z.leb_spec (bw x) 64) as [C | C]; [right; lia|left]. unfold any_difference, small. replace (bw x <=? 64) with false by lia. cbn [andb].
  unfold combined. cbn zeta. replace (-1 * widened bit_one (wider x bit_one)) with (- widened bit_one (wider x bit_one)) by lia. reflexivity.
Qed.
