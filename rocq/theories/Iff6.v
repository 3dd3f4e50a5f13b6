(** Exactly when 2-state slices, extensions, concatenations and right shifts are right. *)
From Coq Require Import ZArith List Bool Lia.
From Verif Require Exact.
From Verif Require Import Cpp BigNum Bit Spec SpecExact SpecMachine SpecWide SpecIff BitExt BitOps ZBits Words BigNumProofs BitProofs BitCmp BitShift BitMain BitMain2 BitMain5 MachineProofs ReachProofs WideProofs WideProofs2 WideProofs3 WideProofs4 LogicRed Iff2 Iff3 Iff4 Iff5.
Import ListNotations.
Open Scope Z_scope.
Local Ltac Zify.zify_post_hook ::= idtac.

Lemma pow_double n : 1 <= n -> 2 ^ n = 2 * 2 ^ (n - 1).
Proof. intros H. rewrite <- Z.pow_succ_r by lia. f_equal. lia. Qed.
(** what a vector of one position gets *)
Lemma bit_of_one s z : bit_at (vec_of 1 s z) 0 = negb (z =? 0).
Proof. unfold bit_at. rewrite vec_of_one. now destruct (z =? 0). Qed.
Lemma bit_of_vec n s z p : 2 <= n -> 0 <= p < n -> bit_at (vec_of n s z) p = Z.testbit z p.
Proof. intros H Hp. unfold bit_at. rewrite vec_of_num by lia. apply Z.mod_pow2_bits_low. lia. Qed.
Lemma bit_stored b p : 0 <= p < bw b -> bit_at b p = Z.testbit (stored b) p.
Proof. intros H. unfold bit_at, num. apply Z.mod_pow2_bits_low. lia. Qed.

Lemma sign_bits w v i : 1 <= w -> - 2 ^ (w - 1) <= v < 2 ^ (w - 1) -> w - 1 <= i -> Z.testbit v i = (v <? 0).
Proof.
  intros Hw R Hi. replace i with (i - (w - 1) + (w - 1)) by lia. rewrite <- Z.div_pow2_bits by lia. destruct (Z.ltb_spec v 0) as [G|G].
  - replace (v / 2 ^ (w - 1)) with (-1); [apply Z.bits_m1; lia|]. apply (Z.div_unique _ _ _ (v + 2 ^ (w - 1))); lia.
  - rewrite Z.div_small by lia. apply Z.bits_0.
Qed.
Lemma tidy_signed x n : vec x -> bw x = n -> bsgn x = true -> tidy x -> 2 <= n <= 64 -> - 2 ^ (n - 1) <= stored x < 2 ^ (n - 1).
Proof.
  intros V W S D H. unfold tidy in D. destruct (vec_cases_n x n V W) as [(v & Ev & _ & _ & Sv & _)|(ws & _ & X & _)]; [|lia]. rewrite Ev, S, W in D. replace (1 <? n) with true in D by lia. rewrite Sv. exact D.
Qed.
(** constant slices of signed vectors *)
Lemma slice_signed_iff x n a b : 1 <= n -> typed x n true -> tidy x -> 0 <= a < n -> 0 <= b < n ->
  (exists r, bit_slice_c x a b = Ok r /\ forall p, 0 <= p < Z.abs (a - b) + 1 -> bit_at r p = bit_at x (Z.min a b + p)) <->
  n = 1 \/ (2 <= n <= 64 /\ Z.max a b + 2 <= storage n /\ (a = b -> a = n - 1 \/ bit_at x a = true \/ bit_at x (a + 1) = false)) \/ (65 <= n /\ Z.abs (a - b) + 1 <> 65).
Proof.
  intros Hn T D Ha Hb. pose proof (typed_bw _ _ _ Hn T) as W. pose proof (typed_lt _ _ _ Hn T) as LT. destruct T as (V & (M & L) & S). rewrite slice_c_any by (auto; unfold int_ok; lia). unfold any_slice, small. rewrite W, L. set (m := Z.abs (a - b) + 1).
  destruct (Z.leb_spec n 64) as [G|G].
  - unfold slice_fixed, slot_of. rewrite W, S, M, L. fold m. replace (Z.min (n - 1) 0) with 0 by lia. replace (Z.max a b <? n) with true by lia. replace (0 <=? b) with true by lia. cbn [negb andb]. rewrite !Z.sub_0_r.
    destruct (Z.eq_dec n 1) as [E|N1].
    + assert (a = 0) by lia. assert (b = 0) by lia. subst a b. rewrite E in *. change m with 1. cbn [Z.eqb Pos.eqb andb]. split; [auto|]. intros _. eexists. split; [reflexivity|]. intros p Hp. assert (p = 0) by lia. subst p. destruct (stored_one x V W) as [Es C]. rewrite Es. unfold bit_at. rewrite <- vec_of_small, vec_of_one by lia. change (Z.min 0 0 + 0) with 0. destruct C as [-> | ->]; reflexivity.
    + replace (n =? 1) with false by lia. cbn [andb]. replace (0 <=? Z.min a b) with true by lia. cbn [andb]. destruct (storage_cases n ltac:(lia)) as (St & _ & St').
      destruct (Z.ltb_spec (Z.max a b + 1) (storage n)) as [H|H]; cbn [negb]; [|split; [intros (r & E & _); discriminate|lia]].
      set (w := storage n) in *. set (v := stored x). set (lo := Z.min a b). pose proof (tidy_signed x n V W S D ltac:(lia)) as R. fold v in R.
      assert (C : forall p, 0 <= p < m + 1 -> Z.testbit (cut true w v lo (Z.max a b + 1)) p = Z.testbit v (lo + p)).
      { intros p Hp. unfold cut. cbn [andb]. destruct (Z.max a b + 1 =? w - 1); [rewrite Z.div_pow2_bits by lia; f_equal; lia|]. rewrite Z.mod_pow2_bits_low by lia. rewrite Z.div_pow2_bits by lia. f_equal. lia. }
      assert (TT : forall p, 0 <= p < n -> bit_at x p = Z.testbit v p) by (intros; apply bit_stored; lia).
      rewrite <- vec_of_small by lia. destruct (Z.eq_dec m 1) as [E1|E1].
      * assert (Eab : a = b) by lia. rewrite E1. assert (R' : - 2 ^ (w - 1) <= v < 2 ^ (w - 1)) by (assert (2 ^ (n - 1) <= 2 ^ (w - 1)) by (apply Z.pow_le_mono_r; lia); lia).
        assert (Z0 : cut true w v lo (Z.max a b + 1) = 0 <-> Z.testbit v a = false /\ Z.testbit v (a + 1) = false).
        { split; [intros Z0; pose proof (C 0 ltac:(lia)) as C0; pose proof (C 1 ltac:(lia)) as C1; rewrite Z0, Z.bits_0 in C0, C1; replace (lo + 0) with a in C0 by lia; replace (lo + 1) with (a + 1) in C1 by lia; auto|].
          intros [B0 B1]. apply Z.bits_inj'. intros i Hi. rewrite Z.bits_0. destruct (Z.lt_ge_cases i 2) as [I2|I2].
          - rewrite C by lia. assert (K : i = 0 \/ i = 1) by lia. destruct K as [-> | ->]; [replace (lo + 0) with a by lia|replace (lo + 1) with (a + 1) by lia]; assumption.
          - unfold cut. cbn [andb]. destruct (Z.eqb_spec (Z.max a b + 1) (w - 1)) as [Q|Q]; [|apply Z.mod_pow2_bits_high; lia]. rewrite Z.div_pow2_bits by lia. rewrite (sign_bits w) by lia. rewrite <- (sign_bits w v (a + 1)) by lia. exact B1. }
        assert (Y : (Z.testbit v a = false /\ Z.testbit v (a + 1) = false <-> Z.testbit v a = false) <-> a = n - 1 \/ bit_at x a = true \/ bit_at x (a + 1) = false).
        { rewrite (TT a) by lia. destruct (Z.eq_dec a (n - 1)) as [->|Na].
          - replace (n - 1 + 1) with n by lia. rewrite (sign_bits n v n), (sign_bits n v (n - 1)) by lia. split; [auto|]. intros _. tauto.
          - rewrite (TT (a + 1)) by lia. destruct (Z.testbit v a), (Z.testbit v (a + 1)); intuition; try discriminate; try lia. }
        split.
        -- intros (r & Er & Q). injection Er as <-. right. left. split; [lia|]. split; [lia|]. intros _. apply Y. rewrite <- Z0. specialize (Q 0 ltac:(lia)). rewrite bit_of_one in Q. replace (lo + 0) with a in Q by lia. rewrite TT in Q by lia. destruct (Z.eqb_spec (cut true w v lo (Z.max a b + 1)) 0) as [X|X]; cbn [negb] in Q; rewrite <- Q; [tauto|]. split; [intros; contradiction|discriminate].
        -- intros [X|[(_ & _ & X)|X]]; try lia. specialize (X Eab). apply Y in X. rewrite <- Z0 in X. eexists. split; [reflexivity|]. intros p Hp. assert (p = 0) by lia. subst p. rewrite bit_of_one. replace (lo + 0) with a by lia. rewrite TT by lia. destruct (Z.eqb_spec (cut true w v lo (Z.max a b + 1)) 0) as [Q|Q]; cbn [negb]; [symmetry; now apply X|]. destruct (Z.testbit v a); [reflexivity|]. exfalso. apply Q, X. reflexivity.
      * split.
        -- intros _. right. left. split; [lia|]. split; lia.
        -- intros _. eexists. split; [reflexivity|]. intros p Hp. rewrite bit_of_vec by lia. rewrite C by lia. rewrite TT by lia. reflexivity.
  - replace ((Z.max a b <? n) && (0 <=? b) && (0 <=? Z.min a b)) with true by lia. cbn [negb orb]. fold m. destruct (Z.eqb_spec m 65) as [Q|Q].
    + split; [intros (r & E & _); discriminate|lia].
    + split; [right; right; lia|]. intros _. eexists. split; [reflexivity|]. intros p Hp. rewrite (bit_stored x) by lia. destruct (Z.eq_dec m 1) as [E1|E1].
      * rewrite E1. assert (p = 0) by lia. subst p. rewrite bit_of_one. change (2 ^ 1) with 2. replace (Z.min a b + 0) with (0 + Z.min a b) by lia. rewrite <- Z.div_pow2_bits, Z.bit0_odd by lia. rewrite Zmod_odd. now destruct (Z.odd _).
      * rewrite bit_of_vec by lia. rewrite Z.mod_pow2_bits_low by lia. rewrite Z.div_pow2_bits by lia. f_equal. lia.
Qed.
(** run-time slices *)
Lemma slice_run_iff x n s a b : 1 <= n -> typed x n s -> 0 <= a < n -> 0 <= b < n ->
  (exists r, bit_slice_r x (Z.abs (a - b) + 1) a b = Ok r /\ forall p, 0 <= p < Z.abs (a - b) + 1 -> bit_at r p = bit_at x (Z.min a b + p)) <-> 2 <= n \/ bit_at x 0 = false.
Proof.
  intros Hn T Ha Hb. destruct (Z.eq_dec n 1) as [E|N1].
  - rewrite E in *. assert (a = 0) by lia. assert (b = 0) by lia. subst a b. destruct (Exact.slice_runtime_single x s T) as (r & Er & _ & Nr). change (Z.abs (0 - 0) + 1) with 1. change (Z.min 0 0) with 0. split.
    + intros (r' & E' & Q). right. rewrite Er in E'. injection E' as <-. specialize (Q 0 ltac:(lia)). unfold bit_at at 1 in Q. rewrite Nr in Q. symmetry. exact Q.
    + intros [X|X]; [lia|]. exists r. split; [exact Er|]. intros p Hp. assert (p = 0) by lia. subst p. unfold bit_at at 1. rewrite Nr. symmetry. exact X.
  - split; [left; lia|]. intros _. destruct (slice_runtime x n s a b ltac:(lia) T Ha Hb) as (r & Er & _ & Q). eauto.
Qed.
(** extension of unsigned vectors *)
Lemma extend_unsigned_iff x n m : 1 <= n <= m -> m < 2 ^ 31 -> typed x n false ->
  (exists r, bit_extend x m = Ok r /\ num r = num x) <-> stored x mod 2 ^ m = num x.
Proof.
  intros Hn Hm T. pose proof (typed_bw x n false ltac:(lia) T) as W. destruct T as (V & (M & L) & S). rewrite extend_any by (auto; lia). unfold any_resize, small. rewrite W, S, M, L.
  assert (Num : num x = stored x mod 2 ^ n) by (unfold num; now rewrite W).
  assert (K : exists z, (if (n <=? 64) && (m <=? 64) then resized x m else if n <? m then Ok (vec_of m false (widened x m)) else if m =? n then if false || (0 =? 0) && (0 <=? n - 1) then Ok (vec_of m false (stored x)) else IllFormed else match any_slice x (m - 1) 0 with Ok r => Ok r | e => e end) = Ok (vec_of m false z) /\ z mod 2 ^ m = stored x mod 2 ^ m /\ (m = 1 -> z = stored x)).
  { destruct ((n <=? 64) && (m <=? 64)) eqn:Q.
    - exists (stored x). split; [|split; reflexivity]. unfold resized. rewrite W, S, M, L. destruct (Z.ltb_spec n m); [now rewrite vec_of_small by lia|]. replace (m =? n) with true by lia. replace (0 <=? n - 1) with true by lia. cbn [orb andb Z.eqb]. now rewrite vec_of_small by lia.
    - destruct (Z.ltb_spec n m) as [G|G].
      + eexists. split; [reflexivity|]. split; [|lia]. unfold widened, small. rewrite W, S. replace (n =? m) with false by lia. destruct (n <=? 64); [apply Z.mod_mod; apply Z.pow_nonzero; lia|reflexivity].
      + replace (m =? n) with true by lia. replace (0 <=? n - 1) with true by lia. cbn [orb andb Z.eqb]. eexists. split; [reflexivity|split; reflexivity]. }
  destruct K as (z & -> & Z0 & Z1). destruct (Z.eq_dec m 1) as [E|N1].
  - assert (En : n = 1) by lia. rewrite En in *. rewrite E in *. destruct (stored_one x V W) as [Es C]. rewrite Z1, Es by reflexivity. split; [destruct C as [-> | ->]; reflexivity|]. intros _. eexists. split; [reflexivity|]. rewrite vec_of_one. destruct C as [-> | ->]; reflexivity.
  - split.
    + intros (r & E & Nr). injection E as <-. rewrite vec_of_num in Nr by lia. congruence.
    + intros X. eexists. split; [reflexivity|]. rewrite vec_of_num by lia. congruence.
Qed.
(** extension of signed vectors *)
Lemma snum_swrap x : snum x = swrap (bw x) (stored x).
Proof. unfold snum, num. apply twos_swrap. apply bw_pos. Qed.
Lemma snum_vec_of m s z : 2 <= m -> snum (vec_of m s z) = swrap m z.
Proof. intros H. unfold snum. rewrite vec_of_num, vec_of_bw by lia. apply twos_swrap. lia. Qed.
Lemma swrap_small n z : 1 <= n -> - 2 ^ (n - 1) <= z < 2 ^ (n - 1) -> swrap n z = z.
Proof. intros H R. unfold swrap. rewrite Z.mod_small; [lia|]. pose proof (pow_double n H). lia. Qed.
Lemma extend_signed_iff x n m : 1 <= n <= m -> m < 2 ^ 31 -> typed x n true -> tidy x ->
  (exists r, bit_extend x m = Ok r /\ snum r = snum x) <-> n = m \/ 2 <= n <= 64 \/ (n = 1 /\ num x = 0) \/ (65 <= n /\ snum x < 0).
Proof.
  intros Hn Hm T D. pose proof (typed_bw x n true ltac:(lia) T) as W. destruct T as (V & (M & L) & S). rewrite extend_any by (auto; lia). unfold any_resize, small. rewrite W, S, M, L.
  destruct (Z.eq_dec n m) as [E|N].
  - split; [auto|]. intros _. assert (K : (if (n <=? 64) && (m <=? 64) then resized x m else if n <? m then Ok (vec_of m true (widened x m)) else if m =? n then Ok (vec_of m true (stored x)) else match any_slice x (m - 1) 0 with Ok _ => IllFormed | e => e end) = Ok (vec_of m true (stored x))).
    { rewrite E. rewrite Z.ltb_irrefl, Z.eqb_refl. destruct ((m <=? 64) && (m <=? 64)) eqn:Q; [|reflexivity]. unfold resized. rewrite W, S, E, Z.ltb_irrefl, Z.eqb_refl. cbn [orb]. now rewrite vec_of_small by lia. }
    cbn [orb]. rewrite K. eexists. split; [reflexivity|]. destruct (Z.eq_dec m 1) as [E1|N1].
    + rewrite E, E1 in *. destruct (stored_one x V W) as [Es C]. unfold snum. rewrite W. rewrite vec_of_bw, vec_of_one, Es by lia. destruct C as [-> | ->]; reflexivity.
    + rewrite snum_vec_of by lia. rewrite snum_swrap, W, E. reflexivity.
  - replace (n <? m) with true by lia. assert (K : exists z, (if (n <=? 64) && (m <=? 64) then resized x m else Ok (vec_of m true (widened x m))) = Ok (vec_of m true z) /\ swrap m z = swrap m (if n <=? 64 then stored x else widened x m)).
    { destruct (Z.leb_spec n 64) as [G|G]; cbn [andb]; [|eauto]. destruct (Z.leb_spec m 64) as [G'|G'].
      - exists (stored x). split; [|reflexivity]. unfold resized. rewrite W, S. replace (n <? m) with true by lia. now rewrite vec_of_small by lia.
      - eexists. split; [reflexivity|]. unfold widened, small. rewrite W. replace (n =? m) with false by lia. replace (n <=? 64) with true by lia. unfold swrap. rewrite Zplus_mod_idemp_l. reflexivity. }
    destruct K as (z & -> & Z0). assert (R : (exists r, Ok (vec_of m true z) = Ok r /\ snum r = snum x) <-> swrap m (if n <=? 64 then stored x else widened x m) = snum x).
    { rewrite <- Z0, <- (snum_vec_of m true) by lia. split; [intros (r & E & Q); injection E as <-; exact Q|eauto]. }
    rewrite R. clear Z0 R. pose proof (pow_double m ltac:(lia)) as Dm. assert (P : 2 ^ n <= 2 ^ (m - 1)) by (apply Z.pow_le_mono_r; lia). pose proof (pow2_pos n ltac:(lia)) as Pn. destruct (Z.leb_spec n 64) as [G|G].
    + destruct (Z.eq_dec n 1) as [E1|N1].
      * rewrite E1 in *. destruct (stored_one x V W) as [Es C]. rewrite Es, swrap_small by lia. unfold snum. rewrite W. split; [intros Q; right; right; left; split; [reflexivity|]|intros [Q|[Q|[[_ Q]|Q]]]; try lia; rewrite Q; reflexivity]. destruct C as [C|C]; [exact C|]. rewrite C in Q. discriminate.
      * pose proof (tidy_signed x n V W S D ltac:(lia)) as R. assert (2 ^ (n - 1) <= 2 ^ (m - 1)) by (apply Z.pow_le_mono_r; lia). rewrite swrap_small by lia. split; [lia|]. intros _. rewrite snum_swrap, W. symmetry. apply swrap_small; lia.
    + assert (Sn : stored x = num x /\ 0 <= stored x < 2 ^ n). { unfold num. rewrite W. destruct (vec_cases_n x n V W) as [(v & _ & X & _)|(ws & Ev & _ & _ & Sv & _)]; [lia|]. unfold tidy in D. rewrite Ev, W in D. rewrite Sv. rewrite Z.mod_small by lia. lia. }
      unfold widened, small. rewrite W, S. replace (n =? m) with false by lia. replace (n <=? 64) with false by lia. destruct Sn as [Sn Rn].
      assert (LO : Z.lor (stored x) (2 ^ m - 2 ^ n) = stored x + (2 ^ m - 2 ^ n)). { assert (Q : 2 ^ m - 2 ^ n = (2 ^ (m - n) - 1) * 2 ^ n) by (rewrite Z.mul_sub_distr_r, <- Z.pow_add_r by lia; replace (m - n + n) with m by lia; lia). rewrite Q, Z.lor_comm, Exact.lor_low by lia. lia. }
      rewrite LO. replace (swrap m (stored x + (2 ^ m - 2 ^ n))) with (stored x - 2 ^ n).
      2:{ unfold swrap. replace (stored x + (2 ^ m - 2 ^ n) + 2 ^ (m - 1)) with (stored x - 2 ^ n + 2 ^ (m - 1) + 1 * 2 ^ m) by lia. rewrite Z.mod_add by lia. rewrite Z.mod_small; lia. }
      unfold snum. rewrite W, <- Sn. pose proof (pow_double n ltac:(lia)) as Dn. pose proof (pow2_pos (n - 1) ltac:(lia)) as Pn1. split.
      * intros Q. right. right. right. split; [lia|]. lia.
      * intros [Q|[Q|[Q|[_ Q]]]]; try lia. unfold twos in *. destruct (Z.testbit (stored x) (n - 1)); lia.
Qed.
(** concatenation *)
Lemma concat_iff a b na nb : 1 <= na -> 1 <= nb -> typed a na false -> typed b nb false -> tidy a -> tidy b ->
  (exists r, bit_concat a b = Ok r /\ num r = num a * 2 ^ nb + num b) <-> na + nb < 64 /\ (33 <= na \/ (nb <= 31 /\ num a * 2 ^ nb < 2 ^ 32)).
Proof.
  intros Ha Hb Ta Tb Da Db. pose proof (typed_bw _ _ _ Ha Ta) as Wa. pose proof (typed_bw _ _ _ Hb Tb) as Wb. pose proof (num_range a) as Ra. pose proof (num_range b) as Rb. destruct Ta as (Va & _ & Sa), Tb as (Vb & _ & Sb).
  rewrite concat_any by assumption. unfold joined. rewrite Wa, Wb, Sa, Sb, <- (num_of_tidy a Da Sa), <- (num_of_tidy b Db Sb) in *. set (x := num a) in *. set (y := num b) in *. pose proof (pow2_pos nb ltac:(lia)) as Pb.
  destruct (Z.leb_spec 64 (na + nb)) as [G|G]; [split; [intros (r & E & _); discriminate|lia]|].
  destruct (Z.leb_spec (computing na) nb) as [H|H]; [split; [intros (r & E & _); discriminate|]; intros [_ [Q|[Q _]]]; revert H; unfold computing; destruct (Z.leb_spec na 32); lia|].
  rewrite !orb_false_r. rewrite <- vec_of_small by lia. set (A := x * 2 ^ nb) in *.
  assert (LOR : forall z, Z.lor (z * 2 ^ nb) y = z * 2 ^ nb + y) by (intros; apply Exact.lor_low; lia).
  assert (P : 2 ^ (na + nb) = 2 ^ na * 2 ^ nb) by (apply Z.pow_add_r; lia).
  assert (AR : 0 <= A + y < 2 ^ (na + nb)) by (unfold A; nia).
  assert (F : forall u v, (exists r, Ok (vec_of (na + nb) false (Z.lor u v)) = Ok r /\ num r = A + y) <-> Z.lor u v mod 2 ^ (na + nb) = A + y).
  { intros u v. rewrite <- (vec_of_num _ false) by lia. split; [intros (r & E & Q); injection E as <-; exact Q|eauto]. }
  rewrite F.
  assert (Y : y mod 2 ^ 32 = y \/ 33 <= nb). { destruct (Z.le_gt_cases nb 32); [left|lia]. apply Z.mod_small. assert (2 ^ nb <= 2 ^ 32) by (apply Z.pow_le_mono_r; lia). lia. }
  assert (Mid : nb <= 31 -> Z.lor (A mod 2 ^ 32) y mod 2 ^ (na + nb) = A + y <-> A < 2 ^ 32).
  { intros B. assert (E : A mod 2 ^ 32 = (x mod 2 ^ (32 - nb)) * 2 ^ nb). { unfold A. replace (2 ^ 32) with (2 ^ (32 - nb) * 2 ^ nb) by (rewrite <- Z.pow_add_r by lia; f_equal; lia). apply Z.mul_mod_distr_r; [apply Z.pow_nonzero|]; lia. }
    rewrite E, LOR, <- E. pose proof (Z.mod_pos_bound A (2 ^ 32) ltac:(lia)) as B1. assert (B2 : A mod 2 ^ 32 <= A) by (apply Z.mod_le; unfold A; lia || nia). rewrite Z.mod_small by (unfold A in *; lia).
    split; [lia|]. intros Q. rewrite Z.mod_small by (unfold A in *; nia). reflexivity. }
  destruct (Z.leb_spec na 32) as [A32|A32].
  - assert (CA : computing na = 32) by (unfold computing; replace (na <=? 32) with true by lia; reflexivity). rewrite CA in *. assert (CB : computing nb = 32) by (unfold computing; replace (nb <=? 32) with true by lia; reflexivity). rewrite CB. rewrite Z.max_id, Z.ltb_irrefl, !orb_false_r.
    assert (Ey : y mod 2 ^ 32 = y) by (destruct Y; [assumption|lia]).
    assert (K : (na <= 16 /\ nb <= 16) \/ (na <=? 16) && (nb <=? 16) = false) by (destruct (Z.leb_spec na 16), (Z.leb_spec nb 16); auto; lia). destruct K as [[K1 K2]|K].
    + replace (na <=? 16) with true by lia. replace (nb <=? 16) with true by lia. cbn [andb]. unfold wrap. fold (swrap 32 A). fold (swrap 32 (swrap 32 A)) (swrap 32 y). rewrite lor_mod_pow2 by lia. rewrite !swrap_mod_le by lia.
      assert (2 ^ (na + nb) <= 2 ^ 32) by (apply Z.pow_le_mono_r; lia). assert (0 <= A) by (unfold A; nia). assert (y < 2 ^ (na + nb)) by (rewrite P; nia). rewrite (Z.mod_small A), (Z.mod_small y) by lia. unfold A at 1. rewrite LOR. fold A. split; [lia|reflexivity].
    + rewrite K. unfold wrap at 1 3. rewrite Ey. assert (W1 : wrap (na <=? 16) 32 A mod 2 ^ 32 = A mod 2 ^ 32) by (unfold wrap; destruct (na <=? 16); [fold (swrap 32 A); apply swrap_mod; lia|apply Z.mod_mod; lia]). rewrite W1, Mid by lia. lia.
  - assert (CA : computing na = 64) by (unfold computing; replace (na <=? 32) with false by lia; reflexivity). rewrite CA in *. assert (CB : computing nb = 32) by (unfold computing; replace (nb <=? 32) with true by lia; reflexivity). rewrite CB. change (Z.max 64 32) with 64. rewrite Z.ltb_irrefl. replace (na <=? 16) with false by lia. cbn [orb andb]. unfold wrap.
    assert (2 ^ (na + nb) <= 2 ^ 64) by (apply Z.pow_le_mono_r; lia). assert (0 <= A) by (unfold A; nia). assert (y < 2 ^ (na + nb)) by (rewrite P; nia). rewrite Z.mod_mod by lia. rewrite (Z.mod_small A), (Z.mod_small y) by lia. unfold A at 1. rewrite LOR. fold A. rewrite Z.mod_small by lia. split; [lia|reflexivity].
Qed.
(** >> *)
Lemma shr_iff a amt : vec a -> vec amt -> 2 <= bw a -> tidy amt -> 0 <= value amt ->
  (exists r, bit_shr a amt = Ok r /\ num r = num a / 2 ^ value amt) <-> (bw a <= 64 -> bw amt <= 64 /\ value amt < bw a).
Proof.
  intros Va Vk Wa Tk Rk. pose proof (tidy_value_stored amt Vk Tk Rk) as St. split.
  - intros (r & E & _) L. rewrite shr_any in E by assumption. unfold any_right, any_shift, small in E. replace (bw a <=? 64) with true in E by lia. destruct (Z.leb_spec (bw amt) 64); [|discriminate]. split; [assumption|]. unfold shifted_right in E. replace (bw a =? 1) with false in E by lia. rewrite St in E. destruct (Z.ltb_spec (value amt) (bw a)); [assumption|]. rewrite andb_false_r in E. discriminate.
  - intros H. destruct (shift_right a amt Va Vk Tk Rk H) as (r & E & _ & N). eauto.
Qed.
(** reading as a signed number *)
Lemma resign_iff x n s : 1 <= n <= 64 -> typed x n s -> tidy x ->
  bit_to_num (bit_to_signed x) = Ok (twos n (num x)) <-> n = 8 \/ n = 16 \/ n = 32 \/ n = 64 \/ (2 <= n /\ s = true) \/ bit_at x (n - 1) = false.
Proof.
  intros Hn T D. pose proof (typed_bw x n s ltac:(lia) T) as W. destruct T as (V & (M & L) & S). unfold bit_to_signed. rewrite resign_any by exact V. rewrite W, vec_of_small by lia. unfold bit_to_num, vector. cbn [bval].
  assert (Q : forall z, (Ok z = Ok (twos n (num x))) <-> z = twos n (num x)) by (intros; split; [intros E; now injection E|now intros ->]). rewrite Q. clear Q. unfold bit_at. destruct (Z.eq_dec n 1) as [E|N1].
  - rewrite E in *. destruct (stored_one x V W) as [-> [-> | ->]]; cbn; intuition; try discriminate; lia.
  - unfold store. replace (n =? 1) with false by lia. unfold wrap. fold (swrap (storage n) (stored x)). destruct (storage_cases n ltac:(lia)) as (St & _ & St'). set (w := storage n) in *. assert (Sn : twos n (num x) = swrap n (stored x)) by (unfold num; rewrite W; apply twos_swrap; lia). destruct s.
    + split; [intros _; do 4 right; left; split; [lia|reflexivity]|]. intros _. rewrite Sn. pose proof (tidy_signed x n V W S D ltac:(lia)) as R. assert (2 ^ (n - 1) <= 2 ^ (w - 1)) by (apply Z.pow_le_mono_r; lia). rewrite !swrap_small by lia. reflexivity.
    + pose proof (num_of_tidy x D S) as N. pose proof (num_range x) as R. rewrite W in R. rewrite <- N in *. destruct (Z.eq_dec n w) as [Ew|Nw].
      * rewrite Sn, <- Ew. split; [intros _; lia|reflexivity].
      * assert (2 ^ n <= 2 ^ (w - 1)) by (apply Z.pow_le_mono_r; lia). rewrite swrap_small by lia. unfold twos. assert (K : ~ (n = 8 \/ n = 16 \/ n = 32 \/ n = 64)) by (intros K; apply Nw; unfold w; destruct K as [-> | [-> | [-> | ->]]]; reflexivity).
        destruct (Z.testbit (num x) (n - 1)); intuition; try discriminate; try lia.
Qed.
(** & reduction *)
Lemma parity_ones k z : parity k z = Z.odd (ones (Z.of_nat k) z).
Proof. induction k as [|k IH]; [reflexivity|]. cbn [parity]. rewrite ones_step, Z.odd_add, IH. now destruct (Z.testbit z (Z.of_nat k)). Qed.
Lemma bit_r_and_iff b n s : 1 <= n -> typed b n s -> tidy b ->
  (bit_r_and b = true <-> forall p, 0 <= p < n -> bit_at b p = true) <->
  (2 <= n <= 64 /\ (s = true -> num b <> 2 ^ n - 1 /\ num b <> 2 ^ (n - 1) - 1)) \/ (65 <= n /\ Z.odd (ones n (num b)) = (num b =? 2 ^ n - 1)).
Proof.
  intros Hn T D. pose proof (typed_bw b n s Hn T) as W. destruct T as (V & (M & L) & S). rewrite r_and_any by exact V. pose proof (num_range b) as R. rewrite W in R. unfold bit_at. rewrite <- (all_ones_iff n (num b)) by lia. unfold any_all_ones, small. rewrite W. destruct (Z.leb_spec n 64) as [G|G].
  - unfold all_ones. rewrite W, S. destruct (Z.eq_dec n 1) as [E|N1].
    + rewrite E in *. destruct (stored_one b V W) as [-> [-> | ->]]; cbn; intuition; try discriminate; lia.
    + replace (n =? 1) with false by lia. pose proof (pow_double n Hn) as Pd. pose proof (pow2_pos (n - 1) ltac:(lia)) as Pp. assert (P2 : 2 <= 2 ^ (n - 1)) by (change 2 with (2 ^ 1) at 1; apply Z.pow_le_mono_r; lia). destruct s.
      * assert (E : stored b = 2 ^ (n - 1) - 1 <-> num b = 2 ^ (n - 1) - 1). { pose proof (tidy_signed b n V W S D ltac:(lia)) as Rs. unfold num. rewrite W. split; [intros ->; apply Z.mod_small; lia|]. intros Q. destruct (Z.lt_ge_cases (stored b) 0) as [Ng|Ng]; [|rewrite Z.mod_small in Q by lia; exact Q]. rewrite <- (Z.mod_add _ 1), Z.mod_small in Q by lia. lia. }
        rewrite !Z.eqb_eq, E. split; [intros Q; left; split; [lia|]; intros _; lia|]. intros [[_ Q]|Q]; [|lia]. specialize (Q eq_refl). lia.
      * rewrite <- (num_of_tidy b D S). split; [intros _; left; split; [lia|discriminate]|]. intros _. reflexivity.
  - assert (Sn : stored b = num b). { unfold num. rewrite W. destruct (vec_cases_n b n V W) as [(v & _ & X & _)|(ws & Ev & _ & _ & Sv & _)]; [lia|]. unfold tidy in D. rewrite Ev, W in D. rewrite Sv. symmetry. apply Z.mod_small. lia. }
    rewrite odd_ones_parity, parity_ones, Z2Nat.id, Sn by lia. destruct (Z.odd (ones n (num b))), (num b =? 2 ^ n - 1); intuition; try discriminate; lia.
Qed.
(** any_set *)
Lemma any_set_iff b : vec b -> tidy b -> bit_any_set b = true <-> exists p, 0 <= p < bw b /\ bit_at b p = true /\ (bw b <= 64 \/ p mod 64 < 32).
Proof. intros V D. rewrite any_set_any by exact V. now apply any_true_iff. Qed.
Lemma halves_one n k : 65 <= n -> 32 <= k mod 64 -> 0 <= k -> zero_at n (2 ^ k).
Proof. intros Hn Hk H0 p Hp [X|Q]; [lia|]. rewrite Z.pow2_bits_eqb by lia. apply Z.eqb_neq. intros ->. lia. Qed.
