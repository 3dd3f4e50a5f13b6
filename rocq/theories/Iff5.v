(** Exactly when 2-state arithmetic is right. *)
From Coq Require Import ZArith List Bool Lia.
From Verif Require Import Cpp BigNum Bit Spec SpecExact SpecMachine SpecWide SpecIff BitExt BitOps ZBits Words BigNumProofs BitProofs BitCmp BitMain BitMain2 MachineProofs ReachProofs WideProofs WideProofs2 WideProofs3 WideProofs4 Exact3 Iff2 Iff3.
Import ListNotations.
Open Scope Z_scope.
Local Ltac Zify.zify_post_hook ::= idtac.

Lemma vec_of_one s z : num (vec_of 1 s z) = if z =? 0 then 0 else 1.
Proof. unfold num, vec_of, object, stored, bw. cbn. unfold store. cbn. now destruct (z =? 0). Qed.
Lemma vector_one s z : num (vector 1 s z) = if z =? 0 then 0 else 1.
Proof. rewrite <- vec_of_small by lia. apply vec_of_one. Qed.
Lemma stored_one b : vec b -> bw b = 1 -> stored b = num b /\ (num b = 0 \/ num b = 1).
Proof.
  intros V W. destruct (vec_cases_n b 1 V W) as [(v & _ & _ & I & -> & N)|(ws & _ & L & _)]; [|lia]. unfold in_ity, hty in I. cbn in I. change (2 ^ 1) with 2 in N. assert (v = 0 \/ v = 1) by lia. rewrite N. destruct H; subst v; cbn; auto.
Qed.
(** what a tidy vector stores *)
Lemma tidy_stored b : vec b -> tidy b -> 2 <= bw b <= 64 -> stored b = value b.
Proof.
  intros V T W. unfold value. destruct (bsgn b) eqn:S; [|symmetry; now apply num_of_tidy]. unfold snum, num. rewrite twos_swrap by lia. destruct (vec_cases_n b (bw b) V eq_refl) as [(v & E & _ & _ & St & _)|(ws & _ & L & _)]; [|lia].
  unfold tidy in T. rewrite E, S in T. replace (1 <? bw b) with true in T by lia. cbn [andb] in T. rewrite St. symmetry. unfold swrap. rewrite Z.mod_small; [lia|]. assert (2 ^ bw b = 2 * 2 ^ (bw b - 1)) by (rewrite <- Z.pow_succ_r by lia; f_equal; lia). lia.
Qed.
Lemma value_range b : - 2 ^ (bw b - 1) <= value b < 2 ^ bw b /\ (bsgn b = true -> value b < 2 ^ (bw b - 1)) /\ (bsgn b = false -> 0 <= value b).
Proof.
  pose proof (bw_pos b) as P. pose proof (num_range b) as R. pose proof (twos_range (bw b) (num b) P R) as T. fold (snum b) in T. assert (2 ^ bw b = 2 * 2 ^ (bw b - 1)) by (rewrite <- Z.pow_succ_r by lia; f_equal; lia). pose proof (pow2_pos (bw b - 1) ltac:(lia)). unfold value. destruct (bsgn b); repeat split; intros; try discriminate; lia.
Qed.
Lemma num_mod_stored op a b n : (forall x y, op (x mod 2 ^ n) (y mod 2 ^ n) mod 2 ^ n = op x y mod 2 ^ n) -> bw a = n -> bw b = n -> op (stored a) (stored b) mod 2 ^ n = op (num a) (num b) mod 2 ^ n.
Proof. intros H Wa Wb. unfold num. rewrite Wa, Wb. symmetry. apply H. Qed.
Lemma computing_pow n : 1 <= n <= 64 -> n <= computing n.
Proof. intros H. unfold computing. destruct (Z.leb_spec n 32); lia. Qed.

(** + *)
Lemma sum_fits (op : Z -> Z -> Z) a b n : (forall x y, Z.abs (op x y) <= Z.abs x + Z.abs y) -> (forall x y m, - m <= x < m -> - m <= y < m -> - (2 * m) <= op x y < 2 * m) -> bw a = n -> bw b = n -> 2 <= n <= 64 ->
  (17 <= n /\ bsgn a && bsgn b = false) \/ signed_fits (computing n) (op (value a) (value b)) <-> ~ overflows op a b n.
Proof.
  intros A1 A2 Wa Wb H. destruct (value_range a) as (Ra & Sa & Ua), (value_range b) as (Rb & Sb & Ub). rewrite Wa, Wb in *. assert (D : 2 ^ n = 2 * 2 ^ (n - 1)) by (rewrite <- Z.pow_succ_r by lia; f_equal; lia).
  unfold overflows. destruct (bsgn a && bsgn b) eqn:Q.
  - apply andb_prop in Q. destruct Q as [Qa Qb]. specialize (Sa Qa). specialize (Sb Qb). pose proof (A2 (value a) (value b) (2 ^ (n - 1)) ltac:(lia) ltac:(lia)) as B.
    destruct (Z.eq_dec n 32) as [->|N1]; [change (computing 32) with 32; unfold signed_fits; intuition; try discriminate; lia|]. destruct (Z.eq_dec n 64) as [->|N2]; [change (computing 64) with 64; unfold signed_fits; intuition; try discriminate; lia|].
    split; [intros _ (_ & [X|X] & _); lia|]. intros _. right. unfold signed_fits. assert (M : 2 ^ n <= 2 ^ (computing n - 1)) by (apply Z.pow_le_mono_r; [lia|]; unfold computing; destruct (Z.leb_spec n 32); lia). lia.
  - split; [intros _ (X & _); discriminate|]. intros _. destruct (Z.le_gt_cases 17 n) as [G|G]; [now left|right]. unfold signed_fits, computing. replace (n <=? 32) with true by lia. specialize (A1 (value a) (value b)). assert (M : 2 ^ n <= 2 ^ 16) by (apply Z.pow_le_mono_r; lia). change (2 ^ 16) with 65536 in M. change (2 ^ (32 - 1)) with 2147483648. lia.
Qed.
Lemma wide_sum op g a b n : (forall x y, op (x mod 2 ^ n) (y mod 2 ^ n) mod 2 ^ n = op x y mod 2 ^ n) -> (forall a b, vec a -> vec b -> small a && small b = false -> g a b = combined (fun x y => Ok (op x y)) a b) -> 65 <= n -> vec a -> vec b -> bw a = n -> bw b = n -> blsb b <= bmsb b -> exists r, g a b = Ok r /\ num r = op (num a) (num b) mod 2 ^ n.
Proof.
  intros M G H Va Vb Wa Wb L. rewrite G; [|exact Va|exact Vb|unfold small; lia]. unfold combined, pairs_up, wider, widened. rewrite Wa, Wb, Z.eqb_refl, Z.max_id, !Z.eqb_refl. replace (blsb b <=? bmsb b) with true by lia. cbn [negb]. eexists. split; [reflexivity|]. rewrite vec_of_num by lia. apply num_mod_stored; assumption.
Qed.
Lemma fits_dec w z : signed_fits w z \/ ~ signed_fits w z. Proof. unfold signed_fits. lia. Qed.
Ltac one_bit R any Va Wa Vb Wb Ea Eb :=
  rewrite R by assumption; unfold any, small, computed, pairs_up, wider; rewrite Wa, Wb; cbn [Z.leb Z.compare Pos.compare Pos.compare_cont andb Z.eqb Z.max Pos.max Pos.eqb];
  match goal with |- context[blsb ?b <=? bmsb ?b] => replace (blsb b <=? bmsb b) with true by lia end; unfold operand, with_sign; cbn [negb orb Z.leb Z.compare Pos.compare Pos.compare_cont]; rewrite Ea, Eb.
Lemma add_iff a b n sa sb : 1 <= n -> typed a n sa -> typed b n sb -> tidy a -> tidy b ->
  (exists r, bit_add a b = Ok r /\ num r = (num a + num b) mod 2 ^ n) <-> (n = 1 -> num a = 0 \/ num b = 0) /\ ~ overflows Z.add a b n.
Proof.
  intros Hn Ta Tb Da Db. pose proof (typed_bw _ _ _ Hn Ta) as Wa. pose proof (typed_bw _ _ _ Hn Tb) as Wb. destruct Ta as (Va & Pa & Sa), Tb as (Vb & (Mb & Lb) & Sb). assert (L : blsb b <= bmsb b) by lia.
  destruct (Z.eq_dec n 1) as [E|N1].
  - rewrite E in *. destruct (stored_one a Va Wa) as [Ea Ca], (stored_one b Vb Wb) as [Eb Cb]. one_bit add_any any_sum Va Wa Vb Wb Ea Eb.
    assert (F : fitting (computing 1) (num a + num b) = true) by (unfold fitting; destruct Ca as [-> | ->], Cb as [-> | ->]; reflexivity). rewrite F. cbn [negb andb orb]. split.
    + intros (r & Er & Nr). split; [intros _|intros (_ & X & _); lia]. injection Er as <-. rewrite vector_one in Nr. destruct Ca as [Ca|Ca], Cb as [Cb|Cb]; auto. rewrite Ca, Cb in Nr. vm_compute in Nr. discriminate Nr.
    + intros [X _]. eexists. split; [reflexivity|]. rewrite vector_one. destruct (X eq_refl) as [-> | ->]; [destruct Cb as [-> | ->]|destruct Ca as [-> | ->]]; reflexivity.
  - destruct (Z.le_gt_cases n 64) as [G|G].
    + destruct (add_exact a b n Va Vb Wa Wb L ltac:(lia)) as [X Y]. rewrite (tidy_stored a), (tidy_stored b) in * by (assumption || lia). pose proof (sum_fits Z.add a b n ltac:(lia) ltac:(lia) Wa Wb ltac:(lia)) as F. split.
      * intros (r & Er & Nr). split; [lia|]. apply F. destruct (fits_dec (computing n) (value a + value b)) as [C|C]; [now right|]. destruct (bsgn a && bsgn b) eqn:Q; [rewrite Y in Er by auto; discriminate|]. destruct (Z.le_gt_cases 17 n); [now left|]. rewrite Y in Er by (auto; left; lia). discriminate.
      * intros [_ K]. apply F, X in K. destruct K as (r & Er & _ & Nr). eauto.
    + destruct (wide_sum Z.add bit_add a b n) as (r & Er & Nr); try assumption; try lia; [intros; symmetry; apply Zplus_mod|intros; rewrite add_any by assumption; unfold any_sum; now rewrite H1|].
      split; [intros _; split; [lia|intros (_ & X & _); lia]|]. intros _. eauto.
Qed.
(** - *)
Lemma sub_iff a b n sa sb : 1 <= n -> typed a n sa -> typed b n sb -> tidy a -> tidy b ->
  (exists r, bit_sub a b = Ok r /\ num r = (num a - num b) mod 2 ^ n) <-> ~ overflows Z.sub a b n.
Proof.
  intros Hn Ta Tb Da Db. pose proof (typed_bw _ _ _ Hn Ta) as Wa. pose proof (typed_bw _ _ _ Hn Tb) as Wb. destruct Ta as (Va & Pa & Sa), Tb as (Vb & (Mb & Lb) & Sb). assert (L : blsb b <= bmsb b) by lia.
  destruct (Z.eq_dec n 1) as [E|N1].
  - rewrite E in *. destruct (stored_one a Va Wa) as [Ea Ca], (stored_one b Vb Wb) as [Eb Cb]. one_bit sub_any any_difference Va Wa Vb Wb Ea Eb.
    assert (F : fitting (computing 1) (num a - num b) = true) by (unfold fitting; destruct Ca as [-> | ->], Cb as [-> | ->]; reflexivity). rewrite F. cbn [negb andb orb]. split.
    + intros _ (_ & X & _). lia.
    + intros _. eexists. split; [reflexivity|]. rewrite vector_one. destruct Ca as [-> | ->], Cb as [-> | ->]; reflexivity.
  - destruct (Z.le_gt_cases n 64) as [G|G].
    + destruct (sub_exact a b n Va Vb Wa Wb L ltac:(lia)) as [X Y]. rewrite (tidy_stored a), (tidy_stored b) in * by (assumption || lia). pose proof (sum_fits Z.sub a b n ltac:(lia) ltac:(lia) Wa Wb ltac:(lia)) as F. split.
      * intros (r & Er & Nr). apply F. destruct (fits_dec (computing n) (value a - value b)) as [C|C]; [now right|]. destruct (bsgn a && bsgn b) eqn:Q; [rewrite Y in Er by auto; discriminate|]. destruct (Z.le_gt_cases 17 n); [now left|]. rewrite Y in Er by (auto; left; lia). discriminate.
      * intros K. apply F, X in K. destruct K as (r & Er & _ & Nr). eauto.
    + destruct (wide_sum Z.sub bit_sub a b n) as (r & Er & Nr); try assumption; try lia; [intros; symmetry; apply Zminus_mod|intros; rewrite sub_any by assumption; unfold any_difference; now rewrite H1|].
      split; [intros _; intros (_ & X & _); lia|]. intros _. eauto.
Qed.
(** * *)
Lemma mul_iff a b n sa sb : 1 <= n <= 64 -> typed a n sa -> typed b n sb -> tidy a -> tidy b ->
  (exists r, bit_mul a b = Ok r /\ num r = (num a * num b) mod 2 ^ n) <-> (17 <= n /\ sa && sb = false) \/ signed_fits (computing n) (value a * value b).
Proof.
  intros Hn Ta Tb Da Db. assert (H1 : 1 <= n) by lia. pose proof (typed_bw _ _ _ H1 Ta) as Wa. pose proof (typed_bw _ _ _ H1 Tb) as Wb. destruct Ta as (Va & Pa & Sa), Tb as (Vb & (Mb & Lb) & Sb). assert (L : blsb b <= bmsb b) by lia.
  destruct (Z.eq_dec n 1) as [E|N1].
  - rewrite E in *. destruct (stored_one a Va Wa) as [Ea Ca], (stored_one b Vb Wb) as [Eb Cb]. one_bit mul_any any_product Va Wa Vb Wb Ea Eb.
    assert (F : fitting (computing 1) (num a * num b) = true) by (unfold fitting; destruct Ca as [-> | ->], Cb as [-> | ->]; reflexivity). rewrite F. cbn [negb andb orb]. split.
    + intros _. right. destruct (value_range a) as (R1 & _), (value_range b) as (R2 & _). rewrite Wa in R1. rewrite Wb in R2. unfold signed_fits. change (2 ^ (computing 1 - 1)) with 2147483648. change (2 ^ (1 - 1)) with 1 in *. change (2 ^ 1) with 2 in *. nia.
    + intros _. eexists. split; [reflexivity|]. rewrite vector_one. destruct Ca as [-> | ->], Cb as [-> | ->]; reflexivity.
  - destruct (mul_exact a b n Va Vb Wa Wb L ltac:(lia)) as [X Y]. rewrite (tidy_stored a), (tidy_stored b), Sa, Sb in * by (assumption || lia). split.
    + intros (r & Er & Nr). destruct (fits_dec (computing n) (value a * value b)) as [C|C]; [now right|]. destruct (sa && sb) eqn:Q; [rewrite Y in Er by auto; discriminate|]. destruct (Z.le_gt_cases 17 n); [now left|]. rewrite Y in Er by (auto; left; lia). discriminate.
    + intros K. apply X in K. destruct K as (r & Er & _ & Nr). eauto.
Qed.
(** unary minus *)
Lemma neg_iff a n s : 1 <= n -> typed a n s -> tidy a ->
  (exists r, bit_neg a = Ok r /\ num r = (- num a) mod 2 ^ n) <-> n <= 64 /\ ~ (s = true /\ (n = 32 \/ n = 64) /\ value a = - 2 ^ (n - 1)).
Proof.
  intros Hn Ta Da. pose proof (typed_bw _ _ _ Hn Ta) as Wa. destruct Ta as (Va & (Ma & La) & Sa). rewrite neg_any by exact Va. unfold any_minus, small. rewrite Wa. destruct (Z.leb_spec n 64) as [G|G]; [|split; [intros (r & E & _); discriminate|lia]].
  unfold negated, written. rewrite Wa, Sa, Ma, La. fold (vector n s (- stored a)). destruct (Z.eq_dec n 1) as [E|N1].
  - rewrite E in *. cbn [Z.ltb Z.compare Pos.compare Pos.compare_cont andb]. destruct (stored_one a Va Wa) as [Ea Ca]. rewrite Ea. split; [intros _; split; [lia|intros (_ & X & _); lia]|]. intros _. eexists. split; [reflexivity|]. change (mkBit (1 - 1) 0 s (HN (store 1 s (- num a)))) with (vector 1 s (- num a)). rewrite vector_one. destruct Ca as [-> | ->]; reflexivity.
  - rewrite (tidy_stored a) by (assumption || lia). assert (Nv : num (vector n s (- value a)) = (- num a) mod 2 ^ n).
    { rewrite <- vec_of_small by lia. rewrite vec_of_num by lia. rewrite <- (tidy_stored a) by (assumption || lia). unfold num. rewrite Wa. pose proof (pow2_pos n ltac:(lia)). rewrite <- (Z.sub_0_l (stored a)), <- (Z.sub_0_l (stored a mod 2 ^ n)), Zminus_mod_idemp_r. reflexivity. }
    destruct (value_range a) as (R & Rs & _). rewrite Wa, Sa in *. pose proof (pow2_pos (n - 1) ltac:(lia)) as PP.
    assert (B : (16 <? n) && s && negb (fitting (computing n) (- value a)) = true <-> s = true /\ (n = 32 \/ n = 64) /\ value a = - 2 ^ (n - 1)).
    { rewrite !andb_true_iff, negb_true_iff. unfold fitting. split.
      - intros [[A ->] F]. split; [reflexivity|]. specialize (Rs eq_refl). assert (M : 2 ^ (n - 1) <= 2 ^ (computing n - 1)) by (apply Z.pow_le_mono_r; [lia|]; pose proof (computing_pow n); lia).
        assert (K : value a = - 2 ^ (n - 1) /\ 2 ^ (n - 1) = 2 ^ (computing n - 1)) by lia. destruct K as [K1 K2]. apply Z.pow_inj_r in K2; [|lia|lia|unfold computing; destruct (n <=? 32); lia]. split; [|exact K1]. unfold computing in K2. destruct (Z.leb_spec n 32); lia.
      - intros (-> & C & ->). split; [split; [lia|reflexivity]|]. rewrite Z.opp_involutive. destruct C as [-> | ->]; reflexivity. }
    destruct ((16 <? n) && s && negb (fitting (computing n) (- value a))).
    + split; [intros (r & X & _); discriminate|]. intros [_ X]. exfalso. apply X, B. reflexivity.
    + split; [|intros _; eauto]. intros _. split; [exact G|]. intros X. apply B in X. discriminate.
Qed.
