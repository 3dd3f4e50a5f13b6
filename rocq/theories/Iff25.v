(** Exactly when the division law and the order laws hold. *)
From Coq Require Import ZArith List Bool Lia Zify ZifyBool.
From Verif Require Import Cpp BigNum Bit Spec SpecExact SpecMachine SpecWide SpecIff SpecIff4 SpecIff5 ZBits Words BigNumProofs BitProofs BitOps BitExt BitMain2 BitMain3 MachineProofs WideProofs WideProofs2 WideProofs3 WideProofs4 LawProofs Iff3 Iff5 Iff9.
Import ListNotations.
Open Scope Z_scope.
Local Ltac Zify.zify_post_hook ::= idtac.

Lemma vec_of_typed n s z : 1 <= n < 2 ^ 31 -> typed (vec_of n s z) n s.
Proof. intros H. split; [now apply vec_of_vec|]. split; [split; reflexivity|reflexivity]. Qed.
Lemma vec_of_tidy n z : 65 <= n -> 0 <= z < 2 ^ n -> tidy (vec_of n false z).
Proof.
  intros Hn Hz. rewrite vec_of_wide by lia. unfold tidy. cbn [bval]. replace (bw (mkBit (n - 1) 0 false (HB (words_of n z)))) with n by (symmetry; apply width_n; lia). rewrite words_of_num by lia.
  unfold capacity. assert (n <= 64 * words_in n) by (unfold words_in; pose proof (Z.div_mod (n + 63) 64 ltac:(lia)); pose proof (Z.mod_pos_bound (n + 63) 64 ltac:(lia)); lia).
  assert (2 ^ n <= 2 ^ (64 * words_in n)) by (apply Z.pow_le_mono_r; lia). rewrite Z.mod_small by lia. exact Hz.
Qed.
Lemma wide_not_small n a b sa sb : 65 <= n -> typed a n sa -> typed b n sb -> small a && small b = false.
Proof. intros H Ta Tb. unfold small. rewrite (typed_bw a n sa), (typed_bw b n sb) by (assumption || lia). lia. Qed.

Lemma division_law_wide a b n : 65 <= n -> typed a n false -> typed b n false -> tidy a -> tidy b ->
  (exists q m p r, bit_div a b = Ok q /\ bit_rem a b = Ok m /\ num a = num q * num b + num m /\ 0 <= num m < num b /\ bit_mul q b = Ok p /\ bit_add p m = Ok r /\ num r = num a) <->
  divides_right n (num a) (num b) /\ multiplies_right n (num a / num b) (num b).
Proof.
  intros Hn Ta Tb Ya Yb. pose proof (typed_lt a n false ltac:(lia) Ta) as Ln. pose proof (pow2_pos n ltac:(lia)) as Pn.
  pose proof (div_iff a b n n ltac:(lia) ltac:(lia) Ta Tb Ya Yb) as D. rewrite Z.max_id in D.
  destruct (typed_pairs a b n n false false ltac:(lia) ltac:(lia) Ta Tb) as [P W]. rewrite Z.max_id in W.
  assert (F : forall q m, bit_div a b = Ok q -> bit_rem a b = Ok m -> num a = num q * num b + num m -> 0 <= num m < num b -> typed q n false /\ typed m n false /\ num q = num a / num b /\ q = vec_of n false (num q)).
  { intros q m Eq Em X R. assert (Nq : num q = num a / num b) by (apply (Z.div_unique (num a) (num b) (num q) (num m)); lia).
    rewrite div_any in Eq by (exact (proj1 Ta) || exact (proj1 Tb)). rewrite rem_any in Em by (exact (proj1 Ta) || exact (proj1 Tb)). unfold any_quotient in Eq. unfold any_remainder in Em. rewrite (wide_not_small n a b false false Hn Ta Tb) in Eq, Em.
    unfold combined in Eq, Em. cbv zeta in Eq, Em. rewrite P, W, (typed_sgn _ _ _ Ta) in Eq, Em. cbn [negb] in Eq, Em. unfold both_signed in Eq, Em. rewrite (typed_sgn _ _ _ Ta) in Eq, Em. cbn [andb] in Eq, Em.
    destruct (unsigned_widened a n n ltac:(lia) Ta Ya ltac:(lia)) as [Wa Ra], (unsigned_widened b n n ltac:(lia) Tb Yb ltac:(lia)) as [Wb Rb]. rewrite Wa, Wb in Eq, Em.
    destruct (divided n (num a) (num b)) as [[q0 m0]| | | |] eqn:E; cbn [omap fst snd] in Eq, Em; try discriminate. injection Eq as <-. injection Em as <-.
    split; [apply vec_of_typed; lia|]. split; [apply vec_of_typed; lia|]. split; [exact Nq|].
    assert (B : 0 <= q0 < 2 ^ n).
    { assert (P1 : 2 ^ 65 <= 2 ^ n) by (apply Z.pow_le_mono_r; lia). change (2 ^ 65) with (2 * 2 ^ 64) in P1.
      unfold divided in E. destruct (seems_zero n (num b)); [injection E as <- <-; lia|]. destruct (seems_small n (num b) && (num b mod 2 ^ 64 =? 1)); [injection E as <- <-; lia|]. destruct (Z.eqb_spec (num a) (num b)) as [Q2|Q2]; [injection E as <- <-; lia|]. destruct (Z.ltb_spec (num a) (num b)); [injection E as <- <-; lia|].
      destruct (seems_small n (num a) && seems_small n (num b)).
      - destruct (Z.eqb_spec (num b mod 2 ^ 64) 0); [discriminate|]. injection E as <- <-. pose proof (Z.mod_pos_bound (num a) (2 ^ 64) ltac:(lia)). pose proof (Z.mod_pos_bound (num b) (2 ^ 64) ltac:(lia)).
        assert (0 <= num a mod 2 ^ 64 / (num b mod 2 ^ 64)) by (apply Z.div_pos; lia). assert (num a mod 2 ^ 64 / (num b mod 2 ^ 64) <= num a mod 2 ^ 64) by (apply Z.div_le_upper_bound; nia). lia.
      - rewrite long_division_whole in E by lia. injection E as <- <-. assert (0 <= num a / num b) by (apply Z.div_pos; lia). assert (num a / num b <= num a) by (apply Z.div_le_upper_bound; nia). lia. }
    rewrite vec_of_num by lia. rewrite Z.mod_small by exact B. reflexivity. }
  assert (Ra := num_range a). rewrite (typed_bw a n false ltac:(lia) Ta) in Ra.
  assert (M : forall q p, typed q n false -> bit_mul q b = Ok p -> typed p n false).
  { intros q p Tq Ep. rewrite mul_any in Ep by (exact (proj1 Tq) || exact (proj1 Tb)). unfold any_product in Ep. rewrite (wide_not_small n q b false false Hn Tq Tb) in Ep. unfold combined in Ep. cbv zeta in Ep.
    destruct (typed_pairs q b n n false false ltac:(lia) ltac:(lia) Tq Tb) as [P' W']. rewrite Z.max_id in W'. rewrite P', W' in Ep. cbn [negb] in Ep. unfold both_signed in Ep. rewrite (typed_sgn _ _ _ Tq) in Ep. cbn [andb] in Ep.
    match type of Ep with match ?f with _ => _ end = _ => destruct f; try discriminate end. injection Ep as <-. apply vec_of_typed. lia. }
  assert (S : forall p m, typed p n false -> typed m n false -> exists r, bit_add p m = Ok r /\ num r = (num p + num m) mod 2 ^ n).
  { intros p m Tp Tm. destruct (add_same_width p m n) as (r & E & _ & X); try (apply Tp || apply Tm); try (eapply typed_bw; [|eassumption]; lia); [..|exists r; auto].
    all: try lia. all: try (destruct Tm as (_ & [-> ->] & _); lia). intros X. rewrite (typed_sgn _ _ _ Tp) in X. discriminate X. }
  assert (Q : forall q, typed q n false -> q = vec_of n false (num q) -> (exists p, bit_mul q b = Ok p /\ num p = (num q * num b) mod 2 ^ n) <-> multiplies_right n (num q) (num b)).
  { intros q Tq Vq. assert (Yq : tidy q). { rewrite Vq. apply vec_of_tidy; [exact Hn|]. pose proof (num_range q) as R. rewrite (typed_bw q n false ltac:(lia) Tq) in R. exact R. }
    pose proof (mul_wide_iff q b n n ltac:(lia) ltac:(lia) ltac:(lia) Tq Tb Yq Yb) as X. rewrite Z.max_id in X. exact X. }
  split.
  - intros (q & m & p & r & Eq & Em & X & R & Ep & Er & Nr). split; [apply D; exists q, m; auto|]. destruct (F q m Eq Em X R) as (Tq & Tm & Nq & Vq). rewrite <- Nq. apply (Q q Tq Vq). exists p. split; [exact Ep|].
    pose proof (M q p Tq Ep) as Tp. destruct (S p m Tp Tm) as (r' & Er' & Nr'). rewrite Er in Er'. injection Er' as <-. pose proof (num_range p) as Rp. rewrite (typed_bw p n false ltac:(lia) Tp) in Rp.
    assert (Rm : 0 <= num q * num b) by (pose proof (num_range q); nia). rewrite Z.mod_small by nia. rewrite Nr' in Nr.
    assert (Y : (num p + num m) mod 2 ^ n = (num q * num b + num m) mod 2 ^ n) by (rewrite Nr, <- X, Z.mod_small by lia; reflexivity).
    assert (Y2 : (num p + num m - num m) mod 2 ^ n = (num q * num b + num m - num m) mod 2 ^ n) by (rewrite Zminus_mod, Y, <- Zminus_mod; reflexivity).
    replace (num p + num m - num m) with (num p) in Y2 by lia. replace (num q * num b + num m - num m) with (num q * num b) in Y2 by lia. rewrite !Z.mod_small in Y2 by nia. exact Y2.
  - intros [D1 D2]. apply D in D1. destruct D1 as (q & m & Eq & Em & X & R). destruct (F q m Eq Em X R) as (Tq & Tm & Nq & Vq). rewrite <- Nq in D2. apply (Q q Tq Vq) in D2. destruct D2 as (p & Ep & Np).
    destruct (S p m (M q p Tq Ep) Tm) as (r & Er & Nr). exists q, m, p, r. repeat (split; [assumption|]). rewrite Nr, Np, Zplus_mod_idemp_l, <- X. apply Z.mod_small. exact Ra.
Qed.

Lemma one_position a : typed a 1 true -> tidy a -> a = mkBit 0 0 true (HN 0) \/ a = mkBit 0 0 true (HN 1).
Proof.
  intros T Y. pose proof (typed_bw a 1 true ltac:(lia) T) as W. destruct (vec_cases a (proj1 T)) as [(v & E & _ & _ & St)|(ws & _ & L & _)]; [|lia]. unfold tidy in Y. rewrite E, W, andb_false_r in Y. change (2 ^ 1) with 2 in Y.
  destruct a as [m l s h]. destruct T as (_ & [M L] & S). cbn in *. subst. assert (v = 0 \/ v = 1) as [-> | ->] by lia; auto.
Qed.
Lemma order_laws_iff a b n s : 1 <= n -> typed a n s -> typed b n s -> tidy a -> tidy b -> ranked a b n (amount a) (amount b) <-> s = false \/ n <= 64.
Proof.
  intros Hn Ta Tb Ya Yb. pose proof (typed_bw a n s Hn Ta) as Wa. pose proof (typed_bw b n s Hn Tb) as Wb. split.
  - intros (lt & eq & gt & _ & E & _). destruct s; [|left; reflexivity]. right. destruct (Z.le_gt_cases n 64) as [G|G]; [exact G|exfalso].
    rewrite eq_any in E by (exact (proj1 Ta) || exact (proj1 Tb)). unfold any_equal in E. unfold small in E. rewrite Wa, Wb in E. replace (n <=? 64) with false in E by lia. cbn [andb] in E.
    unfold both_signed in E. rewrite (typed_sgn _ _ _ Ta), (typed_sgn _ _ _ Tb) in E. cbn [andb] in E. rewrite Z.ltb_irrefl in E. discriminate E.
  - intros D. unfold amount. rewrite Wa, Wb. destruct (Z.eqb_spec n 1) as [->|N1].
    + destruct s.
      * destruct (one_position a Ta Ya) as [-> | ->], (one_position b Tb Yb) as [-> | ->]; (eexists _, _, _; do 3 (split; [vm_compute; reflexivity|]); do 7 (split; [vm_compute; reflexivity|]);
          split; [intros X; try discriminate X; intros i Hi; assert (i = 0) as -> by lia; reflexivity|intros X; try reflexivity; specialize (X 0 ltac:(lia)); discriminate X]).
      * destruct (order_laws a b 1 false Hn Ta Tb Ya Yb ltac:(discriminate)) as (lt & eq & gt & X). unfold value in X. rewrite (typed_sgn _ _ _ Ta), (typed_sgn _ _ _ Tb) in X. exists lt, eq, gt. exact X.
    + apply order_laws with s; try assumption. destruct D as [-> | D]; [discriminate|lia].
Qed.
