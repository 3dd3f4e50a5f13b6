(** Exactly when division and wide multiplication are right, and when arithmetic is undefined. *)
From Coq Require Import ZArith List Bool Lia.
From Verif Require Exact.
From Verif Require Import Cpp BigNum Bit More Spec SpecExact SpecMachine SpecWide SpecIff BitExt BitOps ZBits Words BigNumProofs BitProofs BitCmp BitShift BitMain BitMain2 BitMain3 BitMain5 Exact4 MachineProofs ReachProofs WideProofs WideProofs2 WideProofs3 WideProofs4 LogicRed Iff2 Iff3 Iff4 Iff5 Iff6 Iff7 Iff8.
Import ListNotations.
Open Scope Z_scope.
Local Ltac Zify.zify_post_hook ::= idtac.

(** long division *)
Lemma setbit_add q k : 0 <= k -> (2 ^ (k + 1) | q) -> Z.setbit q k = q + 2 ^ k.
Proof.
  intros Hk [c ->]. rewrite Z.setbit_spec'. symmetry. rewrite Z.add_nocarry_lxor, Z.lxor_lor; try reflexivity; apply Z.bits_inj'; intros p Hp; rewrite Z.land_spec, Z.bits_0, Z.pow2_bits_eqb by lia; destruct (Z.eqb_spec k p) as [->|]; rewrite ?andb_false_r; try reflexivity; rewrite Z.mul_pow2_bits_low by lia; reflexivity.
Qed.
Lemma long_division_right n y : 0 < y -> forall j q r, (2 ^ Z.of_nat j | q) -> 0 <= r < y * 2 ^ Z.of_nat j -> (forall i, 0 <= i < Z.of_nat j -> y * 2 ^ i < 2 ^ n) ->
  Z.of_nat j <= n -> long_division n y j q r = (q + r / y, r mod y).
Proof.
  intros Hy. induction j as [|j IH]; intros q r D R B L.
  - cbn [long_division]. change (2 ^ Z.of_nat 0) with 1 in R. rewrite Z.div_small, Z.mod_small by lia. now rewrite Z.add_0_r.
  - cbn [long_division]. cbv zeta. rewrite (Z.mod_small (y * 2 ^ Z.of_nat j)) by (split; [pose proof (pow2_pos (Z.of_nat j)); nia|apply B; lia]). replace (Z.of_nat j <? n) with true by lia.
    assert (P : 2 ^ Z.of_nat (S j) = 2 * 2 ^ Z.of_nat j) by (rewrite Nat2Z.inj_succ, Z.pow_succ_r by lia; reflexivity).
    destruct (Z.leb_spec (y * 2 ^ Z.of_nat j) r) as [G|G].
    + rewrite IH; [|rewrite setbit_add by (try lia; replace (Z.of_nat j + 1) with (Z.of_nat (S j)) by lia; exact D); apply Z.divide_add_r; [|apply Z.divide_refl]; eapply Z.divide_trans; [|exact D]; exists 2; lia|nia|intros; apply B; lia|lia].
      rewrite setbit_add by (try lia; replace (Z.of_nat j + 1) with (Z.of_nat (S j)) by lia; exact D). replace (r - y * 2 ^ Z.of_nat j) with (r + - 2 ^ Z.of_nat j * y) by lia. rewrite Z.div_add, Z.mod_add by lia. f_equal. lia.
    + apply IH; [eapply Z.divide_trans; [|exact D]; exists 2; lia|lia|intros; apply B; lia|lia].
Qed.
Lemma long_division_whole n x y : 0 < y -> y < x -> x < 2 ^ n -> 0 <= n -> long_division n y (Z.to_nat (Z.log2 x - Z.log2 y + 1)) 0 x = (x / y, x mod y).
Proof.
  intros Hy Hx Hn H0. pose proof (Z.log2_spec x ltac:(lia)) as [X1 X2]. pose proof (Z.log2_spec y Hy) as [Y1 Y2]. pose proof (Z.log2_le_mono y x ltac:(lia)) as M. pose proof (Z.log2_nonneg y) as N0.
  assert (Lx : Z.log2 x < n) by (apply Z.log2_lt_pow2; lia).
  assert (Q : forall i, 0 <= i <= Z.log2 x - Z.log2 y -> y * 2 ^ i < 2 ^ n). { intros i Hi. apply Z.lt_le_trans with (2 ^ Z.succ (Z.log2 y) * 2 ^ i); [pose proof (pow2_pos i); nia|]. rewrite <- Z.pow_add_r by lia. apply Z.pow_le_mono_r; lia. }
  rewrite (long_division_right n y Hy); rewrite ?Z2Nat.id by lia.
  - reflexivity.
  - apply Z.divide_0_r.
  - split; [lia|]. apply Z.lt_le_trans with (1 := X2). apply Z.le_trans with (2 ^ Z.log2 y * 2 ^ (Z.log2 x - Z.log2 y + 1)); [rewrite <- Z.pow_add_r by lia; apply Z.pow_le_mono_r; lia|]. pose proof (pow2_pos (Z.log2 x - Z.log2 y + 1)). nia.
  - intros i Hi. apply Q. lia.
  - lia.
Qed.
Definition quotient_of (n x y : Z) (o : outcome (Z * Z)) : Prop := exists q r, o = Ok (q, r) /\ 0 <= q < 2 ^ n /\ 0 <= r < 2 ^ n /\ x = q * y + r /\ 0 <= r < y.
Lemma in_capacity n x : 1 <= n -> 0 <= x < 2 ^ n -> 0 <= x < 2 ^ capacity n.
Proof. intros H R. assert (2 ^ n <= 2 ^ capacity n) by (apply Z.pow_le_mono_r; [lia|now apply capacity_ge]). lia. Qed.
Lemma false_iff (b : bool) (P : Prop) : (b = true <-> P) -> b = false -> ~ P.
Proof. intros H -> p. apply H in p. discriminate. Qed.
Lemma low_split x : x = x / 2 ^ 64 * 2 ^ 64 + x mod 2 ^ 64. Proof. pose proof (Z.div_mod x (2 ^ 64) ltac:(lia)). lia. Qed.
Lemma divided_iff n x y : 65 <= n -> 0 <= x < 2 ^ n -> 0 <= y < 2 ^ n -> quotient_of n x y (divided n x y) <-> divides_right n x y.
Proof.
  intros Hn Rx Ry. pose proof (in_capacity n x ltac:(lia) Rx) as Cx. pose proof (in_capacity n y ltac:(lia) Ry) as Cy.
  pose proof (seems_zero_hollow n y Hn Cy) as Zy. pose proof (seems_small_hollow n y Hn Cy) as Sy. pose proof (seems_small_hollow n x Hn Cx) as Sx.
  unfold divided, divides_right. pose proof (pow2_pos n ltac:(lia)) as PN. assert (P1 : 2 ^ 65 <= 2 ^ n) by (apply Z.pow_le_mono_r; lia). change (2 ^ 65) with (2 * 2 ^ 64) in P1.
  destruct (seems_zero n y) eqn:E1.
  { assert (Hy : hollow y) by now apply Zy. split.
    - intros (q & r & E & _ & _ & X & R). injection E as <- <-. split; [lia|]. intros _ Nx. lia.
    - intros [Ny H]. destruct (Z.eq_dec x 0) as [->|Nx]; [exists 0, 0; repeat split; lia|]. destruct (H Hn Nx) as [K _]. contradiction. }
  assert (Ny : ~ hollow y) by exact (false_iff _ _ Zy eq_refl). assert (Y0 : y <> 0) by (intros ->; apply Ny, hollow_0).
  destruct (seems_small n y && (y mod 2 ^ 64 =? 1)) eqn:E2.
  { apply andb_prop in E2. destruct E2 as [E2 E3]. apply Z.eqb_eq in E3. assert (Hy : hollow (y / 2 ^ 64)) by now apply Sy. split.
    - intros (q & r & E & _ & _ & X & R). injection E as <- <-. split; [exact Y0|]. intros _ Nx. assert (y = 1) by nia. split; [exact Ny|]. split; [auto|]. intros. contradiction.
    - intros [_ H]. destruct (Z.eq_dec x 0) as [->|Nx]; [exists 0, 0; repeat split; lia|]. destruct (H Hn Nx) as (_ & K & _). exists x, 0. rewrite (K Hy E3) in *. repeat split; lia. }
  assert (E2' : hollow (y / 2 ^ 64) -> y mod 2 ^ 64 <> 1). { intros Hy E. apply Sy in Hy. rewrite Hy, E in E2. discriminate. } 
  destruct (Z.eqb_spec x y) as [E|E].
  { split; [intros _|intros _; exists 1, 0; repeat split; lia]. split; [exact Y0|]. intros _ _. split; [exact Ny|]. split; [intros A B; now apply E2' in A|]. lia. }
  destruct (Z.ltb_spec x y) as [G|G].
  { split; [intros _|intros _; exists 0, x; repeat split; lia]. split; [exact Y0|]. intros _ _. split; [exact Ny|]. split; [intros A B; now apply E2' in A|]. lia. }
  pose proof (low_split x) as Dx. pose proof (low_split y) as Dy. pose proof (Z.mod_pos_bound x (2 ^ 64) ltac:(lia)) as Lx. pose proof (Z.mod_pos_bound y (2 ^ 64) ltac:(lia)) as Ly.
  destruct (seems_small n x && seems_small n y) eqn:E4.
  { apply andb_prop in E4. destruct E4 as [E4 E5]. assert (Hx : hollow (x / 2 ^ 64)) by now apply Sx. assert (Hy : hollow (y / 2 ^ 64)) by now apply Sy. specialize (E2' Hy).
    assert (L0 : y mod 2 ^ 64 <> 0). { intros L0. apply Ny. apply hollow_split; [lia|]. split; [|exact Hy]. change (2 ^ 64) with (2 ^ 32 * 2 ^ 32) in L0. rewrite Z.rem_mul_r in L0 by lia. pose proof (Z.mod_pos_bound y (2 ^ 32) ltac:(lia)). pose proof (Z.mod_pos_bound (y / 2 ^ 32) (2 ^ 32) ltac:(lia)). lia. }
    replace (y mod 2 ^ 64 =? 0) with false by lia. set (xl := x mod 2 ^ 64) in *. set (yl := y mod 2 ^ 64) in *. set (xh := x / 2 ^ 64) in *. set (yh := y / 2 ^ 64) in *.
    pose proof (Z.div_mod xl yl ltac:(lia)) as DM. pose proof (Z.mod_pos_bound xl yl ltac:(lia)) as MB. assert (Q0 : 0 <= xl / yl) by (apply Z.div_pos; lia).
    assert (Q1 : xl / yl <= xl) by (apply Z.div_le_upper_bound; nia). assert (yh0 : 0 <= yh) by (unfold yh; apply Z.div_pos; lia).
    set (q := xl / yl) in *. set (r := xl mod yl) in *. split.
    - intros (q' & r' & E' & _ & _ & X & R). injection E' as <- <-. split; [exact Y0|]. intros _ _. split; [exact Ny|]. split; [intros _ B; contradiction|]. intros _ _ _ _. nia.
    - intros [_ H]. destruct (H Hn ltac:(lia)) as (_ & _ & K). specialize (K ltac:(lia) Hx Hy E2'). exists q, r. repeat split; try lia; nia. }
  rewrite long_division_whole by lia. pose proof (Z.div_mod x y ltac:(lia)) as DM. pose proof (Z.mod_pos_bound x y ltac:(lia)) as MB. assert (Q0 : 0 <= x / y) by (apply Z.div_pos; lia). assert (Q1 : x / y <= x) by (apply Z.div_le_upper_bound; nia).
  split.
  - intros _. split; [exact Y0|]. intros _ _. split; [exact Ny|]. split; [intros A B; now apply E2' in A|]. intros _ A B. apply Sx in A. apply Sy in B. rewrite A, B in E4. discriminate.
  - intros _. exists (x / y), (x mod y). repeat split; lia.
Qed.
Lemma typed_pairs a b na nb sa sb : 1 <= na -> 1 <= nb -> typed a na sa -> typed b nb sb -> pairs_up a b = true /\ wider a b = Z.max na nb.
Proof.
  intros Ha Hb Ta Tb. pose proof (typed_bw _ _ _ Ha Ta) as Wa. pose proof (typed_bw _ _ _ Hb Tb) as Wb. unfold pairs_up, wider. rewrite Wa, Wb. destruct Ta as (_ & [Ma La] & _), Tb as (_ & [Mb Lb] & _).
  split; [|reflexivity]. destruct (na =? nb); [rewrite Mb, Lb; lia|]. destruct (na <? nb); rewrite ?Ma, ?La, ?Mb, ?Lb, Z.eqb_refl; cbn [andb]; rewrite orb_true_iff; right; lia.
Qed.
Lemma unsigned_widened b nb n : 1 <= nb -> typed b nb false -> tidy b -> nb <= n -> widened b n = num b /\ 0 <= num b < 2 ^ n.
Proof.
  intros Hb Tb Yb L. pose proof (typed_bw _ _ _ Hb Tb) as W. destruct Tb as (V & _ & S1). split; [apply widened_u; (assumption || lia)|]. pose proof (num_range b) as R. rewrite W in R. assert (2 ^ nb <= 2 ^ n) by (apply Z.pow_le_mono_r; lia). lia.
Qed.
(** / and % of unsigned vectors *)
Lemma div_iff a b na nb : 1 <= na -> 1 <= nb -> typed a na false -> typed b nb false -> tidy a -> tidy b ->
  (exists q r, bit_div a b = Ok q /\ bit_rem a b = Ok r /\ num a = num q * num b + num r /\ 0 <= num r < num b) <-> divides_right (Z.max na nb) (num a) (num b).
Proof.
  intros Ha Hb Ta Tb Ya Yb. set (n := Z.max na nb) in *. destruct (Z.le_gt_cases n 64) as [G|G].
  - unfold divides_right. split.
    + intros (q & r & _ & _ & _ & R). split; [lia|]. lia.
    + intros [N0 _]. destruct (division a b na nb) as (q & r & Eq & Er & _ & _ & _ & _ & X & R); try assumption; [unfold div_visible; intros; exfalso; fold n in H; lia|]. exists q, r. auto.
  - destruct (typed_pairs a b na nb false false Ha Hb Ta Tb) as [P W]. fold n in W. destruct (unsigned_widened a na n Ha Ta Ya ltac:(lia)) as [Wa Ra], (unsigned_widened b nb n Hb Tb Yb ltac:(lia)) as [Wb Rb].
    rewrite <- divided_iff by lia. rewrite div_any, rem_any by (exact (proj1 Ta) || exact (proj1 Tb)). unfold any_quotient, any_remainder.
    assert (Q : small a && small b = false) by (unfold small; rewrite (typed_bw _ _ _ Ha Ta), (typed_bw _ _ _ Hb Tb); lia). rewrite Q. unfold combined. cbv zeta. rewrite P, W, Wa, Wb, (typed_sgn _ _ _ Ta). cbn [negb]. unfold both_signed. rewrite (typed_sgn _ _ _ Ta). cbn [andb].
    unfold quotient_of. destruct (divided n (num a) (num b)) as [[q r]| | | |] eqn:E; cbn [omap fst snd]; try (split; intros (q' & r' & X & _); discriminate). split.
    + intros (q' & r' & X & Y & Z1 & Z2). injection X as <-. injection Y as <-. rewrite !vec_of_num in * by lia.
      exists q, r. split; [reflexivity|].
      assert (B : 0 <= q < 2 ^ n /\ 0 <= r < 2 ^ n).
      { pose proof (pow2_pos n ltac:(lia)) as PN. assert (P1 : 2 ^ 65 <= 2 ^ n) by (apply Z.pow_le_mono_r; lia). change (2 ^ 65) with (2 * 2 ^ 64) in P1.
        unfold divided in E. destruct (seems_zero n (num b)); [injection E as <- <-; lia|]. destruct (seems_small n (num b) && (num b mod 2 ^ 64 =? 1)); [injection E as <- <-; lia|]. destruct (Z.eqb_spec (num a) (num b)) as [Q2|Q2]; [injection E as <- <-; lia|]. destruct (Z.ltb_spec (num a) (num b)); [injection E as <- <-; lia|].
        destruct (seems_small n (num a) && seems_small n (num b)).
        - destruct (Z.eqb_spec (num b mod 2 ^ 64) 0); [discriminate|]. injection E as <- <-. pose proof (Z.mod_pos_bound (num a) (2 ^ 64) ltac:(lia)). pose proof (Z.mod_pos_bound (num b) (2 ^ 64) ltac:(lia)). pose proof (Z.mod_pos_bound (num a mod 2 ^ 64) (num b mod 2 ^ 64) ltac:(lia)).
          assert (0 <= num a mod 2 ^ 64 / (num b mod 2 ^ 64)) by (apply Z.div_pos; lia). assert (num a mod 2 ^ 64 / (num b mod 2 ^ 64) <= num a mod 2 ^ 64) by (apply Z.div_le_upper_bound; nia). lia.
        - destruct (Z.eq_dec (num b) 0) as [B0|B0]; [lia|]. rewrite long_division_whole in E by lia. injection E as <- <-. pose proof (Z.mod_pos_bound (num a) (num b) ltac:(lia)). assert (0 <= num a / num b) by (apply Z.div_pos; lia). assert (num a / num b <= num a) by (apply Z.div_le_upper_bound; nia). lia. }
      rewrite !Z.mod_small in * by lia. tauto.
    + intros (q' & r' & X & Bq & Br & Z1 & Z2). injection X as -> ->. eexists _, _. split; [reflexivity|]. split; [reflexivity|]. rewrite !vec_of_num by lia. rewrite (Z.mod_small q'), (Z.mod_small r') by assumption. auto.
Qed.
(** wide products of unsigned vectors *)
Lemma mul_wide_iff a b na nb : 1 <= na -> 1 <= nb -> 65 <= Z.max na nb -> typed a na false -> typed b nb false -> tidy a -> tidy b ->
  (exists r, bit_mul a b = Ok r /\ num r = (num a * num b) mod 2 ^ Z.max na nb) <-> multiplies_right (Z.max na nb) (num a) (num b).
Proof.
  intros Ha Hb G Ta Tb Ya Yb. set (n := Z.max na nb) in *. destruct (typed_pairs a b na nb false false Ha Hb Ta Tb) as [P W]. fold n in W. destruct (unsigned_widened a na n Ha Ta Ya ltac:(lia)) as [Wa Ra], (unsigned_widened b nb n Hb Tb Yb ltac:(lia)) as [Wb Rb].
  rewrite mul_any by (exact (proj1 Ta) || exact (proj1 Tb)). unfold any_product. assert (Q : small a && small b = false) by (unfold small; rewrite (typed_bw _ _ _ Ha Ta), (typed_bw _ _ _ Hb Tb); lia). rewrite Q. unfold combined. cbv zeta. rewrite P, W, Wa, Wb. cbn [negb].
  pose proof (seems_small_hollow n (num a) G (in_capacity n _ ltac:(lia) Ra)) as Sx. pose proof (seems_small_hollow n (num b) G (in_capacity n _ ltac:(lia) Rb)) as Sy. unfold multiplies_right.
  destruct (seems_small n (num a) && seems_small n (num b)) eqn:E.
  - apply andb_prop in E. destruct E as [E1 E2]. apply Sx in E1. apply Sy in E2. split.
    + intros (r & X & Nr). injection X as <-. rewrite vec_of_num in Nr by lia. left. auto.
    + intros [(_ & _ & K)|(K & _)]; [|tauto]. eexists. split; [reflexivity|]. rewrite vec_of_num by lia. exact K.
  - assert (K : ~ (hollow (num a / 2 ^ 64) /\ hollow (num b / 2 ^ 64))). { intros [A B]. apply Sx in A. apply Sy in B. rewrite A, B in E. discriminate. }
    destruct ((num a =? 0) || (num b =? 0)) eqn:E0.
    + assert (Z0 : num a = 0 \/ num b = 0) by lia. split; [intros _; right; tauto|]. intros _. eexists. split; [reflexivity|]. rewrite vec_of_num by lia. destruct Z0 as [-> | ->]; [reflexivity|now rewrite Z.mul_0_r].
    + unfold words_in. destruct (Z.ltb_spec (Z.log2 (num a) / 64 + Z.log2 (num b) / 64 + 1) ((n + 63) / 64)) as [L|L].
      * split; [intros _; right; tauto|]. intros _. eexists. split; [reflexivity|]. apply vec_of_num. lia.
      * split; [intros (r & X & _); discriminate|]. intros [(A & B & _)|(_ & [A|[A|A]])]; [tauto|lia|lia|lia].
Qed.
(** ! of a 2-state vector *)
Lemma bit_not_iff b : vec b -> tidy b -> bit_lnot b = (num b =? 0) <-> bw b <= 64 \/ num b = 0 \/ ~ hollow (num b).
Proof.
  intros V T. unfold bit_lnot. pose proof (any_set_iff b V T) as A. pose proof (num_range b) as R. pose proof (bw_pos b) as P. destruct (Z.eqb_spec (num b) 0) as [E|E].
  - split; [auto|]. intros _. destruct (bit_any_set b); [|reflexivity]. destruct (proj1 A eq_refl) as (p & Hp & X & _). unfold bit_at in X. rewrite E, Z.bits_0 in X. discriminate.
  - destruct (bit_any_set b) eqn:Q; cbn [negb].
    + split; [intros _|reflexivity]. destruct (proj1 A eq_refl) as (p & Hp & X & [Y|Y]); [now left|right; right]. unfold bit_at in X. intros K. rewrite K in X by lia. discriminate.
    + split; [discriminate|]. intros H. exfalso. enough (X : false = true) by discriminate. apply A. assert (L : Z.log2 (num b) < bw b) by (apply Z.log2_lt_pow2; lia). pose proof (Z.log2_nonneg (num b)) as L0.
      destruct H as [H|[H|H]]; [|lia|].
      * exists (Z.log2 (num b)). split; [lia|]. split; [|now left]. unfold bit_at. apply Z.bit_log2. lia.
      * exfalso. apply H. intros p Hp Y. destruct (Z.testbit (num b) p) eqn:B; [|reflexivity]. destruct (Z.lt_ge_cases p (bw b)) as [I|I].
        -- symmetry. apply A. exists p. unfold bit_at. auto.
        -- rewrite <- B. apply Z.bits_above_log2; lia.
Qed.
