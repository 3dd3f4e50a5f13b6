(** Exactly when single positions, conversions to numbers and construction from numbers are right. *)
From Coq Require Import ZArith List Bool Lia.
From Verif Require Exact.
From Verif Require Import Cpp BigNum Bit Logic More Rest BigObj Spec SpecBig SpecExact SpecMachine SpecWide SpecFour SpecIff BitExt BitOps ZBits Words BigNumProofs BitProofs BitCmp BitShift BitMain BitMain2 BitMain5 LogicProofs LogicRed MachineProofs MachineProofs3 MachineProofs4 ReachProofs ReachProofs2 WideProofs WideProofs2 WideProofs3 WideProofs4 RestProofs RestProofs2 Iff2 Iff3 Iff4 Iff5 Iff6 Iff7 Iff8 Iff9 Iff10.
Import ListNotations.
Open Scope Z_scope.
Local Ltac Zify.zify_post_hook ::= idtac.

(** * one position written and read (C02) *)
Lemma store_bit n s z p : 2 <= n <= 64 -> 0 <= p -> Z.testbit (store n s z) p = if p <? storage n then Z.testbit z p else s && Z.testbit z (storage n - 1).
Proof.
  intros Hn Hp. destruct (MachineProofs.storage_cases n Hn) as (A & _ & C & _). assert (W : 1 <= storage n) by lia. destruct (p <? storage n) eqn:L.
  - rewrite <- (Z.mod_pow2_bits_low (store n s z) (storage n)) by lia. rewrite store_mod_eq by exact Hn. apply Z.mod_pow2_bits_low. lia.
  - unfold store. replace (n =? 1) with false by lia. unfold wrap. destruct s; cbn [andb]; [|apply Z.mod_pow2_bits_high; lia].
    fold (swrap (storage n) z). rewrite <- twos_swrap by exact W. unfold twos. rewrite Z.mod_pow2_bits_low by lia. pose proof (Z.mod_pos_bound z (2 ^ storage n) ltac:(apply pow2_pos; lia)) as R.
    set (y := z mod 2 ^ storage n) in *. destruct (Z.testbit z (storage n - 1)) eqn:T.
    + assert (M : y - 2 ^ storage n = - (2 ^ storage n - y)) by lia. rewrite <- (Z.mod_pow2_bits_low z (storage n)) in T by lia. fold y in T.
      destruct (Z.testbit (y - 2 ^ storage n) p) eqn:B; [reflexivity|]. exfalso.
      assert (Q : Z.testbit (- (y - 2 ^ storage n) - 1) p = true) by (replace (- (y - 2 ^ storage n) - 1) with (Z.lnot (y - 2 ^ storage n)) by (unfold Z.lnot; lia); rewrite Z.lnot_spec by exact Hp; now rewrite B).
      rewrite <- (Z.mod_small (- (y - 2 ^ storage n) - 1) (2 ^ storage n)) in Q by lia. rewrite Z.mod_pow2_bits_high in Q by lia. discriminate.
    + rewrite <- (Z.mod_small y (2 ^ storage n)) by lia. apply Z.mod_pow2_bits_high. lia.
Qed.
Lemma put_bit z j (x : bool) p : 0 <= j -> 0 <= p -> Z.testbit (if x then Z.setbit z j else Z.clearbit z j) p = if p =? j then x else Z.testbit z p.
Proof.
  intros Hj Hp. destruct x; [rewrite Z.setbit_eqb by exact Hj|rewrite Z.clearbit_eqb by exact Hj]; rewrite (Z.eqb_sym j p); destruct (p =? j); cbn; now rewrite ?andb_true_r, ?andb_false_r.
Qed.
Lemma computing_le n : computing n <= 64. Proof. unfold computing. destruct (n <=? 32); lia. Qed.

Lemma set_get_iff b i : vec b -> in_range (bmsb b) (blsb b) i ->
  (forall x, exists b', bit_set b i x = Ok b' /\ bit_get b' i = Ok x) <->
  Z.min (bmsb b) (blsb b) = 0 \/ (bsgn b = true /\ (bw b = 8 \/ bw b = 16) /\ blsb b <= bmsb b /\ i = bmsb b /\ bw b <= i < 32).
Proof.
  intros V R. pose proof V as (_ & Im & Il & L). assert (Ii : int_ok i) by (unfold in_range, int_ok in *; lia).
  assert (SL : slot b i = i /\ blsb b <= bmsb b /\ Z.min (bmsb b) (blsb b) = blsb b /\ bw b = bmsb b - blsb b + 1 \/ slot b i = blsb b - i /\ bmsb b < blsb b /\ Z.min (bmsb b) (blsb b) = bmsb b /\ bw b = blsb b - bmsb b + 1).
  { unfold slot, bw, width. destruct (blsb b <=? bmsb b) eqn:E; [left|right]; lia. }
  pose proof (bw_pos b) as P. unfold in_range in R. split.
  - intros H. destruct (Z.eq_dec (Z.min (bmsb b) (blsb b)) 0) as [Z0|Z0]; [now left|]. right.
    assert (D : forall x : bool, exists b', bit_set b i x = Ok b' /\ any_position b' i = Ok x).
    { intros x. destruct (H x) as (b' & E & G). exists b'. split; [exact E|]. rewrite <- get_any; [exact G|]. apply (set_vec _ _ _ _ V E). }
    clear H. destruct (Z.le_gt_cases (bw b) 64) as [S|S].
    + assert (D' : forall x : bool, let j := slot b i - Z.min (blsb b) (bmsb b) in 0 <= j < 64 /\ 0 <= slot b i < computing (bw b) /\ Z.testbit (store (bw b) (bsgn b) (if x then Z.setbit (stored b) j else Z.clearbit (stored b) j)) (slot b i) = x).
      { intros x. destruct (D x) as (b' & E & G). cbn zeta. rewrite set_any in E by assumption. unfold any_with_position in E. replace (small b) with true in E by (unfold small; lia). unfold with_position in E. cbn zeta in E.
        destruct (_ && _) eqn:K in E; [|discriminate]. injection E as <-. destruct (written_vec b (if x then Z.setbit (stored b) (slot b i - Z.min (blsb b) (bmsb b)) else Z.clearbit (stored b) (slot b i - Z.min (blsb b) (bmsb b))) V S) as (V' & W' & St').
        unfold any_position in G. replace (small (written _ _)) with true in G by (unfold small; rewrite W'; lia). unfold position in G. cbn zeta in G. rewrite St', W' in G. change (slot (written b _) i) with (slot b i) in G.
        destruct ((0 <=? slot b i) && _) eqn:K' in G; [|discriminate]. injection G as G. repeat split; try lia. exact G. }
      clear D. cbn zeta in D'. pose proof (D' true) as (J1 & J2 & T1). pose proof (D' false) as (_ & _ & T0). set (j := slot b i - Z.min (blsb b) (bmsb b)) in *.
      assert (NJ : slot b i <> j) by (unfold j; lia).
      destruct (Z.eq_dec (bw b) 1) as [N1|N1].
      { exfalso. rewrite N1 in T1. unfold store in T1. cbn [Z.eqb Pos.eqb] in T1. destruct (Z.setbit (stored b) j =? 0); [rewrite Z.bits_0 in T1; discriminate|]. destruct (slot b i) as [|q|q] eqn:Sq; [|destruct q; discriminate|lia]. unfold j in J1. lia. }
      assert (N2 : 2 <= bw b <= 64) by lia. destruct (MachineProofs.storage_cases (bw b) N2) as (A & B & C & _). rewrite store_bit in T1, T0 by lia. destruct (slot b i <? storage (bw b)) eqn:K.
      { exfalso. pose proof (put_bit (stored b) j true (slot b i) ltac:(lia) ltac:(lia)) as Q1. pose proof (put_bit (stored b) j false (slot b i) ltac:(lia) ltac:(lia)) as Q0. cbn [negb] in *. replace (slot b i =? j) with false in * by lia. congruence. }
      apply andb_prop in T1 as [Sg T1]. rewrite Sg in T0. cbn [andb] in T0. pose proof (put_bit (stored b) j true (storage (bw b) - 1) ltac:(lia) ltac:(lia)) as Q1. pose proof (put_bit (stored b) j false (storage (bw b) - 1) ltac:(lia) ltac:(lia)) as Q0. cbn [negb] in *.
      destruct (storage (bw b) - 1 =? j) eqn:EJ; [|congruence]. split; [exact Sg|]. destruct SL as [(F1 & F2 & F3 & F4)|(F1 & F2 & F3 & F4)]; [|exfalso; lia].
      assert (NS : bw b = storage (bw b)) by (unfold j in *; lia). assert (C' : bw b = 8 \/ bw b = 16). { unfold computing in J2. destruct (bw b <=? 32) eqn:?; lia. }
      split; [exact C'|]. split; [exact F2|]. unfold computing in J2. replace (bw b <=? 32) with true in J2 by lia. unfold j in *. lia.
    + exfalso. destruct (D true) as (b1 & E1 & G1). destruct (D false) as (b0 & E0 & G0). rewrite set_any in E1, E0 by assumption. unfold any_with_position in E1, E0. replace (small b) with false in E1, E0 by (unfold small; lia).
      injection E1 as <-. injection E0 as <-. unfold any_position in G1, G0. unfold placed in G1, G0. set (j := (slot b i - Z.min (blsb b) (bmsb b)) mod 2 ^ 64) in *.
      assert (J : 0 <= j) by (apply Z.mod_pos_bound; lia).
      assert (Q : forall z, small (rewritten b z) = false /\ slot (rewritten b z) i = slot b i /\ bw (rewritten b z) = bw b) by (intros z; split; [unfold small; change (bw (rewritten b z)) with (bw b); lia|split; reflexivity]).
      rewrite !(proj1 (Q _)), !(proj1 (proj2 (Q _))), !(proj2 (proj2 (Q _))) in G1. rewrite !(proj1 (Q _)), !(proj1 (proj2 (Q _))), !(proj2 (proj2 (Q _))) in G0. cbn zeta in G1, G0. assert (INJ : forall u v : bool, Ok u = Ok v -> u = v) by congruence. apply INJ in G1. apply INJ in G0.
      apply andb_prop in G1 as [K G1]. rewrite K in G0. cbn [andb] in G0. set (r := slot b i mod 2 ^ 64) in *. assert (Rr : 0 <= r) by (apply Z.mod_pos_bound; lia).
      assert (NR : r = slot b i). { unfold r. apply Z.mod_small. destruct (Z.lt_ge_cases (slot b i) 0) as [Ng|Ng]; [|unfold int_ok in *; lia]. exfalso. unfold r in K. rewrite <- (Z.mod_add (slot b i) 1) in K by lia. rewrite Z.mod_small in K by (unfold int_ok in *; lia). unfold int_ok in *. lia. }
      assert (NJ : r <> j). { intros E. rewrite NR in E. assert (X : (slot b i - (slot b i - Z.min (blsb b) (bmsb b))) mod 2 ^ 64 = 0). { rewrite Zminus_mod. fold j. rewrite <- E. rewrite (Z.mod_small (slot b i)) by (unfold int_ok in *; lia). rewrite Z.sub_diag. reflexivity. }
        replace (slot b i - (slot b i - Z.min (blsb b) (bmsb b))) with (Z.min (bmsb b) (blsb b)) in X by lia. unfold int_ok in *. destruct (Z.lt_ge_cases (Z.min (bmsb b) (blsb b)) 0) as [Ng|Ng]; [rewrite <- (Z.mod_add _ 1) in X by lia|]; rewrite Z.mod_small in X; lia. }
      rewrite stored_rewritten in G1, G0 by lia. assert (CP : bw b <= capacity (bw b)) by (apply capacity_ge; lia). rewrite Z.mod_pow2_bits_low in G1, G0 by lia.
      change (Z.pow_pos 2 64) with (2 ^ 64) in G1, G0. fold j in G1, G0. destruct (j <? bw b) eqn:JB; [|congruence]. pose proof (put_bit (stored b) j true r J Rr) as Q1. pose proof (put_bit (stored b) j false r J Rr) as Q0. replace (r =? j) with false in * by lia. cbn iota in Q1, Q0. congruence.
  - intros [Z0|(Sg & N & D & Ei & Ri)] x.
    + destruct (set_get_zero_based b i x V Z0 R) as (_ & b' & E & _ & _ & _ & _ & G & _). eauto.
    + assert (S : bw b <= 64) by lia. destruct SL as [(F1 & F2 & F3 & F4)|X]; [|lia]. rewrite set_any by assumption. unfold any_with_position. replace (small b) with true by (unfold small; lia). unfold with_position. cbn zeta. rewrite (Z.min_comm (blsb b)), F1, F3.
      replace (i - blsb b) with (bw b - 1) by lia. replace ((0 <=? bw b - 1) && (bw b - 1 <? 64)) with true by lia. eexists. split; [reflexivity|].
      destruct (written_vec b (if x then Z.setbit (stored b) (bw b - 1) else Z.clearbit (stored b) (bw b - 1)) V S) as (V' & W' & St'). rewrite get_any by exact V'. unfold any_position. replace (small (written _ _)) with true by (unfold small; rewrite W'; lia). unfold position. cbn zeta.
      rewrite St', W'. change (slot (written b _) i) with (slot b i). rewrite F1. unfold computing. replace (bw b <=? 32) with true by lia. replace ((0 <=? i) && (i <? 32)) with true by lia. rewrite store_bit by lia.
      assert (SN : storage (bw b) = bw b) by (destruct N as [-> | ->]; reflexivity). rewrite SN. replace (i <? bw b) with false by lia. rewrite Sg, put_bit by lia. now rewrite Z.eqb_refl.
Qed.
