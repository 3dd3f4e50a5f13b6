(** The check computed bit by bit is the remainder of the message polynomial. *)
From Coq Require Import ZArith List Bool Lia.
From Verif Require Import Cpp BigNum Bit Logic Spec SpecExact ZBits BitShift BitMain BitMain2 ArrProofs SpecCircuit CircuitProofs Crc SpecCrc.
Import ListNotations.
Open Scope Z_scope.
Local Ltac Zify.zify_post_hook ::= idtac.

Lemma lxor_double a b : Z.lxor (2 * a) (2 * b) = 2 * Z.lxor a b.
Proof. rewrite !(Z.mul_comm 2), <- !(Z.shiftl_mul_pow2 _ 1) by lia. symmetry. apply Z.shiftl_lxor. Qed.
Lemma times_double q d : 0 <= q -> times (2 * q) d = 2 * times q d.
Proof. destruct q as [|q|q]; intros Q; [reflexivity|reflexivity|lia]. Qed.
Lemma times_double_one q d : 0 <= q -> times (2 * q + 1) d = Z.lxor d (2 * times q d).
Proof. destruct q as [|q|q]; intros Q; [cbn; symmetry; apply Z.lxor_0_r|reflexivity|lia]. Qed.
Lemma b2z_pow_lxor n x b : 0 <= n -> 0 <= x < 2 ^ n -> Z.lxor x (Z.b2z b * 2 ^ n) = x + Z.b2z b * 2 ^ n.
Proof.
  intros N X. symmetry. apply Z.add_nocarry_lxor. apply Z.bits_inj'. intros p P. rewrite Z.land_spec, Z.bits_0. destruct (Z.lt_ge_cases p n).
  - rewrite Z.mul_pow2_bits_low by lia. apply andb_false_r.
  - replace (Z.testbit x p) with false; [reflexivity|]. symmetry. destruct (Z.eq_dec x 0) as [->|]; [apply Z.bits_0|]. apply Z.bits_above_log2; [lia|]. apply Z.log2_lt_pow2; try lia. apply (Z.lt_le_trans _ (2 ^ n)); [lia|]. apply Z.pow_le_mono_r; lia.
Qed.
(** the step on numbers *)
Lemma step_number n P A c q b : 1 <= n -> 0 <= P < 2 ^ n -> 0 <= c < 2 ^ n -> 0 <= q -> A = Z.lxor (times q (2 ^ n + P)) c ->
  let t := xorb (Z.testbit c (n - 1)) b in let c' := if t then Z.lxor ((2 * c) mod 2 ^ n) P else (2 * c) mod 2 ^ n in
  0 <= c' < 2 ^ n /\ exists q', 0 <= q' /\ Z.lxor (2 * A) (Z.b2z b * 2 ^ n) = Z.lxor (times q' (2 ^ n + P)) c'.
Proof.
  intros N HP C Q E t c'. assert (PP : 0 < 2 ^ n) by (apply Z.pow_pos_nonneg; lia). pose proof (Z.mod_pos_bound (2 * c) (2 ^ n) PP) as B. set (lo := (2 * c) mod 2 ^ n) in *.
  assert (S : 2 * c = Z.lxor lo (Z.b2z (Z.testbit c (n - 1)) * 2 ^ n)).
  { rewrite b2z_pow_lxor by lia. unfold lo. rewrite (Z.div_mod (2 * c) (2 ^ n)) at 1 by lia. replace (2 * c / 2 ^ n) with (Z.b2z (Z.testbit c (n - 1))); [ring|].
    rewrite Z.testbit_spec' by lia. replace (2 ^ n) with (2 * 2 ^ (n - 1)) by (rewrite <- Z.pow_succ_r by lia; f_equal; lia). rewrite Z.div_mul_cancel_l by lia. apply Z.mod_small. split; [apply Z.div_pos; lia|]. apply Z.div_lt_upper_bound; [lia|]. replace (2 ^ (n - 1) * 2) with (2 ^ n) by (rewrite Z.mul_comm, <- Z.pow_succ_r by lia; f_equal; lia). lia. }
  assert (K : Z.lxor (2 * A) (Z.b2z b * 2 ^ n) = Z.lxor (2 * times q (2 ^ n + P)) (Z.lxor lo (Z.b2z t * 2 ^ n))).
  { rewrite E, <- lxor_double, S, !Z.lxor_assoc. f_equal. f_equal. unfold t. destruct (Z.testbit c (n - 1)), b; cbn [xorb Z.b2z]; rewrite ?Z.mul_0_l, ?Z.lxor_0_l, ?Z.lxor_0_r, ?Z.lxor_nilpotent; reflexivity. }
  assert (DP : 2 ^ n + P = Z.lxor P (1 * 2 ^ n)). { change (Z.lxor P (Z.b2z true * 2 ^ n) ) with (Z.lxor P (1 * 2 ^ n)). pose proof (b2z_pow_lxor n P true ltac:(lia) HP) as X. cbn [Z.b2z] in X. rewrite X. ring. }
  unfold c'. destruct t.
  - split.
    + split; [apply Z.lxor_nonneg; lia|]. destruct (Z.eq_dec (Z.lxor lo P) 0) as [->|Z0]; [lia|]. assert (0 <= Z.lxor lo P) by (apply Z.lxor_nonneg; lia). apply Z.log2_lt_pow2; [lia|]. apply Z.le_lt_trans with (Z.max (Z.log2 lo) (Z.log2 P)); [apply Z.log2_lxor; lia|].
      apply Z.max_lub_lt; (match goal with |- Z.log2 ?x < n => destruct (Z.eq_dec x 0) as [->|]; [cbn; lia|apply Z.log2_lt_pow2; lia] end).
    + exists (2 * q + 1). split; [lia|]. rewrite times_double_one, K by lia. rewrite DP at 2. cbn [Z.b2z].
      apply Z.bits_inj'. intros p _. rewrite !Z.lxor_spec. destruct (Z.testbit (2 * times q (2 ^ n + P)) p), (Z.testbit lo p), (Z.testbit P p), (Z.testbit (1 * 2 ^ n) p); reflexivity.
  - split; [lia|]. exists (2 * q). split; [lia|]. rewrite times_double by lia. rewrite K. cbn [Z.b2z]. rewrite Z.mul_0_l, Z.lxor_0_r. reflexivity.
Qed.
Section C.
  Variables (n : Z) (poly one : bit) (sp : bool).
  Hypotheses (N : 2 <= n) (P : typed poly n sp) (O : amount_of n one) (V : value one = 1).
  Lemma crc_step_ok c s b : typed c n s -> exists r t, crc_step n poly one c b = Ok r /\ typed r n t /\
    num r = (if xorb (Z.testbit (num c) (n - 1)) b then Z.lxor ((2 * num c) mod 2 ^ n) (num poly) else (2 * num c) mod 2 ^ n).
  Proof.
    intros C. pose proof (typed_bw c n s ltac:(lia) C) as W. unfold crc_step. assert (G : bit_get c (n - 1) = Ok (bit_at c (n - 1))).
    { apply (typed_get c n s (n - 1) C). lia. }
    rewrite G. cbn [bind]. destruct O as (Vo & To & Wo). destruct (shift_left c one (proj1 C) Vo To ltac:(lia)) as (d & E & Td & Nd).
    { intros L. rewrite W in *. split; [apply Wo; exact L|]. right. rewrite V. destruct (n <=? 32) eqn:?; lia. }
    rewrite E. cbn [bind]. rewrite W, V in *. change (2 ^ 1) with 2 in Nd. rewrite (Z.mul_comm _ 2) in Nd. fold (bit_at c (n - 1)). destruct (xorb (bit_at c (n - 1)) b).
    - destruct (bitwise_same_all d poly n (proj1 Td) (proj1 P)) as (_ & _ & (r & Er & Tr & Br) & _); [apply (typed_bw d n _ ltac:(lia) Td)|apply (typed_bw poly n _ ltac:(lia) P)|destruct P as (_ & (-> & ->) & _); lia|].
      eexists r, _. split; [exact Er|]. split; [exact Tr|]. rewrite <- Nd. apply Z.bits_inj'. intros p Hp. rewrite Z.lxor_spec. fold (bit_at r p) (bit_at d p) (bit_at poly p).
      destruct (Z.lt_ge_cases p n); [apply Br; lia|]. rewrite !at_out; try (rewrite ?(typed_bw d n _ ltac:(lia) Td), ?(typed_bw poly n _ ltac:(lia) P), ?(typed_bw r n _ ltac:(lia) Tr); lia). all: reflexivity.
    - eexists d, _. split; [reflexivity|]. split; [exact Td|exact Nd].
  Qed.
  Lemma crc_run c s message : typed c n s -> exists r t, crc n poly one message c = Ok r /\ typed r n t /\
      remainder n (Z.lxor (num c * 2 ^ Z.of_nat (length message)) (poly_of message * 2 ^ n)) (2 ^ n + num poly) (num r).
  Proof.
    intros C. pose proof (num_range c ltac:(rewrite (typed_bw c n s ltac:(lia) C); lia)) as R. rewrite (typed_bw c n s ltac:(lia) C) in R.
    pose proof (num_range poly ltac:(rewrite (typed_bw poly n sp ltac:(lia) P); lia)) as RP. rewrite (typed_bw poly n sp ltac:(lia) P) in RP.
    induction message as [|b message IH] using rev_ind.
    - exists c, s. split; [reflexivity|]. split; [exact C|]. split; [exact R|]. exists 0. split; [lia|]. cbn [length poly_of fold_left times]. rewrite Z.lxor_0_l. change (2 ^ Z.of_nat 0) with 1. rewrite Z.mul_1_r, Z.mul_0_l. apply Z.lxor_0_r.
    - destruct IH as (r & t & E & T & B & q & Q & EQ). destruct (crc_step_ok r t b T) as (r' & t' & E' & T' & N'). exists r', t'.
      split; [unfold crc; rewrite ofold_app; fold (crc n poly one message c); rewrite E; cbn [bind ofold]; rewrite E'; reflexivity|]. split; [exact T'|].
      destruct (step_number n (num poly) _ (num r) q b ltac:(lia) RP B Q EQ) as (B' & q' & Q' & EQ'). rewrite <- N' in *. split; [exact B'|]. exists q'. split; [exact Q'|]. rewrite <- EQ'.
      rewrite app_length, Nat2Z.inj_add. cbn [length]. rewrite Z.pow_add_r by lia. change (2 ^ Z.of_nat 1) with 2. unfold poly_of at 1. rewrite fold_left_app. cbn [fold_left]. fold (poly_of message).
      rewrite <- lxor_double, Z.lxor_assoc. f_equal; [ring|]. replace ((2 * poly_of message + Z.b2z b) * 2 ^ n) with (Z.shiftl (2 * poly_of message + Z.b2z b) n) by (apply Z.shiftl_mul_pow2; lia).
      replace (2 * (poly_of message * 2 ^ n)) with (Z.shiftl (2 * poly_of message) n) by (rewrite Z.shiftl_mul_pow2 by lia; ring). replace (Z.b2z b * 2 ^ n) with (Z.shiftl (Z.b2z b) n) by (apply Z.shiftl_mul_pow2; lia). rewrite <- Z.shiftl_lxor. f_equal.
      rewrite Z.lxor_comm. pose proof (b2z_pow_lxor 1 (Z.b2z b) false) as X. clear X. apply Z.bits_inj'. intros p Hp. rewrite Z.lxor_spec. destruct (Z.eq_dec p 0) as [->|].
      + destruct b; cbn [Z.b2z]; rewrite ?Z.add_0_r, ?Z.testbit_odd_0, ?Z.testbit_even_0; reflexivity.
      + replace p with (Z.succ (p - 1)) by lia. destruct b; cbn [Z.b2z]; rewrite ?Z.add_0_r, ?Z.testbit_odd_succ, ?Z.testbit_even_succ by lia; try reflexivity.
        * change 1 with (2 ^ 0) at 2. rewrite Z.pow2_bits_false by lia. rewrite xorb_false_l. reflexivity.
        * rewrite Z.bits_0. rewrite xorb_false_l. reflexivity.
  Qed.
End C.
(** remainders are unique *)
Lemma times_log2 q d : 1 <= q -> 1 <= d -> 1 <= times q d /\ Z.log2 (times q d) = Z.log2 q + Z.log2 d.
Proof.
  intros Q D. destruct q as [|q|q]; try lia. clear Q. cbn [times]. induction q as [q IH|q IH|]; cbn [times_pos].
  - destruct IH as [I1 I2]. replace (Z.pos q~1) with (2 * Z.pos q + 1) by lia. rewrite Z.log2_succ_double by lia. assert (L : Z.log2 (2 * times_pos q d) = Z.succ (Z.log2 (times_pos q d))) by (apply Z.log2_double; lia).
    assert (LD : Z.log2 d < Z.log2 (2 * times_pos q d)) by (rewrite L, I2; pose proof (Z.log2_nonneg (Z.pos q)); lia).
    assert (E : Z.log2 (Z.lxor d (2 * times_pos q d)) = Z.log2 (2 * times_pos q d) /\ 1 <= Z.lxor d (2 * times_pos q d)).
    { assert (NN : 0 <= Z.lxor d (2 * times_pos q d)) by (apply Z.lxor_nonneg; lia). assert (TB : Z.testbit (Z.lxor d (2 * times_pos q d)) (Z.log2 (2 * times_pos q d)) = true).
      { rewrite Z.lxor_spec, Z.bit_log2 by lia. rewrite Z.bits_above_log2 by lia. reflexivity. }
      assert (NZ : Z.lxor d (2 * times_pos q d) <> 0) by (intros Z0; rewrite Z0, Z.bits_0 in TB; discriminate). split; [|lia].
      apply Z.le_antisymm; [pose proof (Z.log2_lxor d (2 * times_pos q d) ltac:(lia) ltac:(lia)); lia|]. destruct (Z.le_gt_cases (Z.log2 (2 * times_pos q d)) (Z.log2 (Z.lxor d (2 * times_pos q d)))) as [G|G]; [exact G|]. rewrite Z.bits_above_log2 in TB by lia. discriminate. }
    destruct E as [E1 E2]. split; [exact E2|]. lia.
  - destruct IH as [I1 I2]. replace (Z.pos q~0) with (2 * Z.pos q) by lia. rewrite !Z.log2_double by lia. lia.
  - split; [exact D|]. cbn. lia.
Qed.
Lemma times_lxor_pos q : forall r d, exists u, 0 <= u /\ (u = 0 -> Z.pos q = r) /\ (0 <= r -> Z.lxor (times (Z.pos q) d) (times r d) = times u d).
Proof.
  induction q as [q IH|q IH|]; intros r d.
  - destruct (Z.neg_nonneg_cases r) as [R|R]; [exists 1; split; [lia|]; split; lia|]. destruct (IH (r / 2) d) as (u & U & U0 & E). specialize (E ltac:(apply Z.div_pos; lia)). replace (Z.pos q~1) with (2 * Z.pos q + 1) by lia. rewrite times_double_one by lia.
    destruct (Z.odd r) eqn:O.
    + exists (2 * u). split; [lia|]. assert (Er : r = 2 * (r / 2) + 1) by (pose proof (Z.div_mod r 2 ltac:(lia)); rewrite Zmod_odd, O in *; lia). split; [lia|]. intros _. rewrite Er at 1. rewrite times_double_one by (apply Z.div_pos; lia). rewrite times_double by lia. rewrite <- E, <- lxor_double. apply Z.bits_inj'. intros p _. rewrite !Z.lxor_spec. destruct (Z.testbit d p), (Z.testbit (2 * times (Z.pos q) d) p), (Z.testbit (2 * times (r / 2) d) p); reflexivity.
    + exists (2 * u + 1). split; [lia|]. assert (Er : r = 2 * (r / 2)) by (pose proof (Z.div_mod r 2 ltac:(lia)); rewrite Zmod_odd, O in *; lia). split; [lia|]. intros _. rewrite Er at 1. rewrite times_double by (apply Z.div_pos; lia). rewrite times_double_one by lia. rewrite <- E, <- lxor_double. apply Z.lxor_assoc.
  - destruct (Z.neg_nonneg_cases r) as [R|R]; [exists 1; split; [lia|]; split; lia|]. destruct (IH (r / 2) d) as (u & U & U0 & E). specialize (E ltac:(apply Z.div_pos; lia)). replace (Z.pos q~0) with (2 * Z.pos q) by lia. rewrite times_double by lia.
    destruct (Z.odd r) eqn:O.
    + exists (2 * u + 1). split; [lia|]. assert (Er : r = 2 * (r / 2) + 1) by (pose proof (Z.div_mod r 2 ltac:(lia)); rewrite Zmod_odd, O in *; lia). split; [lia|]. intros _. rewrite Er at 1. rewrite !times_double_one by (try apply Z.div_pos; lia). rewrite <- E, <- lxor_double. apply Z.bits_inj'. intros p _. rewrite !Z.lxor_spec. destruct (Z.testbit d p), (Z.testbit (2 * times (Z.pos q) d) p), (Z.testbit (2 * times (r / 2) d) p); reflexivity.
    + exists (2 * u). split; [lia|]. assert (Er : r = 2 * (r / 2)) by (pose proof (Z.div_mod r 2 ltac:(lia)); rewrite Zmod_odd, O in *; lia). split; [lia|]. intros _. rewrite Er at 1. rewrite !times_double by (try apply Z.div_pos; lia). rewrite <- E, <- lxor_double. reflexivity.
  - destruct (Z.neg_nonneg_cases r) as [R|R]; [exists 1; split; [lia|]; split; lia|]. destruct (Z.odd r) eqn:O.
    + assert (Er : r = 2 * (r / 2) + 1) by (pose proof (Z.div_mod r 2 ltac:(lia)); rewrite Zmod_odd, O in *; lia). exists (2 * (r / 2)). assert (0 <= r / 2) by (apply Z.div_pos; lia). split; [lia|]. split; [lia|]. intros _. rewrite Er at 1. rewrite times_double_one, times_double by lia. cbn [times times_pos]. rewrite <- Z.lxor_assoc, Z.lxor_nilpotent. apply Z.lxor_0_l.
    + assert (Er : r = 2 * (r / 2)) by (pose proof (Z.div_mod r 2 ltac:(lia)); rewrite Zmod_odd, O in *; lia). exists (2 * (r / 2) + 1). assert (0 <= r / 2) by (apply Z.div_pos; lia). split; [lia|]. split; [lia|]. intros _. rewrite Er at 1. rewrite times_double_one, times_double by lia. reflexivity.
Qed.
Theorem remainder_unique n a p r r' : 0 <= n -> 0 <= p < 2 ^ n -> remainder n a (2 ^ n + p) r -> remainder n a (2 ^ n + p) r' -> r = r'.
Proof.
  intros N HP (R & q & Q & E) (R' & q' & Q' & E'). assert (PP : 0 < 2 ^ n) by (apply Z.pow_pos_nonneg; lia). set (d := 2 ^ n + p) in *.
  assert (X : Z.lxor (times q d) (times q' d) = Z.lxor r r'). { assert (Y : Z.lxor (times q d) r = Z.lxor (times q' d) r') by congruence. apply (f_equal (fun z => Z.lxor z (Z.lxor (times q' d) r))) in Y. apply Z.bits_inj'. intros i _. apply (f_equal (fun z => Z.testbit z i)) in Y. rewrite !Z.lxor_spec in *. destruct (Z.testbit (times q d) i), (Z.testbit (times q' d) i), (Z.testbit r i), (Z.testbit r' i); cbn in *; congruence. }
  assert (U : exists u, 0 <= u /\ (u = 0 -> q = q') /\ Z.lxor (times q d) (times q' d) = times u d).
  { destruct q as [|q|q]; try lia.
    - exists q'. split; [exact Q'|]. split; [lia|]. cbn [times]. apply Z.lxor_0_l.
    - destruct (times_lxor_pos q q' d) as (u & U & U0 & Eu). exists u. auto. }
  destruct U as (u & U & U0 & Eu). destruct (Z.eq_dec u 0) as [Z0|NZ].
  - rewrite (U0 Z0) in *. rewrite Z.lxor_nilpotent in X. symmetry in X. apply Z.lxor_eq in X. exact X.
  - exfalso. destruct (times_log2 u d ltac:(lia) ltac:(lia)) as [L1 L2]. rewrite <- Eu, X in L1, L2. assert (LD : n <= Z.log2 d) by (apply Z.log2_le_pow2; lia). pose proof (Z.log2_nonneg u). pose proof (Z.log2_lxor r r' ltac:(lia) ltac:(lia)) as LX.
    assert (forall z, 0 <= z < 2 ^ n -> z = 0 \/ Z.log2 z < n) as S. { intros z Hz. destruct (Z.eq_dec z 0); [auto|]. right. apply Z.log2_lt_pow2; lia. }
    destruct (S r R) as [->|S1], (S r' R') as [->|S2]; rewrite ?Z.lxor_0_l, ?Z.lxor_0_r in *; cbn [Z.log2] in *; try lia.
Qed.
(** ** sending the check along *)
Lemma poly_from message : forall m, fold_left (fun m b => 2 * m + Z.b2z b) message m = m * 2 ^ Z.of_nat (length message) + poly_of message.
Proof.
  unfold poly_of. induction message as [|b message IH]; intros m; [cbn; lia|]. cbn [fold_left length]. rewrite IH, (IH (2 * 0 + _)). rewrite Nat2Z.inj_succ, Z.pow_succ_r by lia. ring.
Qed.
Lemma poly_app l1 l2 : poly_of (l1 ++ l2) = poly_of l1 * 2 ^ Z.of_nat (length l2) + poly_of l2.
Proof. unfold poly_of at 1. rewrite fold_left_app. apply poly_from. Qed.
Lemma poly_bits k v : poly_of (bits_of (Z.of_nat k) v) = v mod 2 ^ Z.of_nat k.
Proof.
  unfold bits_of. rewrite Nat2Z.id. induction k as [|k IH]; [cbn; rewrite Z.mod_1_r; reflexivity|].
  cbn [seq map]. rewrite <- seq_shift, map_map. change (?b :: ?l) with ([b] ++ l). rewrite poly_app, map_length, seq_length. rewrite (map_ext _ (fun i => Z.testbit v (Z.of_nat k - 1 - Z.of_nat i))) by (intros i; f_equal; lia). rewrite IH.
  rewrite Nat2Z.inj_succ, <- Z.add_1_r, mod_next by lia. unfold poly_of. cbn [fold_left]. replace (Z.of_nat k + 1 - 1 - Z.of_nat 0) with (Z.of_nat k) by lia. ring.
Qed.
Lemma times_shift q d k : 0 <= q -> times (q * 2 ^ Z.of_nat k) d = times q d * 2 ^ Z.of_nat k.
Proof.
  intros Q. induction k as [|k IH]; [cbn; rewrite !Z.mul_1_r; reflexivity|]. rewrite Nat2Z.inj_succ, Z.pow_succ_r by lia. replace (q * (2 * 2 ^ Z.of_nat k)) with (2 * (q * 2 ^ Z.of_nat k)) by ring. assert (0 < 2 ^ Z.of_nat k) by (apply Z.pow_pos_nonneg; lia). rewrite times_double by nia. rewrite IH. ring.
Qed.
Theorem crc_checked n poly one sp c s message : 2 <= n -> typed poly n sp -> amount_of n one -> value one = 1 -> typed c n s ->
  exists r f, crc n poly one message c = Ok r /\ crc n poly one (message ++ bits_of n (num r)) c = Ok f /\ num f = 0.
Proof.
  intros N P O V C. destruct (crc_run n poly one sp N P O V c s message C) as (r & t & E & T & B & q & Q & EQ). destruct (crc_run n poly one sp N P O V c s (message ++ bits_of n (num r)) C) as (f & u & F & U & R). exists r, f. split; [exact E|]. split; [exact F|].
  pose proof (num_range poly ltac:(rewrite (typed_bw poly n sp ltac:(lia) P); lia)) as RP. rewrite (typed_bw poly n sp ltac:(lia) P) in RP.
  apply (remainder_unique n _ (num poly) _ _ ltac:(lia) RP R). assert (PP : 0 < 2 ^ n) by (apply Z.pow_pos_nonneg; lia). split; [lia|]. exists (q * 2 ^ n). split; [nia|]. rewrite Z.lxor_0_r.
  replace n with (Z.of_nat (Z.to_nat n)) at 4 by lia. rewrite times_shift by exact Q. rewrite Z2Nat.id by lia.
  assert (LB : Z.of_nat (length (bits_of n (num r))) = n) by (unfold bits_of; rewrite map_length, seq_length; lia).
  rewrite poly_app, app_length, Nat2Z.inj_add, LB. replace (poly_of (bits_of n (num r))) with (num r). 2: { pose proof (poly_bits (Z.to_nat n) (num r)) as X. rewrite Z2Nat.id in X by lia. rewrite X. symmetry. apply Z.mod_small. lia. }
  rewrite Z.pow_add_r, Z.mul_assoc by lia. rewrite <- !(Z.shiftl_mul_pow2 _ n) by lia. rewrite <- Z.shiftl_lxor. f_equal. rewrite Z.shiftl_mul_pow2 by lia.
  assert (X : poly_of message * 2 ^ n + num r = Z.lxor (poly_of message * 2 ^ n) (num r)).
  { apply Z.add_nocarry_lxor. apply Z.bits_inj'. intros p Hp. rewrite Z.land_spec, Z.bits_0. destruct (Z.lt_ge_cases p n); [rewrite Z.mul_pow2_bits_low by lia; reflexivity|]. fold (bit_at r p). rewrite at_out by (rewrite (typed_bw r n t ltac:(lia) T); lia). apply andb_false_r. }
  rewrite X, <- Z.lxor_assoc, EQ, Z.lxor_assoc, Z.lxor_nilpotent. apply Z.lxor_0_r.
Qed.
Theorem crc_remainder n poly one sp c s message : 2 <= n -> typed poly n sp -> amount_of n one -> value one = 1 -> typed c n s ->
  exists r, crc n poly one message c = Ok r /\ remainder n (Z.lxor (num c * 2 ^ Z.of_nat (length message)) (poly_of message * 2 ^ n)) (2 ^ n + num poly) (num r).
Proof. intros N P O V C. destruct (crc_run n poly one sp N P O V c s message C) as (r & t & E & _ & R). eauto. Qed.
