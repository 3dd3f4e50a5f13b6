(** When the comparisons and queries of [big_num] objects are right. *)
From Coq Require Import ZArith List Bool Lia Zify ZifyBool.
From Verif Require Import Cpp BigNum Util Bit Spec ZBits Words BigNumProofs BigArith BitCmp BitShift BigObj SpecBig BigObjProofs BigObjProofs2 BigObjProofs3 SpecExact SpecMachine SpecWide WideProofs SpecBigRef BigRef SpecIff SpecIff3 Iff6 Iff8 Iff9 Iff14 Iff16.
Import ListNotations.
Open Scope Z_scope.
Local Ltac Zify.zify_post_hook ::= idtac.

Lemma num_confused_dec x y n s m t : is_num x n s -> is_num y m t -> num_confused x y \/ ~ num_confused x y.
Proof.
  intros H K. unfold num_confused. cbn zeta. pose proof (isn_pos _ _ _ H) as P. pose proof (isn_pos _ _ _ K) as P'. pose proof (words_in_pos n P) as A. pose proof (words_in_pos m P') as B. unfold words_in in A, B.
  pose proof (magn_range _ _ _ H) as Rx. pose proof (magn_range _ _ _ K) as Ry. rewrite (proj1 (proj2 H)), (proj1 (proj2 K)). set (k := 64 * _). assert (0 < 2 ^ k) by (apply pow2_pos; lia).
  destruct (Z.eq_dec (magn x mod 2 ^ k) (magn y mod 2 ^ k)) as [E | E]; [|right; tauto]. destruct (hollow_dec (magn x / 2 ^ k)) as [C | C]; [apply Z.div_pos; lia| |right; tauto]. destruct (hollow_dec (magn y / 2 ^ k)) as [D | D]; [apply Z.div_pos; lia| |right; tauto]. left. tauto.
Qed.
Lemma num_eq_sound x y n s m t : is_num x n s -> is_num y m t -> inwidth x -> inwidth y -> s && t = false ->
  exists e, num_eq x y = Ok e /\ (e = true <-> num_confused x y) /\ (magn x = magn y -> num_confused x y).
Proof.
  intros H K Cx Cy ST. pose proof (isn_pos _ _ _ H) as P. pose proof (isn_pos _ _ _ K) as P'. destruct (raw_in _ _ _ H Cx) as [Qx Rx]. destruct (raw_in _ _ _ K Cy) as [Qy Ry].
  rewrite (eq_ref x y n s m t) by assumption. unfold ref_eq, num_confused. rewrite (proj1 (proj2 (proj2 H))), (proj1 (proj2 (proj2 K))), ST, (proj1 (proj2 H)), (proj1 (proj2 K)), Qx, Qy. cbn zeta. fold (words_in n) (words_in m). set (k := Z.min (words_in n) (words_in m)).
  pose proof (words_in_pos n P) as A. pose proof (words_in_pos m P') as B. pose proof (in_capacity n _ P Rx) as Ka. pose proof (in_capacity m _ P' Ry) as Kb.
  eexists. split; [reflexivity|]. split; [rewrite !andb_true_iff, Z.eqb_eq, !skip_hollow by lia; tauto|]. intros E. rewrite <- E in *. split; [reflexivity|].
  assert (Z0 : magn x / 2 ^ (64 * k) = 0); [|rewrite Z0; split; exact hollow_0]. apply Z.div_small. split; [lia|]. unfold capacity in *. destruct (Z.min_spec (words_in n) (words_in m)) as [[_ D] | [_ D]]; unfold k; rewrite D; lia.
Qed.
Lemma num_eq_iff x y n s m t : is_num x n s -> is_num y m t -> inwidth x -> inwidth y -> s && t = false ->
  (num_eq x y = Ok (magn x =? magn y) <-> magn x = magn y \/ ~ num_confused x y) /\ (num_ne x y = Ok (negb (magn x =? magn y)) <-> magn x = magn y \/ ~ num_confused x y) /\
  (num_ge x y = Ok (magn y <=? magn x) <-> magn y <= magn x \/ ~ num_confused x y).
Proof.
  intros H K Cx Cy ST. destruct (num_eq_sound x y n s m t H K Cx Cy ST) as (e & E & C & D). destruct (raw_in _ _ _ H Cx) as [Qx _]. destruct (raw_in _ _ _ K Cy) as [Qy _].
  assert (NE : num_ne x y = Ok (negb e)) by (unfold num_ne; rewrite E; reflexivity).
  assert (GE : num_ge x y = Ok ((magn y <? magn x) || e)).
  { rewrite (ge_ref x y n s m t) by assumption. unfold ref_ge. rewrite <- (eq_ref x y n s m t), E by assumption. unfold ref_gt. rewrite (proj1 (proj2 (proj2 H))), (proj1 (proj2 (proj2 K))), ST, Qx, Qy. reflexivity. }
  rewrite E, NE, GE. assert (DC : e = false -> ~ num_confused x y) by (intros X Y; apply C in Y; congruence).
  split; [|split].
  - destruct (Z.eqb_spec (magn x) (magn y)) as [Q | Q].
    + specialize (D Q). apply C in D. rewrite D. tauto.
    + destruct e; split; try reflexivity; try discriminate; [intros [X | X]; [contradiction|exfalso; apply X, C; reflexivity]|intros _; right; apply DC; reflexivity].
  - destruct (Z.eqb_spec (magn x) (magn y)) as [Q | Q].
    + specialize (D Q). apply C in D. rewrite D. tauto.
    + destruct e; split; try reflexivity; try discriminate; [intros [X | X]; [contradiction|exfalso; apply X, C; reflexivity]|intros _; right; apply DC; reflexivity].
  - destruct (Z.ltb_spec (magn y) (magn x)) as [L | L], (Z.leb_spec (magn y) (magn x)) as [L' | L']; cbn [orb]; try (exfalso; lia).
    + split; [intros _; left; exact L'|reflexivity].
    + assert (Q : magn x = magn y) by lia. specialize (D Q). apply C in D. rewrite D. split; [intros _; left; exact L'|reflexivity].
    + destruct e; split; try reflexivity; try discriminate; [intros [X | X]; [lia|exfalso; apply X, C; reflexivity]|intros _; right; apply DC; reflexivity].
Qed.
(** signed objects; other sizes do not compile (C97_signed_rejected) *)
Lemma num_eq_signed_iff x y n m : is_num x n true -> is_num y m true -> inwidth x -> inwidth y -> n < m ->
  num_eq x y = Ok (ival x =? ival y) <-> (0 <= ival x -> ival y <> ival x /\ ival y <> ival x - 2 ^ n).
Proof.
  intros H K Cx Cy L. pose proof (isn_pos _ _ _ H) as P. destruct (raw_in _ _ _ K Cy) as [Qy Ry]. destruct (ival_cases x n H) as (Bx & Nx & Zx). destruct (ival_cases y m K) as (By & Ny & Zy).
  destruct (stretch_cases x n true m false H Cx ltac:(lia) ltac:(discriminate)) as [R [[[W1 | [_ W1]] _] | (_ & _ & Q1 & Q2)]]; [rewrite (proj1 (proj2 H)) in W1; lia|rewrite (proj1 (proj2 (proj2 H))) in W1; discriminate|].
  rewrite (eq_ref x y n true m true) by assumption. unfold ref_eq. rewrite (proj1 (proj2 (proj2 H))), (proj1 (proj2 (proj2 K))), (proj1 (proj2 H)), (proj1 (proj2 K)). cbn [andb]. replace (n <? m) with true by lia. rewrite Q2, Qy.
  assert (P1 : 2 ^ n <= 2 ^ (m - 1)) by (apply Z.pow_le_mono_r; lia). pose proof (pow_double m ltac:(lia)) as D. pose proof (pow_double n P) as D'. pose proof (pow2_pos (n - 1) ltac:(lia)).
  destruct (Z.eqb_spec (ival x) (ival y)) as [E | E], (Z.eqb_spec (magn x + (2 ^ m - 2 ^ n)) (magn y)) as [E' | E'].
  - split; [intros _ X; lia|reflexivity].
  - split; [discriminate|]. intros X. exfalso. destruct (Z.lt_ge_cases (ival x) 0) as [C | C]; lia.
  - split; [discriminate|]. intros X. exfalso. destruct (Z.lt_ge_cases (ival x) 0) as [C | C], (Z.lt_ge_cases (ival y) 0) as [C' | C']; lia.
  - split; [intros _ X; lia|reflexivity].
Qed.
Lemma lowest_iff x n : is_num x n true -> lowest x = true <-> num_least x.
Proof.
  intros H. pose proof (isn_pos _ _ _ H) as P. destruct (ival_cases x n H) as (B & N & Z0). pose proof (pow_double n P). pose proof (pow2_pos (n - 1) ltac:(lia)). unfold lowest, num_least. rewrite (proj1 (proj2 H)), Z.eqb_eq. destruct (Z.lt_ge_cases (ival x) 0); lia.
Qed.
Lemma num_gt_signed_iff x y n m : is_num x n true -> is_num y m true -> inwidth x -> inwidth y ->
  (num_gt x y = Ok (ival y <? ival x) <->
    0 <= ival x \/ 0 <= ival y \/ (num_least x /\ ~ num_least y /\ ival y < ival x) \/ (~ num_least x /\ num_least y /\ ival x <= ival y) \/
    (~ num_least x /\ ~ num_least y /\ (num_magnitude x < num_magnitude y <-> ival y < ival x))) /\
  (num_gt x y = Fuel <-> num_least x /\ num_least y).
Proof.
  intros H K Cx Cy. pose proof (isn_pos _ _ _ H) as P. pose proof (isn_pos _ _ _ K) as P'. destruct (raw_in _ _ _ H Cx) as [Qx Rx]. destruct (raw_in _ _ _ K Cy) as [Qy Ry]. destruct (ival_cases x n H) as (Bx & Nx & Zx). destruct (ival_cases y m K) as (By & Ny & Zy).
  pose proof (lowest_iff x n H) as Lx. pose proof (lowest_iff y m K) as Ly. pose proof (pow2_pos (n - 1) ltac:(lia)) as Px. pose proof (pow2_pos (m - 1) ltac:(lia)) as Py.
  assert (MG : forall z k, is_num z k true -> inwidth z -> ival z < 0 -> (- raw z) mod 2 ^ capacity k = num_magnitude z).
  { intros z k J C N. pose proof (isn_pos _ _ _ J) as Pk. destruct (raw_in _ _ _ J C) as [Q R]. destruct (ival_cases z k J) as (B & V & _). rewrite Q, (V N). pose proof (pow_double k Pk). pose proof (pow2_pos (k - 1) ltac:(lia)). assert (2 ^ k <= 2 ^ capacity k) by (apply Z.pow_le_mono_r; [lia|apply capacity_ge; lia]).
    rewrite <- (Z.mod_add _ 1) by lia. rewrite Z.mod_small by lia. unfold num_magnitude. rewrite (proj1 (proj2 J)). fold (words_in k) (capacity k). lia. }
  assert (NL : forall z k, is_num z k true -> num_least z -> ival z < 0).
  { intros z k J A. unfold num_least in A. rewrite (proj1 (proj2 J)) in A. pose proof (isn_pos _ _ _ J). pose proof (pow2_pos (k - 1) ltac:(lia)). lia. }
  pose proof (NL x n H) as NLx. pose proof (NL y m K) as NLy.
  rewrite (gt_ref x y n true m true) by assumption. unfold ref_gt. rewrite (proj1 (proj2 (proj2 H))), (proj1 (proj2 (proj2 K))), (proj1 (proj2 H)), (proj1 (proj2 K)). cbn [andb].
  destruct (Z.ltb_spec (ival x) 0) as [A | A], (Z.ltb_spec (ival y) 0) as [B | B]; cbn [andb].
  - rewrite (MG x n), (MG y m) by assumption. destruct (lowest x) eqn:Ma, (lowest y) eqn:Mb.
    + assert (num_least x) by tauto. assert (num_least y) by tauto. split; [|tauto]. split; [discriminate|]. intros [X | [X | [X | [X | X]]]]; lia || tauto.
    + assert (num_least x) by tauto. assert (M : ~ num_least y) by (rewrite <- Ly; discriminate). split; [|split; [discriminate|tauto]]. destruct (Z.ltb_spec (ival y) (ival x)); (split; [discriminate || tauto|]); [reflexivity|]. intros [X | [X | [X | [X | X]]]]; lia || tauto.
    + assert (num_least y) by tauto. assert (M : ~ num_least x) by (rewrite <- Lx; discriminate). split; [|split; [discriminate|tauto]]. destruct (Z.ltb_spec (ival y) (ival x)); (split; [discriminate || tauto|]); [|reflexivity]. intros [X | [X | [X | [X | X]]]]; lia || tauto.
    + assert (M1 : ~ num_least x) by (rewrite <- Lx; discriminate). assert (M2 : ~ num_least y) by (rewrite <- Ly; discriminate). split; [|split; [discriminate|tauto]].
      destruct (Z.ltb_spec (num_magnitude x) (num_magnitude y)), (Z.ltb_spec (ival y) (ival x)); split; try discriminate; try reflexivity; try (intros _; right; right; right; right; repeat split; assumption || lia);
        intros [X | [X | [X | [X | X]]]]; lia || tauto.
  - replace (ival y <? ival x) with false by lia. split; [split; [intros _; lia|reflexivity]|]. split; [discriminate|]. intros [_ X]. apply NLy in X. lia.
  - replace (ival y <? ival x) with true by lia. split; [split; [intros _; lia|reflexivity]|]. split; [discriminate|]. intros [X _]. apply NLx in X. lia.
  - rewrite Qx, Qy, Zx, Zy by lia. split; [split; [intros _; lia|reflexivity]|]. split; [discriminate|]. intros [X _]. apply NLx in X. lia.
Qed.

(** * queries *)
Lemma zero_hollow n z : 1 <= n -> 0 <= z < 2 ^ n -> seems_zero n z = true <-> hollow z.
Proof.
  intros H R. unfold seems_zero, words_of. apply blank_hollow. pose proof (words_in_pos n H). rewrite Z2Nat.id by lia. exact (in_capacity n z H R).
Qed.
Lemma small_hollow n z : 1 <= n -> 0 <= z < 2 ^ n -> seems_small n z = true <-> hollow (z / 2 ^ 64).
Proof.
  intros H R. destruct (Z.leb_spec n 64) as [L | L]; [|apply seems_small_hollow; [lia|exact (in_capacity n z H R)]].
  assert (2 ^ n <= 2 ^ 64) by (apply Z.pow_le_mono_r; lia). unfold seems_small. rewrite seems_zero_short by lia. rewrite (proj1 (short_hollow z ltac:(lia))). split; [intros _; exact hollow_0|reflexivity].
Qed.
Lemma num_queries_iff x n s : is_num x n s -> inwidth x ->
  (num_any_set x = negb (magn x =? 0) <-> magn x = 0 \/ ~ hollow (magn x)) /\
  (num_fit_in_64 x = (magn x <? 2 ^ 64) <-> magn x < 2 ^ 64 \/ ~ hollow (magn x / 2 ^ 64)) /\
  (num_is_one x = (magn x =? 1) <-> magn x = 1 \/ magn x mod 2 ^ 64 <> 1 \/ ~ hollow (magn x / 2 ^ 64)) /\
  (num_all_set x = (magn x =? 2 ^ n - 1) <-> n <= 64 \/ magn x <> 2 ^ n - 1) /\
  (num_highest_bit x = Z.log2 (magn x) <-> magn x <> 0).
Proof.
  intros H C. pose proof (isn_pos _ _ _ H) as P. destruct (raw_in _ _ _ H C) as [Q R]. pose proof (zero_hollow n (magn x) P R) as HZ. pose proof (small_hollow n (magn x) P R) as HS. pose proof hollow_0 as H0.
  rewrite (any_ref x n s), (fit_ref x n s), (one_ref x n s), (all_ref x n s), (highest_ref x n s) by assumption. unfold ref_any, ref_one, ref_all, ref_highest. rewrite (proj1 (proj2 H)), Q.
  split; [|split; [|split; [|split]]].
  - destruct (seems_zero n (magn x)); cbn [negb].
    + assert (X : hollow (magn x)) by now apply HZ. destruct (Z.eqb_spec (magn x) 0) as [E | E]; cbn [negb]; [tauto|]. split; [discriminate|tauto].
    + assert (X : ~ hollow (magn x)) by (rewrite <- HZ; discriminate). destruct (Z.eqb_spec (magn x) 0) as [E | E]; cbn [negb]; [|tauto]. rewrite E in X. tauto.
  - assert (Z0 : magn x < 2 ^ 64 -> hollow (magn x / 2 ^ 64)) by (intros L; rewrite (Z.div_small (magn x)) by lia; exact H0).
    destruct (seems_small n (magn x)); [assert (X : hollow (magn x / 2 ^ 64)) by now apply HS|assert (X : ~ hollow (magn x / 2 ^ 64)) by (rewrite <- HS; discriminate)]; destruct (Z.ltb_spec (magn x) (2 ^ 64)) as [L | L]; try tauto.
    split; [discriminate|]. intros [Y | Y]; [lia|contradiction].
  - assert (Z0 : magn x = 1 -> hollow (magn x / 2 ^ 64) /\ magn x mod 2 ^ 64 = 1) by (intros ->; split; [exact H0|reflexivity]).
    destruct (seems_small n (magn x)); [assert (X : hollow (magn x / 2 ^ 64)) by now apply HS|assert (X : ~ hollow (magn x / 2 ^ 64)) by (rewrite <- HS; discriminate)]; cbn [andb];
      destruct (Z.eqb_spec (magn x mod 2 ^ 64) 1) as [E | E], (Z.eqb_spec (magn x) 1) as [E' | E']; try tauto; (split; [discriminate|tauto]).
  - destruct (Z.leb_spec n 64) as [L | L]; cbn [andb]; [split; [intros _; left; exact L|reflexivity]|]. destruct (Z.eqb_spec (magn x) (2 ^ n - 1)) as [E | E]; split; try discriminate; try reflexivity; [intros [X | X]; lia|intros _; right; exact E].
  - destruct (Z.eqb_spec (magn x) 0) as [E | E]; [|tauto]. rewrite E. cbn [Z.log2]. pose proof (words_in_pos n P). split; [lia|]. intros X. contradiction.
Qed.
