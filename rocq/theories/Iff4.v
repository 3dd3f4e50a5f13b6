(** Exactly when truth values, [match] and the reductions are right. *)
From Coq Require Import ZArith List Bool Lia.
From Verif Require Import Cpp BigNum Bit Logic Spec SpecExact SpecMachine SpecWide SpecFour SpecIff BitExt BitOps ZBits Words BigNumProofs BitProofs BitCmp BitMain BitMain2 MachineProofs LogicProofs LogicOps LogicArith LogicArith2 LogicMain LogicRed ReachProofs WideProofs WideProofs2 WideProofs4 FourProofs FourProofs2 Iff2 Iff3.
Import ListNotations.
Open Scope Z_scope.
Local Ltac Zify.zify_post_hook ::= idtac.

Lemma sym_one l p : sym_at l p = S1 <-> bit_at (l_val l) p = true /\ bit_at (l_xz l) p = false.
Proof. unfold sym_at. destruct (bit_at (l_val l) p), (bit_at (l_xz l) p); cbn; intuition discriminate. Qed.
Lemma bool_iff l : lvec l -> ltidy l -> logic_bool l = true <-> ~ noticed l /\ exists p, 0 <= p < lw l /\ sym_at l p = S1 /\ (lw l <= 64 \/ p mod 64 < 32).
Proof.
  intros V [T1 T2]. rewrite bool_four by exact V. unfold four_true. rewrite andb_true_iff, negb_true_iff. pose proof (doubtful_noticed l V T2) as D. rewrite (any_true_iff (l_val l)) by (exact T1 || apply V). fold (lw l).
  split.
  - intros [F (p & Hp & B & C)]. split; [intros N; apply D in N; congruence|]. exists p. split; [exact Hp|]. split; [|exact C]. apply sym_one. split; [exact B|].
    destruct (bit_at (l_xz l) p) eqn:X; [|reflexivity]. exfalso. assert (noticed l); [|apply D in H; congruence]. exists p. split; [exact Hp|]. split; [now rewrite unknown_bit|exact C].
  - intros [N (p & Hp & B & C)]. split; [destruct (doubtful l); [now destruct N; apply D|reflexivity]|]. exists p. split; [exact Hp|]. split; [now apply sym_one|exact C].
Qed.
Lemma lnot_iff l : lvec l -> ltidy l -> (sym_at (logic_lnot l) 0 = SX <-> noticed l) /\ (sym_at (logic_lnot l) 0 = S0 <-> logic_bool l = true) /\ sym_at (logic_lnot l) 0 <> SZ.
Proof.
  intros V [T1 T2]. rewrite bool_four, lnot_four by exact V. unfold four_true, four_false. pose proof (doubtful_noticed l V T2) as D. rewrite <- D. destruct (doubtful l); [|destruct (any_true (l_val l))]; cbn; repeat split; try discriminate; intros H; discriminate H.
Qed.

(** [match] *)
Lemma equal_typed a b : vec a -> vec b -> bw a = bw b -> bsgn a = bsgn b -> any_equal a b = if (bw a <=? 64) || negb (bsgn a) then Ok (stored a =? stored b) else IllFormed.
Proof.
  intros Va Vb W S. pose proof (bw_pos a) as P. unfold any_equal, small, both_signed. rewrite <- W, <- S. destruct (Z.leb_spec (bw a) 64) as [G|G]; cbn [andb orb].
  - unfold equal_native. destruct (vec_cases_n b (bw a) Vb (eq_sym W)) as [(v & _ & _ & I & -> & _)|(ws & _ & L & _)]; [|lia]. rewrite <- S in I. rewrite store_in by (auto; lia). reflexivity.
  - rewrite andb_diag. destruct (bsgn a); cbn [negb]; [now rewrite Z.ltb_irrefl|]. rewrite Z.min_id. pose proof (stored_range a Va ltac:(lia)) as Ra. pose proof (stored_range b Vb ltac:(lia)) as Rb. rewrite <- W in Rb. fold (capacity (bw a)). rewrite !Z.mod_small by assumption.
    assert (K : forall z, blank (skipn (Z.to_nat (words_in (bw a))) (words_of (bw a) z)) = true). { intros z. rewrite skipn_all2; [reflexivity|]. unfold words_of. assert (X : forall k y, length (spread k y) = k) by (induction k; intros; cbn; [reflexivity|now rewrite IHk]). rewrite X. lia. }
    rewrite !K, !andb_true_r. reflexivity.
Qed.
Lemma match_iff a b n s : 1 <= n -> ltyped a n s -> ltyped b n s ->
  (logic_match a b <> IllFormed <-> s = false \/ n <= 64) /\
  (s = false \/ n <= 64 -> exists c, logic_match a b = Ok c /\ (c = true <-> stored (l_val a) = stored (l_val b) /\ stored (l_xz a) = stored (l_xz b))).
Proof.
  intros Hn Ta Tb. pose proof (ltyped_lvec a n s Ta) as La. pose proof (ltyped_lvec b n s Tb) as Lb. rewrite match_four by assumption. unfold four_match. destruct Ta as [Ta Xa], Tb as [Tb Xb].
  pose proof (typed_bw _ _ _ Hn Ta) as W1. pose proof (typed_bw _ _ _ Hn Tb) as W2. pose proof (typed_bw _ _ _ Hn Xa) as W3. pose proof (typed_bw _ _ _ Hn Xb) as W4. destruct Ta as (Va & _ & Sa), Tb as (Vb & _ & Sb), Xa as (Vxa & _ & Sxa), Xb as (Vxb & _ & Sxb).
  rewrite !equal_typed by (assumption || congruence). rewrite W1, W3, Sa, Sxa, orb_true_r. destruct ((n <=? 64) || negb s) eqn:Q; cbn [bind].
  - assert (Y : s = false \/ n <= 64) by (destruct s; [right; cbn in Q; rewrite orb_false_r in Q; lia|now left]). split; [split; [auto|discriminate]|]. intros _. eexists. split; [reflexivity|]. rewrite andb_true_iff, !Z.eqb_eq. tauto.
  - assert (Y : ~ (s = false \/ n <= 64)) by (intros [->|X]; [rewrite orb_true_r in Q; discriminate|replace (n <=? 64) with true in Q by lia; discriminate]). split; [tauto|tauto].
Qed.

(** ^ reduction *)
Lemma ones_step k z : ones (Z.of_nat (S k)) z = ones (Z.of_nat k) z + Z.b2z (Z.testbit z (Z.of_nat k)).
Proof. unfold ones. rewrite !Nat2Z.id. rewrite seq_S, filter_app, app_length. cbn [filter plus]. destruct (Z.testbit z (Z.of_nat k)); cbn [length Z.b2z]; lia. Qed.
Lemma xor_assoc4 a b c : xor4 a (xor4 b c) = xor4 (xor4 a b) c. Proof. now destruct a, b, c. Qed.
Lemma reduce_xor l n : 0 <= n -> ((exists p, 0 <= p < n /\ unknown (sym_at l p) = true) -> reduce xor4 S0 l n = SX) /\
  ((forall p, 0 <= p < n -> unknown (sym_at l p) = false) -> reduce xor4 S0 l n = sym_of_bool (Z.odd (ones n (num (l_val l))))).
Proof.
  intros Hn. unfold reduce. split.
  - intros (p & Hp & U). assert (I : In p (zrange 0 n)) by (apply ZBits.in_zrange; lia). induction (zrange 0 n) as [|q qs IH]; [destruct I|]. destruct I as [->|I]; cbn [fold_right]; [destruct (sym_at l p); try discriminate U; now destruct (fold_right _ _ _)|]. rewrite IH by exact I. now destruct (sym_at l q).
  - rewrite <- (Z2Nat.id n Hn). generalize (Z.to_nat n). clear n Hn. intros k. induction k as [|k IH]; intros K; [reflexivity|].
    rewrite ones_step, Z.odd_add. replace (Z.of_nat (S k)) with (Z.of_nat k + 1) by lia. rewrite zrange_snoc by lia. rewrite fold_right_app. cbn [fold_right].
    assert (G : forall ps x, x <> SZ -> fold_right (fun p acc => xor4 (sym_at l p) acc) x ps = xor4 (fold_right (fun p acc => xor4 (sym_at l p) acc) S0 ps) x).
    { induction ps as [|q qs IHq]; intros x X; cbn [fold_right]; [now destruct x|]. rewrite IHq by exact X. apply xor_assoc4. }
    rewrite G by (destruct (sym_at l (Z.of_nat k)); discriminate). rewrite IH by (intros; apply K; lia). specialize (K (Z.of_nat k) ltac:(lia)). change (Z.testbit (num (l_val l)) (Z.of_nat k)) with (bit_at (l_val l) (Z.of_nat k)).
    unfold sym_at in *. destruct (bit_at (l_val l) (Z.of_nat k)), (bit_at (l_xz l) (Z.of_nat k)); try discriminate K; destruct (Z.odd (ones (Z.of_nat k) (num (l_val l)))); reflexivity.
Qed.
Lemma r_xor_iff l n s : 1 <= n -> ltyped l n s -> ltidy l ->
  (exists r, logic_r_xor l = Ok r /\ sym_at r 0 = reduce xor4 S0 l n) <-> 2 <= n <= 64 /\ s = false /\ (Z.even n = true \/ ~ known l).
Proof.
  intros Hn T D. pose proof (ltyped_lvec l n s T) as L. assert (W : lw l = n) by (apply (typed_bw _ _ s Hn); apply T). assert (Sg : lsgn l = s) by apply T.
  assert (C : (2 <= n <= 64 /\ s = false) \/ (lw l = 1 \/ 65 <= lw l \/ lsgn l = true)) by (rewrite W, Sg; destruct s; [tauto|lia]).
  destruct C as [[R ->]|C].
  - destruct (red_xor l n R T D) as (r & _ & E & _ & _ & _ & _ & U & K). destruct (reduce_xor l n ltac:(lia)) as [RU RK].
    assert (DK : known l \/ exists p, 0 <= p < n /\ unknown (sym_at l p) = true).
    { destruct (existsb (fun p => unknown (sym_at l p)) (zrange 0 n)) eqn:X; [right|left].
      - apply existsb_exists in X. destruct X as (p & I & X). exists p. split; [now apply ZBits.in_zrange|exact X].
      - intros p Hp. rewrite W in Hp. destruct (unknown (sym_at l p)) eqn:Y; [|reflexivity]. assert (existsb (fun p => unknown (sym_at l p)) (zrange 0 n) = true); [|congruence]. apply existsb_exists. exists p. split; [apply ZBits.in_zrange; lia|exact Y]. }
    destruct DK as [Y|Y].
    + rewrite RK by (rewrite <- W; exact Y). split.
      * intros (r' & E' & X). split; [exact R|]. split; [reflexivity|]. left. rewrite E in E'. injection E' as <-. rewrite (K Y) in X. rewrite Z.odd_sub in X. rewrite <- Z.negb_odd. destruct (Z.odd n), (Z.odd (ones n (num (l_val l)))); try discriminate X; reflexivity.
      * intros (_ & _ & [Ev|Nk]); [|contradiction]. exists r. split; [exact E|]. rewrite (K Y), Z.odd_sub. rewrite <- Z.negb_odd in Ev. destruct (Z.odd n); [discriminate|]. now rewrite xorb_false_l.
    + assert (Nk : ~ known l) by (intros KK; destruct Y as (p & Hp & X); rewrite KK in X by lia; discriminate). split; [intros _; tauto|]. intros _. exists r. split; [exact E|]. rewrite (RU Y). now apply U.
  - destruct (red_xor_rejected l L C) as [E _]. rewrite E. split; [intros (r & X & _); discriminate|]. intros (R & -> & _). rewrite W, Sg in C. destruct C as [C|[C|C]]; [lia|lia|discriminate].
Qed.
