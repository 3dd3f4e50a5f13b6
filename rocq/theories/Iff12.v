(** Exactly when 4-state positions, conversions to numbers and construction from numbers are right. *)
From Coq Require Import ZArith List Bool Lia.
From Verif Require Exact.
From Verif Require Import Cpp BigNum Bit Logic More Rest BigObj Spec SpecBig SpecExact SpecMachine SpecWide SpecFour SpecIff BitExt BitOps ZBits Words BigNumProofs BitProofs BitCmp BitShift BitMain BitMain2 BitMain4 BitMain5 LogicProofs LogicRed LogicMain MachineProofs MachineProofs3 MachineProofs4 ReachProofs ReachProofs2 WideProofs WideProofs2 WideProofs3 WideProofs4 RestProofs RestProofs2 Iff2 Iff3 Iff4 Iff5 Iff6 Iff7 Iff8 Iff9 Iff10.
Import ListNotations.
Open Scope Z_scope.
Local Ltac Zify.zify_post_hook ::= idtac.

(** * 4-state positions (C03) *)
Lemma read4_iff l j : lvec l -> Z.min (lmsb l) (llsb l) = 0 -> in_range (lmsb l) (llsb l) j ->
  ((exists r, logic_get l j = Ok r /\ sym_at r 0 = sym_at l (place (lmsb l) (llsb l) j)) <-> (unknown (sym_at l (place (lmsb l) (llsb l) j)) = true -> j < 64)) /\
  (unknown (sym_at l (place (lmsb l) (llsb l) j)) = true -> 64 <= j -> logic_get l j = UB).
Proof.
  intros V Z0 R. pose proof (logic_get_spec l j V Z0 R) as G. cbn zeta in G. split; [split|].
  - intros (r & E & _) U. rewrite G, U in E. cbn [andb] in E. destruct (Z.leb_spec 64 j); [discriminate|lia].
  - intros U. destruct (read4 l j V Z0 R U) as (r & E & _ & S). eauto.
  - intros U H. rewrite G, U. cbn [andb]. replace (64 <=? j) with true by lia. reflexivity.
Qed.
Lemma access4_iff l i s : lvec l -> Z.min (lmsb l) (llsb l) = 0 -> in_range (lmsb l) (llsb l) i ->
  (exists l' r, (match s with S0 => logic_set l i false | S1 => logic_set l i true | SX => logic_set_x l i | SZ => logic_set_z l i end) = Ok l' /\ logic_get l' i = Ok r /\ sym_at r 0 = s) <->
  (unknown s = true -> i < 64).
Proof.
  intros V Z0 R. split.
  - intros (l' & r & E & G & _) U. destruct (logic_write_spec l i s V Z0 R) as (l2 & E2 & _ & V2 & A & B & _ & _ & Q). unfold logic_write in E2. assert (l2 = l') by (destruct s; congruence). subst l2.
    destruct (get_pair l i V Z0 R) as (P & _). specialize (Q _ P). rewrite Z.eqb_refl in Q. assert (Z0' : Z.min (lmsb l') (llsb l') = 0) by (rewrite A, B; exact Z0).
    rewrite <- A, <- B in R, Q. destruct (Z.lt_ge_cases i 64) as [L|L]; [exact L|]. rewrite (proj2 (read4_iff l' i V2 Z0' R)) in G; [discriminate|rewrite Q; exact U|lia].
  - intros U. destruct (access4 l i s V Z0 R U) as (l' & E & _ & _ & _ & _ & _ & (r & G & _ & Sr) & _). eauto.
Qed.

(** * conversion to numbers (C47) *)
Lemma stored_value_iff b : vec b -> bw b <= 64 -> stored b = value b <-> tidy b /\ (bw b = 1 -> bsgn b = true -> num b = 0).
Proof.
  intros V L. pose proof (bw_pos b) as P. destruct (Z.eq_dec (bw b) 1) as [E|E].
  - destruct (stored_one b V E) as [S C]. assert (T : tidy b). { unfold tidy. destruct (vec_cases b V) as [(v & Ev & _ & _ & Sv)|(ws & _ & X & _)]; [|lia]. rewrite Ev, E. cbn [Z.ltb Z.compare Pos.compare Pos.compare_cont]. rewrite andb_false_r. change (2 ^ 1) with 2. lia. }
    unfold value, snum, twos. rewrite E, S. change (1 - 1) with 0. destruct (bsgn b), C as [-> | ->]; cbn; intuition congruence.
  - assert (W : 2 <= bw b <= 64) by lia. split; [|intros [T _]; now apply tidy_stored]. intros S. split; [|intros X; lia]. unfold tidy. destruct (vec_cases b V) as [(v & Ev & _ & _ & Sv)|(ws & _ & X & _)]; [|lia]. rewrite Ev. rewrite <- Sv, S.
    destruct (value_range b) as (R & Rs & Ru). replace (1 <? bw b) with true by lia. destruct (bsgn b); cbn [andb]; [specialize (Rs eq_refl)|specialize (Ru eq_refl)]; lia.
Qed.
Lemma to_num_iff b : vec b -> bit_to_num b = Ok (value b) <-> bw b <= 64 /\ tidy b /\ (bw b = 1 -> bsgn b = true -> num b = 0).
Proof.
  intros V. unfold bit_to_num. destruct (vec_cases b V) as [(v & Ev & L & _ & Sv)|(ws & Ev & L & _)]; rewrite Ev.
  - rewrite <- (stored_value_iff b V (proj2 L)), Sv. split; [intros X; injection X as ->; split; [lia|reflexivity]|intros [_ ->]; reflexivity].
  - split; [discriminate|lia].
Qed.
Lemma wide_value_mod b : 65 <= bw b -> value b mod 2 ^ 64 = stored b mod 2 ^ 64.
Proof.
  intros H. assert (N : num b mod 2 ^ 64 = stored b mod 2 ^ 64) by (unfold num; apply mod_mod_pow2; lia). unfold value, snum, twos. destruct (bsgn b); [|exact N]. destruct (Z.testbit _ _); [|exact N].
  replace (2 ^ bw b) with (2 ^ (bw b - 64) * 2 ^ 64) by (rewrite <- Z.pow_add_r by lia; f_equal; lia). rewrite <- N, <- (Z.mod_add (num b - _) (2 ^ (bw b - 64))) by lia. f_equal. lia.
Qed.
Lemma to_uint64_iff b : vec b -> bit_to_uint64 b = value b mod 2 ^ 64 <-> (bw b <= 64 -> tidy b /\ (bw b = 1 -> bsgn b = true -> num b = 0)).
Proof.
  intros V. unfold bit_to_uint64. destruct (vec_cases b V) as [(v & Ev & L & I & Sv)|(ws & Ev & L & W & Sv)]; rewrite Ev.
  - rewrite <- (stored_value_iff b V (proj2 L)), Sv. unfold u64. split; [|intros ->; [reflexivity|lia]]. intros M _.
    assert (SR : (bsgn b = true /\ 2 <= bw b /\ - 2 ^ 63 <= v < 2 ^ 63) \/ (bw b = 1 /\ 0 <= v <= 1) \/ (bsgn b = false /\ 0 <= v < 2 ^ 64)).
    { pose proof (bw_pos b) as P. destruct (Z.eq_dec (bw b) 1) as [E|E]; [right; left; destruct (stored_one b V E); lia|]. pose proof (hty_signed (bw b) (bsgn b) ltac:(lia)) as G. apply in_ity_range in I. destruct (bsgn b); [left|right; right]; (split; [reflexivity|]); destruct (hty (bw b) _); cbn in I, G; try discriminate G; lia. }
    destruct (value_range b) as (R & Rs & Ru). assert (M1 : 2 ^ (bw b - 1) <= 2 ^ 63) by (apply Z.pow_le_mono_r; lia). assert (M2 : 2 ^ bw b <= 2 ^ 64) by (apply Z.pow_le_mono_r; lia).
    destruct SR as [(S & N & Rv)|[(N & Rv)|(S & Rv)]].
    + specialize (Rs S). assert (Q : (v - value b) mod 2 ^ 64 = 0) by (rewrite Zminus_mod, M, Z.sub_diag; reflexivity). apply Z.mod_divide in Q; [|lia]. destruct Q as [q Q]. lia.
    + rewrite (Z.mod_small v) in M by lia. rewrite N in *. change (2 ^ (1 - 1)) with 1 in *. change (2 ^ 1) with 2 in *. destruct (Z.eq_dec (value b) (-1)) as [X|X]; [rewrite X in M; cbn in M; lia|]. rewrite Z.mod_small in M by lia. exact M.
    + rewrite !Z.mod_small in M by (specialize (Ru S); lia). exact M.
  - split; [intros _ X; lia|]. intros _. rewrite wide_value_mod by lia. unfold bn_to_uint64. rewrite Sv, <- (words_num_word ws 0) by (apply W || lia). change (64 * 0) with 0. rewrite Z.pow_0_r, Z.div_1_r. reflexivity.
Qed.
Lemma lto_num_iff l : lvec l -> tidy (l_xz l) -> tidy (l_val l) ->
  (known l -> (logic_to_uint64 l = value (l_val l) mod 2 ^ 64 <-> ~ (lw l = 1 /\ lsgn l = true /\ num (l_val l) = 1))) /\
  (~ known l -> (logic_to_uint64 l = 0 <-> noticed l \/ num (l_val l) mod 2 ^ 64 = 0)).
Proof.
  intros V X T. pose proof (to_uint64_iff (l_val l) (proj1 V)) as U. pose proof (doubtful_noticed l V X) as D. unfold doubtful in D. rewrite <- any_set_any in D by apply V. unfold logic_to_uint64. pose proof (num_range (l_val l)) as R. split; intros K.
  - assert (F : bit_any_set (l_xz l) = false). { destruct (bit_any_set (l_xz l)) eqn:F; [|reflexivity]. exfalso. exact (known_not_noticed _ l K (proj1 D eq_refl)). }
    rewrite F, U. unfold lw. split.
    + intros H (W & S1 & N1). assert (L : bw (l_val l) <= 64) by lia. destruct (H L) as [_ H1]. specialize (H1 W S1). lia.
    + intros H L. split; [exact T|]. intros W S1. rewrite W in R. change (2 ^ 1) with 2 in R. destruct (Z.eq_dec (num (l_val l)) 0) as [E|E]; [exact E|]. exfalso. apply H. repeat split; [exact W|exact S1|lia].
  - destruct (bit_any_set (l_xz l)) eqn:F; [split; [left; now apply D|reflexivity]|]. assert (NN : ~ noticed l) by (intros Y; apply D in Y; discriminate).
    assert (L : 65 <= lw l). { destruct (Z.le_gt_cases (lw l) 64) as [L|L]; [|lia]. exfalso. apply K. intros p Hp. destruct (unknown (sym_at l p)) eqn:Up; [|reflexivity]. exfalso. apply NN. exists p. split; [exact Hp|]. split; [exact Up|now left]. }
    assert (B : bit_to_uint64 (l_val l) = num (l_val l) mod 2 ^ 64). { rewrite (proj2 U) by (unfold lw in L; lia). rewrite wide_value_mod by exact L. unfold num. symmetry. apply mod_mod_pow2. unfold lw in L. lia. }
    rewrite B. tauto.
Qed.

(** * construction from numbers (C115, C116) *)
Lemma one_odd v : (if v =? 0 then 0 else 1) = v mod 2 ^ 1 <-> v = 0 \/ Z.odd v = true.
Proof. change (2 ^ 1) with 2. rewrite Zmod_odd. destruct (Z.eqb_spec v 0) as [-> | N]; [cbn; tauto|]. destruct (Z.odd v); intuition lia. Qed.
Lemma width_one msb lsb : width msb lsb = 1 -> lsb = msb. Proof. unfold width. lia. Qed.
Lemma of_big_iff msb lsb s x m t : int_ok msb -> int_ok lsb -> is_num x m t ->
  (exists r, bit_of_big msb lsb s (n_ws x) = Ok r /\ num r = raw x mod 2 ^ width msb lsb) <-> width msb lsb <= 64 /\ (width msb lsb = 1 -> raw x mod 2 ^ 64 = 0 \/ Z.odd (raw x) = true).
Proof.
  intros A B X. assert (P : 1 <= width msb lsb) by (unfold width; lia). destruct (Z.le_gt_cases (width msb lsb) 64) as [L|L]; [|rewrite of_big_rejected by lia; split; [intros (r & E & _); discriminate|lia]].
  destruct (Z.eq_dec (width msb lsb) 1) as [E|E].
  - pose proof (width_one _ _ E) as ->. destruct (of_big_one msb s x m t A X) as (r & -> & _ & N). rewrite E in *. assert (M : raw x mod 2 ^ 1 = (raw x mod 2 ^ 64) mod 2 ^ 1) by (symmetry; apply mod_mod_pow2; lia).
    assert (O : Z.odd (raw x) = Z.odd (raw x mod 2 ^ 64)). { rewrite <- !Z.bit0_odd. now rewrite Z.mod_pow2_bits_low by lia. }
    rewrite M, O. pose proof (one_odd (raw x mod 2 ^ 64)) as Q. split.
    + intros (r' & F & N'). injection F as <-. split; [lia|]. intros _. apply Q. congruence.
    + intros [_ H]. exists r. split; [reflexivity|]. rewrite N. apply Q. now apply H.
  - destruct (of_big_spec msb lsb s x m t A B ltac:(lia) X) as (r & -> & _ & _ & _ & _ & N). split; [intros _; lia|]. intros _. eauto.
Qed.
Lemma of_arith_iff msb lsb s v : int_ok msb -> int_ok lsb -> width msb lsb < 2 ^ 31 -> - 2 ^ 63 <= v < 2 ^ 64 ->
  num (bit_of_arith msb lsb s v) = v mod 2 ^ width msb lsb <-> (width msb lsb = 1 -> v = 0 \/ Z.odd v = true) /\ (65 <= width msb lsb -> s = true \/ 0 <= v).
Proof.
  intros A B L R. assert (P : 1 <= width msb lsb) by (unfold width; lia). destruct (Z.eq_dec (width msb lsb) 1) as [E|E].
  - pose proof (width_one _ _ E) as ->. rewrite E, of_arith_one by exact A. rewrite one_odd. split; [intros H; split; [auto|lia]|]. intros [H _]. now apply H.
  - destruct (Z.le_gt_cases (width msb lsb) 64) as [G|G]; [split; [intros _; lia|]; intros _; apply of_arith_spec; try assumption; lia|].
    destruct s; [split; [intros _; split; [lia|auto]|]; intros _; apply of_arith_spec; try assumption; lia || (intros; now left)|]. destruct (Z.le_gt_cases 0 v) as [N|N].
    + split; [intros _; split; [lia|auto]|]. intros _. apply of_arith_spec; try assumption; [lia|auto].
    + split; [|intros [_ H]; destruct (H ltac:(lia)) as [X|X]; [discriminate|lia]]. intros H. exfalso. rewrite of_arith_unsigned in H by lia.
      assert (2 ^ 65 <= 2 ^ width msb lsb) by (apply Z.pow_le_mono_r; lia). change (2 ^ 65) with (2 * 2 ^ 64) in *. rewrite <- (Z.mod_add v 1) in H by lia. rewrite <- (Z.mod_add v 1 (2 ^ width msb lsb)) in H by lia. rewrite !Z.mod_small in H by lia. lia.
Qed.
Lemma assign_arith_iff b v : vec b -> (exists r, bit_assign_arith b v = Ok r /\ num r = v mod 2 ^ bw b) <-> bw b <= 64 /\ (bw b = 1 -> v = 0 \/ Z.odd v = true).
Proof.
  intros V. pose proof (bw_pos b) as P. destruct (Z.le_gt_cases (bw b) 64) as [L|L].
  2: { split; [|lia]. intros (r & E & _). unfold bit_assign_arith in E. destruct (vec_cases b V) as [(x & _ & X & _)|(ws & Ev & _)]; [lia|]. rewrite Ev in E. discriminate. }
  destruct (Z.eq_dec (bw b) 1) as [E|E].
  - rewrite E. assert (Q : exists r, bit_assign_arith b v = Ok r /\ num r = if v =? 0 then 0 else 1).
    { unfold bit_assign_arith. destruct (vec_cases b V) as [(x & Ev & _)|(ws & _ & X & _)]; [|lia]. rewrite Ev. rewrite bsize_bw, E. eexists. split; [reflexivity|]. unfold num. cbn [stored bval]. change (bw (mkBit (bmsb b) (blsb b) (bsgn b) _)) with (bw b). rewrite E. rewrite hty_1. cbn. destruct (v =? 0); reflexivity. }
    destruct Q as (r & -> & N). rewrite <- one_odd. split; [intros (r' & F & N'); injection F as <-; split; [lia|intros _; congruence]|]. intros [_ H]. exists r. split; [reflexivity|]. rewrite N. now apply H.
  - split; [intros _; lia|]. intros _. destruct (assign_arith b v V L ltac:(lia)) as (r & -> & _ & _ & _ & _ & N). eauto.
Qed.
