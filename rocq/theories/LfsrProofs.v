(** Linear feedback shift registers. *)
From Coq Require Import ZArith List Bool Lia.
From Verif Require Import Cpp BigNum Bit Logic Spec SpecExact SpecCircuit ZBits BitProofs BitOps BitMain BitMain2 BitMain4 LogicMain CircuitProofs DelayProofs SpecWide Iff3 Iff25 Lfsr.
Import ListNotations.
Open Scope Z_scope.
Local Ltac Zify.zify_post_hook ::= idtac.

(** *** a function that keeps N states apart returns to where it started *)
Section Return.
  Context (f : Z -> Z) (N : nat) (lo : Z).
  Notation ok x := (lo <= x < lo + Z.of_nat N).
  Hypothesis closed : forall x, ok x -> ok (f x).
  Hypothesis inj : forall x y, ok x -> ok y -> f x = f y -> x = y.
  Lemma iter_ok k x : ok x -> ok (Nat.iter k f x).
  Proof. intros H. induction k as [|k IH]; [exact H|]. cbn. apply closed, IH. Qed.
  Lemma iter_inj k x y : ok x -> ok y -> Nat.iter k f x = Nat.iter k f y -> x = y.
  Proof. intros X Y. induction k as [|k IH]; [auto|]. cbn. intros E. apply IH. apply inj; [apply iter_ok, X|apply iter_ok, Y|exact E]. Qed.
  Lemma iter_plus i k x : Nat.iter (i + k) f x = Nat.iter i f (Nat.iter k f x).
  Proof. induction i as [|i IH]; [reflexivity|]. cbn. f_equal. exact IH. Qed.
  Lemma repeated (l : list Z) : ~ NoDup l -> exists i j, (i < j < length l)%nat /\ nth i l 0 = nth j l 0.
  Proof.
    induction l as [|a l IH]; intros H; [destruct H; constructor|]. destruct (in_dec Z.eq_dec a l) as [I|I].
    - apply (In_nth _ _ 0) in I as (j & J & E). exists 0%nat, (S j). cbn [length nth]. split; [lia|congruence].
    - destruct IH as (i & j & J & E); [intros D; apply H; constructor; assumption|]. exists (S i), (S j). cbn [length nth]. split; [lia|exact E].
  Qed.
  Lemma returns x : ok x -> exists k, (1 <= k <= N)%nat /\ Nat.iter k f x = x.
  Proof.
    intros X. set (l := map (fun k => Nat.iter k f x) (seq 0 (S N))). assert (L : length l = S N) by (unfold l; rewrite map_length, seq_length; reflexivity).
    destruct (repeated l) as (i & j & J & E).
    - intros D. assert (I : incl l (map (fun k => lo + Z.of_nat k) (seq 0 N))).
      { intros y Y. unfold l in Y. apply in_map_iff in Y as (k & <- & _). pose proof (iter_ok k x X). apply in_map_iff. exists (Z.to_nat (Nat.iter k f x - lo)). split; [lia|]. apply in_seq. lia. }
      apply (NoDup_incl_length D) in I. rewrite L, map_length, seq_length in I. lia.
    - rewrite L in J. exists (j - i)%nat. split; [lia|]. unfold l in E.
      assert (G : forall k, (k < S N)%nat -> nth k (map (fun k => Nat.iter k f x) (seq 0 (S N))) 0 = Nat.iter k f x).
      { intros k K. rewrite (nth_indep _ 0 (Nat.iter 0 f x)) by (rewrite map_length, seq_length; exact K). rewrite (map_nth (fun k => Nat.iter k f x)). rewrite seq_nth by exact K. reflexivity. }
      rewrite !G in E by lia. replace j with (i + (j - i))%nat in E by lia. rewrite iter_plus in E. symmetry. apply (iter_inj i); [exact X|apply iter_ok, X|exact E].
  Qed.
End Return.

(** *** the register over numbers *)
Definition next (P x : Z) : Z := if Z.odd x then Z.lxor (x / 2) P else x / 2.
Section Numbers.
  Context (n P : Z) (N1 : 1 <= n) (HP : 0 <= P < 2 ^ n) (Top : Z.testbit P (n - 1) = true).
  Lemma half_range x : 0 <= x < 2 ^ n -> 0 <= x / 2 < 2 ^ (n - 1).
  Proof.
    intros H. split; [apply Z.div_pos; lia|]. apply Z.div_lt_upper_bound; [lia|]. rewrite <- Z.pow_succ_r by lia. replace (Z.succ (n - 1)) with n by lia. lia.
  Qed.
  Lemma top_next x : 0 <= x < 2 ^ n -> Z.testbit (next P x) (n - 1) = Z.odd x.
  Proof.
    intros H. pose proof (half_range x H) as R. assert (B : Z.testbit (x / 2) (n - 1) = false) by (rewrite <- (Z.mod_small (x / 2) (2 ^ (n - 1))) by exact R; apply Z.mod_pow2_bits_high; lia).
    unfold next. destruct (Z.odd x); [rewrite Z.lxor_spec, B, Top; reflexivity|exact B].
  Qed.
  Lemma next_range x : 0 <= x < 2 ^ n -> 0 <= next P x < 2 ^ n.
  Proof.
    intros H. pose proof (half_range x H) as R. assert (2 ^ (n - 1) <= 2 ^ n) by (apply Z.pow_le_mono_r; lia). unfold next. destruct (Z.odd x); [|lia].
    rewrite <- (Z.mod_small (x / 2) (2 ^ n)), <- (Z.mod_small P (2 ^ n)) by lia. assert (E : Z.lxor ((x / 2) mod 2 ^ n) (P mod 2 ^ n) = Z.lxor (x / 2) P mod 2 ^ n).
    { apply Z.bits_inj'. intros p Hp. rewrite Z.lxor_spec, !Z.testbit_mod_pow2, Z.lxor_spec by lia. destruct (p <? n); reflexivity. }
    rewrite E. apply Z.mod_pos_bound. lia.
  Qed.
  Lemma next_inj x y : 0 <= x < 2 ^ n -> 0 <= y < 2 ^ n -> next P x = next P y -> x = y.
  Proof.
    intros X Y E. pose proof (top_next x X) as T. rewrite E, top_next in T by exact Y. rewrite (Z.div_mod x 2), (Z.div_mod y 2) by lia. rewrite !Zmod_odd, T. f_equal. f_equal.
    unfold next in E. rewrite T in E. destruct (Z.odd x); [|exact E]. apply (f_equal (fun v => Z.lxor v P)) in E. rewrite !Z.lxor_assoc, Z.lxor_nilpotent, !Z.lxor_0_r in E. exact E.
  Qed.
  Lemma next_nonzero x : 1 <= x < 2 ^ n -> 1 <= next P x < 2 ^ n.
  Proof.
    intros X. pose proof (next_range x ltac:(lia)). destruct (Z.eq_dec (next P x) 0) as [E|E]; [|lia]. change 0 with (next P 0) in E. apply next_inj in E; lia.
  Qed.
  Lemma next_returns x : 1 <= x < 2 ^ n -> exists k, 1 <= Z.of_nat k < 2 ^ n /\ Nat.iter k (next P) x = x.
  Proof.
    intros X. destruct (returns (next P) (Z.to_nat (2 ^ n - 1)) 1) with (x := x) as (k & K & E).
    - intros y Y. pose proof (next_nonzero y). lia.
    - intros y z Y Z. apply next_inj; lia.
    - lia.
    - exists k. split; [lia|exact E].
  Qed.
End Numbers.

Section L.
  Context (n : Z) (taps one : bit) (st : bool) (N : 2 <= n) (P : typed taps n st) (O : amount_of n one) (V : value one = 1).
  Lemma lfsr_step_ok c s : typed c n s -> exists r t, lfsr_step taps one c = Ok r /\ typed r n t /\ num r = next (num taps) (num c).
  Proof.
    intros C. pose proof (typed_bw c n s ltac:(lia) C) as W. unfold lfsr_step. rewrite (typed_get c n s 0 C) by lia. cbn [bind].
    destruct (shr_gen c one n s N C O) as (d & E & Td & Bd); [lia|lia|]. rewrite E. cbn [bind]. rewrite V in Bd.
    assert (Nd : num d = num c / 2). { apply Z.bits_inj'. intros p Hp. fold (bit_at d p). rewrite Bd by exact Hp. unfold bit_at. rewrite <- Z.div2_div, Z.div2_spec, Z.shiftr_spec by exact Hp. reflexivity. }
    unfold bit_at. rewrite Z.bit0_odd. unfold next. destruct (Z.odd (num c)).
    - destruct (bitwise_same_all d taps n (proj1 Td) (proj1 P)) as (_ & _ & (r & Er & Tr & Br) & _); [apply (typed_bw d n _ ltac:(lia) Td)|apply (typed_bw taps n _ ltac:(lia) P)|destruct P as (_ & (-> & ->) & _); lia|].
      eexists r, _. split; [exact Er|]. split; [exact Tr|]. rewrite <- Nd. apply Z.bits_inj'. intros p Hp. rewrite Z.lxor_spec. fold (bit_at r p) (bit_at d p) (bit_at taps p).
      destruct (Z.lt_ge_cases p n); [apply Br; lia|]. rewrite !at_out; try (rewrite ?(typed_bw d n _ ltac:(lia) Td), ?(typed_bw taps n _ ltac:(lia) P), ?(typed_bw r n _ ltac:(lia) Tr); lia). all: reflexivity.
    - eexists d, _. split; [reflexivity|]. split; [exact Td|exact Nd].
  Qed.
  Lemma lfsr_run k : forall c s, typed c n s -> exists r t, lfsr taps one k c = Ok r /\ typed r n t /\ num r = Nat.iter k (next (num taps)) (num c).
  Proof.
    induction k as [|k IH]; intros c s C; [exists c, s; repeat split; try reflexivity; apply C|]. destruct (lfsr_step_ok c s C) as (d & t & E & T & Nd). destruct (IH d t T) as (r & u & Er & Tr & Nr).
    exists r, u. cbn [lfsr]. rewrite E. cbn [bind]. split; [exact Er|]. split; [exact Tr|]. rewrite Nr, Nd. clear. induction k as [|k IH]; [reflexivity|]. cbn. f_equal. exact IH.
  Qed.
  Lemma taps_range : 0 <= num taps < 2 ^ n.
  Proof. unfold num. rewrite (typed_bw taps n st ltac:(lia) P). apply Z.mod_pos_bound. apply Z.pow_pos_nonneg; lia. Qed.
  Lemma state_range c s : typed c n s -> 0 <= num c < 2 ^ n.
  Proof. intros C. unfold num. rewrite (typed_bw c n s ltac:(lia) C). apply Z.mod_pos_bound. apply Z.pow_pos_nonneg; lia. Qed.
  Theorem lfsr_returns c s : bit_at taps (n - 1) = true -> typed c n s -> num c <> 0 -> exists k r, 1 <= Z.of_nat k < 2 ^ n /\ lfsr taps one k c = Ok r /\ num r = num c.
  Proof.
    intros T C Z0. pose proof (state_range c s C). destruct (next_returns n (num taps) ltac:(lia) taps_range T (num c)) as (k & K & E); [lia|]. destruct (lfsr_run k c s C) as (r & t & Er & _ & Nr).
    exists k, r. split; [exact K|]. split; [exact Er|]. congruence.
  Qed.
  Theorem lfsr_alive c s k : bit_at taps (n - 1) = true -> typed c n s -> num c <> 0 -> exists r, lfsr taps one k c = Ok r /\ num r <> 0.
  Proof.
    intros T C Z0. pose proof (state_range c s C). destruct (lfsr_run k c s C) as (r & t & Er & _ & Nr). exists r. split; [exact Er|]. rewrite Nr. clear Er Nr.
    assert (1 <= Nat.iter k (next (num taps)) (num c) < 2 ^ n); [|lia]. induction k as [|k IH]; [cbn; lia|]. cbn. apply next_nonzero; [lia|apply taps_range|exact T|exact IH].
  Qed.
  (** different states stay different, if and only if the topmost position is fed back *)
  Theorem lfsr_distinct : (forall c d s t r q, typed c n s -> typed d n t -> lfsr_step taps one c = Ok r -> lfsr_step taps one d = Ok q -> num r = num q -> num c = num d) <-> bit_at taps (n - 1) = true.
  Proof.
    split.
    - intros H. destruct (bit_at taps (n - 1)) eqn:T; [reflexivity|exfalso]. pose proof taps_range as R. assert (PP : 2 ^ n = 2 * 2 ^ (n - 1)) by (rewrite <- Z.pow_succ_r by lia; f_equal; lia).
      assert (R2 : num taps < 2 ^ (n - 1)).
      { unfold bit_at in T. destruct (Z.lt_ge_cases (num taps) (2 ^ (n - 1))) as [L|L]; [exact L|exfalso]. assert (X : num taps / 2 ^ (n - 1) = 1) by (symmetry; apply Z.div_unique with (num taps - 2 ^ (n - 1)); lia).
        rewrite Z.testbit_odd, Z.shiftr_div_pow2, X in T by lia. discriminate T. }
      assert (M : n < 2 ^ 31) by (rewrite <- (typed_bw taps n st ltac:(lia) P); apply (proj1 P)).
      pose proof (vec_of_typed n false 1 ltac:(lia)) as T1. pose proof (vec_of_typed n false (2 * num taps) ltac:(lia)) as T2.
      destruct (lfsr_step_ok _ _ T1) as (r & t & Er & _ & Nr). destruct (lfsr_step_ok _ _ T2) as (q & u & Eq & _ & Nq).
      assert (Z1 : 2 <= 2 ^ n) by (change 2 with (2 ^ 1) at 1; apply Z.pow_le_mono_r; lia).
      pose proof (vec_of_num n false 1 ltac:(lia)) as N1. pose proof (vec_of_num n false (2 * num taps) ltac:(lia)) as N2. rewrite Z.mod_small in N1 by lia. rewrite Z.mod_small in N2 by lia.
      specialize (H _ _ _ _ _ _ T1 T2 Er Eq). rewrite N1, N2, Nr, Nq in H. rewrite N1, N2 in H. assert (H' : 1 = 2 * num taps); [|lia]. apply H.
      unfold next. rewrite Z.odd_mul. cbn [Z.odd andb]. rewrite (Z.mul_comm 2), Z.div_mul by lia. reflexivity.
    - intros T c d s t r q C D Er Eq E. destruct (lfsr_step_ok c s C) as (r' & s' & Er' & _ & Nr). destruct (lfsr_step_ok d t D) as (q' & t' & Eq' & _ & Nq). assert (r' = r) by congruence. assert (q' = q) by congruence. subst.
      pose proof (state_range c s C). pose proof (state_range d t D). apply (next_inj n (num taps)); first [exact T | assumption | lia | congruence].
  Qed.
End L.

(** *** swapping *)
Lemma xor_eq_same a b n s : 1 <= n -> typed a n s -> typed b n s -> exists r, bit_xor_assign a b = Ok r /\ typed r n s /\ num r = Z.lxor (num a) (num b).
Proof.
  intros N A B. destruct (compound_bitwise a b n s N A) as (_ & _ & r & E & T & Nu).
  - destruct B as (_ & _ & ->). auto.
  - left. split; [apply (typed_bw b n s N B)|]. split; [apply B|]. destruct B as (_ & (-> & ->) & _). lia.
  - exists r. split; [exact E|]. split; [exact T|]. rewrite Nu. pose proof (value_num_mod a n s N A) as VA. pose proof (value_num_mod b n s N B) as VB.
    rewrite <- VA, <- VB. apply Z.bits_inj'. intros p Hp. rewrite Z.lxor_spec, !Z.testbit_mod_pow2, Z.lxor_spec by lia. destruct (p <? n); reflexivity.
Qed.
Theorem xor_swap_ok a b n s : 1 <= n -> typed a n s -> typed b n s -> exists x y, xor_swap a b = Ok (x, y) /\ typed x n s /\ typed y n s /\ num x = num b /\ num y = num a.
Proof.
  intros N A B. unfold xor_swap. destruct (xor_eq_same a b n s N A B) as (a1 & E1 & T1 & N1). rewrite E1. cbn [bind]. destruct (xor_eq_same b a1 n s N B T1) as (b1 & E2 & T2 & N2). rewrite E2. cbn [bind].
  destruct (xor_eq_same a1 b1 n s N T1 T2) as (a2 & E3 & T3 & N3). rewrite E3. cbn [bind]. exists a2, b1. split; [reflexivity|]. split; [exact T3|]. split; [exact T2|].
  rewrite N3, N2, N1. split; apply Z.bits_inj'; intros p Hp; rewrite !Z.lxor_spec; destruct (Z.testbit (num a) p), (Z.testbit (num b) p); reflexivity.
Qed.
Lemma xor_eq_same4 a b n : 1 <= n -> ltyped a n false -> ltyped b n false -> exists r, logic_compound logic_xor a b = Ok r /\ ltyped r n false /\ forall p, 0 <= p < n -> sym_at r p = xor4 (sym_at a p) (sym_at b p).
Proof.
  intros N A B. assert (LA : lvec a) by (apply (ltyped_lvec a n false); assumption). assert (LB : lvec b) by (apply (ltyped_lvec b n false); assumption).
  destruct (xor4_main a b n LA LB) as (r & E & T & _ & S).
  - apply (typed_bw (l_val a) n false N), A.
  - apply (typed_bw (l_val b) n false N), B.
  - destruct A as [(_ & (M & L) & _) _]. unfold llsb, lmsb. rewrite M, L. lia.
  - destruct B as [(_ & (M & L) & _) _]. unfold llsb, lmsb. rewrite M, L. lia.
  - destruct A as [(_ & _ & X) _]. unfold lsgn. rewrite X. reflexivity.
  - exists r. split; [|split; [exact T|exact S]]. unfold logic_compound. assert (C : compound_ok (l_val a) (lsgn b) = true).
    { unfold compound_ok, bsize, vsize. destruct A as [(_ & (M & L) & X) _]. rewrite M, L, X. replace (n - 1 =? _) with true by lia. reflexivity. }
    rewrite C. cbn [requires]. rewrite E. cbn [bind]. apply (assign_copy4 n false); assumption.
Qed.
Theorem xor_swap4_exact a b n : 1 <= n -> ltyped a n false -> ltyped b n false -> exists x y, xor_swap4 a b = Ok (x, y) /\ ltyped x n false /\ ltyped y n false /\
  forall p, 0 <= p < n -> (sym_at x p = sym_at b p /\ sym_at y p = sym_at a p <-> (unknown (sym_at a p) = false /\ unknown (sym_at b p) = false) \/ (sym_at a p = SX /\ sym_at b p = SX)).
Proof.
  intros N A B. unfold xor_swap4. destruct (xor_eq_same4 a b n N A B) as (a1 & E1 & T1 & N1). rewrite E1. cbn [bind]. destruct (xor_eq_same4 b a1 n N B T1) as (b1 & E2 & T2 & N2). rewrite E2. cbn [bind].
  destruct (xor_eq_same4 a1 b1 n N T1 T2) as (a2 & E3 & T3 & N3). rewrite E3. cbn [bind]. exists a2, b1. split; [reflexivity|]. split; [exact T3|]. split; [exact T2|].
  intros p Hp. rewrite N3, N2, N1 by exact Hp. destruct (sym_at a p), (sym_at b p); cbn; split; intros H; repeat match goal with H : _ /\ _ |- _ => destruct H | H : _ \/ _ |- _ => destruct H end; try discriminate; auto.
Qed.
