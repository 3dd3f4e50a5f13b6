From Coq Require Import ZArith List Bool Lia.
From Verif Require Import Cpp BigNum Bit Logic Spec SpecExact Exact3 ZBits BitShift SpecExact4 BitMain BitMain2 BitMain3 LogicMain Program4Proofs Circuit SpecCircuit.
Import ListNotations.
Open Scope Z_scope.
Local Ltac Zify.zify_post_hook ::= idtac.

Lemma mod_next z k : 0 <= k -> z mod 2 ^ (k + 1) = z mod 2 ^ k + 2 ^ k * Z.b2z (Z.testbit z k).
Proof.
  intros K. pose proof (Z.pow_pos_nonneg 2 k ltac:(lia) K). rewrite Z.pow_add_r by lia. change (2 ^ 1) with 2. rewrite Z.rem_mul_r by lia. rewrite Z.testbit_spec' by lia. reflexivity.
Qed.
Lemma low_same x y k : 0 <= k -> (forall p, 0 <= p < k -> Z.testbit x p = Z.testbit y p) -> x mod 2 ^ k = y mod 2 ^ k.
Proof.
  intros K E. apply Z.bits_inj'. intros p P. rewrite !Z.testbit_mod_pow2 by lia. destruct (Z.ltb_spec p k); [|reflexivity]. rewrite E by lia. reflexivity.
Qed.
Lemma num_range b : 1 <= bw b -> 0 <= num b < 2 ^ bw b.
Proof. intros W. apply Z.mod_pos_bound. apply Z.pow_pos_nonneg; lia. Qed.
Lemma typed_bw b n s : 1 <= n -> typed b n s -> bw b = n.
Proof. intros N (_ & (M & L) & _). unfold bw, width. rewrite M, L. lia. Qed.
Lemma typed_get b n s i : typed b n s -> 0 <= i < n -> bit_get b i = Ok (bit_at b i).
Proof.
  intros T I. pose proof T as (V & (M & L) & _). assert (R : in_range (bmsb b) (blsb b) i) by (unfold in_range; lia). assert (Z0 : Z.min (bmsb b) (blsb b) = 0) by lia.
  destruct (set_get_zero_based b i true V Z0 R) as [G _]. rewrite (G i R). f_equal. unfold place. rewrite M, L. replace (0 <=? n - 1) with true by lia. f_equal. lia.
Qed.
Lemma typed_set b n s i x : typed b n s -> 0 <= i < n -> exists b', bit_set b i x = Ok b' /\ typed b' n s /\ bit_at b' i = x /\ forall j, 0 <= j < n -> j <> i -> bit_at b' j = bit_at b j.
Proof.
  intros T I. pose proof T as (V & (M & L) & S). assert (R : in_range (bmsb b) (blsb b) i) by (unfold in_range; lia). assert (Z0 : Z.min (bmsb b) (blsb b) = 0) by lia.
  destruct (set_get_zero_based b i x V Z0 R) as (_ & b' & E & V' & M' & L' & S' & G & O). exists b'. assert (T' : typed b' n s) by (unfold typed, plain; rewrite M', L', S'; tauto). split; [exact E|]. split; [exact T'|]. split.
  - rewrite (typed_get b' n s i T' I) in G. injection G as <-. reflexivity.
  - intros j J N. specialize (O j). rewrite (typed_get b' n s j T' J), (typed_get b n s j T J) in O. assert (X : in_range (bmsb b) (blsb b) j) by (unfold in_range; lia). specialize (O X N). injection O as ->. reflexivity.
Qed.

(** ** the adder *)
Lemma full_adder (x y c : bool) : Z.b2z (xorb (xorb x y) c) + 2 * Z.b2z ((x && y) || (c && xorb x y)) = Z.b2z x + Z.b2z y + Z.b2z c.
Proof. destruct x, y, c; reflexivity. Qed.
Theorem ripple_adds n a b r sa sb s : 1 <= n -> typed a n sa -> typed b n sb -> typed r n s ->
  exists r' c, ripple n a b r = Ok (r', c) /\ typed r' n s /\ num r' = (num a + num b) mod 2 ^ n /\ c = Z.testbit (num a + num b) n.
Proof.
  intros N A B R. pose proof (num_range a) as NA. pose proof (num_range b) as NB. rewrite (typed_bw a n sa N A) in NA. rewrite (typed_bw b n sb N B) in NB. specialize (NA N). specialize (NB N).
  pose (P := fun (k : Z) (st : bit * bool) => typed (fst st) n s /\ num (fst st) mod 2 ^ k + 2 ^ k * Z.b2z (snd st) = num a mod 2 ^ k + num b mod 2 ^ k).
  destruct (zrange_ofold_ind (ripple_step a b) P 0 n (r, false)) as ([r' c] & E & T & Q); [lia| | |].
  - split; [exact R|]. cbn [fst snd Z.b2z]. change (2 ^ 0) with 1. rewrite !Z.mod_1_r. reflexivity.
  - intros i [x c] I [T Q]. cbn [fst snd] in *. unfold ripple_step. rewrite (typed_get a n sa i A I), (typed_get b n sb i B I). cbn [bind].
    destruct (typed_set x n s i (xorb (xorb (bit_at a i) (bit_at b i)) c) T I) as (x' & -> & T' & G & O). cbn [bind]. eexists. split; [reflexivity|]. split; [exact T'|]. cbn [fst snd].
    rewrite !mod_next by lia. pose proof (full_adder (bit_at a i) (bit_at b i) c) as F. fold (bit_at a i) (bit_at b i) (bit_at x' i). rewrite G.
    assert (Lo : num x' mod 2 ^ i = num x mod 2 ^ i) by (apply low_same; [lia|]; intros p Hp; apply O; lia). rewrite Lo. rewrite Z.pow_add_r by lia. change (2 ^ 1) with 2.
    set (S := Z.b2z (xorb _ c)) in *. set (C := Z.b2z (_ || _)) in *. set (X := Z.b2z (bit_at a i)) in *. set (Y := Z.b2z (bit_at b i)) in *. set (D := Z.b2z c) in *. replace X with (S + 2 * C - Y - D) by lia. lia.
  - cbn [fst snd] in *. exists r', c. split; [exact E|]. split; [exact T|]. pose proof (num_range r') as NR. rewrite (typed_bw r' n s N T) in NR. specialize (NR N). rewrite !Z.mod_small in Q by assumption.
    pose proof (Z.pow_pos_nonneg 2 n ltac:(lia) ltac:(lia)). split.
    + rewrite <- Q. rewrite Z.mul_comm, Z.mod_add by lia. symmetry. apply Z.mod_small. exact NR.
    + rewrite <- Q. rewrite Z.testbit_odd, Z.shiftr_div_pow2 by lia. rewrite Z.mul_comm, Z.div_add by lia. rewrite Z.div_small by exact NR. destruct c; reflexivity.
Qed.

(** ** 4-state *)
Lemma ltyped_lvec l n s : ltyped l n s -> lvec l /\ lmsb l = n - 1 /\ llsb l = 0 /\ lsgn l = s /\ lw l = bw (l_val l).
Proof. intros [(V & (M & L) & S) (V' & (M' & L') & S')]. unfold lvec, lmsb, llsb, lsgn. rewrite M, L, M', L', S'. split; [split; [exact V|split; [exact V'|repeat split]]|]. split; [reflexivity|]. split; [reflexivity|]. split; [exact S|reflexivity]. Qed.
Lemma l1_ops x y : ltyped x 1 false -> ltyped y 1 false ->
  (exists r, logic_xor x y = Ok r /\ ltyped r 1 false /\ sym_at r 0 = xor4 (sym_at x 0) (sym_at y 0)) /\
  (exists r, logic_and x y = Ok r /\ ltyped r 1 false /\ sym_at r 0 = lib_and (sym_at x 0) (sym_at y 0)) /\
  (exists r, logic_or x y = Ok r /\ ltyped r 1 false /\ sym_at r 0 = lib_or (sym_at x 0) (sym_at y 0)).
Proof.
  intros X Y. destruct (ltyped_lvec x 1 false X) as (VX & MX & LX & SX & _). destruct (ltyped_lvec y 1 false Y) as (VY & MY & LY & SY & _).
  assert (WX : lw x = 1) by (apply (typed_bw _ _ false); [lia|apply X]). assert (WY : lw y = 1) by (apply (typed_bw _ _ false); [lia|apply Y]).
  assert (BX : llsb x <= lmsb x) by lia. assert (BY : llsb y <= lmsb y) by lia. assert (S : lsgn x && lsgn y = false) by (rewrite SX; reflexivity).
  destruct (xor4_main x y 1 VX VY WX WY BX BY S) as (r1 & E1 & T1 & _ & P1). destruct (lib_and_gen x y 1 VX VY WX WY BX BY S) as (r2 & E2 & T2 & _ & P2). destruct (lib_or_gen x y 1 VX VY WX WY BX BY S) as (r3 & E3 & T3 & _ & P3).
  split; [exists r1|split; [exists r2|exists r3]]; (split; [assumption|]; split; [assumption|]); [apply P1|apply P2|apply P3]; lia.
Qed.
Lemma l_get l n s i : ltyped l n s -> 0 <= i < n -> (unknown (sym_at l i) = true -> i < 64) -> exists r, logic_get l i = Ok r /\ ltyped r 1 false /\ sym_at r 0 = sym_at l i.
Proof.
  intros T I U. destruct (ltyped_lvec l n s T) as (V & M & L & _). assert (E : place (lmsb l) (llsb l) i = i) by (unfold place; rewrite M, L; replace (0 <=? n - 1) with true by lia; lia).
  destruct (read4 l i V) as (r & R & T1 & S); [lia|unfold in_range; lia|rewrite E; exact U|]. exists r. rewrite E in S. tauto.
Qed.
Lemma l_set l n s i x : ltyped l n s -> 0 <= i < n -> ltyped x 1 false ->
  exists l', logic_set_l l i x = Ok l' /\ ltyped l' n s /\ sym_at l' i = sym_at x 0 /\ forall j, 0 <= j < n -> j <> i -> sym_at l' j = sym_at l j.
Proof.
  intros T I X. destruct T as [TV TM]. destruct (typed_set _ n s i (bit0_bool (l_val x)) TV I) as (v & EV & TV' & GV & OV). destruct (typed_set _ n false i (bit0_bool (l_xz x)) TM I) as (m & EM & TM' & GM & OM).
  exists (mkLogic v m). unfold logic_set_l. rewrite EV, EM. cbn [bind]. split; [reflexivity|]. split; [split; assumption|]. unfold sym_at. cbn [l_val l_xz].
  assert (B0 : forall b, typed b 1 false -> bit0_bool b = bit_at b 0).
  { intros b Tb. pose proof Tb as (Vb & (Mb & Lb) & _). destruct Vb as (Vb & _). unfold bit_ok in Vb. unfold bit0_bool, bit_at, num. rewrite (typed_bw b 1 false ltac:(lia) Tb). change (2 ^ 1) with 2. unfold stored. destruct (bval b) as [z|ws]; [|apply andb_true_iff in Vb as [Vb _]; change (bsize b) with (vsize (bmsb b) (blsb b)) in Vb; rewrite Mb, Lb in Vb; discriminate].
    apply andb_true_iff in Vb as [_ Vb]. change (bsize b) with (vsize (bmsb b) (blsb b)) in Vb. rewrite Mb, Lb in Vb. change (vsize (1 - 1) 0) with 1 in Vb. assert (z = 0 \/ z = 1) as [-> | ->]; [|reflexivity|reflexivity]. unfold in_ity, hty in Vb. cbn in Vb. lia. }
  rewrite GV, GM. rewrite !B0 by apply X. split; [reflexivity|]. intros j J N. rewrite OV, OM by assumption. reflexivity.
Qed.

Lemma carry4_next a b i : 0 <= i -> carry4 a b (Z.to_nat (i + 1)) = lib_or (lib_and (a i) (b i)) (lib_and (carry4 a b (Z.to_nat i)) (xor4 (a i) (b i))).
Proof. intros I. replace (Z.to_nat (i + 1)) with (S (Z.to_nat i)) by lia. cbn [carry4]. rewrite Z2Nat.id by lia. reflexivity. Qed.
Theorem ripple4_symbols n a b r sa sb s : 1 <= n -> ltyped a n sa -> ltyped b n sb -> ltyped r n s ->
  (forall p, 64 <= p < n -> unknown (sym_at a p) = false /\ unknown (sym_at b p) = false) ->
  exists r' c, ripple4 n a b r = Ok (r', c) /\ ltyped r' n s /\ ltyped c 1 false /\
    (forall p, 0 <= p < n -> sym_at r' p = sum4 (sym_at a) (sym_at b) p) /\ sym_at c 0 = carry4 (sym_at a) (sym_at b) (Z.to_nat n).
Proof.
  intros N A B R U.
  pose (P := fun (k : Z) (st : logic * logic) => ltyped (fst st) n s /\ ltyped (snd st) 1 false /\ (forall p, 0 <= p < k -> sym_at (fst st) p = sum4 (sym_at a) (sym_at b) p) /\ sym_at (snd st) 0 = carry4 (sym_at a) (sym_at b) (Z.to_nat k)).
  destruct (zrange_ofold_ind (ripple4_step a b) P 0 n (r, logic_of_arith 0 0 false 0)) as ([r' c] & E & T & T1 & Q & C); [lia| | |].
  - split; [exact R|]. split; [repeat split; vm_compute; congruence|]. split; [lia|]. vm_compute. reflexivity.
  - intros i [x c] I (T & T1 & Q & C). cbn [fst snd] in *. unfold ripple4_step.
    assert (Ua : unknown (sym_at a i) = true -> i < 64). { intros X. destruct (Z.lt_ge_cases i 64); [assumption|]. destruct (U i) as [Y _]; [lia|]. congruence. }
    assert (Ub : unknown (sym_at b i) = true -> i < 64). { intros X. destruct (Z.lt_ge_cases i 64); [assumption|]. destruct (U i) as [_ Y]; [lia|]. congruence. }
    destruct (l_get a n sa i A I Ua) as (xa & -> & Ta & Sa). destruct (l_get b n sb i B I Ub) as (xb & -> & Tb & Sb). cbn [bind].
    destruct (l1_ops xa xb Ta Tb) as ((xs & -> & Ts & Ss) & (g & Eg & Tg & Sg) & _). cbn [bind].
    destruct (l1_ops xs c Ts T1) as ((s' & -> & Ts' & Ss') & _). cbn [bind]. destruct (l_set x n s i s' T I Ts') as (x' & -> & T' & G & O). cbn [bind]. rewrite Eg. cbn [bind].
    destruct (l1_ops c xs T1 Ts) as (_ & (q & -> & Tq & Sq) & _). cbn [bind]. destruct (l1_ops g q Tg Tq) as (_ & _ & (c' & -> & Tc & Sc)). cbn [bind]. eexists. split; [reflexivity|]. unfold P. cbn [fst snd].
    split; [exact T'|]. split; [exact Tc|]. split.
    + intros p Hp. destruct (Z.eq_dec p i) as [->|D]; [|rewrite O by lia; apply Q; lia]. rewrite G, Ss', Ss, Sa, Sb, C. reflexivity.
    + rewrite Sc, Sg, Sq, Ss, Sa, Sb, C, carry4_next by lia. reflexivity.
  - cbn [fst snd] in *. exists r', c. repeat (split; [assumption|]). assumption.
Qed.
(** without x and z *)
Fixpoint carry2 (A B : Z) (k : nat) : bool :=
  match k with O => false | S k => let p := Z.of_nat k in (Z.testbit A p && Z.testbit B p) || (carry2 A B k && xorb (Z.testbit A p) (Z.testbit B p)) end.
Lemma carry2_adds A B k : A mod 2 ^ Z.of_nat k + B mod 2 ^ Z.of_nat k = (A + B) mod 2 ^ Z.of_nat k + 2 ^ Z.of_nat k * Z.b2z (carry2 A B k).
Proof.
  induction k as [|k IH]; [change (2 ^ Z.of_nat 0) with 1; rewrite !Z.mod_1_r; reflexivity|]. cbn [carry2]. rewrite Nat2Z.inj_succ. change (Z.succ (Z.of_nat k)) with (Z.of_nat k + 1). set (i := Z.of_nat k) in *. pose proof (Z.pow_pos_nonneg 2 i ltac:(lia) ltac:(lia)) as P2.
  pose proof (full_adder (Z.testbit A i) (Z.testbit B i) (carry2 A B k)) as F. rewrite !(mod_next A), !(mod_next B) by lia. set (c' := (_ && _) || _) in *. set (x := xorb _ (carry2 A B k)) in *.
  assert (E : (A + B) mod 2 ^ (i + 1) = (A + B) mod 2 ^ i + 2 ^ i * Z.b2z x).
  { assert (R : 0 <= (A + B) mod 2 ^ i < 2 ^ i) by (apply Z.mod_pos_bound; lia). assert (P3 : 2 ^ (i + 1) = 2 ^ i * 2) by (rewrite Z.pow_add_r by lia; reflexivity).
    rewrite Z.add_mod, (mod_next A), (mod_next B) by lia. replace (A mod 2 ^ i + 2 ^ i * Z.b2z (Z.testbit A i) + (B mod 2 ^ i + 2 ^ i * Z.b2z (Z.testbit B i))) with ((A + B) mod 2 ^ i + 2 ^ i * Z.b2z x + Z.b2z c' * 2 ^ (i + 1)) by (rewrite P3; replace (2 ^ i * Z.b2z x) with (2 ^ i * (Z.b2z (Z.testbit A i) + Z.b2z (Z.testbit B i) + Z.b2z (carry2 A B k) - 2 * Z.b2z c')) by (f_equal; lia); lia).
    rewrite Z.mod_add by lia. apply Z.mod_small. assert (0 <= Z.b2z x <= 1) by (destruct x; cbn; lia). split; nia. }
  rewrite E. rewrite Z.pow_add_r by lia. change (2 ^ 1) with 2. replace (2 ^ i * 2 * Z.b2z c') with (2 ^ i * (Z.b2z (Z.testbit A i) + Z.b2z (Z.testbit B i) + Z.b2z (carry2 A B k) - Z.b2z x)) by (rewrite <- Z.mul_assoc; f_equal; lia). lia.
Qed.
Lemma carry2_bit A B k : Z.testbit (A + B) (Z.of_nat k) = xorb (xorb (Z.testbit A (Z.of_nat k)) (Z.testbit B (Z.of_nat k))) (carry2 A B k).
Proof.
  pose proof (carry2_adds A B k) as E. pose proof (carry2_adds A B (S k)) as E'. cbn [carry2] in E'. rewrite Nat2Z.inj_succ in E'. change (Z.succ (Z.of_nat k)) with (Z.of_nat k + 1) in E'. set (i := Z.of_nat k) in *. rewrite !mod_next in E' by lia. rewrite Z.pow_add_r in E' by lia. change (2 ^ 1) with 2 in E'.
  pose proof (full_adder (Z.testbit A i) (Z.testbit B i) (carry2 A B k)) as F. pose proof (Z.pow_pos_nonneg 2 i ltac:(lia) ltac:(lia)) as P2. set (c' := (_ && _) || _) in *. set (x := xorb _ (carry2 A B k)) in *.
  assert (X : 2 ^ i * Z.b2z (Z.testbit (A + B) i) = 2 ^ i * Z.b2z x) by (replace (2 ^ i * Z.b2z x) with (2 ^ i * (Z.b2z (Z.testbit A i) + Z.b2z (Z.testbit B i) + Z.b2z (carry2 A B k) - 2 * Z.b2z c')) by (f_equal; lia); lia).
  apply Z.mul_cancel_l in X; [|lia]. destruct (Z.testbit (A + B) i), x; cbn in X; congruence || lia.
Qed.
Lemma carry4_known a b A B n : (forall p, 0 <= p < n -> a p = sym_of_bool (Z.testbit A p) /\ b p = sym_of_bool (Z.testbit B p)) ->
  forall k, Z.of_nat k <= n -> carry4 a b k = sym_of_bool (carry2 A B k).
Proof.
  intros E k. induction k as [|k IH]; intros K; [reflexivity|]. cbn [carry4 carry2]. cbn zeta. destruct (E (Z.of_nat k)) as [-> ->]; [lia|]. rewrite IH by lia. destruct (Z.testbit A _), (Z.testbit B _), (carry2 A B k); reflexivity.
Qed.
Theorem ripple4_adds n a b r sa sb s : 1 <= n -> ltyped a n sa -> ltyped b n sb -> ltyped r n s -> known a -> known b ->
  exists r' c, ripple4 n a b r = Ok (r', c) /\ ltyped r' n s /\ known r' /\ num (l_val r') = (num (l_val a) + num (l_val b)) mod 2 ^ n /\
    sym_at c 0 = sym_of_bool (Z.testbit (num (l_val a) + num (l_val b)) n).
Proof.
  intros N A B R KA KB. assert (WA : lw a = n) by (apply (typed_bw _ _ sa); [lia|apply A]). assert (WB : lw b = n) by (apply (typed_bw _ _ sb); [lia|apply B]). unfold known in KA, KB. rewrite WA in KA. rewrite WB in KB.
  destruct (ripple4_symbols n a b r sa sb s N A B R) as (r' & c & E & T & T1 & Q & C). { intros p Hp. split; [apply KA|apply KB]; lia. }
  assert (WR : lw r' = n) by (apply (typed_bw _ _ s); [lia|apply T]).
  assert (Sy : forall p, 0 <= p < n -> sym_at a p = sym_of_bool (Z.testbit (num (l_val a)) p) /\ sym_at b p = sym_of_bool (Z.testbit (num (l_val b)) p)).
  { intros p Hp. specialize (KA p Hp). specialize (KB p Hp). unfold sym_at, bit_at in *. destruct (Z.testbit (num (l_val a)) p), (Z.testbit (num (l_xz a)) p), (Z.testbit (num (l_val b)) p), (Z.testbit (num (l_xz b)) p); try discriminate; split; reflexivity. }
  assert (Su : forall p, 0 <= p < n -> sym_at r' p = sym_of_bool (Z.testbit (num (l_val a) + num (l_val b)) p)).
  { intros p Hp. rewrite Q by lia. unfold sum4. rewrite (carry4_known _ _ _ _ n Sy) by lia. destruct (Sy p Hp) as [-> ->]. pose proof (carry2_bit (num (l_val a)) (num (l_val b)) (Z.to_nat p)) as X. rewrite Z2Nat.id in X by lia. rewrite X. destruct (Z.testbit (num (l_val a)) p), (Z.testbit (num (l_val b)) p), (carry2 _ _ _); reflexivity. }
  exists r', c. split; [exact E|]. split; [exact T|]. split; [|split].
  - intros p Hp. rewrite WR in Hp. rewrite Su by exact Hp. destruct (Z.testbit _ p); reflexivity.
  - assert (NR : 0 <= num (l_val r') < 2 ^ n) by (pose proof (num_range (l_val r')) as X; fold (lw r') in X; rewrite WR in X; apply X; lia). rewrite <- (Z.mod_small (num (l_val r')) (2 ^ n)) by exact NR. apply low_same; [lia|]. intros p Hp. specialize (Su p Hp). unfold sym_at in Su. fold (bit_at (l_val r') p).
    destruct (bit_at (l_val r') p), (bit_at (l_xz r') p), (Z.testbit (num (l_val a) + num (l_val b)) p); cbn in Su; congruence.
  - rewrite C, (carry4_known _ _ _ _ n Sy) by lia. f_equal. pose proof (carry2_bit (num (l_val a)) (num (l_val b)) (Z.to_nat n)) as X. rewrite Z2Nat.id in X by lia. rewrite X.
    assert (O : forall l, lw l = n -> Z.testbit (num (l_val l)) n = false). { intros l W. pose proof (num_range (l_val l)) as Y. fold (lw l) in Y. rewrite W in Y. specialize (Y N). apply Z.bits_above_log2; [lia|]. destruct (Z.eq_dec (num (l_val l)) 0) as [->|]; [cbn; lia|]. apply Z.log2_lt_pow2; lia. }
    rewrite !O by assumption. cbn [xorb]. destruct (carry2 _ _ _); reflexivity.
Qed.

(** ** rotations *)
Lemma at_out b p : 1 <= bw b -> ~ 0 <= p < bw b -> bit_at b p = false.
Proof.
  intros W P. unfold bit_at. destruct (Z.neg_nonneg_cases p) as [N|N]; [apply Z.testbit_neg_r; exact N|]. pose proof (num_range b W) as R. apply Z.bits_above_log2; [lia|]. destruct (Z.eq_dec (num b) 0) as [->|]; [cbn; lia|]. apply Z.log2_lt_pow2; try lia. apply (Z.lt_le_trans _ (2 ^ bw b)); [lia|]. apply Z.pow_le_mono_r; lia.
Qed.
Lemma shl_gen a k n s : 2 <= n -> typed a n s -> amount_of n k -> 0 <= value k -> (n <= 64 -> value k < computing n) -> exists r, bit_shl a k = Ok r /\ typed r n (s && bsgn k) /\ forall p, 0 <= p < n -> bit_at r p = bit_at a (p - value k).
Proof.
  intros N A (V & T & W) R C. pose proof (typed_bw a n s ltac:(lia) A) as Wa. destruct (shift_left a k (proj1 A) V T R) as (r & E & Tr & Nu).
  - intros L. rewrite Wa in *. split; [apply W; exact L|]. right. split; [exact N|]. apply (C L).
  - exists r. rewrite Wa in *. replace (bsgn a) with s in Tr by (symmetry; apply A). split; [exact E|]. split; [exact Tr|]. intros p Hp. unfold bit_at. rewrite Nu, Z.testbit_mod_pow2 by lia. replace (p <? n) with true by lia. cbn [andb]. apply Z.mul_pow2_bits. lia.
Qed.
Lemma shr_gen a k n s : 2 <= n -> typed a n s -> amount_of n k -> 0 <= value k -> (n <= 64 -> value k < n) -> exists r, bit_shr a k = Ok r /\ typed r n (s && bsgn k) /\ forall p, 0 <= p -> bit_at r p = bit_at a (p + value k).
Proof.
  intros N A (V & T & W) R C. pose proof (typed_bw a n s ltac:(lia) A) as Wa. destruct (shift_right a k (proj1 A) V T R) as (r & E & Tr & Nu).
  - intros L. rewrite Wa in *. split; [apply W; exact L|auto].
  - exists r. rewrite Wa in *. replace (bsgn a) with s in Tr by (symmetry; apply A). split; [exact E|]. split; [exact Tr|]. intros p Hp. unfold bit_at. rewrite Nu. apply Z.div_pow2_bits; lia.
Qed.
Lemma shr_at a k n s : 2 <= n -> typed a n s -> amount_of n k -> 0 <= value k < n -> exists r, bit_shr a k = Ok r /\ typed r n (s && bsgn k) /\ forall p, 0 <= p -> bit_at r p = bit_at a (p + value k).
Proof. intros N A K R. apply shr_gen; auto; lia. Qed.
Lemma same_bits a b n s t : 1 <= n -> typed a n s -> typed b n t -> (forall p, 0 <= p < n -> bit_at a p = bit_at b p) -> num a = num b.
Proof.
  intros N A B E. pose proof (typed_bw a n s N A) as WA. pose proof (typed_bw b n t N B) as WB. apply Z.bits_inj'. intros p P. fold (bit_at a p) (bit_at b p). destruct (Z.lt_ge_cases p n); [apply E; lia|]. rewrite !at_out by lia. reflexivity.
Qed.
Lemma rotate_gen n a k l s j : 2 <= n -> typed a n s -> amount_of n k -> amount_of n l -> 0 <= j <= n -> value k = j -> value l = n - j -> (n <= 64 -> 1 <= j < computing n) ->
  exists r, rotate a k l = Ok r /\ typed r n (s && (bsgn k && bsgn l)) /\ forall p, 0 <= p < n -> bit_at r p = bit_at a ((p - j) mod n).
Proof.
  intros N A K L J VK VL C. unfold rotate. destruct (shl_gen a k n s N A K ltac:(lia)) as (x & -> & Tx & Bx); [intros Q; rewrite VK; apply (C Q)|]. destruct (shr_gen a l n s N A L ltac:(lia)) as (y & -> & Ty & By); [intros Q; pose proof (C Q); lia|]. cbn [bind].
  pose proof (typed_bw a n s ltac:(lia) A) as WA. destruct (bitwise_same_all x y n (proj1 Tx) (proj1 Ty)) as (_ & (r & E & T & B) & _); [apply (typed_bw x n _ ltac:(lia) Tx)|apply (typed_bw y n _ ltac:(lia) Ty)|destruct Ty as (_ & (-> & ->) & _); lia|].
  exists r. split; [exact E|]. destruct Tx as (_ & _ & Sx). destruct Ty as (_ & _ & Sy). rewrite Sx, Sy in T. replace (s && (bsgn k && bsgn l)) with (s && bsgn k && (s && bsgn l)) by (destruct s, (bsgn k), (bsgn l); reflexivity). split; [exact T|].
  intros p Hp. rewrite B, Bx, By by lia. rewrite VK, VL. destruct (Z.lt_ge_cases p j) as [D|D].
  - rewrite (at_out a (p - j)) by lia. cbn [orb]. f_equal. rewrite <- (Z.mod_add (p - j) 1 n) by lia. rewrite Z.mod_small; lia.
  - rewrite (at_out a (p + (n - j))) by lia. rewrite orb_false_r, Z.mod_small by lia. reflexivity.
Qed.
Theorem rotate_rotates n a k l s j : 2 <= n -> typed a n s -> amount_of n k -> amount_of n l -> 1 <= j < n -> value k = j -> value l = n - j ->
  exists r, rotate a k l = Ok r /\ typed r n (s && (bsgn k && bsgn l)) /\ forall p, 0 <= p < n -> bit_at r p = bit_at a ((p - j) mod n).
Proof. intros N A K L J VK VL. apply rotate_gen; auto; [lia|]. intros Q. unfold computing. destruct (n <=? 32) eqn:?; lia. Qed.
(** all amounts from 0 to n *)
Theorem rotate_exact n a k l s j : 2 <= n -> typed a n s -> amount_of n k -> amount_of n l -> 0 <= j <= n -> value k = j -> value l = n - j ->
  if (n <=? 64) && ((j =? 0) || (j =? n) && ((n =? 32) || (n =? 64))) then rotate a k l = UB
  else exists r, rotate a k l = Ok r /\ typed r n (s && (bsgn k && bsgn l)) /\ forall p, 0 <= p < n -> bit_at r p = bit_at a ((p - j) mod n).
Proof.
  intros N A K L J VK VL. destruct ((n <=? 64) && ((j =? 0) || (j =? n) && ((n =? 32) || (n =? 64)))) eqn:C.
  2: { apply rotate_gen; auto. intros Q. unfold computing. destruct (n <=? 32) eqn:?; lia. }
  apply andb_prop in C as [C1 C2]. apply Z.leb_le in C1. pose proof (typed_bw a n s ltac:(lia) A) as WA. unfold rotate. apply orb_prop in C2 as [C2|C2].
  - destruct (shl_gen a k n s N A K ltac:(lia)) as (x & -> & _); [intros _; unfold computing; destruct (n <=? 32) eqn:?; lia|]. cbn [bind]. destruct L as (Vl & Tl & Wl).
    rewrite (shr_wide_ub a l); [reflexivity|apply A|exact Vl|lia|apply Wl; exact C1|]. rewrite (tidy_value_stored l Vl Tl ltac:(lia)). lia.
  - destruct K as (Vk & Tk & Wk). pose proof (tidy_value_stored k Vk Tk ltac:(lia)) as Sk. destruct (shl_exact a k n j (proj1 A) Vk WA ltac:(lia) (Wk C1) ltac:(lia)) as [_ U].
    + rewrite Sk, VK. symmetry. apply Z.mod_small. split; [lia|]. assert (Q : j = 32 /\ n = 32 \/ j = 64 /\ n = 64) by lia. destruct Q as [[-> ->]|[-> ->]]; reflexivity.
    + rewrite U; [reflexivity|]. assert (Q : j = 32 /\ n = 32 \/ j = 64 /\ n = 64) by lia. destruct Q as [[-> ->]|[-> ->]]; cbv; discriminate.
Qed.
Theorem rotate_back n a k l s j : 2 <= n -> typed a n s -> amount_of n k -> amount_of n l -> 1 <= j < n -> value k = j -> value l = n - j ->
  exists r b, rotate a k l = Ok r /\ rotate r l k = Ok b /\ num b = num a.
Proof.
  intros N A K L J VK VL. destruct (rotate_rotates n a k l s j N A K L J VK VL) as (r & E & T & B). destruct (rotate_rotates n r l k _ (n - j) N T L K ltac:(lia) VL ltac:(lia)) as (b & E' & T' & B'). exists r, b. split; [exact E|]. split; [exact E'|].
  apply (same_bits b a n _ s ltac:(lia) T' A). intros p Hp. rewrite B' by lia. rewrite B by (apply Z.mod_pos_bound; lia). f_equal. rewrite Zminus_mod_idemp_l. replace (p - (n - j) - j) with (p + (-1) * n) by lia. rewrite Z.mod_add by lia. apply Z.mod_small. lia.
Qed.
(** ** Gray codes *)
Lemma xor_shr_at a k n s : 2 <= n -> typed a n s -> amount_of n k -> 0 <= value k < n -> exists r, (let! y := bit_shr a k in bit_xor a y) = Ok r /\ typed r n (s && bsgn k) /\ forall p, 0 <= p < n -> bit_at r p = xorb (bit_at a p) (bit_at a (p + value k)).
Proof.
  intros N A K R. destruct (shr_at a k n s N A K R) as (y & -> & Ty & By). cbn [bind].
  destruct (bitwise_same_all a y n (proj1 A) (proj1 Ty)) as (_ & _ & (r & E & T & B) & _); [apply (typed_bw a n _ ltac:(lia) A)|apply (typed_bw y n _ ltac:(lia) Ty)|destruct Ty as (_ & (-> & ->) & _); lia|].
  exists r. split; [exact E|]. destruct A as (_ & _ & SA). destruct Ty as (_ & _ & Sy). rewrite SA, Sy in T. replace (s && bsgn k) with (s && (s && bsgn k)) by (destruct s; reflexivity). split; [exact T|]. intros p Hp. rewrite B, By by lia. reflexivity.
Qed.
Theorem gray_code n a one s : 2 <= n -> typed a n s -> amount_of n one -> value one = 1 ->
  exists g, gray a one = Ok g /\ typed g n (s && bsgn one) /\ forall p, 0 <= p < n -> bit_at g p = xorb (bit_at a p) (bit_at a (p + 1)).
Proof. intros N A K V. destruct (xor_shr_at a one n s N A K ltac:(lia)) as (g & E & T & B). rewrite V in B. exists g. repeat (split; [assumption|]). exact B. Qed.
Lemma ungray_steps n ks : 2 <= n -> forall i s g a t, typed g n s -> typed a n t -> (forall p, 0 <= p < n -> bit_at g p = xorb (bit_at a p) (bit_at a (p + 2 ^ Z.of_nat i))) ->
  (forall m d, (m < length ks)%nat -> amount_of n (nth m ks d) /\ value (nth m ks d) = 2 ^ Z.of_nat (i + m) /\ 2 ^ Z.of_nat (i + m) < n) -> n <= 2 ^ Z.of_nat (i + length ks) ->
  exists r u, ungray ks g = Ok r /\ typed r n u /\ num r = num a.
Proof.
  intros N. induction ks as [|k ks IH]; intros i s g a t G A E K L.
  - exists g, s. split; [reflexivity|]. split; [exact G|]. apply (same_bits g a n s t ltac:(lia) G A). intros p Hp. rewrite E by exact Hp. cbn [length] in L. rewrite Nat.add_0_r in L. rewrite (at_out a (p + _)) by (rewrite (typed_bw a n t ltac:(lia) A); lia). apply xorb_false_r.
  - destruct (K 0%nat k) as (K0 & V0 & L0); [cbn; lia|]. cbn [nth] in K0, V0. rewrite Nat.add_0_r in V0, L0. unfold ungray. cbn [ofold]. destruct (xor_shr_at g k n s N G K0) as (r & Er & Tr & Br); [lia|]. rewrite Er. cbn [bind].
    apply (IH (S i) _ r a t Tr A).
    + intros p Hp. rewrite Br by exact Hp. rewrite V0. rewrite E by exact Hp. rewrite Nat2Z.inj_succ, Z.pow_succ_r by lia. set (w := 2 ^ Z.of_nat i) in *. assert (0 < w) by (apply Z.pow_pos_nonneg; lia).
      assert (X : bit_at g (p + w) = xorb (bit_at a (p + w)) (bit_at a (p + 2 * w))).
      { destruct (Z.lt_ge_cases (p + w) n); [rewrite E by lia; f_equal; f_equal; lia|]. rewrite !at_out by (rewrite ?(typed_bw a n t ltac:(lia) A), ?(typed_bw g n s ltac:(lia) G); lia). reflexivity. }
      rewrite X. destruct (bit_at a p), (bit_at a (p + w)), (bit_at a (p + 2 * w)); reflexivity.
    + intros m d M. destruct (K (S m) d) as (K1 & V1 & L1); [cbn; lia|]. cbn [nth] in K1, V1. rewrite Nat.add_succ_r in V1, L1. cbn [Nat.add]. auto.
    + cbn [length] in L. rewrite Nat.add_succ_r in L. exact L.
Qed.
Theorem gray_decoded n a one s ks : 2 <= n -> typed a n s -> amount_of n one -> value one = 1 ->
  (forall m d, (m < length ks)%nat -> amount_of n (nth m ks d) /\ value (nth m ks d) = 2 ^ Z.of_nat m /\ 2 ^ Z.of_nat m < n) -> n <= 2 ^ Z.of_nat (length ks) ->
  exists g r, gray a one = Ok g /\ ungray ks g = Ok r /\ num r = num a.
Proof.
  intros N A O V K L. destruct (gray_code n a one s N A O V) as (g & E & T & B). destruct (ungray_steps n ks N 0%nat _ g a s T A B K L) as (r & u & Er & _ & Nu). exists g, r. auto.
Qed.
Lemma succ_flips A : 0 <= A -> exists k, 0 <= k /\ forall p, 0 <= p -> xorb (Z.testbit A p) (Z.testbit (A + 1) p) = (p <=? k).
Proof.
  intros H. destruct A as [|q|q]; [|clear H|lia].
  - exists 0. split; [lia|]. intros p P. rewrite Z.bits_0. change (0 + 1) with 1. destruct (Z.eq_dec p 0) as [->|]; [reflexivity|]. replace 1 with (2 ^ 0) by reflexivity. rewrite Z.pow2_bits_false by lia. replace (p <=? 0) with false by lia. reflexivity.
  - induction q as [q IH|q IH|].
    + destruct IH as (k & K & E). exists (k + 1). split; [lia|]. intros p P. replace (Z.pos q~1) with (2 * Z.pos q + 1) by lia. replace (2 * Z.pos q + 1 + 1) with (2 * (Z.pos q + 1)) by lia. destruct (Z.eq_dec p 0) as [->|D].
      * rewrite Z.testbit_odd_0, Z.testbit_even_0. replace (0 <=? k + 1) with true by lia. reflexivity.
      * replace p with (Z.succ (p - 1)) by lia. rewrite Z.testbit_odd_succ, Z.testbit_even_succ, E by lia. destruct (Z.leb_spec (p - 1) k), (Z.leb_spec (Z.succ (p - 1)) (k + 1)); lia || reflexivity.
    + exists 0. split; [lia|]. intros p P. replace (Z.pos q~0) with (2 * Z.pos q) by lia. destruct (Z.eq_dec p 0) as [->|D]; [rewrite Z.testbit_odd_0, Z.testbit_even_0; reflexivity|]. replace p with (Z.succ (p - 1)) by lia. rewrite Z.testbit_odd_succ, Z.testbit_even_succ by lia. rewrite xorb_nilpotent. replace (_ <=? 0) with false by lia. reflexivity.
    + exists 1. split; [lia|]. intros p P. destruct (Z.eq_dec p 0) as [->|]; [reflexivity|]. destruct (Z.eq_dec p 1) as [->|]; [reflexivity|]. replace (p <=? 1) with false by lia. change (1 + 1) with (2 ^ 1). replace 1 with (2 ^ 0) at 1 by reflexivity. rewrite !Z.pow2_bits_false by lia. reflexivity.
Qed.
Theorem gray_adjacent n a b one s t : 2 <= n -> typed a n s -> typed b n t -> amount_of n one -> value one = 1 -> num b = (num a + 1) mod 2 ^ n ->
  exists g h q, gray a one = Ok g /\ gray b one = Ok h /\ 0 <= q < n /\ forall p, 0 <= p < n -> (bit_at g p <> bit_at h p <-> p = q).
Proof.
  intros N A B O V E. destruct (gray_code n a one s N A O V) as (g & Eg & Tg & Bg). destruct (gray_code n b one t N B O V) as (h & Eh & Th & Bh). pose proof (typed_bw a n s ltac:(lia) A) as WA. pose proof (typed_bw b n t ltac:(lia) B) as WB.
  destruct (succ_flips (num a)) as (k & K & F). { apply Z.mod_pos_bound. apply Z.pow_pos_nonneg; lia. }
  exists g, h, (Z.min k (n - 1)). split; [exact Eg|]. split; [exact Eh|]. split; [lia|].
  assert (D : forall p, 0 <= p -> xorb (bit_at a p) (bit_at b p) = (p <? n) && (p <=? k)).
  { intros p P. destruct (Z.ltb_spec p n) as [C|C]; [|rewrite !at_out by lia; reflexivity]. unfold bit_at. rewrite E, Z.testbit_mod_pow2 by lia. replace (p <? n) with true by lia. cbn [andb]. apply F. exact P. }
  intros p Hp. rewrite Bg, Bh by exact Hp. pose proof (D p ltac:(lia)) as D1. pose proof (D (p + 1) ltac:(lia)) as D2. replace (p <? n) with true in D1 by lia. cbn [andb] in D1.
  assert (X : (p =? Z.min k (n - 1)) = xorb (p <=? k) ((p + 1 <? n) && (p + 1 <=? k))). { destruct (Z.leb_spec p k), (Z.ltb_spec (p + 1) n), (Z.leb_spec (p + 1) k), (Z.eqb_spec p (Z.min k (n - 1))); cbn; lia || reflexivity. }
  rewrite <- D1, <- D2 in X. destruct (Z.eqb_spec p (Z.min k (n - 1))) as [Q|Q]; destruct (bit_at a p), (bit_at a (p + 1)), (bit_at b p), (bit_at b (p + 1)); cbn in *; try discriminate; split; intros; congruence || (exfalso; congruence) || tauto.
Qed.
Theorem ripple_plus n a b r sa sb s : 2 <= n -> typed a n sa -> typed b n sb -> sa && sb = false -> typed r n s ->
  exists r' c x, ripple n a b r = Ok (r', c) /\ bit_add a b = Ok x /\ num r' = num x.
Proof.
  intros N A B S R. destruct (ripple_adds n a b r sa sb s ltac:(lia) A B R) as (r' & c & E & _ & Nr & _). destruct (add_same_width a b n (proj1 A) (proj1 B)) as (x & Ex & _ & Nx); [apply (typed_bw a n sa ltac:(lia) A)|apply (typed_bw b n sb ltac:(lia) B)|destruct B as (_ & (-> & ->) & _); lia|exact N| |].
  - unfold no_overflow. destruct A as (_ & _ & EA). destruct B as (_ & _ & EB). rewrite EA, EB. intros Y1 Y2. rewrite Y1, Y2 in S. discriminate.
  - exists r', c, x. split; [exact E|]. split; [exact Ex|]. congruence.
Qed.
