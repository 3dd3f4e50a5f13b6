(** Exactly when positions outside the range read as 0, when split vectors can be joined again, and when a 4-state vector is compared
    rightly with a 2-state one. *)
From Coq Require Import ZArith List Bool Lia Zify ZifyBool.
From Verif Require Import Cpp BigNum Bit Logic More Spec SpecExact SpecMachine SpecWide SpecFour SpecIff SpecIff4 ZBits Words BigNumProofs BitProofs BitExt BitOps BitMain BitMain3 MachineProofs WideProofs WideProofs3 WideProofs4 Reach ReachProofs ReachProofs2 ReachProofs4 FourProofs FourProofs2 FourProofs3 LogicProofs LogicMain MoreProofs Rest RestProofs LawProofs Iff3 Iff5 Iff6 Iff14 Iff18.
Import ListNotations.
Open Scope Z_scope.
Local Ltac Zify.zify_post_hook ::= idtac.

Lemma outside_iff a n s i : 1 <= n -> typed a n s -> tidy a -> int_ok i -> ~ (0 <= i < n) ->
  (bit_get a i = Ok false <-> 65 <= n \/ (0 <= i < computing n /\ (n = 1 \/ 0 <= value a))) /\
  (bit_get a i = UB <-> n <= 64 /\ ~ (0 <= i < computing n)).
Proof.
  intros Hn T D Hi O. pose proof (typed_bw _ _ _ Hn T) as W. pose proof (typed_lt _ _ _ Hn T) as L. destruct T as (V & [P1 P2] & S1).
  rewrite get_any by exact V. unfold any_position, small, position, slot. rewrite P1, P2, W. replace (0 <=? n - 1) with true by lia.
  unfold int_ok in Hi. destruct (Z.leb_spec n 64) as [N|N].
  - assert (C : (0 <=? i) && (i <? computing n) = true <-> 0 <= i < computing n) by lia.
    destruct ((0 <=? i) && (i <? computing n)) eqn:Q.
    + assert (R : 0 <= i < computing n) by tauto. rewrite (tidy_above a i V D) by lia. rewrite W, S1.
      assert (B : s && (1 <? n) && bit_at a (n - 1) = false <-> n = 1 \/ 0 <= value a).
      { destruct (Z.eqb_spec n 1) as [E|E]; [replace (1 <? n) with false by lia; destruct s; cbn [andb]; tauto|]. replace (1 <? n) with true by lia. rewrite andb_true_r. destruct s; cbn [andb].
        - rewrite <- W, <- sign_bit by (auto; lia). lia.
        - unfold value. rewrite S1. pose proof (num_range a). split; [lia|reflexivity]. }
      split; split; intros H; try discriminate; try lia.
      * injection H as H. right. split; [exact R|]. apply B. exact H.
      * f_equal. apply B. destruct H as [H|[_ H]]; [lia|exact H].
    + assert (R : ~ (0 <= i < computing n)) by (intros X; apply C in X; discriminate). split; split; intros H; try discriminate; try lia; reflexivity.
  - assert (Q : (i mod 2 ^ 64 <? n) = false).
    { destruct (Z.lt_ge_cases i 0) as [G|G].
      - replace (i mod 2 ^ 64) with (i + 2 ^ 64); [lia|]. symmetry. replace i with (i + 2 ^ 64 + (-1) * 2 ^ 64) at 1 by lia. rewrite Z.mod_add by lia. apply Z.mod_small. lia.
      - rewrite Z.mod_small by lia. lia. }
    rewrite Q. cbn [andb]. split; split; intros H; try discriminate; try lia; reflexivity.
Qed.

(** joining the parts of a vector *)
Lemma join_ok a b na nb r : 1 <= na -> 1 <= nb -> typed a na false -> typed b nb false -> bit_concat a b = Ok r -> typed r (na + nb) false /\ na + nb < 64.
Proof.
  intros Ha Hb Ta Tb E. pose proof (typed_bw _ _ _ Ha Ta) as Wa. pose proof (typed_bw _ _ _ Hb Tb) as Wb. destruct Ta as (Va & _), Tb as (Vb & _).
  destruct (concat_vec _ _ _ Va Vb E) as (V & M & N & S1). rewrite concat_any in E by assumption. destruct (joined_cases _ _ _ Va Vb E) as (_ & _ & L). rewrite Wa, Wb in *. split; [|exact L].
  split; [exact V|]. split; [split; [lia|exact N]|exact S1].
Qed.
Lemma join_bits a b na nb r : 1 <= na -> 1 <= nb -> typed a na false -> typed b nb false -> typed r (na + nb) false ->
  num r = num a * 2 ^ nb + num b <-> (forall p, 0 <= p < na + nb -> bit_at r p = if p <? nb then bit_at b p else bit_at a (p - nb)).
Proof.
  intros Ha Hb Ta Tb Tr. pose proof (typed_bw _ _ _ Ha Ta) as Wa. pose proof (typed_bw _ _ _ Hb Tb) as Wb. assert (Hr : 1 <= na + nb) by lia. pose proof (typed_bw _ _ _ Hr Tr) as Wr.
  pose proof (num_range a) as Ra. pose proof (num_range b) as Rb. rewrite Wa in Ra. rewrite Wb in Rb.
  assert (B : forall p, 0 <= p -> Z.testbit (num a * 2 ^ nb + num b) p = if p <? nb then bit_at b p else bit_at a (p - nb)).
  { intros p P. rewrite <- Exact.lor_low by lia. rewrite Z.lor_spec. rewrite <- Z.shiftl_mul_pow2 by lia. rewrite Z.shiftl_spec by lia. unfold bit_at. destruct (Z.ltb_spec p nb) as [Q|Q].
    - rewrite Z.testbit_neg_r by lia. reflexivity.
    - rewrite (testbit_high (num b) nb) by lia. rewrite orb_false_r. reflexivity. }
  assert (R : 0 <= num a * 2 ^ nb + num b < 2 ^ (na + nb)) by (rewrite Z.pow_add_r by lia; pose proof (pow2_pos nb ltac:(lia)); nia).
  split.
  - intros E p P. unfold bit_at at 1. rewrite E. apply B. lia.
  - intros H. apply num_bits; rewrite Wr; [exact R|]. intros p P. rewrite B by lia. apply H, P.
Qed.
Lemma mod_below z a b : 0 <= a <= b -> 0 <= z mod 2 ^ a < 2 ^ b.
Proof. intros H. assert (2 ^ a <= 2 ^ b) by (apply Z.pow_le_mono_r; lia). pose proof (Z.mod_pos_bound z (2 ^ a) ltac:(apply pow2_pos; lia)). lia. Qed.
Lemma join_tidy a b na nb r : 1 <= na -> 1 <= nb -> typed a na false -> typed b nb false -> tidy a -> tidy b -> bit_concat a b = Ok r -> tidy r.
Proof.
  intros Ha Hb Ta Tb Da Db E. destruct (join_ok _ _ _ _ _ Ha Hb Ta Tb E) as [Tr L]. assert (Hr : 1 <= na + nb) by lia. apply (tidy_u_iff r (na + nb) Hr Tr).
  pose proof (typed_bw _ _ _ Ha Ta) as Wa. pose proof (typed_bw _ _ _ Hb Tb) as Wb. pose proof (num_range a) as Ra. pose proof (num_range b) as Rb. destruct Ta as (Va & _ & Sa), Tb as (Vb & _ & Sb).
  rewrite concat_any in E by assumption. unfold joined in E. rewrite Wa, Wb, Sa, Sb, <- (num_of_tidy a Da Sa), <- (num_of_tidy b Db Sb) in *. set (x := num a) in *. set (y := num b) in *. set (n := na + nb) in *. assert (Nn : n = na + nb) by reflexivity.
  replace (64 <=? n) with false in E by lia. destruct (Z.leb_spec (computing na) nb) as [H|H]; [discriminate|]. rewrite !orb_false_r in E. injection E as <-. unfold vector, stored. cbn [bval]. unfold store. replace (n =? 1) with false by lia. unfold wrap at 1.
  destruct (storage_cases n ltac:(lia)) as (S1 & S2 & S3 & _). assert (Q : n = storage n \/ (n < storage n /\ n <> 8 /\ n <> 16 /\ n <> 32)) by (clear - S1 L Hr; unfold storage in *; destruct (Z.leb_spec n 8), (Z.leb_spec n 16), (Z.leb_spec n 32); lia).
  destruct Q as [Q|[Q1 Q2]]; [rewrite <- Q; apply Z.mod_pos_bound, pow2_pos; lia|].
  assert (A : 0 <= x * 2 ^ nb < 2 ^ n) by (unfold n; rewrite Z.pow_add_r by lia; pose proof (pow2_pos nb ltac:(lia)); nia).
  assert (Yn : 0 <= y < 2 ^ n) by (assert (2 ^ nb <= 2 ^ n) by (apply Z.pow_le_mono_r; lia); lia).
  assert (G : forall u v, 0 <= u < 2 ^ n -> 0 <= v < 2 ^ n -> 0 <= Z.lor u v mod 2 ^ storage n < 2 ^ n).
  { intros u v U V. assert (B : 0 <= Z.lor u v < 2 ^ n) by (apply lor_range; lia). rewrite Z.mod_small; [exact B|]. assert (2 ^ n <= 2 ^ storage n) by (apply Z.pow_le_mono_r; lia). lia. }
  assert (W31 : forall z, 0 <= z < 2 ^ n -> n <= 31 -> wrap true 32 z = z).
  { intros z Zr N31. assert (2 ^ n <= 2 ^ 31) by (apply Z.pow_le_mono_r; lia). unfold wrap. change (32 - 1) with 31. rewrite Z.mod_small by lia. lia. }
  assert (Wf : forall z w, 0 <= z < 2 ^ n -> n <= w -> wrap false w z = z).
  { intros z w Zr N. assert (2 ^ n <= 2 ^ w) by (apply Z.pow_le_mono_r; lia). unfold wrap. apply Z.mod_small. lia. }
  assert (Fb : forall z w, 0 <= w <= n -> 0 <= wrap false w z < 2 ^ n) by (intros z w B; unfold wrap; apply mod_below; exact B).
  destruct (Z.le_gt_cases n 31) as [N31|N31].
  - assert (C1 : computing na = 32) by (unfold computing; replace (na <=? 32) with true by lia; reflexivity). assert (C2 : computing nb = 32) by (unfold computing; replace (nb <=? 32) with true by lia; reflexivity). rewrite C1, C2. change (Z.max 32 32) with 32. rewrite Z.ltb_irrefl, !orb_false_r.
    assert (I : forall f z, 0 <= z < 2 ^ n -> wrap f 32 z = z) by (intros [|] z Zr; [apply W31|apply Wf]; auto; lia). rewrite (I _ _ A), (I _ _ A), (I _ _ Yn). apply G; assumption.
  - destruct (Z.le_gt_cases na 32) as [N32|N32].
    + assert (C1 : computing na = 32) by (unfold computing; replace (na <=? 32) with true by lia; reflexivity). rewrite C1 in *. assert (C2 : computing nb = 32) by (unfold computing; replace (nb <=? 32) with true by lia; reflexivity). rewrite C2. change (Z.max 32 32) with 32. rewrite Z.ltb_irrefl, !orb_false_r.
      replace ((na <=? 16) && (nb <=? 16)) with false by lia. apply G; apply Fb; lia.
    + assert (C1 : computing na = 64) by (unfold computing; replace (na <=? 32) with false by lia; reflexivity). rewrite C1 in *. assert (C2 : Z.max 64 (computing nb) = 64) by (unfold computing; destruct (nb <=? 32); reflexivity). rewrite C2. rewrite Z.ltb_irrefl. replace (na <=? 16) with false by lia. cbn [orb andb].
      rewrite (Wf _ 64 A), (Wf _ 64 A), (Wf _ 64 Yn) by lia. apply G; assumption.
Qed.
Lemma bit_slices_iff a b na nb : 1 <= na -> 1 <= nb -> typed a na false -> typed b nb false -> tidy a -> tidy b ->
  (exists r, bit_concat a b = Ok r /\ bit_slice_c r (nb - 1) 0 = Ok b /\ bit_slice_c r (na + nb - 1) nb = Ok a) <->
  na + nb < 64 /\ (33 <= na \/ (nb <= 31 /\ num a * 2 ^ nb < 2 ^ 32)).
Proof.
  intros Ha Hb Ta Tb Da Db. rewrite <- (concat_iff a b na nb Ha Hb Ta Tb Da Db).
  assert (K : forall r, bit_concat a b = Ok r -> (bit_slice_c r (nb - 1) 0 = Ok b /\ bit_slice_c r (na + nb - 1) nb = Ok a) <-> num r = num a * 2 ^ nb + num b).
  { intros r E. destruct (join_ok _ _ _ _ _ Ha Hb Ta Tb E) as [Tr L]. assert (Hr : 1 <= na + nb) by lia.
    destruct (slice_const_unsigned r (na + nb) (nb - 1) 0 Hr Tr ltac:(lia) ltac:(lia) ltac:(lia)) as (lo & El & Tl & Yl & Ql).
    destruct (slice_const_unsigned r (na + nb) (na + nb - 1) nb Hr Tr ltac:(lia) ltac:(lia) ltac:(lia)) as (hi & Eh & Th & Yh & Qh).
    replace (Z.abs (nb - 1 - 0) + 1) with nb in * by lia. replace (Z.abs (na + nb - 1 - nb) + 1) with na in * by lia. rewrite El, Eh, (join_bits a b na nb r Ha Hb Ta Tb Tr). split.
    - intros [X Y]. injection X as ->. injection Y as ->. intros p P. destruct (Z.ltb_spec p nb); [rewrite Ql by lia|rewrite Qh by lia]; f_equal; lia.
    - intros H. split; f_equal; [apply (bit_ext lo b nb)|apply (bit_ext hi a na)]; auto; intros p P; [rewrite Ql by lia|rewrite Qh by lia]; rewrite H by lia.
      + replace (Z.min (nb - 1) 0 + p) with p by lia. replace (p <? nb) with true by lia. reflexivity.
      + replace (Z.min (na + nb - 1) nb + p) with (nb + p) by lia. replace (nb + p <? nb) with false by lia. f_equal. lia. }
  split; intros (r & E & H); exists r; split; try exact E; apply (K r E); exact H.
Qed.
Lemma bit_split_iff x n k : 1 <= k < n -> typed x n false -> tidy x ->
  (exists hi lo, bit_slice_c x (n - 1) k = Ok hi /\ bit_slice_c x (k - 1) 0 = Ok lo /\ bit_concat hi lo = Ok x) <->
  n < 64 /\ (33 <= n - k \/ (k <= 31 /\ num x < 2 ^ 32)).
Proof.
  intros Hk T D. assert (Hn : 1 <= n) by lia.
  assert (K : forall hi lo, typed hi (n - k) false -> typed lo k false -> tidy hi -> tidy lo -> (forall p, 0 <= p < n - k -> bit_at hi p = bit_at x (k + p)) -> (forall p, 0 <= p < k -> bit_at lo p = bit_at x p) ->
    bit_concat hi lo = Ok x <-> n < 64 /\ (33 <= n - k \/ (k <= 31 /\ num x < 2 ^ 32))).
  { intros hi lo Th Tl Yh Yl Qh Ql. assert (A : 1 <= n - k) by lia. assert (B : 1 <= k) by lia.
    assert (Tx : typed x (n - k + k) false) by (replace (n - k + k) with n by lia; exact T).
    assert (N : num x = num hi * 2 ^ k + num lo). { apply (join_bits hi lo (n - k) k x A B Th Tl Tx). intros p P. destruct (Z.ltb_spec p k); [rewrite Ql by lia|rewrite Qh by lia]; f_equal; lia. }
    pose proof (concat_iff hi lo (n - k) k A B Th Tl Yh Yl) as C. replace (n - k + k) with n in C by lia. rewrite <- N in C.
    assert (F : (exists r, bit_concat hi lo = Ok r /\ num r = num x) <-> bit_concat hi lo = Ok x).
    { split; [|intros E; exists x; auto]. intros (r & E & Q). destruct (join_ok _ _ _ _ _ A B Th Tl E) as [Tr L]. rewrite E. f_equal. replace (n - k + k) with n in Tr by lia.
      assert (Yr : tidy r) by (apply (join_tidy hi lo (n - k) k r); auto).
      apply (bit_ext r x n); auto. intros p P. unfold bit_at. rewrite Q. reflexivity. }
    rewrite <- F, C. pose proof (num_range lo) as Rl. rewrite (typed_bw _ _ _ B Tl) in Rl.
    assert (Z32 : k <= 31 -> num hi * 2 ^ k < 2 ^ 32 <-> num x < 2 ^ 32).
    { intros K31. replace (2 ^ 32) with (2 ^ (32 - k) * 2 ^ k) by (rewrite <- Z.pow_add_r by lia; f_equal; lia). pose proof (pow2_pos k ltac:(lia)) as P2. rewrite N. clear - P2 Rl. set (h := num hi) in *. set (m := 2 ^ (32 - k)). set (u := 2 ^ k) in *. split; intros H; [assert (h + 1 <= m) by nia; nia|lia]. }
    split; intros [H1 H2]; (split; [exact H1|]); destruct H2 as [H2|[H2 H3]]; auto; right; (split; [exact H2|]); apply Z32; assumption. }
  assert (G : forall w a b, Z.abs (a - b) + 1 = w -> 0 <= a < n -> 0 <= b < n -> (bit_slice_c x a b = IllFormed /\ 65 <= n) \/ exists r, bit_slice_c x a b = Ok r /\ typed r w false /\ tidy r /\ forall p, 0 <= p < w -> bit_at r p = bit_at x (Z.min a b + p)).
  { intros w a b <- Ha Hb. destruct (Z.le_gt_cases n 64) as [L|L]; [right; apply (slice_const_unsigned x n a b Hn T Ha Hb); lia|].
    destruct (Z.eq_dec (Z.abs (a - b) + 1) 65) as [E|E]; [left; split; [apply (slice_65_rejected x n a b); auto; lia|lia]|right; apply (slice_const_unsigned x n a b Hn T Ha Hb); lia]. }
  destruct (G (n - k) (n - 1) k ltac:(lia) ltac:(lia) ltac:(lia)) as [[E L]|(hi & Eh & Th & Yh & Qh)]; [split; [intros (hi & lo & X & _); congruence|lia]|].
  destruct (G k (k - 1) 0 ltac:(lia) ltac:(lia) ltac:(lia)) as [[E L]|(lo & El & Tl & Yl & Ql)]; [split; [intros (hi' & lo & _ & X & _); congruence|lia]|].
  rewrite <- (K hi lo Th Tl Yh Yl); [|intros p P; rewrite Qh by lia; f_equal; lia|intros p P; rewrite Ql by lia; f_equal; lia].
  rewrite Eh, El. split; [intros (hi' & lo' & X & Y & E); injection X as <-; injection Y as <-; exact E|intros E; exists hi, lo; auto].
Qed.

(** the same for 4-state vectors *)
Lemma ljoin_parts a b na nb r : 1 <= na -> 1 <= nb -> ltyped a na false -> ltyped b nb false ->
  logic_concat a b = Ok r <-> bit_concat (l_val a) (l_val b) = Ok (l_val r) /\ bit_concat (l_xz a) (l_xz b) = Ok (l_xz r).
Proof.
  intros Ha Hb Ta Tb. pose proof (LogicProofs.ltyped_lvec _ _ _ Ta) as La. pose proof (LogicProofs.ltyped_lvec _ _ _ Tb) as Lb. rewrite join_four by assumption. unfold four_join. destruct Ta as [Ta1 Ta2], Tb as [Tb1 Tb2].
  rewrite <- !concat_any by (apply Ta1 || apply Tb1 || apply Ta2 || apply Tb2).
  assert (Wa : lw a = na) by (apply (typed_bw _ _ _ Ha Ta1)). assert (Wb : lw b = nb) by (apply (typed_bw _ _ _ Hb Tb1)). assert (Sa : lsgn a = false) by apply Ta1. rewrite Wa, Wb, Sa.
  assert (R : forall x y v, typed x na false -> typed y nb false -> bit_concat x y = Ok v -> object (na + nb - 1) 0 false (stored v) = v).
  { intros x y v Tx Ty E. destruct (join_ok _ _ _ _ _ Ha Hb Tx Ty E) as [(V & [P1 P2] & P3) _]. rewrite (as_object v V) at 2. rewrite P1, P2, P3. reflexivity. }
  destruct (bit_concat (l_val a) (l_val b)) as [v| | | |] eqn:E1; cbn [bind]; try (split; [discriminate|intros [X _]; discriminate]).
  destruct (bit_concat (l_xz a) (l_xz b)) as [m| | | |] eqn:E2; cbn [bind]; try (split; [discriminate|intros [_ X]; discriminate]).
  unfold vec4, object4. rewrite (R _ _ _ Ta1 Tb1 E1), (R _ _ _ Ta2 Tb2 E2). split; [intros H; injection H as <-; auto|]. intros [X Y]. injection X as ->. injection Y as ->. destruct r; reflexivity.
Qed.
Lemma lslice_parts x n i j r : 1 <= n -> ltyped x n false -> 0 <= i < n -> 0 <= j < n ->
  logic_slice_c x i j = Ok r <-> bit_slice_c (l_val x) i j = Ok (l_val r) /\ bit_slice_c (l_xz x) i j = Ok (l_xz r).
Proof.
  intros Hn T Hi Hj. pose proof (LogicProofs.ltyped_lvec _ _ _ T) as L. pose proof (typed_lt _ _ _ Hn (proj1 T)) as B. assert (I1 : int_ok i) by (unfold int_ok; lia). assert (I2 : int_ok j) by (unfold int_ok; lia). rewrite slice_four by assumption. unfold four_slice, both. assert (W : lw x = n) by (apply (typed_bw _ _ _ Hn (proj1 T))). rewrite W. replace (Z.max i j <? n) with true by lia.
  rewrite <- !slice_c_any by (assumption || apply L).
  destruct (bit_slice_c (l_val x) i j) as [v| | | |]; cbn [bind]; try (split; [discriminate|intros [X _]; discriminate]).
  destruct (bit_slice_c (l_xz x) i j) as [m| | | |]; cbn [bind]; try (split; [discriminate|intros [_ X]; discriminate]).
  split; [intros H; injection H as <-; auto|]. intros [X Y]. injection X as ->. injection Y as ->. destruct r; reflexivity.
Qed.
Lemma low_positions b n k : 1 <= n -> typed b n false -> 0 <= k -> num b < 2 ^ k <-> forall p, k <= p < n -> bit_at b p = false.
Proof.
  intros Hn T Hk. pose proof (num_range b) as R. pose proof (typed_bw _ _ _ Hn T) as W. rewrite W in R. split.
  - intros H p P. unfold bit_at. apply (testbit_high _ k); lia.
  - intros H. destruct (Z.lt_ge_cases (num b) (2 ^ k)) as [G|G]; [exact G|]. exfalso. assert (P : 0 < num b) by (pose proof (pow2_pos k Hk); lia).
    pose proof (Z.bit_log2 (num b) P) as B. pose proof (Z.log2_le_pow2 (num b) k P) as [L1 _]. pose proof (Z.log2_lt_pow2 (num b) n P) as [L2 _]. specialize (L1 G). specialize (L2 ltac:(lia)). specialize (H (Z.log2 (num b)) ltac:(lia)). unfold bit_at in H. congruence.
Qed.
Lemma both_low x n k : 1 <= n -> ltyped x n false -> 0 <= k -> (num (l_val x) < 2 ^ k /\ num (l_xz x) < 2 ^ k) <-> forall p, k <= p < n -> sym_at x p = S0.
Proof.
  intros Hn [T1 T2] Hk. rewrite (low_positions _ n k Hn T1 Hk), (low_positions _ n k Hn T2 Hk). unfold sym_at. split.
  - intros [A B] p P. rewrite A, B by exact P. reflexivity.
  - intros H. split; intros p P; specialize (H p P); destruct (bit_at (l_val x) p), (bit_at (l_xz x) p); (reflexivity || discriminate).
Qed.
Lemma logic_split_iff x n k : 1 <= k < n -> ltyped x n false -> ltidy x ->
  (exists hi lo, logic_slice_c x (n - 1) k = Ok hi /\ logic_slice_c x (k - 1) 0 = Ok lo /\ logic_concat hi lo = Ok x) <->
  n < 64 /\ (33 <= n - k \/ (k <= 31 /\ forall p, 32 <= p < n -> sym_at x p = S0)).
Proof.
  intros Hk T [D1 D2]. assert (Hn : 1 <= n) by lia. pose proof (bit_split_iff _ n k Hk (proj1 T) D1) as A. pose proof (bit_split_iff _ n k Hk (proj2 T) D2) as B. pose proof (both_low x n 32 Hn T ltac:(lia)) as C. rewrite <- C.
  transitivity ((exists hi lo, bit_slice_c (l_val x) (n - 1) k = Ok hi /\ bit_slice_c (l_val x) (k - 1) 0 = Ok lo /\ bit_concat hi lo = Ok (l_val x)) /\
    (exists hi lo, bit_slice_c (l_xz x) (n - 1) k = Ok hi /\ bit_slice_c (l_xz x) (k - 1) 0 = Ok lo /\ bit_concat hi lo = Ok (l_xz x))).
  2: { rewrite A, B. tauto. }
  assert (U : forall b i j r, typed b n false -> 0 <= i < n -> 0 <= j < n -> bit_slice_c b i j = Ok r -> typed r (Z.abs (i - j) + 1) false).
  { intros b i j r Tb Hi Hj E. destruct (Z.eq_dec (Z.abs (i - j) + 1) 65) as [E65|E65].
    - destruct (Z.le_gt_cases n 64) as [L|L]; [destruct (slice_const_unsigned b n i j Hn Tb Hi Hj ltac:(lia)) as (r' & E' & Tr & _); congruence|]. rewrite (slice_65_rejected b n i j) in E by (assumption || lia). discriminate.
    - destruct (slice_const_unsigned b n i j Hn Tb Hi Hj ltac:(lia)) as (r' & E' & Tr & _); congruence. }
  split.
  - intros (hi & lo & E1 & E2 & E3). apply (lslice_parts x n) in E1; [|lia|exact T|lia|lia]. apply (lslice_parts x n) in E2; [|lia|exact T|lia|lia]. destruct E1 as [E1 E1'], E2 as [E2 E2'].
    pose proof (U _ (n - 1) k _ (proj1 T) ltac:(lia) ltac:(lia) E1) as T1. pose proof (U _ (n - 1) k _ (proj2 T) ltac:(lia) ltac:(lia) E1') as T1'. pose proof (U _ (k - 1) 0 _ (proj1 T) ltac:(lia) ltac:(lia) E2) as T2. pose proof (U _ (k - 1) 0 _ (proj2 T) ltac:(lia) ltac:(lia) E2') as T2'.
    apply (ljoin_parts hi lo (Z.abs (n - 1 - k) + 1) (Z.abs (k - 1 - 0) + 1)) in E3; [|lia|lia|split; assumption|split; assumption]. destruct E3 as [E3 E3']. split; [exists (l_val hi), (l_val lo)|exists (l_xz hi), (l_xz lo)]; auto.
  - intros [(h1 & l1 & E1 & E2 & E3) (h2 & l2 & F1 & F2 & F3)].
    pose proof (U _ (n - 1) k _ (proj1 T) ltac:(lia) ltac:(lia) E1) as T1. pose proof (U _ (n - 1) k _ (proj2 T) ltac:(lia) ltac:(lia) F1) as T1'. pose proof (U _ (k - 1) 0 _ (proj1 T) ltac:(lia) ltac:(lia) E2) as T2. pose proof (U _ (k - 1) 0 _ (proj2 T) ltac:(lia) ltac:(lia) F2) as T2'.
    exists (mkLogic h1 h2), (mkLogic l1 l2). split; [apply (lslice_parts x n); auto; lia|]. split; [apply (lslice_parts x n); auto; lia|].
    apply (ljoin_parts _ _ (Z.abs (n - 1 - k) + 1) (Z.abs (k - 1 - 0) + 1)); [lia|lia|split; assumption|split; assumption|split; assumption].
Qed.
Lemma logic_slices_iff a b na nb : 1 <= na -> 1 <= nb -> ltyped a na false -> ltyped b nb false -> ltidy a -> ltidy b ->
  (exists r, logic_concat a b = Ok r /\ logic_slice_c r (nb - 1) 0 = Ok b /\ logic_slice_c r (na + nb - 1) nb = Ok a) <->
  na + nb < 64 /\ (33 <= na \/ (nb <= 31 /\ forall p, 32 - nb <= p < na -> sym_at a p = S0)).
Proof.
  intros Ha Hb Ta Tb [Da1 Da2] [Db1 Db2]. pose proof (bit_slices_iff _ _ na nb Ha Hb (proj1 Ta) (proj1 Tb) Da1 Db1) as A. pose proof (bit_slices_iff _ _ na nb Ha Hb (proj2 Ta) (proj2 Tb) Da2 Db2) as B.
  transitivity ((exists r, bit_concat (l_val a) (l_val b) = Ok r /\ bit_slice_c r (nb - 1) 0 = Ok (l_val b) /\ bit_slice_c r (na + nb - 1) nb = Ok (l_val a)) /\
    (exists r, bit_concat (l_xz a) (l_xz b) = Ok r /\ bit_slice_c r (nb - 1) 0 = Ok (l_xz b) /\ bit_slice_c r (na + nb - 1) nb = Ok (l_xz a))).
  2: { rewrite A, B. assert (Q : forall z, nb <= 31 -> z * 2 ^ nb < 2 ^ 32 <-> z < 2 ^ (32 - nb)).
    { intros z K31. replace (2 ^ 32) with (2 ^ (32 - nb) * 2 ^ nb) by (rewrite <- Z.pow_add_r by lia; f_equal; lia). pose proof (pow2_pos nb ltac:(lia)) as P. nia. }
    destruct (Z.le_gt_cases nb 31) as [K|K]; [|lia]. rewrite !Q by exact K. rewrite <- (both_low a na (32 - nb) Ha Ta) by lia. tauto. }
  split.
  - intros (r & E1 & E2 & E3). apply (ljoin_parts a b na nb) in E1; auto. destruct E1 as [E1 E1']. destruct (join_ok _ _ _ _ _ Ha Hb (proj1 Ta) (proj1 Tb) E1) as [T1 L]. destruct (join_ok _ _ _ _ _ Ha Hb (proj2 Ta) (proj2 Tb) E1') as [T2 _].
    apply (lslice_parts r (na + nb)) in E2; [|lia|split; assumption|lia|lia]. apply (lslice_parts r (na + nb)) in E3; [|lia|split; assumption|lia|lia]. destruct E2, E3. split; eexists; eauto.
  - intros [(v & E1 & E2 & E3) (m & F1 & F2 & F3)]. destruct (join_ok _ _ _ _ _ Ha Hb (proj1 Ta) (proj1 Tb) E1) as [T1 L]. destruct (join_ok _ _ _ _ _ Ha Hb (proj2 Ta) (proj2 Tb) F1) as [T2 _].
    assert (T : ltyped (mkLogic v m) (na + nb) false) by (split; assumption). exists (mkLogic v m). split; [apply (ljoin_parts a b na nb); auto|]. split; apply (lslice_parts (mkLogic v m) (na + nb)); auto; lia.
Qed.
