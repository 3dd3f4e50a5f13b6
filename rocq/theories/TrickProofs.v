(** Clearing, isolating and counting ones. *)
From Coq Require Import ZArith List Bool Lia FinFun.
From Verif Require Import Cpp ZBits BigNum Bit Spec SpecExact SpecWide SpecProg SpecTrick SpecVote Trick BitProofs BitExt BitMain BitMain2 BitMain3 Program4Proofs WideProofs2 ProgExact Iff6 VoteProofs.
Import ListNotations.
Open Scope Z_scope.
Local Ltac Zify.zify_post_hook ::= idtac.

Lemma dec_bits z k p : 0 <= k -> Z.testbit z k = true -> (forall q, 0 <= q < k -> Z.testbit z q = false) -> 0 <= p ->
  Z.testbit (z - 1) p = if p <? k then true else if p =? k then false else Z.testbit z p.
Proof.
  intros Hk One Low Hp. assert (P : 0 < 2 ^ k) by (apply Z.pow_pos_nonneg; lia).
  assert (M : z mod 2 ^ k = 0). { apply Z.bits_inj'. intros q Hq. rewrite testbit_mod_pow2, Z.bits_0 by exact Hk. destruct (Z.ltb_spec q k); [|reflexivity]. now rewrite Low by lia. }
  assert (E : z = 2 ^ k * (z / 2 ^ k)) by (pose proof (Z.div_mod z (2 ^ k) ltac:(lia)); lia). set (w := z / 2 ^ k) in *.
  assert (O : Z.odd w = true). { unfold w. rewrite <- Z.bit0_odd. rewrite <- Z.shiftr_div_pow2 by exact Hk. rewrite Z.shiftr_spec by lia. exact One. }
  apply Zodd_bool_iff in O. destruct (Zodd_ex _ O) as [h H].
  assert (D1 : (z - 1) mod 2 ^ k = 2 ^ k - 1). { rewrite E. replace (2 ^ k * w - 1) with (2 ^ k - 1 + (w - 1) * 2 ^ k) by lia. rewrite Z_mod_plus_full. apply Z.mod_small. lia. }
  assert (D2 : (z - 1) / 2 ^ k = 2 * h). { rewrite E, H. replace (2 ^ k * (2 * h + 1) - 1) with (2 ^ k - 1 + 2 * h * 2 ^ k) by lia. rewrite Z_div_plus_full by lia. rewrite Z.div_small by lia. lia. }
  destruct (Z.ltb_spec p k) as [C|C].
  - assert (X : Z.testbit ((z - 1) mod 2 ^ k) p = true) by (rewrite D1, testbit_ones by exact Hk; lia). rewrite testbit_mod_pow2 in X by exact Hk. apply andb_true_iff in X. apply X.
  - replace p with ((p - k) + k) by lia. rewrite <- Z.shiftr_spec, Z.shiftr_div_pow2, D2 by lia. destruct (Z.eqb_spec (p - k + k) k) as [C'|C'].
    + replace (p - k) with 0 by lia. apply Z.testbit_even_0.
    + replace (p - k) with (Z.succ (p - k - 1)) by lia. rewrite Z.testbit_even_succ by lia. replace (Z.succ (p - k - 1) + k) with (Z.succ (p - k - 1) + k) by lia.
      rewrite <- (Z.shiftr_spec z) by lia. rewrite Z.shiftr_div_pow2 by exact Hk. fold w. rewrite H. rewrite Z.testbit_odd_succ by lia. reflexivity.
Qed.
Lemma lowest_or_none z n : 0 <= n -> (exists k, 0 <= k < n /\ Z.testbit z k = true /\ forall q, 0 <= q < k -> Z.testbit z q = false) \/ (forall q, 0 <= q < n -> Z.testbit z q = false).
Proof.
  intros Hn. pattern n. apply natlike_ind; [right; intros; lia| |exact Hn]. intros m Hm [(k & Hk & O & L)|N].
  - left. exists k. split; [lia|]. auto.
  - destruct (Z.testbit z m) eqn:E; [left; exists m; split; [lia|]; split; [exact E|exact N]|]. right. intros q Hq. destruct (Z.eq_dec q m) as [->|]; [exact E|]. apply N. lia.
Qed.

Lemma less_one n a one : 1 <= n -> typed a n false -> typed one n false -> num one = 1 -> exists d, bit_sub a one = Ok d /\ typed d n false /\
  forall p, 0 <= p < n -> bit_at d p = Z.testbit (num a - 1) p.
Proof.
  intros Hn A O E. pose proof (typed_bw _ _ _ Hn A) as WA. pose proof (typed_bw _ _ _ Hn O) as WO. destruct A as (VA & PA & SA), O as (VO & (MO & LO) & SO).
  destruct (sub_same_width a one n VA VO WA WO ltac:(lia)) as (d & Ed & Td & Nd). { intros X. congruence. } rewrite SA in Td. exists d. split; [exact Ed|]. split; [exact Td|].
  intros p Hp. unfold bit_at. rewrite Nd, testbit_mod_pow2, E by lia. replace (p <? n) with true by lia. reflexivity.
Qed.

Lemma clear_all n a one : 1 <= n -> typed a n false -> typed one n false -> num one = 1 -> exists r, clear_lowest one a = Ok r /\ typed r n false /\
  forall p, 0 <= p < n -> (bit_at r p = true <-> bit_at a p = true /\ one_below a p).
Proof.
  intros Hn A O E. destruct (less_one n a one Hn A O E) as (d & Ed & Td & Qd). unfold clear_lowest. rewrite Ed. cbn [bind].
  destruct (and2 n a d (typed_copy2 _ _ _ Hn A) (typed_copy2 _ _ _ Hn Td)) as (r & Er & Tr & Qr). destruct A as (_ & _ & SA). rewrite SA in Tr. exists r. split; [exact Er|]. split; [exact Tr|].
  intros p Hp. rewrite Qr, Qd by exact Hp. destruct (lowest_or_none (num a) n ltac:(lia)) as [(k & Hk & K1 & K2)|N].
  - rewrite (dec_bits (num a) k p) by (assumption || lia). unfold one_below, bit_at. destruct (Z.ltb_spec p k) as [C|C].
    + rewrite K2 by lia. split; [discriminate|intros [X _]; discriminate X].
    + destruct (Z.eqb_spec p k) as [->|C']; [|].
      * rewrite andb_false_r. split; [discriminate|]. intros [_ (q & Hq & X)]. rewrite K2 in X by lia. discriminate.
      * rewrite andb_diag. split; [intros X; split; [exact X|]; exists k; split; [lia|exact K1]|tauto].
  - unfold one_below, bit_at. rewrite (N p) by exact Hp. split; [discriminate|intros [X _]; discriminate X].
Qed.
Lemma isolate_all n a one : 1 <= n -> typed a n false -> typed one n false -> num one = 1 -> exists r, isolate_lowest one a = Ok r /\ typed r n false /\
  forall p, 0 <= p < n -> (bit_at r p = true <-> bit_at a p = true /\ ~ one_below a p).
Proof.
  intros Hn A O E. destruct (less_one n a one Hn A O E) as (d & Ed & Td & Qd). unfold isolate_lowest. rewrite Ed. cbn [bind]. destruct (not2 n d (typed_copy2 _ _ _ Hn Td)) as [Tn Qn].
  destruct (and2 n a (bit_not d) (typed_copy2 _ _ _ Hn A) (typed_copy2 _ _ _ Hn Tn)) as (r & Er & Tr & Qr). destruct A as (_ & _ & SA). rewrite SA in Tr. exists r. split; [exact Er|]. split; [exact Tr|].
  intros p Hp. rewrite Qr, Qn, Qd by exact Hp. destruct (lowest_or_none (num a) n ltac:(lia)) as [(k & Hk & K1 & K2)|N].
  - rewrite (dec_bits (num a) k p) by (assumption || lia). unfold one_below, bit_at. destruct (Z.ltb_spec p k) as [C|C].
    + rewrite K2 by lia. split; [discriminate|intros [X _]; discriminate X].
    + destruct (Z.eqb_spec p k) as [->|C'].
      * rewrite K1. split; [intros _; split; [reflexivity|]|reflexivity]. intros (q & Hq & X). rewrite K2 in X by lia. discriminate.
      * rewrite andb_negb_r. split; [discriminate|]. intros [_ X]. exfalso. apply X. exists k. split; [lia|exact K1].
  - unfold one_below, bit_at. rewrite (N p) by exact Hp. split; [discriminate|intros [X _]; discriminate X].
Qed.
Lemma isolate_minus n a : 1 <= n <= 64 -> typed a n false -> exists r, isolate_negated a = Ok r /\ typed r n false /\
  forall p, 0 <= p < n -> (bit_at r p = true <-> bit_at a p = true /\ ~ one_below a p).
Proof.
  intros Hn A. destruct (negation a n false Hn A ltac:(discriminate)) as (m & Em & Tm & Nm). unfold isolate_negated. rewrite Em. cbn [bind].
  destruct (and2 n a m (typed_copy2 n _ _ ltac:(lia) A) (typed_copy2 n _ _ ltac:(lia) Tm)) as (r & Er & Tr & Qr). destruct A as (_ & _ & SA). rewrite SA in Tr. exists r. split; [exact Er|]. split; [exact Tr|].
  intros p Hp. rewrite Qr by exact Hp. unfold bit_at at 2. rewrite Nm, testbit_mod_pow2 by lia. replace (p <? n) with true by lia. cbn [andb].
  replace (- num a) with (Z.lnot (num a - 1)) by (unfold Z.lnot; lia). rewrite Z.lnot_spec by lia.
  destruct (lowest_or_none (num a) n ltac:(lia)) as [(k & Hk & K1 & K2)|N].
  - rewrite (dec_bits (num a) k p) by (assumption || lia). unfold one_below, bit_at. destruct (Z.ltb_spec p k) as [C|C].
    + rewrite K2 by lia. split; [discriminate|intros [X _]; discriminate X].
    + destruct (Z.eqb_spec p k) as [->|C'].
      * rewrite K1. split; [intros _; split; [reflexivity|]|reflexivity]. intros (q & Hq & X). rewrite K2 in X by lia. discriminate.
      * rewrite andb_negb_r. split; [discriminate|]. intros [_ X]. exfalso. apply X. exists k. split; [lia|exact K1].
  - unfold one_below, bit_at. rewrite (N p) by exact Hp. split; [discriminate|intros [X _]; discriminate X].
Qed.

(** the vector stays tidy while it is not 0 *)
Lemma clear_tidy n a one r : 1 <= n -> typed a n false -> tidy a -> typed one n false -> tidy one -> num one = 1 -> 1 <= num a -> clear_lowest one a = Ok r -> typed r n false -> tidy r.
Proof.
  intros Hn A Ta O To E Pos Er Tr. destruct (Z.eq_dec n 1) as [->|N1]; [exact (one_tidy r false Tr)|].
  pose proof (typed_lt a n false Hn A) as Lt. destruct (kept_state n a ltac:(lia) A) as [Ra Ea]. destruct (kept_state n one ltac:(lia) O) as [Ro Eo].
  pose proof (proj1 (tidy_u_iff a n Hn A) Ta) as Sa. pose proof (tidy_num_u a n Hn A Ta) as Na. pose proof (tidy_num_u one n Hn O To) as No.
  unfold clear_lowest in Er. rewrite Ea, Eo in Er. rewrite k_sub in Er by (assumption || lia). cbn [bind] in Er. rewrite Z.mod_small in Er by lia.
  rewrite k_and in Er by (assumption || lia). injection Er as <-. apply (tidy_u_iff _ n Hn Tr). rewrite kept_stored by lia.
  destruct (room_range n ltac:(lia)) as (R1 & _). assert (P : 2 ^ n <= 2 ^ room n) by (apply Z.pow_le_mono_r; lia).
  assert (L : 0 <= Z.land (stored a) (stored a - stored one) < 2 ^ n).
  { assert (0 <= Z.land (stored a) (stored a - stored one)) by (apply Z.land_nonneg; lia). split; [assumption|]. apply bits_small; [lia|assumption|]. intros p Hp. rewrite Z.land_spec, (testbit_small (stored a) n p) by lia. reflexivity. }
  rewrite (Z.mod_small (Z.land _ _) (2 ^ n)) by exact L. destruct (n <=? 64); rewrite Z.mod_small by lia; exact L.
Qed.

Lemma filter_less {A} (f g : A -> bool) k l : NoDup l -> In k l -> f k = true -> g k = false -> (forall x, In x l -> x <> k -> f x = g x) -> length (filter f l) = S (length (filter g l)).
Proof.
  induction 1 as [|x l Nx ND IH]; [contradiction|]. intros I Fk Gk Q. cbn [filter]. destruct I as [->|I].
  - rewrite Fk, Gk. cbn [length]. f_equal. f_equal. apply filter_ext_in. intros y Hy. apply Q; [now right|]. intros ->. contradiction.
  - assert (Ne : x <> k) by (intros ->; contradiction). rewrite (Q x (or_introl eq_refl) Ne). specialize (IH I Fk Gk ltac:(intros y Hy; apply Q; now right)). destruct (g x); cbn [length]; rewrite IH; reflexivity.
Qed.
Lemma filter_none {A} (f : A -> bool) l : (forall x, In x l -> f x = false) -> filter f l = [].
Proof. induction l as [|x l IH]; intros H; [reflexivity|]. cbn [filter]. rewrite (H x (or_introl eq_refl)). apply IH. intros y Hy. apply H. now right. Qed.
Lemma zrange_nodup n : NoDup (zrange 0 n).
Proof. unfold zrange. apply Injective_map_NoDup; [|apply seq_NoDup]. intros i j H. lia. Qed.
Lemma countable_iff n z p : countable n z p = true <-> Z.testbit z p = true /\ exists q, 0 <= q < n /\ p <= q /\ Z.testbit z q = true /\ looked_at n q = true.
Proof.
  unfold countable. rewrite andb_true_iff, existsb_exists. split; intros [T (q & H)]; (split; [exact T|]); exists q; rewrite in_zrange, !andb_true_iff in *; intuition lia.
Qed.
Lemma bool_iff_eq (x y : bool) : (x = true <-> y = true) -> x = y. Proof. destruct x, y; intuition. Qed.

Lemma any_looked n a : 1 <= n -> typed a n false -> tidy a -> bit_any_set a = existsb (fun p => Z.testbit (num a) p && looked_at n p) (zrange 0 n).
Proof.
  intros Hn A Ta. pose proof (typed_bw _ _ _ Hn A) as W. apply bool_iff_eq. rewrite (any_set_iff a (proj1 A) Ta), W, existsb_exists. unfold looked_at, bit_at.
  split; intros (p & H); exists p; rewrite in_zrange, andb_true_iff, orb_true_iff, Z.leb_le, Z.ltb_lt in *; intuition lia.
Qed.
Lemma count_run one n : 1 <= n -> typed one n false -> tidy one -> num one = 1 ->
  forall fuel a c, typed a n false -> tidy a -> counted n (num a) < Z.of_nat fuel -> count_ones fuel one a c = Ok (c + counted n (num a)).
Proof.
  intros Hn O To E. induction fuel as [|f IH]; intros a c A Ta F. { unfold counted in F. lia. }
  cbn [count_ones]. rewrite (any_looked n a Hn A Ta). destruct (existsb _ _) eqn:X.
  - apply existsb_exists in X. destruct X as (q & Hq & X). apply in_zrange in Hq. apply andb_true_iff in X. destruct X as [X1 X2].
    destruct (lowest_or_none (num a) n ltac:(lia)) as [(k & Hk & K1 & K2)|N]; [|rewrite N in X1 by lia; discriminate].
    destruct (clear_all n a one Hn A O E) as (r & Er & Tr & Qr). rewrite Er. cbn [bind].
    assert (Pos : 1 <= num a). { pose proof (num_range a). destruct (Z.eq_dec (num a) 0) as [Z0|]; [rewrite Z0, Z.bits_0 in K1; discriminate|lia]. }
    pose proof (clear_tidy n a one r Hn A Ta O To E Pos Er Tr) as Dr.
    assert (Q : forall p, 0 <= p < n -> Z.testbit (num r) p = Z.testbit (num a) p && negb (p =? k)).
    { intros p Hp. apply bool_iff_eq. unfold bit_at in Qr. rewrite (Qr p Hp), andb_true_iff, negb_true_iff, Z.eqb_neq. split; intros [H1 H2]; (split; [exact H1|]).
      - destruct H2 as (j & Hj & Y). intros ->. unfold bit_at in Y. rewrite K2 in Y by lia. discriminate.
      - exists k. split; [|exact K1]. destruct (Z.lt_trichotomy p k) as [C|[C|C]]; [rewrite K2 in H1 by lia; discriminate|lia|lia]. }
    assert (C : counted n (num a) = counted n (num r) + 1).
    { unfold counted. rewrite (filter_less (countable n (num a)) (countable n (num r)) k).
      - lia.
      - apply zrange_nodup.
      - apply in_zrange. lia.
      - apply countable_iff. split; [exact K1|]. exists q. split; [lia|]. split; [|auto]. destruct (Z.lt_ge_cases q k) as [L|L]; [rewrite K2 in X1 by lia; discriminate|exact L].
      - unfold countable. rewrite Q by exact Hk. rewrite Z.eqb_refl, andb_false_r. reflexivity.
      - intros p Hp Ne. apply in_zrange in Hp. apply bool_iff_eq. rewrite !countable_iff, Q by lia. replace (p =? k) with false by lia. cbn [negb]. rewrite andb_true_r.
        split; intros [H1 (j & J1 & J2 & J3 & J4)]; (split; [exact H1|]); exists j; (split; [exact J1|]); (split; [exact J2|]).
        + rewrite Q by lia. assert (k < p). { destruct (Z.lt_ge_cases p k) as [L|L]; [rewrite K2 in H1 by lia; discriminate|lia]. } replace (j =? k) with false by lia. rewrite J3. auto.
        + rewrite Q in J3 by lia. apply andb_true_iff in J3. tauto. }
    rewrite IH by (assumption || lia). f_equal. lia.
  - assert (C : counted n (num a) = 0).
    { unfold counted. rewrite filter_none; [reflexivity|]. intros p _. apply not_true_iff_false. rewrite countable_iff. intros [_ (q & Q1 & _ & Q2 & Q3)].
      apply not_true_iff_false in X. apply X. apply existsb_exists. exists q. rewrite in_zrange, Q2, Q3. split; [lia|reflexivity]. }
    rewrite C. f_equal. lia.
Qed.
Lemma filter_le {A} (f : A -> bool) l : (length (filter f l) <= length l)%nat.
Proof. induction l as [|x l IH]; cbn [filter length]; [lia|]. destruct (f x); cbn [length]; lia. Qed.
Lemma counted_le n z : 0 <= n -> counted n z <= n.
Proof. intros H. unfold counted. pose proof (filter_le (countable n z) (zrange 0 n)) as L. rewrite zrange_length in L. lia. Qed.
Lemma counted_small n z : n <= 64 -> counted n z = ones n z.
Proof.
  intros H. unfold counted, ones. f_equal. rewrite (filter_ext_in (countable n z) (Z.testbit z)).
  - unfold zrange. rewrite Z.sub_0_r. induction (seq 0 (Z.to_nat n)) as [|x l IH]; [reflexivity|]. cbn [map filter]. change (0 + Z.of_nat x) with (Z.of_nat x). destruct (Z.testbit z (Z.of_nat x)); cbn [length]; rewrite IH; reflexivity.
  - intros p Hp. apply in_zrange in Hp. apply bool_iff_eq. rewrite countable_iff. split; [tauto|]. intros T. split; [exact T|]. exists p. split; [lia|]. split; [lia|]. split; [exact T|]. unfold looked_at. replace (n <=? 64) with true by lia. reflexivity.
Qed.
Lemma count_exact n a one fuel : 1 <= n -> typed a n false -> tidy a -> typed one n false -> tidy one -> num one = 1 -> n < Z.of_nat fuel ->
  count_ones fuel one a 0 = Ok (counted n (num a)).
Proof. intros Hn A Ta O To E F. pose proof (counted_le n (num a) ltac:(lia)). rewrite (count_run one n) by (assumption || lia). reflexivity. Qed.
Lemma count_native n a one fuel : 1 <= n <= 64 -> typed a n false -> tidy a -> typed one n false -> tidy one -> num one = 1 -> n < Z.of_nat fuel ->
  count_ones fuel one a 0 = Ok (ones n (num a)).
Proof. intros Hn A Ta O To E F. rewrite (count_exact n) by (assumption || lia). rewrite counted_small by lia. reflexivity. Qed.
