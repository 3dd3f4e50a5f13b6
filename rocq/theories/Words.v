(** Lemmas about word arrays (big_num): the number they denote and its bits. *)
From Coq Require Import ZArith List Bool Lia Zify ZifyBool.
From Verif Require Import Cpp BigNum Bit Logic Spec ZBits.
Import ListNotations.
Open Scope Z_scope.
Ltac Zify.zify_post_hook ::= Z.div_mod_to_equations.

Definition wf (ws : list Z) : Prop := Forall (fun w => 0 <= w < 2 ^ 64) ws.
Definition wlen (ws : list Z) : Z := Z.of_nat (length ws).
(** well-typed [big_num<n>] value *)
Definition wfn (n : Z) (ws : list Z) : Prop := wf ws /\ wlen ws = nwords n.

Lemma words_ok_wfn n ws : words_ok n ws = true <-> wfn n ws.
Proof.
  unfold words_ok, wfn, wf, wlen. rewrite andb_true_iff, Z.eqb_eq, forallb_forall, Forall_forall.
  split; intros [A B]; split; try assumption; intros w Hw; specialize (B w Hw) || specialize (A w Hw); lia.
Qed.

Lemma nwords_bounds n : 1 <= n -> 64 * (nwords n - 1) < n <= 64 * nwords n /\ 1 <= nwords n.
Proof. unfold nwords. intros. destruct (Z.eqb_spec (n mod 64) 0); lia. Qed.

Lemma nwords_mono a b : 1 <= a <= b -> nwords a <= nwords b.
Proof. intros. pose proof (nwords_bounds a). pose proof (nwords_bounds b). lia. Qed.

Lemma wf_cons w r : wf (w :: r) <-> 0 <= w < 2 ^ 64 /\ wf r.
Proof. unfold wf. split; intros H; [inversion H; auto | constructor; tauto]. Qed.

Lemma words_num_nonneg ws : wf ws -> 0 <= words_num ws.
Proof.
  induction ws as [|w r IH]; cbn [words_num]; intros H; [lia|].
  apply wf_cons in H. destruct H as [Hw Hr]. specialize (IH Hr).
  pose proof (pow2_pos 64). nia.
Qed.

Lemma words_num_bound ws : wf ws -> words_num ws < 2 ^ (64 * wlen ws).
Proof.
  unfold wlen. induction ws as [|w r IH]; intros H.
  - cbn. lia.
  - cbn [words_num length]. apply wf_cons in H. destruct H as [Hw Hr]. specialize (IH Hr).
    replace (64 * Z.of_nat (S (length r))) with (64 + 64 * Z.of_nat (length r)) by lia.
    rewrite pow2_split by lia. nia.
Qed.

Lemma word_cons w r i : 0 < i -> word (w :: r) i = word r (i - 1).
Proof.
  intros. unfold word. replace (Z.to_nat i) with (S (Z.to_nat (i - 1))) by lia. reflexivity.
Qed.
Lemma word_0 w r : word (w :: r) 0 = w.
Proof. reflexivity. Qed.
Lemma word_out ws i : wlen ws <= i -> word ws i = 0.
Proof. unfold word, wlen. intros. apply nth_overflow. lia. Qed.
Lemma word_range ws i : wf ws -> 0 <= word ws i < 2 ^ 64.
Proof.
  intros H. unfold word. destruct (Nat.lt_ge_cases (Z.to_nat i) (length ws)) as [L|L].
  - unfold wf in H. rewrite Forall_forall in H. apply H. apply nth_In. exact L.
  - rewrite nth_overflow by exact L. split; [lia | apply pow2_pos; lia].
Qed.

Lemma testbit_add_high w r p : 0 <= w < 2 ^ 64 -> 0 <= p ->
  Z.testbit (w + 2 ^ 64 * r) p = if p <? 64 then Z.testbit w p else Z.testbit r (p - 64).
Proof.
  intros Hw Hp. destruct (Z.ltb_spec p 64).
  - rewrite <- (Z.mod_pow2_bits_low (w + 2 ^ 64 * r) 64) by lia.
    replace (w + 2 ^ 64 * r) with (w + r * 2 ^ 64) by ring.
    rewrite Z.mod_add, Z.mod_small by lia. reflexivity.
  - replace p with (p - 64 + 64) at 1 by lia.
    rewrite <- Z.div_pow2_bits by lia.
    replace (w + 2 ^ 64 * r) with (w + r * 2 ^ 64) by ring.
    rewrite Z.div_add, Z.div_small by lia. reflexivity.
Qed.

Lemma words_num_testbit ws p : wf ws -> 0 <= p ->
  Z.testbit (words_num ws) p = Z.testbit (word ws (p / 64)) (p mod 64).
Proof.
  revert p. induction ws as [|w r IH]; intros p H Hp.
  - cbn [words_num]. rewrite Z.bits_0. unfold word. destruct (Z.to_nat (p / 64)); cbn [nth]; rewrite Z.bits_0; reflexivity.
  - apply wf_cons in H. destruct H as [Hw Hr]. cbn [words_num].
    rewrite testbit_add_high by assumption.
    destruct (Z.ltb_spec p 64).
    + replace (p / 64) with 0 by lia. replace (p mod 64) with p by lia. reflexivity.
    + rewrite word_cons by lia. rewrite IH by (auto; lia).
      replace ((p - 64) / 64) with (p / 64 - 1) by lia. replace ((p - 64) mod 64) with (p mod 64) by lia.
      reflexivity.
Qed.

Lemma words_num_high ws p : wf ws -> 64 * wlen ws <= p -> Z.testbit (words_num ws) p = false.
Proof.
  intros H Hp. apply (testbit_small _ (64 * wlen ws)); [|exact Hp].
  split; [apply words_num_nonneg; exact H | apply words_num_bound; exact H].
Qed.

(** extensionality on the denoted number *)
Lemma words_num_eq_bits n ws z : wf ws -> 0 <= z < 2 ^ n ->
  (forall p, 0 <= p < n -> Z.testbit (words_num ws) p = Z.testbit z p) ->
  words_num ws mod 2 ^ n = z.
Proof.
  intros Hwf Hz Hb.
  destruct (Z.ltb_spec n 0) as [Hn|Hn]; [rewrite (Z.pow_neg_r 2 n) in Hz by lia; lia|].
  apply Z.bits_inj'. intros p Hp. rewrite testbit_mod_pow2 by lia.
  destruct (Z.ltb_spec p n); cbn [andb].
  - apply Hb; lia.
  - symmetry. apply (testbit_small _ n); lia.
Qed.

(** * updates of words *)
Lemma lupd_length {A} (l : list A) i x : length (lupd l i x) = length l.
Proof. revert i. induction l as [|h t IH]; intros [|i]; cbn; congruence. Qed.
Lemma lupd_nth {A} (l : list A) i x k d :
  nth k (lupd l i x) d = if (Nat.eqb k i && Nat.ltb i (length l))%bool then x else nth k l d.
Proof.
  revert i k. induction l as [|h t IH]; intros i k.
  - cbn [lupd length]. replace (Nat.ltb i 0) with false by (symmetry; apply Nat.ltb_ge; lia).
    rewrite andb_false_r. reflexivity.
  - destruct i as [|i], k as [|k]; cbn [lupd nth length]; try reflexivity.
    rewrite IH. reflexivity.
Qed.
Lemma lupd_Forall {A} (P : A -> Prop) l i x : Forall P l -> P x -> Forall P (lupd l i x).
Proof. intros H. revert i. induction H as [|h t Hh Ht IH]; intros [|i] Hx; cbn; constructor; auto. Qed.

Lemma word_set_len ws i w : wlen (word_set ws i w) = wlen ws.
Proof. unfold wlen, word_set. rewrite lupd_length. reflexivity. Qed.
Lemma word_set_wf ws i w : wf ws -> 0 <= w < 2 ^ 64 -> wf (word_set ws i w).
Proof. unfold wf, word_set. intros. apply lupd_Forall; assumption. Qed.
Lemma word_set_word ws i w k : 0 <= i < wlen ws -> 0 <= k ->
  word (word_set ws i w) k = if k =? i then w else word ws k.
Proof.
  intros Hi Hk. unfold word, word_set, wlen in *. rewrite lupd_nth.
  replace (Nat.ltb (Z.to_nat i) (length ws)) with true by (symmetry; apply Nat.ltb_lt; lia).
  rewrite andb_true_r.
  destruct (Z.eqb_spec k i) as [->|N].
  - rewrite Nat.eqb_refl. reflexivity.
  - replace (Nat.eqb (Z.to_nat k) (Z.to_nat i)) with false by (symmetry; apply Nat.eqb_neq; lia). reflexivity.
Qed.

(** * get and set *)
Lemma land1_testbit z : negb (Z.land z 1 =? 0) = Z.testbit z 0.
Proof.
  change 1 with (2 ^ 1 - 1). rewrite land_ones_mod by lia. rewrite Z.bit0_odd.
  change (2 ^ 1) with 2. rewrite Zmod_odd. destruct (Z.odd z); reflexivity.
Qed.

Lemma bn_get_spec n ws i : wf ws -> 0 <= i ->
  bn_get n ws i = (i <? n) && Z.testbit (words_num ws) i.
Proof.
  intros H Hi. unfold bn_get. destruct (i <? n); [|reflexivity].
  rewrite land1_testbit, Z.shiftr_spec, Z.add_0_l by lia. cbn [andb].
  symmetry. apply words_num_testbit; assumption.
Qed.

Lemma u64_range z : 0 <= u64 z < 2 ^ 64.
Proof. apply Z.mod_pos_bound. lia. Qed.
Lemma u64_id z : 0 <= z < 2 ^ 64 -> u64 z = z.
Proof. apply Z.mod_small. Qed.

Lemma pow2_testbit b p : 0 <= b -> Z.testbit (Z.shiftl 1 b) p = (p =? b).
Proof.
  intros Hb. rewrite Z.shiftl_1_l, Z.pow2_bits_eqb by lia. apply Z.eqb_sym.
Qed.

Lemma lor_range a b n : 0 <= n -> 0 <= a < 2 ^ n -> 0 <= b < 2 ^ n -> 0 <= Z.lor a b < 2 ^ n.
Proof.
  intros. split; [apply Z.lor_nonneg; lia|].
  apply bits_small; [lia | apply Z.lor_nonneg; lia |].
  intros p Hp. rewrite Z.lor_spec, (testbit_small a n), (testbit_small b n) by lia. reflexivity.
Qed.
Lemma lxor_range a b n : 0 <= n -> 0 <= a < 2 ^ n -> 0 <= b < 2 ^ n -> 0 <= Z.lxor a b < 2 ^ n.
Proof.
  intros. assert (0 <= Z.lxor a b) by (apply Z.lxor_nonneg; lia). split; [assumption|].
  apply bits_small; [lia | assumption |].
  intros p Hp. rewrite Z.lxor_spec, (testbit_small a n), (testbit_small b n) by lia. reflexivity.
Qed.
Lemma land_range a b n : 0 <= n -> 0 <= a < 2 ^ n -> 0 <= b -> 0 <= Z.land a b < 2 ^ n.
Proof.
  intros. assert (0 <= Z.land a b) by (apply Z.land_nonneg; lia). split; [assumption|].
  apply bits_small; [lia | assumption |].
  intros p Hp. rewrite Z.land_spec, (testbit_small a n) by lia. reflexivity.
Qed.

Lemma bn_set_wf n ws i v : wf ws -> wf (bn_set n ws i v).
Proof.
  intros H. unfold bn_set. destruct (i <? n); [|exact H].
  pose proof (word_range ws (i / 64) H).
  destruct v; apply word_set_wf; try exact H.
  - apply lor_range; try lia. apply u64_range.
  - apply land_range; try lia. apply u64_range.
Qed.
Lemma bn_set_len n ws i v : wlen (bn_set n ws i v) = wlen ws.
Proof. unfold bn_set. destruct (i <? n); [|reflexivity]. destruct v; apply word_set_len. Qed.

Lemma bn_set_spec n ws i v p : wf ws -> n <= 64 * wlen ws -> 0 <= i -> 0 <= p ->
  Z.testbit (words_num (bn_set n ws i v)) p
  = if (p =? i) && (i <? n) then v else Z.testbit (words_num ws) p.
Proof.
  intros H Hn Hi Hp. rewrite words_num_testbit by (try apply bn_set_wf; assumption).
  unfold bn_set. destruct (Z.ltb_spec i n) as [L|L].
  2:{ rewrite andb_false_r. symmetry. apply words_num_testbit; assumption. }
  rewrite andb_true_r. rewrite (words_num_testbit ws p) by assumption.
  assert (Hb : 0 <= i mod 64 < 64) by lia.
  assert (E1 : u64 (Z.shiftl 1 (i mod 64)) = Z.shiftl 1 (i mod 64)).
  { apply u64_id. rewrite Z.shiftl_1_l. split; [apply Z.pow_nonneg; lia | apply Z.pow_lt_mono_r; lia]. }
  assert (Q : forall q, 0 <= q < 64 -> Z.testbit (u64 (Z.lnot (u64 (Z.shiftl 1 (i mod 64))))) q = negb (q =? i mod 64)).
  { intros q Hq. unfold u64 at 1. rewrite testbit_mod_pow2 by lia.
    replace (q <? 64) with true by lia. cbn [andb].
    rewrite Z.lnot_spec, E1, pow2_testbit by lia. reflexivity. }
  assert (Ra : 0 <= i / 64 < wlen ws) by lia.
  destruct v; rewrite word_set_word by lia;
    (destruct (Z.eqb_spec (p / 64) (i / 64)) as [E|E];
     [ rewrite <- E | replace (p =? i) with false by (symmetry; apply Z.eqb_neq; intros ->; lia); reflexivity ]).
  - rewrite Z.lor_spec, E1, pow2_testbit by lia.
    destruct (Z.eqb_spec p i) as [->|N].
    + rewrite Z.eqb_refl. apply orb_true_r.
    + replace (p mod 64 =? i mod 64) with false by lia. apply orb_false_r.
  - rewrite Z.land_spec, Q by lia.
    destruct (Z.eqb_spec p i) as [->|N].
    + rewrite Z.eqb_refl. apply andb_false_r.
    + replace (p mod 64 =? i mod 64) with false by lia. apply andb_true_r.
Qed.

(** * copying loops *)
Lemma copy_loop n g c a b r0 :
  wf r0 -> n <= 64 * wlen r0 -> a <= b -> 0 <= a + c ->
  let r := fold_left (fun r i => bn_set n r (i + c) (g i)) (zrange a b) r0 in
  wf r /\ wlen r = wlen r0 /\
  forall p, 0 <= p -> Z.testbit (words_num r) p =
     if (a + c <=? p) && (p <? b + c) && (p <? n) then g (p - c) else Z.testbit (words_num r0) p.
Proof.
  intros Hwf Hn Hab Hac. cbn zeta.
  apply (zrange_fold_ind (fun r i => bn_set n r (i + c) (g i))
    (fun k r => wf r /\ wlen r = wlen r0 /\ forall p, 0 <= p -> Z.testbit (words_num r) p =
     if (a + c <=? p) && (p <? k + c) && (p <? n) then g (p - c) else Z.testbit (words_num r0) p)); [exact Hab | | ].
  - split; [exact Hwf|]. split; [reflexivity|]. intros p Hp.
    replace ((a + c <=? p) && (p <? a + c)) with false by lia. reflexivity.
  - intros i r Hi (W & Len & B). split; [apply bn_set_wf; exact W|].
    split; [rewrite bn_set_len; exact Len|]. intros p Hp.
    rewrite bn_set_spec by (try assumption; lia). rewrite B by exact Hp.
    destruct (Z.eqb_spec p (i + c)) as [->|N].
    + replace (i + c <? i + 1 + c) with true by lia. replace (a + c <=? i + c) with true by lia.
      cbn [andb]. replace (i + c - c) with i by lia.
      destruct (i + c <? n); [reflexivity|]. replace (i + c <? i + c) with false by lia. reflexivity.
    + cbn [andb]. replace (p <? i + 1 + c) with (p <? i + c) by lia. reflexivity.
Qed.

Lemma bn_zero_wf n : wf (bn_zero n).
Proof. unfold bn_zero, wf. apply Forall_forall. intros x Hx. apply repeat_spec in Hx. subst. lia. Qed.
Lemma bn_zero_len n : 0 <= nwords n -> wlen (bn_zero n) = nwords n.
Proof. intros. unfold bn_zero, wlen. rewrite repeat_length. lia. Qed.
Lemma words_num_repeat0 k : words_num (repeat 0 k) = 0.
Proof. induction k as [|k IH]; cbn [repeat words_num]; [reflexivity|rewrite IH; reflexivity]. Qed.
Lemma bn_zero_num n : words_num (bn_zero n) = 0.
Proof. apply words_num_repeat0. Qed.
Lemma bn_zero_wfn n : 1 <= n -> wfn n (bn_zero n).
Proof. intros. pose proof (nwords_bounds n H). split; [apply bn_zero_wf | apply bn_zero_len; lia]. Qed.

(** same as [copy_loop], on the zero array and with the result as a number *)
Lemma copy_loop_num n f z c a b :
  1 <= n -> a <= b -> 0 <= a + c -> 0 <= z < 2 ^ n ->
  (forall i, a <= i < b -> i + c < n -> f i = Z.testbit z (i + c)) ->
  (forall p, 0 <= p < n -> ~ (a + c <= p < b + c) -> Z.testbit z p = false) ->
  let r := fold_left (fun r i => bn_set n r (i + c) (f i)) (zrange a b) (bn_zero n) in
  wfn n r /\ words_num r = z.
Proof.
  intros Hn Hab Hac Hz Hf Hout. cbn zeta. pose proof (nwords_bounds n Hn).
  destruct (copy_loop n f c a b (bn_zero n)) as (W & Len & B); try assumption.
  - apply bn_zero_wf.
  - rewrite bn_zero_len by lia. lia.
  - rewrite bn_zero_len in Len by lia. split; [split; assumption|].
    apply Z.bits_inj'. intros p Hp. rewrite B by exact Hp. rewrite bn_zero_num, Z.bits_0.
    destruct (Z.ltb_spec p n).
    + destruct (Z.leb_spec (a + c) p); cbn [andb]; [|symmetry; apply Hout; lia].
      destruct (Z.ltb_spec p (b + c)); cbn [andb]; [|symmetry; apply Hout; lia].
      rewrite Hf by lia. f_equal; lia.
    + rewrite andb_false_r. symmetry. apply (testbit_small _ n); lia.
Qed.
Ltac Zify.zify_post_hook ::= idtac.
