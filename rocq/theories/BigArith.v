(** big_num arithmetic and comparison: addition, subtraction, order, multiplication, division. *)
From Coq Require Import ZArith List Bool Lia Zify ZifyBool.
From Verif Require Import Cpp BigNum Bit Logic Spec ZBits Words BigNumProofs.
Import ListNotations.
Open Scope Z_scope.

(** * addition *)
Lemma carry_low v : 0 <= v < 2 ^ 128 -> u64 (Z.shiftr (u128 (Z.shiftl v 64)) 64) = v mod 2 ^ 64.
Proof.
  intros Hv. apply Z.bits_inj'. intros p Hp. unfold u64, u128.
  rewrite !testbit_mod_pow2, Z.shiftr_spec, testbit_mod_pow2, Z.shiftl_spec by lia.
  replace (p + 64 - 64) with p by lia. destruct (Z.ltb_spec p 64); [|reflexivity].
  replace (p + 64 <? 128) with true by lia. reflexivity.
Qed.

Lemma bn_add_c_spec a b : forall c, wf a -> wf b -> wlen a = wlen b -> 0 <= c <= 1 ->
  wf (bn_add_c c a b) /\ wlen (bn_add_c c a b) = wlen a /\
  words_num (bn_add_c c a b) = (c + words_num a + words_num b) mod 2 ^ (64 * wlen a).
Proof.
  unfold wlen. revert b. induction a as [|x a IH]; intros [|y b] c Ha Hb Hl Hc; cbn [length] in Hl; try lia.
  - cbn [bn_add_c words_num length]. split; [constructor|]. split; [reflexivity|].
    change (2 ^ (64 * Z.of_nat 0)) with 1. rewrite Z.mod_1_r. reflexivity.
  - apply wf_cons in Ha, Hb. destruct Ha as [Hx Ha], Hb as [Hy Hb].
    cbn [bn_add_c length words_num].
    assert (E : u128 (u128 (c + x) + y) = c + x + y).
    { unfold u128. rewrite (Z.mod_small (c + x)) by lia. apply Z.mod_small. lia. }
    rewrite E. rewrite carry_low by lia.
    assert (Ec : Z.shiftr (c + x + y) 64 = (c + x + y) / 2 ^ 64) by (apply Z.shiftr_div_pow2; lia).
    rewrite Ec.
    assert (Hq : 0 <= (c + x + y) / 2 ^ 64 <= 1) by zlia.
    destruct (IH b ((c + x + y) / 2 ^ 64) Ha Hb ltac:(lia) Hq) as (W & L & S).
    pose proof (Z.mod_pos_bound (c + x + y) (2 ^ 64) ltac:(lia)).
    split; [apply wf_cons; split; [lia | exact W]|]. split; [lia|].
    rewrite S. replace (64 * Z.of_nat (Datatypes.S (length a))) with (64 + 64 * Z.of_nat (length a)) by lia.
    rewrite pow2_split by lia.
    assert (0 < 2 ^ (64 * Z.of_nat (length a))) by (apply pow2_pos; lia).
    rewrite Z.rem_mul_r by lia.
    replace (c + (x + 2 ^ 64 * words_num a) + (y + 2 ^ 64 * words_num b))
      with ((c + x + y) + (words_num a + words_num b) * 2 ^ 64) by ring.
    rewrite Z.mod_add, Z.div_add by lia. do 3 f_equal. ring.
Qed.

Lemma bn_add_spec n a b : 1 <= n -> wfn n a -> wfn n b ->
  wfn n (bn_add a b) /\ words_num (bn_add a b) = (words_num a + words_num b) mod 2 ^ (64 * nwords n).
Proof.
  intros Hn [Wa La] [Wb Lb]. destruct (bn_add_c_spec a b 0 Wa Wb ltac:(lia) ltac:(lia)) as (W & L & E).
  unfold bn_add. rewrite La in *. split; [split; assumption|]. exact E.
Qed.

Lemma words_num_word_set ws i w : wf ws -> 0 <= i < wlen ws -> 0 <= w < 2 ^ 64 -> word ws i = 0 ->
  words_num (word_set ws i w) = words_num ws + w * 2 ^ (64 * i).
Proof.
  unfold word_set, wlen, word. intros W Hi Hw. 
  replace i with (Z.of_nat (Z.to_nat i)) at 3 by lia.
  assert (L : (Z.to_nat i < length ws)%nat) by lia. clear Hi. revert L.
  generalize (Z.to_nat i) as k. induction ws as [|h t IH]; intros k L H0; cbn [length] in *; [lia|].
  apply wf_cons in W. destruct W as [Hh Ht].
  destruct k as [|k]; cbn [lupd nth words_num] in *.
  - change (64 * Z.of_nat 0) with 0. rewrite Z.pow_0_r. lia.
  - rewrite IH by (try assumption; lia).
    replace (64 * Z.of_nat (S k)) with (64 + 64 * Z.of_nat k) by lia. rewrite pow2_split by lia. ring.
Qed.
Lemma bn_zero_word n i : word (bn_zero n) i = 0.
Proof.
  unfold word, bn_zero. generalize (Z.to_nat i). generalize (Z.to_nat (nwords n)).
  induction n0 as [|m IH]; intros [|k]; cbn; auto.
Qed.
Lemma bn_of_native_spec n v : 1 <= n -> wfn n (bn_of_native n v) /\ words_num (bn_of_native n v) = u64 v.
Proof.
  intros Hn. pose proof (nwords_bounds n Hn). pose proof (bn_zero_wfn n Hn) as [W L].
  pose proof (u64_range v). unfold bn_of_native. split; [split|].
  - apply word_set_wf; assumption.
  - rewrite word_set_len. exact L.
  - rewrite words_num_word_set by (try assumption; try lia; apply bn_zero_word).
    rewrite bn_zero_num. change (64 * 0) with 0. lia.
Qed.

Lemma bn_negate_spec n ws : 1 <= n -> wfn n ws ->
  wfn n (bn_negate n ws) /\ words_num (bn_negate n ws) = (- words_num ws) mod 2 ^ (64 * nwords n).
Proof.
  intros Hn [W L]. destruct (bn_not_spec n ws W) as (W1 & L1 & E1).
  destruct (bn_of_native_spec n 1 Hn) as [W2 E2].
  unfold bn_negate. destruct (bn_add_spec n (bn_not n ws) (bn_of_native n 1) Hn) as [W3 E3];
    [split; [exact W1 | lia] | exact W2 |].
  split; [exact W3|]. rewrite E3, E1, E2, L. change (u64 1) with 1.
  apply mod_eq_shift with (k := 1); [apply pow2_pos; pose proof (nwords_bounds n Hn); lia | ring].
Qed.

Lemma bn_sub_spec n a b : 1 <= n -> wfn n a -> wfn n b ->
  wfn n (bn_sub n a b) /\ words_num (bn_sub n a b) = (words_num a - words_num b) mod 2 ^ (64 * nwords n).
Proof.
  intros Hn Ha Hb. destruct (bn_negate_spec n b Hn Hb) as [W1 E1].
  unfold bn_sub. destruct (bn_add_spec n a (bn_negate n b) Hn Ha W1) as [W2 E2].
  split; [exact W2|]. rewrite E2, E1, Zplus_mod_idemp_r. f_equal; ring.
Qed.

(** * low part of a word array *)
Definition lown (k : nat) (ws : list Z) : Z := words_num (firstn k ws).
Lemma lown_S k ws : lown (S k) ws = lown k ws + 2 ^ (64 * Z.of_nat k) * nth k ws 0.
Proof.
  unfold lown. revert k. induction ws as [|w r IH]; intros k.
  - rewrite !firstn_nil. cbn. destruct k; rewrite Z.mul_0_r; reflexivity.
  - destruct k as [|k].
    + cbn [firstn words_num nth]. change (64 * Z.of_nat 0) with 0. rewrite Z.pow_0_r. lia.
    + cbn [firstn words_num nth]. cbn [firstn] in IH. rewrite (IH k).
      replace (64 * Z.of_nat (S k)) with (64 + 64 * Z.of_nat k) by lia. rewrite pow2_split by lia. ring.
Qed.
Lemma lown_all k ws : (length ws <= k)%nat -> lown k ws = words_num ws.
Proof. intros. unfold lown. rewrite firstn_all2 by assumption. reflexivity. Qed.
Lemma wf_firstn k ws : wf ws -> wf (firstn k ws).
Proof. unfold wf. intros H. rewrite <- (firstn_skipn k ws) in H. apply Forall_app in H. tauto. Qed.
Lemma wf_skipn k ws : wf ws -> wf (skipn k ws).
Proof. unfold wf. intros H. rewrite <- (firstn_skipn k ws) in H. apply Forall_app in H. tauto. Qed.
Lemma lown_bound k ws : wf ws -> 0 <= lown k ws < 2 ^ (64 * Z.of_nat k).
Proof.
  intros W. unfold lown. pose proof (wf_firstn k ws W) as Wk.
  split; [apply words_num_nonneg; exact Wk|].
  eapply Z.lt_le_trans; [apply words_num_bound; exact Wk|].
  apply pow2_mono. unfold wlen. pose proof (firstn_le_length k ws). lia.
Qed.

(** * order *)
Fixpoint desc (k : nat) : list Z := match k with O => [] | S j => Z.of_nat j :: desc j end.
Lemma desc_eq top : map (fun i => top - i - 1) (zrange 0 top) = desc (Z.to_nat top).
Proof.
  remember (Z.to_nat top) as k eqn:E.
  destruct (Z.leb_spec top 0).
  { rewrite zrange_empty by lia. replace k with O by lia. reflexivity. }
  assert (E' : top = Z.of_nat k) by lia. clear E H. subst top.
  induction k as [|k IH]; [reflexivity|].
  rewrite zrange_cons by lia. cbn [map desc]. f_equal; [lia|].
  rewrite <- IH. unfold zrange. rewrite !map_map.
  replace (Z.to_nat (Z.of_nat (S k) - (0 + 1))) with (Z.to_nat (Z.of_nat k - 0)) by lia.
  apply map_ext. intros; lia.
Qed.

Lemma bn_gt_scan_spec a b k : wf a -> wf b ->
  bn_gt_scan (wlen a) (wlen b) a b (desc k) = (lown k b <? lown k a).
Proof.
  intros Wa Wb. induction k as [|k IH]; [reflexivity|].
  cbn [desc bn_gt_scan]. rewrite !lown_S, IH.
  pose proof (lown_bound k a Wa) as Ba. pose proof (lown_bound k b Wb) as Bb.
  pose proof (word_range a (Z.of_nat k) Wa) as Ra. pose proof (word_range b (Z.of_nat k) Wb) as Rb.
  unfold word in *. rewrite Nat2Z.id in *.
  assert (Oa : wlen a <= Z.of_nat k -> nth k a 0 = 0) by (unfold wlen; intros; apply nth_overflow; lia).
  assert (Ob : wlen b <= Z.of_nat k -> nth k b 0 = 0) by (unfold wlen; intros; apply nth_overflow; lia).
  set (P := 2 ^ (64 * Z.of_nat k)) in *.
  destruct (Z.leb_spec (wlen a) (Z.of_nat k)).
  - rewrite Oa by assumption. destruct (Z.eqb_spec (nth k b 0) 0) as [->|N]; cbn [negb].
    + f_equal; lia.
    + symmetry. apply Z.ltb_ge. nia.
  - destruct (Z.leb_spec (wlen b) (Z.of_nat k)).
    + rewrite Ob by assumption. destruct (Z.eqb_spec (nth k a 0) 0) as [->|N]; cbn [negb].
      * f_equal; lia.
      * symmetry. apply Z.ltb_lt. nia.
    + destruct (Z.eqb_spec (nth k a 0) (nth k b 0)) as [E|N]; cbn [negb].
      * rewrite E. apply Bool.eq_iff_eq_true. rewrite !Z.ltb_lt. lia.
      * destruct (Z.ltb_spec (nth k b 0) (nth k a 0)); symmetry; [apply Z.ltb_lt | apply Z.ltb_ge]; nia.
Qed.

Lemma bn_ugt_spec n1 a n2 b : wfn n1 a -> wfn n2 b ->
  bn_ugt n1 a n2 b = (words_num b <? words_num a).
Proof.
  intros [Wa La] [Wb Lb]. unfold bn_ugt. rewrite <- La, <- Lb, desc_eq, bn_gt_scan_spec by assumption.
  unfold wlen. rewrite !lown_all by lia. reflexivity.
Qed.

Lemma words_eqb_prefix a b : wf a -> wf b ->
  words_eqb a b = (lown (Nat.min (length a) (length b)) a =? lown (Nat.min (length a) (length b)) b).
Proof.
  revert b. induction a as [|x a IH]; intros [|y b] Wa Wb; try reflexivity.
  apply wf_cons in Wa, Wb. destruct Wa as [Hx Wa], Wb as [Hy Wb].
  cbn [words_eqb length Nat.min]. unfold lown in *. cbn [firstn words_num]. rewrite (IH b Wa Wb).
  set (u := words_num _). set (v := words_num _).
  destruct (Z.eqb_spec x y) as [->|N].
  - apply Bool.eq_iff_eq_true. rewrite !Z.eqb_eq. lia.
  - symmetry. apply Z.eqb_neq. lia.
Qed.
Lemma words_eqb_same a b : wf a -> wf b -> wlen a = wlen b -> words_eqb a b = (words_num a =? words_num b).
Proof.
  unfold wlen. intros. rewrite words_eqb_prefix by assumption. rewrite !lown_all by lia. reflexivity.
Qed.

(** * the 32-bit accumulators *)
Definition low32 (w : Z) : Z := w mod 2 ^ 32.
Lemma i32_mod z : i32 z mod 2 ^ 32 = z mod 2 ^ 32.
Proof. apply swrap_mod. lia. Qed.
Lemma i32_zero z : i32 z = 0 <-> z mod 2 ^ 32 = 0.
Proof.
  split; intros H.
  - rewrite <- i32_mod, H. reflexivity.
  - unfold i32, swrap. change (32 - 1) with 31. 
    replace ((z + 2 ^ 31) mod 2 ^ 32) with (2 ^ 31); [lia|].
    rewrite <- Zplus_mod_idemp_l, H. reflexivity.
Qed.
Lemma lor_mod32_zero a b : Z.lor a b mod 2 ^ 32 = 0 <-> a mod 2 ^ 32 = 0 /\ b mod 2 ^ 32 = 0.
Proof. rewrite lor_mod_pow2 by lia. apply Z.lor_eq_0_iff. Qed.
Lemma reduce_or_zero ws : reduce_or ws = 0 <-> Forall (fun w => low32 w = 0) ws.
Proof.
  unfold reduce_or.
  assert (G : forall acc, - 2 ^ 31 <= acc < 2 ^ 31 ->
    (fold_left (fun acc w => i32 (Z.lor (u64 acc) w)) ws acc = 0 <-> acc = 0 /\ Forall (fun w => low32 w = 0) ws)).
  { induction ws as [|w r IH]; intros acc Hacc; cbn [fold_left].
    - split; [intros ->; split; [reflexivity | constructor] | tauto].
    - rewrite IH by (apply (swrap_range 32); lia). rewrite i32_zero, lor_mod32_zero.
      unfold u64. rewrite mod_mod_pow2 by lia.
      assert (A : acc mod 2 ^ 32 = 0 <-> acc = 0) by (split; [zlia | intros ->; reflexivity]).
      rewrite A. unfold low32. split.
      + intros [[H1 H2] H3]. split; [exact H1 | constructor; assumption].
      + intros [H1 H2]. inversion H2; subst. tauto. }
  rewrite G by lia. tauto.
Qed.

Lemma all_zero_num ws : wf ws -> (words_num ws = 0 <-> Forall (fun w => w = 0) ws).
Proof.
  induction ws as [|w r IH]; intros W; cbn [words_num].
  - split; [constructor | reflexivity].
  - apply wf_cons in W. destruct W as [Hw Wr]. pose proof (words_num_nonneg r Wr). specialize (IH Wr).
    split.
    + intros E. constructor; [nia|]. apply IH. nia.
    + intros F. inversion F; subst. apply IH in H3. lia.
Qed.

(** every non-zero word has a non-zero low half: the condition under which the accumulators tell the truth *)
Definition halves_ok (ws : list Z) : Prop :=
  Forall (fun w => low32 w = 0) ws -> Forall (fun w => w = 0) ws.

Lemma bn_any_set_spec ws : wf ws -> halves_ok ws -> bn_any_set ws = negb (words_num ws =? 0).
Proof.
  intros W H. unfold bn_any_set. f_equal. apply Bool.eq_iff_eq_true.
  rewrite !Z.eqb_eq, reduce_or_zero, all_zero_num by exact W. split; [exact H|].
  intros F. eapply Forall_impl; [|exact F]. intros w ->. reflexivity.
Qed.
Lemma bn_any_set_zero ws : wf ws -> words_num ws = 0 -> bn_any_set ws = false.
Proof.
  intros W H. apply all_zero_num in H; [|exact W]. unfold bn_any_set.
  replace (reduce_or ws =? 0) with true; [reflexivity|]. symmetry. apply Z.eqb_eq. apply reduce_or_zero.
  eapply Forall_impl; [|exact H]. intros w ->. reflexivity.
Qed.
Lemma wf_tl ws : wf ws -> wf (tl ws).
Proof. destruct ws; [auto|]. intros H. apply wf_cons in H. tauto. Qed.
Lemma words_num_tl ws : words_num ws = word ws 0 + 2 ^ 64 * words_num (tl ws).
Proof. destruct ws; reflexivity. Qed.
Lemma bn_fit_spec ws : wf ws -> halves_ok (tl ws) -> bn_fit_in_64 ws = (words_num ws <? 2 ^ 64).
Proof.
  intros W H. pose proof (wf_tl ws W) as Wt. pose proof (words_num_nonneg _ Wt). pose proof (word_range ws 0 W).
  unfold bn_fit_in_64. apply Bool.eq_iff_eq_true. rewrite Z.eqb_eq, reduce_or_zero, Z.ltb_lt, words_num_tl.
  split.
  - intros F. apply H in F. apply all_zero_num in F; [|exact Wt]. lia.
  - intros F. assert (E : words_num (tl ws) = 0) by nia. apply all_zero_num in E; [|exact Wt].
    eapply Forall_impl; [|exact E]. intros w ->. reflexivity.
Qed.
Lemma bn_is_one_spec n ws : 65 <= n -> wfn n ws -> halves_ok (tl ws) -> bn_is_one ws = (words_num ws =? 1).
Proof.
  intros Hn [W L] H. pose proof (nwords_bounds n ltac:(lia)).
  pose proof (wf_tl ws W) as Wt. pose proof (words_num_nonneg _ Wt). pose proof (word_range ws 0 W).
  unfold bn_is_one. unfold wlen in L. replace (Z.of_nat (length ws) =? 1) with false by lia.
  apply Bool.eq_iff_eq_true. rewrite andb_true_iff, !Z.eqb_eq, reduce_or_zero, words_num_tl.
  split.
  - intros [E F]. apply H in F. apply all_zero_num in F; [|exact Wt]. lia.
  - intros F. assert (E : words_num (tl ws) = 0) by nia. split; [nia|].
    apply all_zero_num in E; [|exact Wt]. eapply Forall_impl; [|exact E]. intros w ->. reflexivity.
Qed.

(** * multiplication *)
Lemma word_put_spec ws i w : word_put ws i w = if (0 <=? i) && (i <? wlen ws) then Ok (word_set ws i w) else UB.
Proof. reflexivity. Qed.

Lemma one_word n k w : 1 <= n -> 0 <= k < nwords n -> 0 <= w < 2 ^ 64 ->
  word_put (bn_zero n) k w = Ok (word_set (bn_zero n) k w) /\
  wfn n (word_set (bn_zero n) k w) /\ words_num (word_set (bn_zero n) k w) = w * 2 ^ (64 * k).
Proof.
  intros Hn Hk Hw. destruct (bn_zero_wfn n Hn) as [W L]. split; [|split; [split|]].
  - rewrite word_put_spec, L. replace ((0 <=? k) && (k <? nwords n)) with true by lia. reflexivity.
  - apply word_set_wf; assumption.
  - rewrite word_set_len. exact L.
  - rewrite words_num_word_set by (try assumption; try lia; apply bn_zero_word). rewrite bn_zero_num. lia.
Qed.

Lemma bn_mul_step_spec n a b i r j : 1 <= n -> wf a -> wf b -> wfn n r -> 0 <= i -> 0 <= j ->
  (word b j <> 0 -> i + j + 1 < nwords n) ->
  exists r', bn_mul_step n a b i r j = Ok r' /\ wfn n r' /\
    words_num r' = (words_num r + word a i * word b j * 2 ^ (64 * (i + j))) mod 2 ^ (64 * nwords n).
Proof.
  intros Hn Wa Wb Hr Hi Hj Hin. pose proof (nwords_bounds n Hn). unfold bn_mul_step.
  assert (0 < 2 ^ (64 * nwords n)) by (apply pow2_pos; lia).
  destruct (Z.eqb_spec (word b j) 0) as [E|N].
  - exists r. split; [reflexivity|]. split; [exact Hr|]. rewrite E, Z.mul_0_r, Z.mul_0_l, Z.add_0_r.
    destruct Hr as [W L]. pose proof (words_num_nonneg r W). pose proof (words_num_bound r W). rewrite L in *.
    symmetry. apply Z.mod_small. lia.
  - specialize (Hin N). pose proof (word_range a i Wa). pose proof (word_range b j Wb).
    assert (C : 0 <= word a i * word b j < 2 ^ 128) by nia.
    assert (E128 : u128 (word a i * word b j) = word a i * word b j) by (apply Z.mod_small; lia).
    rewrite E128, carry_low by lia. set (c := word a i * word b j) in *.
    replace (i + j <? n) with true by lia. replace (i + j + 1 <? n) with true by lia.
    destruct (one_word n (i + j) (c mod 2 ^ 64) Hn ltac:(lia) ltac:(apply Z.mod_pos_bound; lia)) as (P1 & W1 & E1).
    rewrite P1. cbn [bind].
    destruct (bn_add_spec n r _ Hn Hr W1) as [W2 E2].
    destruct (one_word n (i + j + 1) (u64 (Z.shiftr c 64)) Hn ltac:(lia) (u64_range _)) as (P3 & W3 & E3).
    rewrite P3. cbn [bind]. eexists. split; [reflexivity|].
    destruct (bn_add_spec n _ _ Hn W2 W3) as [W4 E4]. split; [exact W4|].
    rewrite E4, E2, E1, E3. rewrite Zplus_mod_idemp_l. f_equal.
    rewrite Z.shiftr_div_pow2 by lia.
    assert (Q : 0 <= c / 2 ^ 64 < 2 ^ 64) by (split; [apply Z.div_pos; lia | apply Z.div_lt_upper_bound; lia]).
    rewrite (u64_id _ Q).
    replace (64 * (i + j + 1)) with (64 * (i + j) + 64) by lia. rewrite pow2_split by lia.
    rewrite (Z.div_mod c (2 ^ 64)) at 3 by lia. ring.
Qed.

(** index bound of the non-zero words *)
Definition below (ws : list Z) (k : Z) : Prop := forall i, k <= i -> word ws i = 0.

Lemma bn_mul_school n a b ka kb : 1 <= n -> wfn n a -> wfn n b ->
  below a ka -> below b kb -> ka + kb <= nwords n ->
  exists r, ofold (fun result i => if word a i =? 0 then Ok result
                         else ofold (bn_mul_step n a b i) (zrange 0 (nwords n)) result)
              (zrange 0 (nwords n)) (bn_zero n) = Ok r /\ wfn n r /\
    words_num r = (words_num a * words_num b) mod 2 ^ (64 * nwords n).
Proof.
  intros Hn Ha Hb Ba Bb Hk. pose proof (nwords_bounds n Hn) as Hnw.
  destruct Ha as [Wa La], Hb as [Wb Lb].
  set (M := 2 ^ (64 * nwords n)). assert (HM : 0 < M) by (apply pow2_pos; lia).
  destruct (zrange_ofold_ind (fun result i => if word a i =? 0 then Ok result
                         else ofold (bn_mul_step n a b i) (zrange 0 (nwords n)) result)
    (fun k r => wfn n r /\ words_num r = (lown (Z.to_nat k) a * words_num b) mod M) 0 (nwords n) (bn_zero n))
    as (r & Er & Wr & Nr); [lia | | |].
  - split; [apply bn_zero_wfn; lia|]. rewrite bn_zero_num. reflexivity.
  - intros i r Hi [Wr Nr].
    assert (ES : lown (Z.to_nat (i + 1)) a = lown (Z.to_nat i) a + 2 ^ (64 * i) * word a i).
    { replace (Z.to_nat (i + 1)) with (S (Z.to_nat i)) by lia. rewrite lown_S. unfold word.
      do 3 f_equal. lia. }
    destruct (Z.eqb_spec (word a i) 0) as [E|N].
    + exists r. split; [reflexivity|]. split; [exact Wr|]. rewrite ES, E, Z.mul_0_r, Z.add_0_r. exact Nr.
    + assert (Hik : i < ka) by (destruct (Z.lt_ge_cases i ka); [assumption | exfalso; apply N, Ba; lia]).
      destruct (zrange_ofold_ind (bn_mul_step n a b i)
        (fun k r' => wfn n r' /\ words_num r' = (words_num r + word a i * 2 ^ (64 * i) * lown (Z.to_nat k) b) mod M)
        0 (nwords n) r) as (r' & Er' & Wr' & Nr'); [lia | | |].
      * split; [exact Wr|]. change (lown (Z.to_nat 0) b) with 0. rewrite Z.mul_0_r, Z.add_0_r.
        rewrite Nr, Zmod_mod. reflexivity.
      * intros j r1 Hj [W1 N1].
        destruct (bn_mul_step_spec n a b i r1 j Hn Wa Wb W1 ltac:(lia) ltac:(lia)) as (r2 & E2 & W2 & N2).
        { intros Nj. assert (j < kb) by (destruct (Z.lt_ge_cases j kb); [assumption | exfalso; apply Nj, Bb; lia]). lia. }
        exists r2. split; [exact E2|]. split; [exact W2|]. rewrite N2, N1. fold M. rewrite Zplus_mod_idemp_l. f_equal.
        replace (Z.to_nat (j + 1)) with (S (Z.to_nat j)) by lia. rewrite lown_S. unfold word.
        replace (Z.of_nat (Z.to_nat j)) with j by lia.
        replace (64 * (i + j)) with (64 * i + 64 * j) by lia. rewrite pow2_split by lia. ring.
      * exists r'. split; [exact Er'|]. split; [exact Wr'|]. rewrite Nr', Nr, ES.
        rewrite Zplus_mod_idemp_l. f_equal.
        unfold wlen in Lb. rewrite (lown_all _ b) by lia. ring.
  - exists r. split; [exact Er|]. split; [exact Wr|]. rewrite Nr. unfold wlen in La. rewrite (lown_all _ a) by lia. reflexivity.
Qed.

Lemma bn_mul_spec n a b ka kb : 65 <= n -> wfn n a -> wfn n b -> halves_ok (tl a) -> halves_ok (tl b) ->
  below a ka -> below b kb -> ka + kb <= nwords n ->
  exists r, bn_mul n a b = Ok r /\ wfn n r /\
    words_num r = (words_num a * words_num b) mod 2 ^ (64 * nwords n).
Proof.
  intros Hn Ha Hb Ta Tb Ba Bb Hk. pose proof (nwords_bounds n ltac:(lia)) as Hnw.
  unfold bn_mul.
  rewrite bn_fit_spec, bn_fit_spec by (assumption || apply Ha || apply Hb).
  destruct (Z.ltb_spec (words_num a) (2 ^ 64)) as [La|La], (Z.ltb_spec (words_num b) (2 ^ 64)) as [Lb|Lb]; cbn [andb];
    try (apply (bn_mul_school n a b ka kb); (assumption || lia)).
  pose proof (word_range a 0 (proj1 Ha)). pose proof (word_range b 0 (proj1 Hb)).
  pose proof (words_num_nonneg _ (wf_tl _ (proj1 Ha))). pose proof (words_num_nonneg _ (wf_tl _ (proj1 Hb))).
  assert (Ea : words_num a = word a 0) by (rewrite words_num_tl in La |- *; nia).
  assert (Eb : words_num b = word b 0) by (rewrite words_num_tl in Lb |- *; nia).
  assert (C : 0 <= word a 0 * word b 0 < 2 ^ 128) by nia.
  assert (E128 : u128 (word a 0 * word b 0) = word a 0 * word b 0) by (apply Z.mod_small; lia).
  rewrite E128, carry_low by lia. rewrite Ea, Eb. set (c := word a 0 * word b 0) in *.
  destruct (one_word n 0 (c mod 2 ^ 64) ltac:(lia) ltac:(lia) ltac:(apply Z.mod_pos_bound; lia)) as (P1 & W1 & E1).
  rewrite P1. cbn [bind]. rewrite Z.shiftr_div_pow2 by lia.
  assert (Q : 0 <= c / 2 ^ 64 < 2 ^ 64) by (split; [apply Z.div_pos; lia | apply Z.div_lt_upper_bound; lia]).
  rewrite (u64_id _ Q). set (r0 := word_set (bn_zero n) 0 (c mod 2 ^ 64)) in *.
  destruct W1 as [W1 L1].
  rewrite word_put_spec, L1. replace ((0 <=? 1) && (1 <? nwords n)) with true by lia.
  eexists. split; [reflexivity|]. split; [split; [apply word_set_wf; assumption | rewrite word_set_len; exact L1]|].
  assert (Z1 : word r0 1 = 0).
  { unfold r0. destruct (bn_zero_wfn n ltac:(lia)) as [Wz Lz]. rewrite word_set_word by lia.
    change (1 =? 0) with false. apply bn_zero_word. }
  rewrite words_num_word_set by (assumption || lia). rewrite E1.
  change (64 * 0) with 0. change (64 * 1) with 64. rewrite Z.pow_0_r.
  pose proof (Z.div_mod c (2 ^ 64) ltac:(lia)) as DM.
  pose proof (pow2_mono 128 (64 * nwords n) ltac:(lia)) as HM.
  rewrite (Z.mod_small c (2 ^ (64 * nwords n))) by (split; [apply C | eapply Z.lt_le_trans; [apply C | exact HM]]).
  rewrite DM at 3. ring.
Qed.

(** the undefined write: two non-zero words whose indices add up to the word count or more *)
Lemma bn_mul_step_ub n a b i r j : 1 <= n -> wlen r = nwords n -> 0 <= i -> 0 <= j -> word b j <> 0 ->
  nwords n <= i + j + 1 < n -> bn_mul_step n a b i r j = UB.
Proof.
  intros Hn L Hi Hj N H. unfold bn_mul_step. replace (word b j =? 0) with false by lia.
  destruct (bn_zero_wfn n Hn) as [Wz Lz].
  replace (i + j <? n) with true by lia. replace (i + j + 1 <? n) with true by lia.
  rewrite !word_put_spec, Lz. replace ((0 <=? i + j + 1) && (i + j + 1 <? nwords n)) with false by lia.
  destruct ((0 <=? i + j) && (i + j <? nwords n)); reflexivity.
Qed.

(** * highest bit *)
Lemma words_num_top ws k : wf ws -> below ws (k + 1) -> 0 <= k -> word ws k <> 0 ->
  Z.log2 (words_num ws) = 64 * k + Z.log2 (word ws k).
Proof.
  intros W B Hk N. pose proof (word_range ws k W) as R.
  assert (E : words_num ws = lown (Z.to_nat k) ws + 2 ^ (64 * k) * word ws k).
  { assert (G : forall m, (Z.to_nat k < m)%nat -> lown m ws = lown (Z.to_nat k) ws + 2 ^ (64 * k) * word ws k).
    { induction m as [|m IH]; [lia|]. intros Hm. rewrite lown_S.
      destruct (Nat.eq_dec (Z.to_nat k) m) as [<-|D].
      - unfold word. do 3 f_equal. lia.
      - rewrite IH by lia. specialize (B (Z.of_nat m) ltac:(lia)). unfold word in B. rewrite Nat2Z.id in B. rewrite B. lia. }
    rewrite <- (lown_all (Nat.max (length ws) (S (Z.to_nat k))) ws) by lia. apply G. lia. }
  rewrite E. pose proof (lown_bound (Z.to_nat k) ws W) as Lb. rewrite Z2Nat.id in Lb by lia.
  assert (0 < word ws k) by lia.
  apply Z.log2_unique; [pose proof (Z.log2_nonneg (word ws k)); lia|].
  pose proof (Z.log2_spec (word ws k) ltac:(lia)) as [S1 S2].
  pose proof (Z.log2_nonneg (word ws k)).
  assert (0 < 2 ^ (64 * k)) by (apply pow2_pos; lia).
  replace (Z.succ (64 * k + Z.log2 (word ws k))) with (64 * k + Z.succ (Z.log2 (word ws k))) by lia.
  rewrite !pow2_split by lia. nia.
Qed.

Lemma bn_highest_scan_spec n ws : 1 <= n -> wfn n ws -> words_num ws <> 0 ->
  bn_highest_bit n ws = Z.log2 (words_num ws).
Proof.
  intros Hn [W L] N. pose proof (nwords_bounds n Hn). unfold bn_highest_bit.
  assert (G : forall k, 0 <= k <= nwords n -> below ws (nwords n - k) ->
    bn_highest_scan (nwords n) ws (zrange k (nwords n)) = Z.log2 (words_num ws)).
  { intros k0. remember (Z.to_nat (nwords n - k0)) as m eqn:Em. revert k0 Em.
    induction m as [|m IH]; intros k Em Hk B.
    - exfalso. apply N. apply all_zero_num; [exact W|]. apply Forall_forall. intros x Hx.
      apply In_nth with (d := 0) in Hx. destruct Hx as (i & Hi & <-).
      specialize (B (Z.of_nat i) ltac:(lia)). unfold word in B. rewrite Nat2Z.id in B. exact B.
    - rewrite zrange_cons by lia. cbn [bn_highest_scan].
      destruct (Z.eqb_spec (word ws (nwords n - k - 1)) 0) as [E0|N0]; cbn [negb].
      + apply IH; [lia | lia |]. intros i Hi. destruct (Z.eq_dec i (nwords n - k - 1)) as [->|D]; [exact E0|]. apply B. lia.
      + rewrite (words_num_top ws (nwords n - k - 1)); try assumption; try lia.
        replace (nwords n - k - 1 + 1) with (nwords n - k) by lia. exact B. }
  apply G; [lia|]. intros i Hi. apply word_out. lia.
Qed.

(** * division *)
Definition divides_ok (n : Z) (a op : list Z) (qr : list Z * list Z) : Prop :=
  wfn n (fst qr) /\ wfn n (snd qr) /\
  words_num a = words_num (fst qr) * words_num op + words_num (snd qr) /\
  0 <= words_num (snd qr) < words_num op.

Lemma lor_disjoint_add a b : Z.land a b = 0 -> Z.lor a b = a + b.
Proof. intros H. rewrite <- Z.lxor_lor by exact H. symmetry. apply Z.add_nocarry_lxor. exact H. Qed.

Lemma setbit_num n q k : wf q -> n <= 64 * wlen q -> 0 <= k < n -> Z.testbit (words_num q) k = false ->
  words_num (bn_set n q k true) = words_num q + 2 ^ k.
Proof.
  intros W C Hk B.
  assert (E : words_num (bn_set n q k true) = Z.lor (words_num q) (2 ^ k)).
  { apply Z.bits_inj'. intros p Hp. rewrite bn_set_spec by (assumption || lia).
    rewrite Z.lor_spec, Z.pow2_bits_eqb by lia. rewrite (Z.eqb_sym k p).
    replace (k <? n) with true by lia. rewrite andb_true_r.
    destruct (p =? k); [rewrite orb_true_r; reflexivity | rewrite orb_false_r; reflexivity]. }
  rewrite E. apply lor_disjoint_add. apply Z.bits_inj'. intros p Hp.
  rewrite Z.land_spec, Z.pow2_bits_eqb, Z.bits_0 by lia.
  destruct (Z.eqb_spec k p) as [<-|]; [rewrite B; reflexivity | apply andb_false_r].
Qed.

Lemma bn_uge_spec n a b : wfn n a -> wfn n b -> bn_uge n a b = (words_num b <=? words_num a).
Proof.
  intros Ha Hb. unfold bn_uge. rewrite (bn_ugt_spec n a n b Ha Hb).
  rewrite words_eqb_same by (apply Ha || apply Hb || (destruct Ha, Hb; lia)).
  destruct (Z.ltb_spec (words_num b) (words_num a)), (Z.eqb_spec (words_num a) (words_num b)),
    (Z.leb_spec (words_num b) (words_num a)); cbn; (reflexivity || lia).
Qed.

Lemma bn_div_long n a op : 65 <= n -> wfn n a -> wfn n op -> words_num a < 2 ^ n ->
  0 < words_num op <= words_num a ->
  let diff := bn_highest_bit n a - bn_highest_bit n op in
  divides_ok n a op (fold_left (bn_div_loop n op diff) (zrange 0 (diff + 1)) (bn_zero n, a)).
Proof.
  intros Hn Ha Hop Hta Hle. cbn zeta.
  rewrite (bn_highest_scan_spec n a), (bn_highest_scan_spec n op) by (assumption || lia).
  set (A := words_num a) in *. set (B := words_num op) in *.
  pose proof (Z.log2_le_mono B A ltac:(lia)) as Hlog.
  pose proof (Z.log2_spec A ltac:(lia)) as [A1 A2]. pose proof (Z.log2_spec B ltac:(lia)) as [B1 B2].
  pose proof (Z.log2_nonneg B).
  set (diff := Z.log2 A - Z.log2 B) in *.
  assert (HA : Z.log2 A < n) by (apply Z.log2_lt_pow2; lia).
  pose proof (nwords_bounds n ltac:(lia)) as Hnw.
  set (Inv := fun k (qr : list Z * list Z) => wfn n (fst qr) /\ wfn n (snd qr) /\
      A = words_num (fst qr) * B + words_num (snd qr) /\ 0 <= words_num (snd qr) < B * 2 ^ (diff + 1 - k) /\
      (forall p, 0 <= p <= diff - k -> Z.testbit (words_num (fst qr)) p = false)).
  assert (Hfin : Inv (diff + 1) (fold_left (bn_div_loop n op diff) (zrange 0 (diff + 1)) (bn_zero n, a))).
  { apply zrange_fold_ind; [lia | |]; unfold Inv.
    - cbn [fst snd]. split; [apply bn_zero_wfn; lia|]. split; [exact Ha|]. rewrite bn_zero_num.
      split; [fold A; lia|]. split.
      + fold A. split; [lia|]. replace (diff + 1 - 0) with (Z.succ (Z.log2 A) - Z.log2 B) by lia.
        assert (K1 : 2 ^ Z.succ (Z.log2 A) = 2 ^ Z.log2 B * 2 ^ (Z.succ (Z.log2 A) - Z.log2 B))
          by (rewrite <- pow2_split by lia; f_equal; lia).
        assert (K2 : 0 < 2 ^ (Z.succ (Z.log2 A) - Z.log2 B)) by (apply pow2_pos; lia).
        rewrite K1 in A2. eapply Z.lt_le_trans; [exact A2|]. apply Z.mul_le_mono_nonneg_r; lia.
      + intros; apply Z.bits_0.
    - intros i [q r] Hi (Wq & Wr & E & R & Q). cbn [fst snd] in *. unfold bn_div_loop.
      destruct (bn_shl_spec n op (diff - i) ltac:(lia) ltac:(lia) Hop) as [Wt Et].
      assert (P : 0 < 2 ^ (diff - i)) by (apply pow2_pos; lia).
      assert (T : words_num (bn_shl n op (diff - i)) = B * 2 ^ (diff - i)).
      { rewrite Et. fold B. apply Z.mod_small. split; [nia|].
        pose proof (pow2_mono (Z.succ (Z.log2 A)) n ltac:(lia)) as K0.
        assert (K1 : 2 ^ Z.succ (Z.log2 A) = 2 ^ Z.succ (Z.log2 B) * 2 ^ diff)
          by (rewrite <- pow2_split by lia; f_equal; lia).
        pose proof (pow2_mono (diff - i) diff ltac:(lia)) as K2.
        clear - K0 K1 K2 B2 P Hle. set (U := 2 ^ (diff - i)) in *. set (V := 2 ^ diff) in *.
        set (S := 2 ^ Z.succ (Z.log2 B)) in *. nia. }
      rewrite bn_uge_spec by assumption. rewrite T.
      assert (P2 : 2 ^ (diff + 1 - i) = 2 * 2 ^ (diff - i)).
      { replace (diff + 1 - i) with (Z.succ (diff - i)) by lia. apply Z.pow_succ_r. lia. }
      replace (diff + 1 - (i + 1)) with (diff - i) by lia.
      destruct (Z.leb_spec (B * 2 ^ (diff - i)) (words_num r)) as [G|G]; cbn [fst snd].
      + destruct (bn_sub_spec n r _ ltac:(lia) Wr Wt) as [Ws Es].
        assert (Er : words_num (bn_sub n r (bn_shl n op (diff - i))) = words_num r - B * 2 ^ (diff - i)).
        { rewrite Es, T. apply Z.mod_small. split; [lia|].
          destruct Wr as [Wr1 Lr]. pose proof (words_num_bound r Wr1). rewrite Lr in *. nia. }
        assert (Eq : words_num (bn_set n q (diff - i) true) = words_num q + 2 ^ (diff - i)).
        { destruct (wfn_cap n q ltac:(lia) Wq) as (C & _ & _). apply setbit_num; [apply Wq | exact C | lia | apply Q; lia]. }
        destruct (wfn_cap n q ltac:(lia) Wq) as (C & _ & _).
        split; [split; [apply bn_set_wf; apply Wq | rewrite bn_set_len; apply Wq]|].
        split; [exact Ws|]. rewrite Er. split; [rewrite Eq; lia|]. split; [rewrite P2 in R; nia|].
        intros p Hp. rewrite bn_set_spec by (try apply Wq; lia).
        replace (p =? diff - i) with false by lia. cbn [andb]. apply Q. lia.
      + split; [exact Wq|]. split; [exact Wr|]. split; [exact E|]. split; [lia|]. intros p Hp. apply Q. lia. }
  destruct Hfin as (Wq & Wr & E & R & _). unfold divides_ok. fold A B.
  replace (diff + 1 - (diff + 1)) with 0 in R by lia. rewrite Z.pow_0_r, Z.mul_1_r in R.
  split; [exact Wq|]. split; [exact Wr|]. split; assumption.
Qed.

Lemma bn_div_mod_spec n a op : 65 <= n < 2 ^ 64 -> wfn n a -> wfn n op -> words_num a < 2 ^ n ->
  words_num op <> 0 -> halves_ok op -> halves_ok (tl op) -> halves_ok (tl a) ->
  exists qr, bn_div_mod n false a false op = Ok qr /\ divides_ok n a op qr.
Proof.
  intros Hn Ha Hop Hta Hnz H1 H2 H3.
  pose proof (words_num_nonneg a (proj1 Ha)). pose proof (words_num_nonneg op (proj1 Hop)).
  unfold bn_div_mod. rewrite bn_any_set_spec by (assumption || apply Hop).
  replace (words_num op =? 0) with false by lia. cbn [negb].
  destruct (bn_of_native_spec n 0 ltac:(lia)) as [W0 E0]. destruct (bn_of_native_spec n 1 ltac:(lia)) as [W1 E1].
  change (u64 0) with 0 in E0. change (u64 1) with 1 in E1.
  unfold bn_div_mod_unsigned. rewrite (bn_is_one_spec n) by (assumption || lia).
  destruct (Z.eqb_spec (words_num op) 1) as [E|N1].
  { eexists. split; [reflexivity|]. unfold divides_ok. cbn [fst snd]. rewrite E0, E. repeat split; try apply Ha; try apply W0; lia. }
  rewrite words_eqb_same by (apply Ha || apply Hop || (destruct Ha, Hop; lia)).
  destruct (Z.eqb_spec (words_num a) (words_num op)) as [E|N2].
  { eexists. split; [reflexivity|]. unfold divides_ok. cbn [fst snd]. rewrite E0, E1, E. repeat split; try apply W1; try apply W0; lia. }
  rewrite bn_ugt_spec by assumption.
  destruct (Z.ltb_spec (words_num a) (words_num op)) as [L|L].
  { eexists. split; [reflexivity|]. unfold divides_ok. cbn [fst snd]. rewrite E0. repeat split; try apply Ha; try apply W0; lia. }
  rewrite !bn_fit_spec by (assumption || apply Ha || apply Hop).
  destruct (Z.ltb_spec (words_num a) (2 ^ 64)) as [La|La].
  - replace (words_num op <? 2 ^ 64) with true by lia. cbn [andb].
    pose proof (word_range a 0 (proj1 Ha)). pose proof (word_range op 0 (proj1 Hop)).
    pose proof (words_num_nonneg _ (wf_tl _ (proj1 Ha))). pose proof (words_num_nonneg _ (wf_tl _ (proj1 Hop))).
    assert (Ea : words_num a = word a 0) by (rewrite words_num_tl in La |- *; nia).
    assert (Eo : words_num op = word op 0).
    { assert (Lo : words_num op < 2 ^ 64) by lia. rewrite words_num_tl in Lo |- *; nia. }
    replace (word op 0 =? 0) with false by lia. eexists. split; [reflexivity|].
    destruct (bn_of_native_spec n (word a 0 / word op 0) ltac:(lia)) as [Wq Eq].
    destruct (bn_of_native_spec n (word a 0 mod word op 0) ltac:(lia)) as [Wr Er].
    unfold divides_ok. cbn [fst snd]. rewrite Eq, Er, Ea, Eo.
    assert (Dpos : 0 < word op 0) by lia.
    pose proof (Z.mod_pos_bound (word a 0) (word op 0) Dpos).
    pose proof (Z.div_mod (word a 0) (word op 0) ltac:(lia)).
    assert (0 <= word a 0 / word op 0) by (apply Z.div_pos; lia).
    assert (word a 0 / word op 0 <= word a 0) by (apply Z.div_le_upper_bound; nia).
    rewrite !u64_id by lia. split; [exact Wq|]. split; [exact Wr|]. lia.
  - cbn [andb]. eexists. split; [reflexivity|].
    rewrite (bn_highest_scan_spec n a), (bn_highest_scan_spec n op) by (assumption || lia).
    pose proof (Z.log2_le_mono (words_num op) (words_num a) ltac:(lia)).
    assert (Z.log2 (words_num a) < n) by (apply Z.log2_lt_pow2; lia). pose proof (Z.log2_nonneg (words_num op)).
    rewrite u64_id by lia.
    pose proof (bn_div_long n a op ltac:(lia) Ha Hop Hta ltac:(lia)) as D. cbn zeta in D.
    rewrite (bn_highest_scan_spec n a), (bn_highest_scan_spec n op) in D by (assumption || lia). exact D.
Qed.
