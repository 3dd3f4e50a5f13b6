(** Characterisation of every big_num operation by the number it denotes. *)
From Coq Require Import ZArith List Bool Lia Zify ZifyBool.
From Verif Require Import Cpp BigNum Bit Logic Spec ZBits Words.
Import ListNotations.
Open Scope Z_scope.

Lemma wfn_cap n ws : 1 <= n -> wfn n ws -> n <= 64 * wlen ws /\ wlen ws = nwords n /\ 1 <= nwords n.
Proof. intros Hn [W L]. pose proof (nwords_bounds n Hn). lia. Qed.

(** * slicing *)
Lemma testbit_div_mod X k n p : 0 <= k -> 0 <= n -> 0 <= p ->
  Z.testbit ((X / 2 ^ k) mod 2 ^ n) p = (p <? n) && Z.testbit X (p + k).
Proof. intros. rewrite testbit_mod_pow2 by lia. rewrite Z.div_pow2_bits by lia. reflexivity. Qed.

Lemma fold_left_ext {A B} (f g : B -> A -> B) l x : (forall b a, In a l -> f b a = g b a) ->
  fold_left f l x = fold_left g l x.
Proof.
  revert x. induction l as [|h t IH]; intros x H; [reflexivity|]. cbn [fold_left].
  rewrite H by (left; reflexivity). apply IH. intros; apply H; right; assumption.
Qed.

Lemma bn_slice_c_spec n ws a b : 1 <= n -> wfn n ws -> 0 <= a < n -> 0 <= b < n ->
  exists r, bn_slice_c n ws a b = Ok r /\ wfn (Z.abs (a - b) + 1) r /\
    words_num r = (words_num ws / 2 ^ Z.min a b) mod 2 ^ (Z.abs (a - b) + 1).
Proof.
  intros Hn Hws Ha Hb. unfold bn_slice_c, requires. replace (Z.max a b <? n) with true by lia.
  eexists. split; [reflexivity|]. destruct Hws as [W Len].
  rewrite (fold_left_ext _ (fun r i => bn_set (Z.abs (a - b) + 1) r (i + - Z.min a b) (bn_get n ws i)))
    by (intros; f_equal; lia).
  apply copy_loop_num; try lia.
  - apply Z.mod_pos_bound. apply pow2_pos. lia.
  - intros i Hi Hi2. rewrite bn_get_spec by (try assumption; lia).
    rewrite testbit_div_mod by lia. replace (i <? n) with true by lia.
    replace (i + - Z.min a b <? Z.abs (a - b) + 1) with true by lia. cbn [andb]. f_equal; lia.
Qed.

Lemma bn_slice_r_spec n ws ts a b : 1 <= n -> 1 <= ts -> wfn n ws -> 0 <= a < u64max -> 0 <= b < u64max ->
  exists r, bn_slice_r n ws ts a b = Ok r /\ wfn ts r /\
    words_num r = ((words_num ws mod 2 ^ n) / 2 ^ Z.min a b) mod 2 ^ (Z.min ts (Z.abs (a - b) + 1)).
Proof.
  intros Hn Hts Hws Ha Hb. unfold bn_slice_r. replace (Z.max a b =? u64max) with false by lia.
  eexists. split; [reflexivity|]. destruct Hws as [W Len].
  rewrite (fold_left_ext _ (fun r i => bn_set ts r (i + - Z.min a b) (bn_get n ws i)))
    by (intros; f_equal; lia).
  set (m := Z.min ts (Z.abs (a - b) + 1)).
  assert (0 <= ((words_num ws mod 2 ^ n) / 2 ^ Z.min a b) mod 2 ^ m < 2 ^ m)
    by (apply Z.mod_pos_bound; apply pow2_pos; lia).
  pose proof (pow2_mono m ts ltac:(lia)).
  apply copy_loop_num; try lia.
  - intros i Hi Hi2. rewrite bn_get_spec by (try assumption; lia).
    rewrite testbit_div_mod, testbit_mod_pow2 by lia. replace (i + - Z.min a b <? m) with true by lia. cbn [andb].
    replace (i + - Z.min a b + Z.min a b) with i by lia. reflexivity.
  - intros p Hp Ho. rewrite testbit_div_mod by lia. replace (p <? m) with false by lia. reflexivity.
Qed.

(** * extension *)
Lemma words_num_app a b : words_num (a ++ b) = words_num a + 2 ^ (64 * wlen a) * words_num b.
Proof.
  unfold wlen. induction a as [|w r IH]; cbn [app words_num length].
  - change (64 * Z.of_nat 0) with 0. rewrite Z.pow_0_r. lia.
  - rewrite IH. replace (64 * Z.of_nat (S (length r))) with (64 + 64 * Z.of_nat (length r)) by lia.
    rewrite pow2_split by lia. ring.
Qed.
Lemma wf_app a b : wf (a ++ b) <-> wf a /\ wf b.
Proof. unfold wf. rewrite Forall_app. tauto. Qed.
Lemma wlen_app a b : wlen (a ++ b) = wlen a + wlen b.
Proof. unfold wlen. rewrite app_length. lia. Qed.
Lemma wf_repeat w k : 0 <= w < 2 ^ 64 -> wf (repeat w k).
Proof. intros H. unfold wf. apply Forall_forall. intros x Hx. apply repeat_spec in Hx. subst. exact H. Qed.
Lemma wlen_repeat w k : wlen (repeat w k) = Z.of_nat k.
Proof. unfold wlen. rewrite repeat_length. reflexivity. Qed.

Lemma pad_words n m ws : 1 <= n <= m -> wfn n ws ->
  wfn m (ws ++ repeat 0 (Z.to_nat (nwords m - nwords n))) /\
  words_num (ws ++ repeat 0 (Z.to_nat (nwords m - nwords n))) = words_num ws.
Proof.
  intros Hnm [W Len]. pose proof (nwords_mono n m Hnm).
  split; [split|].
  - apply wf_app. split; [exact W | apply wf_repeat; lia].
  - rewrite wlen_app, wlen_repeat. lia.
  - rewrite words_num_app, words_num_repeat0. lia.
Qed.

(** all-ones between two positions *)
Lemma bn_extend_spec n s ws m : 1 <= n <= m -> wfn n ws ->
  exists r, bn_extend n s ws m = Ok r /\ wfn m r /\
    (s = false \/ n = m -> words_num r = words_num ws) /\
    (s = true -> forall p, 0 <= p -> Z.testbit (words_num r) p =
        ((n <=? p) && (p <? m)) || Z.testbit (words_num ws) p).
Proof.
  intros Hnm Hws. unfold bn_extend. destruct (Z.ltb_spec n m) as [L|L].
  - destruct (pad_words n m ws Hnm Hws) as [[W Len] E].
    set (ws' := ws ++ repeat 0 (Z.to_nat (nwords m - nwords n))) in *.
    pose proof (nwords_bounds m ltac:(lia)).
    destruct s.
    + eexists. split; [reflexivity|].
      rewrite (fold_left_ext _ (fun r i => bn_set m r (i + 0) true)) by (intros; f_equal; lia).
      destruct (copy_loop m (fun _ => true) 0 n m ws') as (W' & Len' & B); try lia; try assumption.
      split; [split; [exact W' | lia]|]. split; [intros [F|F]; [discriminate|lia]|].
      intros _ p Hp. rewrite B by exact Hp. rewrite E.
      replace ((n + 0 <=? p) && (p <? m + 0) && (p <? m)) with ((n <=? p) && (p <? m)) by lia.
      destruct ((n <=? p) && (p <? m)); reflexivity.
    + eexists. split; [reflexivity|]. split; [split; assumption|]. split; [auto | discriminate].
  - replace (m =? n) with true by lia. exists ws. split; [reflexivity|].
    replace m with n by lia. split; [exact Hws|]. split; [auto|].
    intros _ p Hp. replace ((n <=? p) && (p <? n)) with false by lia. reflexivity.
Qed.

Lemma bn_concat_spec n ws k num : 1 <= n -> 1 <= k -> wfn n ws -> wfn k num -> words_num num < 2 ^ k ->
  wfn (n + k) (bn_concat n ws k num) /\
  words_num (bn_concat n ws k num) = words_num num + 2 ^ k * (words_num ws mod 2 ^ n).
Proof.
  intros Hn Hk [W1 L1] H2 Hlt. unfold bn_concat.
  destruct (pad_words k (n + k) num ltac:(lia) H2) as [[W Len] E].
  destruct H2 as [W2 L2].
  set (nm := num ++ repeat 0 (Z.to_nat (nwords (n + k) - nwords k))) in *.
  pose proof (nwords_bounds (n + k) ltac:(lia)).
  pose proof (words_num_nonneg num W2).
  rewrite (fold_left_ext _ (fun r i => bn_set (n + k) r (i + 0) (bn_get n ws (i - k)))) by (intros; f_equal; lia).
  destruct (copy_loop (n + k) (fun i => bn_get n ws (i - k)) 0 k (n + k) nm) as (W' & Len' & B); try lia; try assumption.
  split; [split; [exact W' | lia]|].
  apply Z.bits_inj'. intros p Hp. rewrite B by exact Hp. rewrite E.
  assert (T : Z.testbit (words_num num + 2 ^ k * (words_num ws mod 2 ^ n)) p
       = if p <? k then Z.testbit (words_num num) p else Z.testbit (words_num ws mod 2 ^ n) (p - k)).
  { destruct (Z.ltb_spec p k).
    - rewrite <- (Z.mod_pow2_bits_low _ k) by lia. rewrite Z.mul_comm, Z.mod_add by (pose proof (pow2_pos k); lia).
      rewrite Z.mod_small by lia. reflexivity.
    - replace p with (p - k + k) at 1 by lia. rewrite <- Z.div_pow2_bits by lia.
      rewrite Z.mul_comm, Z.div_add by (pose proof (pow2_pos k); lia).
      rewrite (Z.div_small (words_num num)) by lia. reflexivity. }
  rewrite T. rewrite testbit_mod_pow2 by lia.
  destruct (Z.ltb_spec p k).
  - replace (k + 0 <=? p) with false by lia. reflexivity.
  - replace (k + 0 <=? p) with true by lia. cbn [andb].
    replace (p - 0) with p by lia.
    destruct (Z.ltb_spec p (n + k)).
    + replace (p <? n + k + 0) with true by lia. cbn [andb].
      rewrite bn_get_spec by (try assumption; lia). reflexivity.
    + replace (p <? n + k + 0) with false by lia. cbn [andb].
      replace (p - k <? n) with false by lia. cbn [andb]. apply (testbit_small _ k); lia.
Qed.

(** * bitwise *)
Lemma split_last n ws : 1 <= n -> wfn n ws ->
  exists lo top, ws = lo ++ [top] /\ wlen lo = nwords n - 1 /\ wf lo /\ 0 <= top < 2 ^ 64.
Proof.
  intros Hn Hws. destruct (wfn_cap n ws Hn Hws) as (C & Len & S). destruct Hws as [W _].
  destruct (exists_last (l := ws)) as (lo & top & E).
  - intros ->. cbn in Len. lia.
  - exists lo, top. subst ws. apply wf_app in W. destruct W as [W1 W2].
    rewrite wlen_app in Len. cbn in Len. apply wf_cons in W2. repeat split; try tauto. cbn in Len. lia.
Qed.

Lemma word_app_r a b i : wlen a <= i -> word (a ++ b) i = word b (i - wlen a).
Proof. unfold word, wlen. intros. rewrite app_nth2 by lia. f_equal. lia. Qed.
Lemma word_app_l a b i : 0 <= i < wlen a -> word (a ++ b) i = word a i.
Proof. unfold word, wlen. intros. rewrite app_nth1 by lia. reflexivity. Qed.
Lemma lupd_app_r {A} (a b : list A) x y : lupd (a ++ x :: b) (length a) y = a ++ y :: b.
Proof. induction a as [|h t IH]; cbn; [reflexivity | rewrite IH; reflexivity]. Qed.

Lemma bn_mask_off_spec n ws : 1 <= n -> wfn n ws ->
  wfn n (bn_mask_off n ws) /\ words_num (bn_mask_off n ws) = words_num ws mod 2 ^ n.
Proof.
  intros Hn Hws. destruct (split_last n ws Hn Hws) as (lo & top & -> & Ll & Wl & Ht).
  pose proof (nwords_bounds n Hn).
  unfold bn_mask_off. rewrite word_app_r by lia. replace (nwords n - 1 - wlen lo) with 0 by lia.
  rewrite word_0. unfold word_set. replace (Z.to_nat (nwords n - 1)) with (length lo) by (unfold wlen in Ll; lia).
  rewrite lupd_app_r. unfold u64max. rewrite shiftr_ones by lia. rewrite land_ones_mod by lia.
  set (k := 64 - (nwords n * 64 - n)).
  assert (0 <= top mod 2 ^ k < 2 ^ k) by (apply Z.mod_pos_bound; apply pow2_pos; lia).
  pose proof (pow2_mono k 64 ltac:(lia)).
  split.
  - split.
    + apply wf_app. split; [exact Wl|]. apply wf_cons. split; [lia | constructor].
    + rewrite wlen_app. change (wlen [top mod 2 ^ k]) with 1. lia.
  - rewrite !words_num_app. cbn [words_num]. rewrite !Z.mul_0_r, !Z.add_0_r.
    replace n with (64 * wlen lo + k) by lia. rewrite pow2_split by lia.
    pose proof (words_num_nonneg lo Wl). pose proof (words_num_bound lo Wl).
    set (P := 2 ^ (64 * wlen lo)) in *. assert (0 < P) by (apply pow2_pos; lia).
    assert (0 < 2 ^ k) by (apply pow2_pos; lia).
    rewrite Z.rem_mul_r by lia.
    rewrite (Z.mul_comm P top), Z.mod_add, Z.div_add, (Z.mod_small (words_num lo)), (Z.div_small (words_num lo)), Z.add_0_l by lia.
    reflexivity.
Qed.

Lemma bn_set_noop n ws i v : n <= i -> bn_set n ws i v = ws.
Proof. intros. unfold bn_set. replace (i <? n) with false by lia. reflexivity. Qed.

Lemma fold_left_id {A B} (f : B -> A -> B) l x : (forall a, In a l -> f x a = x) -> fold_left f l x = x.
Proof.
  induction l as [|h t IH]; intros H; [reflexivity|]. cbn [fold_left]. rewrite H by (left; reflexivity).
  apply IH. intros; apply H; right; assumption.
Qed.

Lemma u64_lnot w : 0 <= w < 2 ^ 64 -> u64 (Z.lnot w) = 2 ^ 64 - 1 - w.
Proof.
  intros. unfold u64, Z.lnot. symmetry. apply Z.mod_unique with (q := -1); lia.
Qed.

Lemma bn_not_spec n ws : wf ws ->
  wf (bn_not n ws) /\ wlen (bn_not n ws) = wlen ws /\
  words_num (bn_not n ws) = 2 ^ (64 * wlen ws) - 1 - words_num ws.
Proof.
  intros W. unfold bn_not. rewrite fold_left_id.
  2:{ intros a Ha. apply in_zrange in Ha. apply bn_set_noop. lia. }
  unfold wlen. induction ws as [|w r IH]; cbn [map words_num length].
  - split; [constructor|]. split; [reflexivity|]. reflexivity.
  - apply wf_cons in W. destruct W as [Hw Hr]. destruct (IH Hr) as (W & L & E).
    rewrite u64_lnot by exact Hw. split; [apply wf_cons; split; [lia | exact W]|].
    split; [lia|]. rewrite E.
    replace (64 * Z.of_nat (S (length r))) with (64 + 64 * Z.of_nat (length r)) by lia.
    rewrite pow2_split by lia. ring.
Qed.

Lemma map2_wf f a b : (forall x y, 0 <= x < 2 ^ 64 -> 0 <= y < 2 ^ 64 -> 0 <= f x y < 2 ^ 64) ->
  wf a -> wf b -> wf (map2 f a b).
Proof.
  intros Hf. revert b. induction a as [|x a IH]; intros [|y b] Ha Hb; cbn [map2]; try constructor.
  - apply wf_cons in Ha, Hb. apply Hf; tauto.
  - apply wf_cons in Ha, Hb. apply IH; tauto.
Qed.
Lemma map2_len f a b : wlen a = wlen b -> wlen (map2 f a b) = wlen a.
Proof.
  unfold wlen. revert b. induction a as [|x a IH]; intros [|y b] H; cbn in *; try lia.
  specialize (IH b). lia.
Qed.
Lemma map2_word f a b i : f 0 0 = 0 -> wlen a = wlen b -> word (map2 f a b) i = f (word a i) (word b i).
Proof.
  unfold wlen, word. intros Hf. generalize (Z.to_nat i). revert b.
  induction a as [|x a IH]; intros [|y b] k H; cbn in *; try lia.
  - destruct k; auto.
  - destruct k as [|k]; cbn [nth]; [reflexivity|]. apply IH. lia.
Qed.
Lemma map2_bits f g a b p :
  (forall x y q, 0 <= q -> Z.testbit (f x y) q = g (Z.testbit x q) (Z.testbit y q)) -> f 0 0 = 0 ->
  (forall x y, 0 <= x < 2 ^ 64 -> 0 <= y < 2 ^ 64 -> 0 <= f x y < 2 ^ 64) ->
  wf a -> wf b -> wlen a = wlen b -> 0 <= p ->
  Z.testbit (words_num (map2 f a b)) p = g (Z.testbit (words_num a) p) (Z.testbit (words_num b) p).
Proof.
  intros Hg Hf0 Hf Ha Hb Hl Hp.
  rewrite !words_num_testbit by (try assumption; apply map2_wf; assumption).
  rewrite map2_word by assumption. apply Hg. zlia.
Qed.

Lemma bn_and_raw a b : wf a -> wf b -> wlen a = wlen b ->
  wf (map2 Z.land a b) /\ words_num (map2 Z.land a b) = Z.land (words_num a) (words_num b).
Proof.
  intros. assert (Hr : forall x y, 0 <= x < 2 ^ 64 -> 0 <= y < 2 ^ 64 -> 0 <= Z.land x y < 2 ^ 64)
    by (intros; apply land_range; lia).
  split; [apply map2_wf; assumption|]. apply Z.bits_inj'. intros p Hp. rewrite Z.land_spec.
  apply map2_bits; try assumption; try reflexivity. intros. apply Z.land_spec.
Qed.
Lemma bn_and_spec n a b : 1 <= n -> wfn n a -> wfn n b ->
  wfn n (bn_and n a b) /\ words_num (bn_and n a b) = Z.land (words_num a) (words_num b) mod 2 ^ n.
Proof.
  intros Hn [Wa La] [Wb Lb]. destruct (bn_and_raw a b Wa Wb ltac:(lia)) as [W E].
  unfold bn_and. rewrite <- E. apply bn_mask_off_spec; [exact Hn|]. split; [exact W|].
  rewrite map2_len; lia.
Qed.
Lemma bn_or_spec n a b : wfn n a -> wfn n b ->
  wfn n (bn_or a b) /\ words_num (bn_or a b) = Z.lor (words_num a) (words_num b).
Proof.
  intros [Wa La] [Wb Lb]. assert (Hr : forall x y, 0 <= x < 2 ^ 64 -> 0 <= y < 2 ^ 64 -> 0 <= Z.lor x y < 2 ^ 64)
    by (intros; apply lor_range; lia).
  unfold bn_or. split; [split; [apply map2_wf; assumption | rewrite map2_len; lia]|].
  apply Z.bits_inj'. intros p Hp. rewrite Z.lor_spec.
  apply map2_bits; try assumption; try reflexivity; try lia. intros. apply Z.lor_spec.
Qed.
Lemma bn_xor_spec n a b : wfn n a -> wfn n b ->
  wfn n (bn_xor a b) /\ words_num (bn_xor a b) = Z.lxor (words_num a) (words_num b).
Proof.
  intros [Wa La] [Wb Lb]. assert (Hr : forall x y, 0 <= x < 2 ^ 64 -> 0 <= y < 2 ^ 64 -> 0 <= Z.lxor x y < 2 ^ 64)
    by (intros; apply lxor_range; lia).
  unfold bn_xor. split; [split; [apply map2_wf; assumption | rewrite map2_len; lia]|].
  apply Z.bits_inj'. intros p Hp. rewrite Z.lxor_spec.
  apply map2_bits; try assumption; try reflexivity; try lia. intros. apply Z.lxor_spec.
Qed.

(** parity of the low [k] bits *)
Fixpoint parity (k : nat) (z : Z) : bool :=
  match k with O => false | S j => xorb (parity j z) (Z.testbit z (Z.of_nat j)) end.
Lemma bn_r_xor_spec n ws : 1 <= n -> wf ws -> bn_r_xor n ws = parity (Z.to_nat n) (words_num ws).
Proof.
  intros Hn W. unfold bn_r_xor.
  apply (zrange_fold_ind (fun b i => xorb b (bn_get n ws i))
    (fun k b => 1 <= k -> b = parity (Z.to_nat k) (words_num ws)) 1 n); try lia.
  - intros _. rewrite bn_get_spec by (try assumption; lia). replace (0 <? n) with true by lia.
    change (Z.to_nat 1) with 1%nat. cbn [parity andb]. change (Z.of_nat 0) with 0. destruct (Z.testbit (words_num ws) 0); reflexivity.
  - intros i b Hi IH _. rewrite (IH ltac:(lia)).
    replace (Z.to_nat (i + 1)) with (S (Z.to_nat i)) by lia. cbn [parity].
    rewrite bn_get_spec by (try assumption; lia). replace (i <? n) with true by lia. cbn [andb].
    do 2 f_equal. lia.
Qed.

(** * shifts *)
Lemma bn_shr_spec n ws k : 1 <= n -> 0 <= k -> wfn n ws ->
  wfn n (bn_shr n ws k) /\ words_num (bn_shr n ws k) = (words_num ws mod 2 ^ n) / 2 ^ k.
Proof.
  intros Hn Hk [W Len].
  assert (B : 0 <= words_num ws mod 2 ^ n < 2 ^ n) by (apply Z.mod_pos_bound; apply pow2_pos; lia).
  assert (0 < 2 ^ k) by (apply pow2_pos; lia).
  unfold bn_shr. destruct (Z.ltb_spec n k) as [L|L].
  - split; [apply bn_zero_wfn; exact Hn|]. rewrite bn_zero_num.
    symmetry. apply Z.div_small. pose proof (pow2_mono n k ltac:(lia)). lia.
  - rewrite (fold_left_ext _ (fun r i => bn_set n r (i + - k) (bn_get n ws i))) by (intros; f_equal; lia).
    apply copy_loop_num; try lia.
    + split; [apply Z.div_pos; lia|]. apply Z.div_lt_upper_bound; nia.
    + intros i Hi Hi2. rewrite bn_get_spec by (try assumption; lia).
      rewrite Z.div_pow2_bits, testbit_mod_pow2 by lia. replace (i + - k + k) with i by lia. reflexivity.
    + intros p Hp Ho. rewrite Z.div_pow2_bits, testbit_mod_pow2 by lia. replace (p + k <? n) with false by lia. reflexivity.
Qed.

Lemma bn_shl_spec n ws k : 1 <= n -> 0 <= k -> wfn n ws ->
  wfn n (bn_shl n ws k) /\ words_num (bn_shl n ws k) = (words_num ws * 2 ^ k) mod 2 ^ n.
Proof.
  intros Hn Hk [W Len].
  assert (0 < 2 ^ k) by (apply pow2_pos; lia).
  assert (0 < 2 ^ n) by (apply pow2_pos; lia).
  unfold bn_shl. destruct (Z.ltb_spec n k) as [L|L].
  - split; [apply bn_zero_wfn; exact Hn|]. rewrite bn_zero_num.
    replace k with (n + (k - n)) by lia. rewrite pow2_split by lia.
    replace (words_num ws * (2 ^ n * 2 ^ (k - n))) with (words_num ws * 2 ^ (k - n) * 2 ^ n) by ring.
    rewrite Z_mod_mult. reflexivity.
  - apply copy_loop_num; try lia.
    + apply Z.mod_pos_bound; lia.
    + intros i Hi Hi2. rewrite bn_get_spec by (try assumption; lia).
      rewrite testbit_mod_pow2, Z.mul_pow2_bits by lia.
      replace (i <? n) with true by lia. replace (i + k <? n) with true by lia. cbn [andb]. f_equal; lia.
    + intros p Hp Ho. rewrite testbit_mod_pow2, Z.mul_pow2_bits by lia.
      rewrite Z.testbit_neg_r by lia. apply andb_false_r.
Qed.

Lemma bn_amount_high_spec ks : wf ks -> bn_amount_high ks = true <-> 2 ^ 64 <= words_num ks.
Proof.
  intros W. unfold bn_amount_high. destruct ks as [|k r].
  - cbn. split; [discriminate|lia].
  - apply wf_cons in W. destruct W as [Hk Hr]. cbn [tl words_num].
    assert (Z0 : existsb (fun w => negb (w =? 0)) r = true <-> words_num r <> 0).
    { clear -Hr. induction r as [|w r IH]; cbn [existsb words_num]; [split; [discriminate|lia]|].
      apply wf_cons in Hr. destruct Hr as [Hw Hr]. rewrite orb_true_iff, (IH Hr).
      pose proof (words_num_nonneg r Hr). pose proof (pow2_pos 64).
      destruct (Z.eqb_spec w 0); cbn [negb]; nia. }
    rewrite Z0. pose proof (words_num_nonneg r Hr). nia.
Qed.

Lemma bn_amount_low ks : wf ks -> bn_amount_high ks = false -> words_num ks = word ks 0.
Proof.
  intros W H. assert (L : ~ 2 ^ 64 <= words_num ks) by (rewrite <- bn_amount_high_spec by exact W; congruence).
  destruct ks as [|k r]; [reflexivity|]. cbn [words_num] in *. rewrite word_0.
  apply wf_cons in W. destruct W as [Hk Hr]. pose proof (words_num_nonneg r Hr). nia.
Qed.

Lemma bn_shr_big_spec n ws ks : 1 <= n < 2 ^ 64 -> wf ks -> wfn n ws ->
  wfn n (bn_shr_big n ws ks) /\ words_num (bn_shr_big n ws ks) = (words_num ws mod 2 ^ n) / 2 ^ words_num ks.
Proof.
  intros Hn Wk Hws. unfold bn_shr_big.
  destruct (bn_amount_high ks) eqn:E.
  - apply (bn_amount_high_spec ks Wk) in E. split; [apply bn_zero_wfn; lia|]. rewrite bn_zero_num.
    symmetry. apply Z.div_small. pose proof (Z.mod_pos_bound (words_num ws) (2 ^ n) ltac:(apply pow2_pos; lia)).
    pose proof (pow2_mono n (words_num ks) ltac:(lia)). lia.
  - rewrite (bn_amount_low ks Wk E). pose proof (word_range ks 0 Wk). apply bn_shr_spec; (assumption || lia).
Qed.
Lemma bn_shl_big_spec n ws ks : 1 <= n < 2 ^ 64 -> wf ks -> wfn n ws ->
  wfn n (bn_shl_big n ws ks) /\ words_num (bn_shl_big n ws ks) = (words_num ws * 2 ^ words_num ks) mod 2 ^ n.
Proof.
  intros Hn Wk Hws. unfold bn_shl_big.
  destruct (bn_amount_high ks) eqn:E.
  - apply (bn_amount_high_spec ks Wk) in E. split; [apply bn_zero_wfn; lia|]. rewrite bn_zero_num.
    replace (words_num ks) with ((words_num ks - n) + n) by lia. rewrite pow2_split by lia.
    rewrite Z.mul_assoc, Z_mod_mult. reflexivity.
  - rewrite (bn_amount_low ks Wk E). pose proof (word_range ks 0 Wk). apply bn_shl_spec; (assumption || lia).
Qed.

Lemma bn_mask_spec n : 1 <= n -> wfn n (bn_mask n) /\ words_num (bn_mask n) = 2 ^ n - 1.
Proof.
  intros Hn. pose proof (nwords_bounds n Hn). unfold bn_mask.
  replace (Z.shiftr u64max (nwords n * 64 - n)) with (2 ^ (64 - (nwords n * 64 - n)) - 1)
    by (symmetry; apply (shiftr_ones 64); lia).
  assert (R : forall k, words_num (repeat u64max k) = 2 ^ (64 * Z.of_nat k) - 1).
  { induction k as [|k IH]; [reflexivity|]. cbn [repeat words_num]. rewrite IH. unfold u64max.
    replace (64 * Z.of_nat (S k)) with (64 + 64 * Z.of_nat k) by lia. rewrite pow2_split by lia. ring. }
  set (j := 64 - (nwords n * 64 - n)).
  assert (0 < 2 ^ j) by (apply pow2_pos; lia). pose proof (pow2_mono j 64 ltac:(lia)).
  split; [split|].
  - apply wf_app. split; [apply wf_repeat; unfold u64max; lia|]. apply wf_cons. split; [lia|constructor].
  - rewrite wlen_app, wlen_repeat. change (wlen [2 ^ j - 1]) with 1. lia.
  - rewrite words_num_app, R, wlen_repeat. cbn [words_num]. rewrite Z2Nat.id by lia.
    assert (E : 2 ^ n = 2 ^ (64 * (nwords n - 1)) * 2 ^ j) by (rewrite <- pow2_split by lia; f_equal; lia).
    rewrite E. ring.
Qed.

(** constant fill loop from the top *)
Lemma fill_loop n v k r0 : wf r0 -> n <= 64 * wlen r0 -> 0 <= k <= n ->
  let r := fold_left (fun r i => bn_set n r (n - i - 1) v) (zrange 0 k) r0 in
  wf r /\ wlen r = wlen r0 /\
  forall p, 0 <= p -> Z.testbit (words_num r) p = if (n - k <=? p) && (p <? n) then v else Z.testbit (words_num r0) p.
Proof.
  intros W C Hk. cbn zeta.
  apply (zrange_fold_ind (fun r i => bn_set n r (n - i - 1) v)
    (fun j r => wf r /\ wlen r = wlen r0 /\ forall p, 0 <= p -> Z.testbit (words_num r) p =
      if (n - j <=? p) && (p <? n) then v else Z.testbit (words_num r0) p)); [lia| |].
  - split; [exact W|]. split; [reflexivity|]. intros p Hp. replace ((n - 0 <=? p) && (p <? n)) with false by lia. reflexivity.
  - intros i r Hi (W' & L' & B). split; [apply bn_set_wf; exact W'|]. split; [rewrite bn_set_len; exact L'|].
    intros p Hp. rewrite bn_set_spec by (try assumption; lia). rewrite B by exact Hp.
    destruct (Z.eqb_spec p (n - i - 1)) as [->|N].
    + replace (n - i - 1 <? n) with true by lia. replace (n - (i + 1) <=? n - i - 1) with true by lia. reflexivity.
    + cbn [andb]. replace (n - (i + 1) <=? p) with (n - i <=? p) by lia. reflexivity.
Qed.

(** what [ashr] of a signed multi-word number really computes: the position [n-1-k] is always cleared *)
Lemma bn_ashr_signed n ws k : 1 <= n -> 0 <= k -> wfn n ws ->
  wfn n (bn_ashr n true ws k) /\
  forall p, 0 <= p -> Z.testbit (words_num (bn_ashr n true ws k)) p =
    (p <? n) && (if p <? n - 1 - k then Z.testbit (words_num ws) (p + k)
                 else negb ((p =? n - 1 - k) && (k <? n)) && Z.testbit (words_num ws) (n - 1)).
Proof.
  intros Hn Hk Hws. destruct (wfn_cap n ws Hn Hws) as (C & Len & S1). destruct Hws as [W _].
  assert (Neg : bn_negative n ws = Z.testbit (words_num ws) (n - 1)).
  { unfold bn_negative. rewrite bn_get_spec by (try assumption; lia). replace (n - 1 <? n) with true by lia. reflexivity. }
  unfold bn_ashr. rewrite Neg. destruct (Z.ltb_spec (n - 1) k) as [L|L].
  - destruct (Z.testbit (words_num ws) (n - 1)).
    + destruct (bn_mask_spec n Hn) as [M E]. split; [exact M|]. intros p Hp. rewrite E, testbit_ones by lia.
      replace (0 <=? p) with true by lia. replace (p <? n - 1 - k) with false by lia.
      replace (k <? n) with false by lia. rewrite andb_false_r. cbn. rewrite andb_true_r. reflexivity.
    + split; [apply bn_zero_wfn; exact Hn|]. intros p Hp. rewrite bn_zero_num, Z.bits_0, andb_false_r.
      replace (p <? n - 1 - k) with false by lia. rewrite andb_false_r. reflexivity.
  - pose proof (bn_zero_wfn n Hn) as [Wz Lz].
    destruct (fill_loop n (Z.testbit (words_num ws) (n - 1)) k (bn_zero n)) as (W1 & L1 & B1); try assumption; try lia.
    set (r1 := fold_left _ (zrange 0 k) (bn_zero n)) in *.
    rewrite (fold_left_ext _ (fun r i => bn_set n r (i + - k) (bn_get n ws i))) by (intros; f_equal; lia).
    destruct (copy_loop n (fun i => bn_get n ws i) (- k) k (n - 1) r1) as (W2 & L2 & B2); try assumption; try lia.
    split; [split; [exact W2 | lia]|].
    intros p Hp. rewrite B2, B1 by exact Hp. rewrite bn_zero_num, Z.bits_0.
    rewrite bn_get_spec by (try assumption; lia).
    replace (k + - k <=? p) with true by lia. cbn [andb].
    destruct (Z.ltb_spec p n).
    + replace (p <? n - 1 + - k) with (p <? n - 1 - k) by lia. cbn [andb]. rewrite andb_true_r.
      destruct (Z.ltb_spec p (n - 1 - k)).
      * replace (p - - k <? n) with true by lia. cbn [andb]. f_equal; lia.
      * replace (k <? n) with true by lia. rewrite !andb_true_r.
        destruct (Z.eqb_spec p (n - 1 - k)) as [->|N].
        -- replace (n - k <=? n - 1 - k) with false by lia. reflexivity.
        -- replace (n - k <=? p) with true by lia. reflexivity.
    + rewrite !andb_false_r. reflexivity.
Qed.
