(** Proofs about [big_num] objects, third part: division, queries, conversions, construction. *)
From Coq Require Import ZArith List Bool Lia Zify ZifyBool.
From Verif Require Import Cpp BigNum Util Spec ZBits Words BigNumProofs BigArith BitCmp BitShift BigObj SpecBig SpecText TextProofs BigObjProofs BigObjProofs2.
Import ListNotations.

Open Scope Z_scope.
Ltac Zify.zify_post_hook ::= idtac.

(** * One-word arrays *)
Lemma one_word_inv n ws : 1 <= n <= 64 -> wfn n ws -> exists w, ws = [w] /\ 0 <= w < 2 ^ 64.
Proof.
  intros Hn [W L]. pose proof (nwords_bounds n ltac:(lia)) as B. assert (NW : nwords n = 1) by lia. rewrite NW in L. unfold wlen in L.
  destruct ws as [|w [|]]; cbn [length] in L; try lia. exists w. split; [reflexivity|]. now inversion W.
Qed.
Lemma bn_div_mod_small n a op : 1 <= n <= 64 -> wfn n a -> wfn n op -> words_num op <> 0 -> halves_ok op ->
  exists qr, bn_div_mod n false a false op = Ok qr /\ divides_ok n a op qr.
Proof.
  intros Hn Ha Hop Nz H1. destruct (one_word_inv n a Hn Ha) as (x & -> & Hx). destruct (one_word_inv n op Hn Hop) as (y & -> & Hy).
  pose proof (bn_of_native_spec n 0 ltac:(lia)) as [W0 E0]. pose proof (bn_of_native_spec n 1 ltac:(lia)) as [W1 E1]. change (u64 0) with 0 in E0. change (u64 1) with 1 in E1.
  unfold bn_div_mod. rewrite bn_any_set_spec by (auto; apply Hop). cbn [words_num] in Nz |- *. replace (y + 2 ^ 64 * 0 =? 0) with false by lia. cbn [negb].
  unfold bn_div_mod_unsigned, bn_is_one. cbn [length]. change (Z.of_nat 1 =? 1) with true. cbv iota. change (word [y] 0) with y. change (word [x] 0) with x.
  unfold divides_ok. cbn [words_num]. destruct (Z.eqb_spec y 1) as [->|N1].
  { eexists. split; [reflexivity|]. cbn [fst snd words_num]. rewrite E0. split; [exact Ha|]. split; [exact W0|]. lia. }
  cbn [words_eqb]. destruct (Z.eqb_spec x y) as [->|N2].
  { eexists. split; [reflexivity|]. cbn [fst snd]. rewrite E0, E1. split; [exact W1|]. split; [exact W0|]. lia. }
  rewrite bn_ugt_spec by assumption. cbn [words_num]. destruct (Z.ltb_spec (x + 2 ^ 64 * 0) (y + 2 ^ 64 * 0)) as [L|L].
  { eexists. split; [reflexivity|]. cbn [fst snd words_num]. rewrite E0. split; [exact W0|]. split; [exact Ha|]. lia. }
  unfold bn_fit_in_64. cbn [tl]. change (reduce_or [] =? 0) with true. cbn [andb]. replace (y =? 0) with false by lia.
  eexists. split; [reflexivity|]. cbn [fst snd].
  destruct (bn_of_native_spec n (x / y) ltac:(lia)) as [Wq Eq]. destruct (bn_of_native_spec n (x mod y) ltac:(lia)) as [Wr Er].
  rewrite Eq, Er. pose proof (Z.mod_pos_bound x y ltac:(lia)). pose proof (Z.div_mod x y ltac:(lia)). assert (0 <= x / y) by (apply Z.div_pos; lia).
  assert (x / y <= x) by (apply Z.div_le_upper_bound; nia). rewrite !u64_id by lia. split; [exact Wq|]. split; [exact Wr|]. lia.
Qed.

Lemma div_num x y n m t : is_num x n false -> is_num y m t -> inwidth x -> inwidth y -> (m = Z.max n m \/ t = false) ->
  magn y <> 0 -> visible (magn y) -> visible (magn y / 2 ^ 64) -> visible (magn x / 2 ^ 64) ->
  exists q r, num_div x y = Ok q /\ num_rem x y = Ok r /\ is_num q (Z.max n m) false /\ is_num r (Z.max n m) false /\
    inwidth q /\ inwidth r /\ magn q = magn x / magn y /\ magn r = magn x mod magn y.
Proof.
  intros H K Cx Cy Wd Nz V1 V2 V3. pose proof (magn_range _ _ _ H) as Rx. pose proof (magn_range _ _ _ K) as Ry. pose proof H as (B1 & _). pose proof K as (B2 & _).
  pose proof (max_b n m B1 B2) as (MB & _). unnum H. unnum K. pose proof (pow2_mono n (Z.max n m) ltac:(lia)) as Pn. pose proof (pow2_mono m (Z.max n m) ltac:(lia)) as Pm'.
  destruct (widen2_num x y n false m t H K) as (l & r & El & Wl & Wr & Ql & Qr & Cl & Cr).
  { right. split; [exact Cx|exact G]. } { cbn [andb]. destruct Wd as [Wd|Wd]; [left; rewrite E0; exact Wd|right; split; [exact Cy|rewrite G0; exact Wd]]. }
  cbn [andb oper] in *. specialize (Cl Cx). specialize (Cr Cy). pose proof (words_num_nonneg l (proj1 Wl)). pose proof (words_num_nonneg r (proj1 Wr)).
  rewrite Z.mod_small in Ql by (split; assumption). rewrite (Z.mod_small (words_num r)) in Qr by (split; assumption). unfold oper in Ql, Qr. rewrite Z.mod_small in Ql by lia. rewrite Z.mod_small in Qr by lia.
  assert (D : exists qr, bn_div_mod (Z.max n m) false l false r = Ok qr /\ divides_ok (Z.max n m) l r qr).
  { assert (Hr : halves_ok r) by (apply halves_visible; [apply Wr|rewrite Qr; exact V1]). destruct (Z.le_gt_cases (Z.max n m) 64).
    - apply bn_div_mod_small; auto; [lia|congruence].
    - apply bn_div_mod_spec; auto; [lia|congruence|apply halves_tl; [apply Wr|rewrite Qr; exact V2]|apply halves_tl; [apply Wl|rewrite Ql; exact V3]]. }
  destruct D as ([q z] & Eq & Wq & Wz & Eu & Rz). cbn [fst snd] in *. rewrite Ql, Qr in Eu; rewrite Qr in Rz. pose proof (words_num_nonneg q (proj1 Wq)).
  assert (Hq : words_num q = magn x / magn y) by (apply Z.div_unique with (words_num z); lia).
  assert (Hz : words_num z = magn x mod magn y) by (apply Z.mod_unique with (words_num q); lia).
  assert (words_num q < 2 ^ Z.max n m) by (rewrite Hq; apply Z.le_lt_trans with (magn x); [apply Z.div_le_upper_bound; nia|lia]).
  assert (words_num z < 2 ^ Z.max n m) by lia.
  assert (Jq : is_num (mkNum (Z.max n m) false q) (Z.max n m) false) by (apply is_num_mk; assumption).
  assert (Jz : is_num (mkNum (Z.max n m) false z) (Z.max n m) false) by (apply is_num_mk; assumption).
  exists (mkNum (Z.max n m) false q), (mkNum (Z.max n m) false z). unfold num_div, num_rem, num_binop. rewrite El. cbn [bind]. rewrite E, E0, G, G0. unfold bn_div_mod in Eq |- *. rewrite Eq. cbn [omap bind fst snd].
  split; [reflexivity|]. split; [reflexivity|]. split; [exact Jq|]. split; [exact Jz|]. split; [assumption|]. split; [assumption|].
  rewrite (clean_magn _ _ _ Jq), (clean_magn _ _ _ Jz) by assumption. auto.
Qed.
(** a divisor whose low halves are zero is taken for zero *)
Lemma div_unseen x y n m t : is_num x n false -> is_num y m t -> inwidth x -> inwidth y -> (m = Z.max n m \/ t = false) ->
  low_halves_zero (magn y) ->
  exists q r, num_div x y = Ok q /\ num_rem x y = Ok r /\ is_num q (Z.max n m) false /\ is_num r (Z.max n m) false /\ magn q = 0 /\ magn r = 0.
Proof.
  intros H K Cx Cy Wd Z0. pose proof (magn_range _ _ _ H) as Rx. pose proof (magn_range _ _ _ K) as Ry. pose proof H as (B1 & _). pose proof K as (B2 & _).
  pose proof (max_b n m B1 B2) as (MB & _). unnum H. unnum K. pose proof (pow2_mono m (Z.max n m) ltac:(lia)) as Pm'.
  destruct (widen2_num x y n false m t H K) as (l & r & El & Wl & Wr & Ql & Qr & Cl & Cr).
  { right. split; [exact Cx|exact G]. } { cbn [andb]. destruct Wd as [Wd|Wd]; [left; rewrite E0; exact Wd|right; split; [exact Cy|rewrite G0; exact Wd]]. }
  cbn [andb oper] in *. specialize (Cr Cy). pose proof (words_num_nonneg r (proj1 Wr)).
  rewrite (Z.mod_small (words_num r)) in Qr by (split; assumption). unfold oper in Qr. rewrite Z.mod_small in Qr by lia.
  assert (A : bn_any_set r = false). { destruct (bn_any_set r) eqn:A; [|reflexivity]. apply bn_any_exact in A; [|apply Wr]. rewrite Qr in A. contradiction. }
  pose proof (bn_zero_wfn (Z.max n m) ltac:(lia)) as Wz.
  assert (Jz : is_num (mkNum (Z.max n m) false (bn_zero (Z.max n m))) (Z.max n m) false) by (apply is_num_mk; assumption).
  assert (M0 : magn (mkNum (Z.max n m) false (bn_zero (Z.max n m))) = 0) by (unfold magn, raw; cbn [n_ws n_size]; rewrite bn_zero_num; apply Z.mod_0_l, Z.pow_nonzero; lia).
  exists (mkNum (Z.max n m) false (bn_zero (Z.max n m))), (mkNum (Z.max n m) false (bn_zero (Z.max n m))).
  unfold num_div, num_rem, num_binop, bn_div_mod. rewrite El. cbn [bind]. rewrite E, E0, G, G0, A. cbn [negb omap bind fst snd]. auto 10.
Qed.
Lemma div_signed_bad x y n m t : is_num x n true -> is_num y m t -> num_div x y = IllFormed /\ num_rem x y = IllFormed.
Proof.
  intros H K. unnum H. unnum K.
  destruct (bn_extend_spec n true (n_ws x) (Z.max n m) ltac:(lia) W) as (l & El & Wl & _).
  destruct (bn_extend_spec m t (n_ws y) (Z.max n m) ltac:(lia) W0) as (r & Er & Wr & _).
  unfold num_div, num_rem, num_binop, bn_widen2. rewrite E, E0, G, G0, El, Er. cbn [bind]. auto.
Qed.

(** * Queries *)
Lemma any_num x n s : is_num x n s -> inwidth x -> (num_any_set x = true <-> ~ low_halves_zero (magn x)) /\
  (visible (magn x) -> num_any_set x = negb (magn x =? 0) /\ num_bool x = negb (magn x =? 0)).
Proof.
  intros H C. rewrite (clean_magn _ _ _ H C). unnum H. pose proof (bn_any_exact (n_ws x) (proj1 W)) as A. split; [exact A|].
  intros V. assert (num_any_set x = negb (raw x =? 0)); [|auto]. unfold num_any_set. apply bn_any_set_spec; [apply W|]. apply halves_visible; [apply W|exact V].
Qed.
Lemma reduce_and_zero ws : reduce_and ws = 0.
Proof. unfold reduce_and. induction ws as [|w ws IH]; cbn [fold_left]; [reflexivity|]. change (u64 0) with 0. rewrite Z.land_0_l. exact IH. Qed.
Lemma all_num x n s : is_num x n s -> inwidth x -> n <= 64 -> num_all_set x = (magn x =? 2 ^ n - 1).
Proof.
  intros H C Hn. rewrite (clean_magn _ _ _ H C). unnum H. destruct (one_word_inv n (n_ws x) ltac:(lia) W) as (w & Ew & Hw).
  unfold num_all_set, bn_all_set, raw. rewrite E, Ew. pose proof (nwords_bounds n ltac:(lia)). replace (nwords n) with 1 by lia. cbn [words_num].
  change (1 =? 1) with true. cbv zeta. change (word [w] 0) with w. change u64max with (2 ^ 64 - 1). rewrite shiftr_ones by lia. replace (64 - (1 * 64 - n)) with n by lia. f_equal. lia.
Qed.
Lemma all_multi x n s : is_num x n s -> 65 <= n -> num_all_set x = false.
Proof.
  intros H Hn. unnum H. unfold num_all_set, bn_all_set. rewrite E. pose proof (nwords_bounds n ltac:(lia)). replace (nwords n =? 1) with false by lia.
  rewrite reduce_and_zero. reflexivity.
Qed.
Lemma one_num x n s : is_num x n s -> inwidth x -> visible (magn x / 2 ^ 64) ->
  num_is_one x = (magn x =? 1) /\ num_fit_in_64 x = (magn x <? 2 ^ 64).
Proof.
  intros H C V. rewrite (clean_magn _ _ _ H C) in *. unnum H.
  assert (Hv : halves_ok (tl (n_ws x))) by (apply halves_tl; [apply W|exact V]). split; [|apply bn_fit_spec; [apply W|exact Hv]].
  destruct (Z.le_gt_cases n 64).
  - destruct (one_word_inv n (n_ws x) ltac:(lia) W) as (w & Ew & Hw). unfold num_is_one, bn_is_one, raw. rewrite Ew. cbn [length words_num].
    change (Z.of_nat 1 =? 1) with true. change (word [w] 0) with w. cbv iota. f_equal. lia.
  - apply (bn_is_one_spec n); auto. lia.
Qed.
Lemma high_num x n s : is_num x n s -> inwidth x -> magn x <> 0 -> num_highest_bit x = Z.log2 (magn x).
Proof.
  intros H C Nz. rewrite (clean_magn _ _ _ H C) in *. unnum H. unfold num_highest_bit. rewrite E. apply bn_highest_scan_spec; auto. lia.
Qed.
Lemma r_xor_num x n s : is_num x n s -> num_r_xor x = Z.odd (ones n (magn x)).
Proof.
  intros H. unnum H. unfold num_r_xor. rewrite E, bn_r_xor_spec by (try apply W; lia). rewrite parity_ones by lia. f_equal.
  apply ones_ext. intros p Hp. symmetry. apply (pos_in x n s); auto.
Qed.
Lemma negative_num x n : is_num x n true -> inwidth x -> num_negative x = Ok (ival x <? 0).
Proof.
  intros H C. pose proof (magn_range _ _ _ H) as R. unnum H. unfold num_negative, requires. rewrite G. f_equal. rewrite E, (bn_negative_spec n) by (auto; lia).
  unfold ival. rewrite G, E, twos_sign by lia. rewrite (clean_magn _ _ _ H C). reflexivity.
Qed.
Lemma negative_bad x n : is_num x n false -> num_negative x = IllFormed.
Proof. intros H. unnum H. unfold num_negative, requires. now rewrite G. Qed.
Lemma to_u64_num x n s : is_num x n s -> num_to_uint64 x = raw x mod 2 ^ 64.
Proof.
  intros H. unnum H. unfold num_to_uint64, bn_to_uint64, raw. rewrite (words_num_tl (n_ws x)). pose proof (word_range (n_ws x) 0 (proj1 W)).
  symmetry. rewrite Z.mul_comm, Z.mod_add, Z.mod_small by lia. reflexivity.
Qed.
Lemma to_u64_magn x n s : is_num x n s -> inwidth x -> num_to_uint64 x = magn x mod 2 ^ 64.
Proof. intros H C. rewrite (clean_magn _ _ _ H C). now apply (to_u64_num x n s). Qed.

Lemma mask_num x n s : is_num x n s -> is_num (num_mask x) n s /\ inwidth (num_mask x) /\ magn (num_mask x) = 2 ^ n - 1.
Proof.
  intros H. unnum H. destruct (bn_mask_spec n ltac:(lia)) as (W1 & Q). unfold num_mask. rewrite E, G.
  assert (J : is_num (mkNum n s (bn_mask n)) n s) by (apply is_num_mk; [lia|exact W1]). assert (C : inwidth (mkNum n s (bn_mask n))) by (unfold inwidth, raw; cbn [n_ws n_size]; lia).
  split; [exact J|]. split; [exact C|]. rewrite (clean_magn _ _ _ J C). exact Q.
Qed.
Lemma map0_repeat (l : list Z) : map (fun _ => 0) l = repeat 0 (length l).
Proof. induction l; cbn; congruence. Qed.
Lemma clear_num x n s : is_num x n s -> is_num (num_clear x) n s /\ inwidth (num_clear x) /\ magn (num_clear x) = 0.
Proof.
  intros H. unnum H. unfold num_clear. rewrite map0_repeat, E, G. pose proof (pow2_pos n ltac:(lia)).
  assert (J : is_num (mkNum n s (repeat 0 (length (n_ws x)))) n s).
  { apply is_num_mk; [lia|]. split; [apply wf_repeat; lia|]. rewrite wlen_repeat. apply W. }
  assert (C : inwidth (mkNum n s (repeat 0 (length (n_ws x))))) by (unfold inwidth, raw; cbn [n_ws n_size]; rewrite words_num_repeat0; lia).
  split; [exact J|]. split; [exact C|]. rewrite (clean_magn _ _ _ J C). unfold raw. cbn [n_ws]. apply words_num_repeat0.
Qed.
Lemma zero_num n s : 1 <= n < 2 ^ 32 -> is_num (num_zero n s) n s /\ inwidth (num_zero n s) /\ magn (num_zero n s) = 0.
Proof.
  intros Hn. pose proof (pow2_pos n ltac:(lia)). assert (J : is_num (num_zero n s) n s) by (apply is_num_mk; [lia|apply bn_zero_wfn; lia]).
  assert (C : inwidth (num_zero n s)) by (unfold inwidth, raw, num_zero; cbn [n_ws n_size]; rewrite bn_zero_num; lia).
  split; [exact J|]. split; [exact C|]. rewrite (clean_magn _ _ _ J C). apply bn_zero_num.
Qed.
Lemma convert_num x n s t : is_num x n s -> is_num (num_convert x t) n t /\ is_num (num_to_signed x) n true /\
  (forall p, pos (num_convert x t) p = pos x p) /\ (forall p, pos (num_to_signed x) p = pos x p) /\
  (inwidth x -> inwidth (num_convert x t)) /\ num_plus x = x.
Proof. intros H. pose proof H as (A & B & C & D & F). subst n. repeat split; auto; lia. Qed.

(** construction from a native number: value [v] converted to [uint64_t], sign-extended if the object is
    signed and [v] negative *)
Lemma of_native_num n s v : 1 <= n < 2 ^ 32 -> - 2 ^ 63 <= v < 2 ^ 64 -> (s = true \/ 0 <= v) ->
  is_num (num_of_native n s v) n s /\ magn (num_of_native n s v) = v mod 2 ^ n.
Proof.
  intros Hn Hv D. destruct (bn_of_native_spec n v ltac:(lia)) as (W1 & Q). unfold num_of_native. pose proof (pow2_pos n ltac:(lia)). pose proof (nwords_bounds n ltac:(lia)) as NB.
  destruct (s && (v <? 0)) eqn:Sg.
  - apply andb_true_iff in Sg. destruct Sg as [-> Sg]. apply Z.ltb_lt in Sg.
    assert (Hd : hd 0 (bn_of_native n v) = v + 2 ^ 64).
    { change (hd 0 (bn_of_native n v)) with (match bn_of_native n v with [] => 0 | a :: _ => a end). unfold bn_of_native, bn_zero, word_set. replace (Z.to_nat (nwords n)) with (S (Z.to_nat (nwords n - 1))) by lia. cbn [repeat lupd Z.to_nat].
      unfold u64. rewrite <- (Z.mod_small (v + 2 ^ 64) (2 ^ 64)) by lia. rewrite <- Zplus_mod_idemp_r, Z_mod_same_full, Z.add_0_r. reflexivity. }
    rewrite Hd. set (ws := v + 2 ^ 64 :: repeat u64max (Z.to_nat (nwords n - 1))).
    assert (Ww : wfn n ws). { split; [apply wf_cons; split; [lia|apply wf_repeat; unfold u64max; lia]|]. unfold ws, wlen. cbn [length]. rewrite repeat_length. lia. }
    assert (Num : forall k, words_num (repeat u64max k) = 2 ^ (64 * Z.of_nat k) - 1).
    { induction k; [reflexivity|]. cbn [repeat words_num]. rewrite IHk. replace (64 * Z.of_nat (S k)) with (64 + 64 * Z.of_nat k) by lia. rewrite pow2_split by lia. unfold u64max. ring. }
    destruct (bn_mask_off_spec n ws ltac:(lia) Ww) as (Wm & Qm). split; [apply is_num_mk; [lia|exact Wm]|]. unfold magn, raw. cbn [n_ws n_size]. rewrite Qm, Z.mod_mod by lia.
    unfold ws. cbn [words_num]. rewrite Num, Z2Nat.id by lia. replace (v + 2 ^ 64 + 2 ^ 64 * (2 ^ (64 * (nwords n - 1)) - 1)) with (v + 2 ^ (64 + 64 * (nwords n - 1))) by (rewrite pow2_split by lia; ring).
    replace (64 + 64 * (nwords n - 1)) with (n + (64 * nwords n - n)) by lia. rewrite pow2_split by lia. apply mod_eq_shift with (2 ^ (64 * nwords n - n)); [lia|ring].
  - split; [apply is_num_mk; [lia|exact W1]|]. unfold magn, raw. cbn [n_ws n_size]. rewrite Q, u64_id; [reflexivity|].
    apply andb_false_iff in Sg. destruct Sg as [Sg|Sg]; [destruct D; [congruence|lia]|]. apply Z.ltb_ge in Sg. lia.
Qed.
Lemma of_native_counter : magn (num_of_native 128 false (-1)) <> (-1) mod 2 ^ 128.
Proof. vm_compute. discriminate. Qed.

(** * Construction from text *)
Lemma parse_words_mem one value batch : 1 <= batch -> forall fuel rem en idx w1 w2,
  wlen w1 = wlen w2 -> 0 <= idx -> idx + Z.of_nat fuel = wlen w1 -> (forall i, 0 <= i < idx -> word w1 i = word w2 i) ->
  (fuel <> 0%nat -> (Z.of_nat fuel - 1) * batch < rem) ->
  parse_words one value batch fuel rem en idx w1 = parse_words one value batch fuel rem en idx w2.
Proof.
  intros Hb. induction fuel as [|f IH]; intros rem en idx w1 w2 L Hi Hl A R; cbn [parse_words].
  - f_equal. apply nth_ext with 0 0; [unfold wlen in L; lia|]. intros k Hk. specialize (A (Z.of_nat k)). unfold word in A. rewrite Nat2Z.id in A. apply A. unfold wlen in Hl. lia.
  - specialize (R ltac:(discriminate)). rewrite (proj2 (Z.ltb_lt 0 rem)) by nia.
    set (beg := if batch <=? rem then rem - batch else 0). destruct (one (firstn (Z.to_nat (en - beg)) (skipn (Z.to_nat beg) value))) as [w| | | |]; cbn [bind]; auto.
    apply IH.
    + now rewrite !word_set_len.
    + lia.
    + rewrite word_set_len. lia.
    + intros i Hi'. rewrite !word_set_word by lia. destruct (i =? idx) eqn:Q; [reflexivity|]. apply A. lia.
    + intros Nf. destruct (Z.ltb_spec batch rem); nia.
Qed.

Lemma of_str_num n sg mem pre size base k s : 65 <= n < 2 ^ 31 -> prefix_ok pre size -> pow2_base base k -> k <> 3 -> digits_ok k s -> no_underscore s ->
  Z.of_nat (List.length mem) = (n + 63) / 64 -> (n + 63) / 64 * 64 - 64 < k * len s ->
  exists x, num_of_str n sg mem (literal pre size base s) = Ok x /\ is_num x n sg /\ (forall p, 0 <= p < n -> pos x p = sym_val (text_sym k s p)) /\
    (k * len s <= n -> inwidth x).
Proof.
  intros Hn P B K3 D N M C. pose proof (base_k base k B) as Hk. rewrite <- nwords_up in *. pose proof (nwords_bounds n ltac:(lia)) as Nw. pose proof (bn_zero_wfn n ltac:(lia)) as [Wz Lz].
  destruct (big_words parse_raw_ sym_val n pre size base k s Hn P B K3 N eq_refl) as (ws & E & W & Q).
  { intros j Hj Hl. apply raw_text; [exact B|apply chunk_forall; exact D|]. apply chunk_fits; [lia| | |exact N]; destruct B as [[_ ->]|[[_ ->]|[_ ->]]]; cbn; try lia. }
  assert (St : get_stride base = k /\ (k = 1 \/ k = 4)).
  { split; [|destruct B as [[_ ->]|[[_ ->]|[_ ->]]]; auto; congruence]. destruct B as [[B ->]|[[B ->]|[B ->]]]; [|congruence|]; chars_cases B; reflexivity. }
  destruct St as [St K]. assert (HB : (64 / k) * k = 64 /\ 1 <= 64 / k) by (destruct K as [-> | ->]; split; [reflexivity|vm_compute; discriminate|reflexivity|vm_compute; discriminate]).
  assert (Nd : is_digit base = false) by (destruct B as [[B ->]|[[B ->]|[B ->]]]; chars_cases B; reflexivity).
  rewrite big_literal in E by auto.
  exists (mkNum n sg ws). assert (J : is_num (mkNum n sg ws) n sg) by (apply is_num_mk; [lia|exact W]). split; [|split; [exact J|split]].
  - unfold num_of_str. pose proof (input_base pre size base s P Nd) as H. destruct (get_input_base _) as [b p]. destruct H as [-> ->].
    assert (HB' : 1 <= 64 / get_stride base) by (rewrite St; apply HB).
    rewrite (parse_words_mem (fun c => parse_raw_ c base) s _ HB' _ _ _ _ mem (bn_zero n)); [rewrite E; reflexivity|unfold wlen in *; lia|lia|unfold wlen in *; lia|intros; lia|].
    intros _. rewrite St, Z2Nat.id by lia. change (slen s) with (len s). nia.
  - intros p Hp. rewrite (pos_in _ _ _ _ J Hp). apply Q. lia.
  - intros L. unfold inwidth, raw. cbn [n_ws n_size]. apply bits_small; [lia|apply words_num_nonneg, W|]. intros p Hp. destruct (Z.lt_ge_cases p (64 * nwords n)).
    + rewrite Q by lia. rewrite text_bound; [reflexivity|lia|lia|]. rewrite clean_id by exact N. lia.
    + apply words_num_high; [apply W|destruct W; lia].
Qed.
Lemma of_str_counter : exists x y, num_of_str 128 false [0; 0] (literal [] [] 104 [49]) = Ok x /\ num_of_str 128 false [0; 7] (literal [] [] 104 [49]) = Ok y /\
  magn x = 1 /\ magn y <> 1.
Proof. exists (mkNum 128 false [1; 0]), (mkNum 128 false [1; 7]). cnum. Qed.

(** * Counterexamples and statements in the form used by PropsBig.v *)
Lemma slice_r_endless x ts a b : Z.max a b = 2 ^ 64 - 1 -> num_slice_r x ts a b = Fuel.
Proof. intros M. unfold num_slice_r, bn_slice_r. rewrite M. reflexivity. Qed.
Lemma extend_counter : exists x r, is_num x 70 true /\ inwidth x /\ ival x = 1 /\ num_extend x 128 = Ok r /\ ival r <> 1.
Proof. exists (mkNum 70 true [1; 0]), (mkNum 128 true [1; 2 ^ 64 - 2 ^ 6]). cnum. Qed.
Lemma bitwise_counter :
  (exists x y r, is_num x 70 true /\ is_num y 128 false /\ inwidth x /\ inwidth y /\ magn x = 1 /\ magn y = 0 /\ num_or x y = Ok r /\ magn r <> 1) /\
  (exists x, is_num x 70 false /\ inwidth x /\ ~ inwidth (num_not x)).
Proof.
  split.
  - exists (mkNum 70 true [1; 0]), (mkNum 128 false [0; 0]), (mkNum 128 false [1; 2 ^ 64 - 2 ^ 6]). cnum.
  - exists (mkNum 70 false [0; 0]). split; [cnum|]. split; [cnum|]. vm_compute. discriminate.
Qed.
Lemma arith_counter :
  (exists x y r, is_num x 70 true /\ is_num y 128 true /\ inwidth x /\ inwidth y /\ ival x = 1 /\ ival y = 1 /\ num_add x y = Ok r /\ ival r <> 2) /\
  (exists x, is_num x 128 false /\ inwidth x /\ num_mul x x = UB) /\
  (exists x y q, is_num x 128 false /\ is_num y 128 false /\ inwidth x /\ inwidth y /\ magn y <> 0 /\ num_div x y = Ok q /\ magn q <> magn x / magn y) /\
  (forall x y n s m t, is_num x n s -> is_num y m t -> Z.max n m <= 64 -> num_mul x y = UB).
Proof.
  split; [|split; [|split]].
  - exists (mkNum 70 true [1; 0]), (mkNum 128 true [1; 0]), (mkNum 128 true [2; 2 ^ 64 - 2 ^ 6]). cnum.
  - exists (mkNum 128 false [0; 1]). cnum.
  - exists (mkNum 128 false [2 ^ 33; 0]), (mkNum 128 false [2 ^ 32; 0]), (mkNum 128 false [0; 0]). cnum.
  - exact mul_small_ub.
Qed.
Lemma query_counter :
  (exists x, is_num x 64 false /\ inwidth x /\ magn x <> 0 /\ num_any_set x = false) /\
  (exists x, is_num x 128 false /\ inwidth x /\ magn x = 2 ^ 128 - 1 /\ num_all_set x = false) /\
  (exists x, is_num x 128 false /\ inwidth x /\ magn x <> 1 /\ 2 ^ 64 <= magn x /\ num_is_one x = true /\ num_fit_in_64 x = true) /\
  (exists x, is_num x 128 false /\ magn x = 0 /\ num_highest_bit x = 2).
Proof.
  repeat split.
  - exists (mkNum 64 false [2 ^ 32]). cnum.
  - exists (mkNum 128 false [u64max; u64max]). cnum.
  - exists (mkNum 128 false [1; 2 ^ 32]). cnum.
  - exists (mkNum 128 false [0; 0]). cnum.
Qed.
Lemma rejected_members x y v ts : num_popcount x = IllFormed /\ num_or_assign x y = IllFormed /\ num_gt_t x v = IllFormed /\ num_ge_t x v = IllFormed /\
  num_le_t x v = IllFormed /\ num_power x y ts = IllFormed.
Proof. repeat split. Qed.

Lemma set_all x n s i v : is_num x n s -> 0 <= i ->
  is_num (num_set x i v) n s /\
  (forall p, 0 <= p -> pos (num_set x i v) p = if (p =? i) && (i <? n) then v else pos x p) /\
  (inwidth x -> inwidth (num_set x i v)) /\
  (i < n -> num_set_c x i v = Ok (num_set x i v)) /\ (n <= i -> num_set_c x i v = IllFormed).
Proof.
  intros H Hi. destruct (set_pos x n s i v H Hi) as (A & B & C). repeat (split; [assumption|]). split; intros L.
  - apply (set_c_ok x n s); auto.
  - apply (set_c_rejected x n s); auto.
Qed.
Lemma ashr_all x k n m t : is_num x n true -> is_num k m t -> inwidth k -> 0 <= ival x \/ n <= magn k ->
  is_num (num_ashr_n x k) n t /\ magn (num_ashr_n x k) = (ival x / 2 ^ magn k) mod 2 ^ n.
Proof.
  intros H K C D. destruct (ashr_n_num x k n true m t H K C) as (A & B). cbn [andb] in A. split; [exact A|]. rewrite B.
  apply ashr_right; auto. apply (magn_range k m t K).
Qed.
Lemma shl_all x n s k : is_num x n s -> 0 <= k ->
  is_num (num_shl x k) n s /\ inwidth (num_shl x k) /\ magn (num_shl x k) = (magn x * 2 ^ k) mod 2 ^ n /\ num_ashl x k = num_shl x k.
Proof. intros H Hk. destruct (shl_num x n s k H Hk) as (A & B & C). auto. Qed.
Lemma shl_n_all x k n s m t : is_num x n s -> is_num k m t -> inwidth k ->
  is_num (num_shl_n x k) n (s && t) /\ inwidth (num_shl_n x k) /\ magn (num_shl_n x k) = (magn x * 2 ^ magn k) mod 2 ^ n /\ num_ashl_n x k = num_shl_n x k.
Proof. intros H K C. destruct (shl_n_num x k n s m t H K C) as (A & B & D). auto. Qed.
Lemma ashr_unsigned_all x n k : is_num x n false -> 0 <= k -> magn (num_ashr x k) = magn x / 2 ^ k.
Proof. intros H Hk. rewrite (ashr_unsigned x n k H). apply (shr_num x n false k H Hk). Qed.
Lemma cmp_counter :
  (exists x y, is_num x 128 false /\ is_num y 64 false /\ inwidth x /\ inwidth y /\ magn x <> magn y /\ num_eq x y = Ok true) /\
  (exists x y, is_num x 70 true /\ is_num y 128 true /\ inwidth x /\ inwidth y /\ ival x = 1 /\ ival y = 1 /\ num_eq x y = Ok false) /\
  (exists x, is_num x 70 true /\ inwidth x /\ num_gt x x = Fuel /\ num_lt x x = Fuel) /\
  (exists x y, is_num x 70 true /\ is_num y 128 true /\ inwidth x /\ inwidth y /\ ival x = -1 /\ ival y = -2 /\ num_gt x y = Ok false).
Proof. split; [exact eq_unsigned_counter|]. split; [exact eq_signed_counter|]. exact gt_signed_counter. Qed.

Lemma visible_odd z : z mod 2 ^ 32 <> 0 -> visible z.
Proof. intros H L. specialize (L 0 ltac:(lia)). rewrite Z.mul_0_r, Z.pow_0_r, Z.div_1_r in L. contradiction. Qed.
Lemma visible_zero : visible 0.
Proof. intros _. reflexivity. Qed.
Lemma zero_halves : low_halves_zero 0.
Proof. intros k Hk. rewrite Z.div_0_l; [reflexivity|]. apply Z.pow_nonzero; lia. Qed.
