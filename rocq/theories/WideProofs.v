(** Multi-word operators of the model against the reference machine of SpecWide.v: words, arithmetic, bitwise operators. *)
From Coq Require Import ZArith List Bool Lia Zify ZifyBool.
From Verif Require Import Cpp BigNum Bit Logic Spec SpecExact SpecMachine SpecWide ZBits Words BigNumProofs BigArith BitProofs BitSlice BitExt BitOps BitShift BitArith MachineProofs MachineProofs2 MachineProofs3 MachineProofs4.
Import ListNotations.
Open Scope Z_scope.
Local Ltac Zify.zify_post_hook ::= idtac.

Lemma pow_mono2 a b : a <= b -> 2 ^ a <= 2 ^ b.
Proof. intros H. apply Z.pow_le_mono_r; lia. Qed.
(** * words *)
Lemma words_in_nwords n : words_in n = nwords n.
Proof.
  unfold words_in, nwords. pose proof (Z.div_mod n 64 ltac:(lia)) as D. pose proof (Z.mod_pos_bound n 64 ltac:(lia)) as B.
  destruct (Z.eqb_spec (n mod 64) 0) as [E | E].
  - symmetry. apply Z.div_unique with (r := 63); lia.
  - symmetry. apply Z.div_unique with (r := n mod 64 - 1); lia.
Qed.
Lemma capacity_nwords n : capacity n = 64 * nwords n.
Proof. unfold capacity. rewrite words_in_nwords. reflexivity. Qed.
Lemma spread_wf k : forall z, wf (spread k z).
Proof.
  induction k as [|k IH]; intros z; cbn [spread]; [constructor|]. apply wf_cons. split; [|apply IH]. apply Z.mod_pos_bound. lia.
Qed.
Lemma spread_len k : forall z, wlen (spread k z) = Z.of_nat k.
Proof. unfold wlen. induction k as [|k IH]; intros z; cbn [spread length]; [reflexivity|]. specialize (IH (z / 2 ^ 64)). lia. Qed.
Lemma spread_num k : forall z, words_num (spread k z) = z mod 2 ^ (64 * Z.of_nat k).
Proof.
  induction k as [|k IH]; intros z; cbn [spread words_num].
  - rewrite Z.mod_1_r. reflexivity.
  - rewrite IH. replace (64 * Z.of_nat (S k)) with (64 + 64 * Z.of_nat k) by lia. rewrite Z.pow_add_r by lia.
    rewrite Z.rem_mul_r; [reflexivity|lia|]. apply pow2_pos. lia.
Qed.
Lemma spread_inv ws : wf ws -> ws = spread (length ws) (words_num ws).
Proof.
  induction ws as [|w r IH]; intros W; [reflexivity|]. apply wf_cons in W. destruct W as [R W]. cbn [length spread words_num].
  rewrite (Z.mul_comm (2 ^ 64)), Z.mod_add, Z.div_add, Z.mod_small, Z.div_small, Z.add_0_l by lia. rewrite <- IH by exact W. reflexivity.
Qed.
Lemma spread_mod k : forall z z', z mod 2 ^ (64 * Z.of_nat k) = z' mod 2 ^ (64 * Z.of_nat k) -> spread k z = spread k z'.
Proof.
  intros z z' E. rewrite (spread_inv (spread k z) (spread_wf _ _)), (spread_inv (spread k z') (spread_wf _ _)).
  rewrite !spread_num, E. pose proof (spread_len k z) as A. pose proof (spread_len k z') as B. unfold wlen in A, B.
  replace (length (spread k z)) with (length (spread k z')) by lia. reflexivity.
Qed.
Lemma words_of_wfn n z : 1 <= n -> wfn n (words_of n z).
Proof.
  intros H. pose proof (nwords_bounds n H). split; [apply spread_wf|]. unfold words_of. rewrite spread_len, words_in_nwords. lia.
Qed.
Lemma words_of_num n z : 1 <= n -> words_num (words_of n z) = z mod 2 ^ capacity n.
Proof.
  intros H. pose proof (nwords_bounds n H). unfold words_of. rewrite spread_num. unfold capacity. rewrite words_in_nwords. do 2 f_equal. lia.
Qed.
Lemma big_eq n ws z : 1 <= n -> wfn n ws -> words_num ws = z mod 2 ^ capacity n -> ws = words_of n z.
Proof.
  intros H [W L] E. pose proof (nwords_bounds n H). rewrite (spread_inv ws W). unfold words_of. rewrite words_in_nwords.
  unfold wlen in L. replace (Z.to_nat (nwords n)) with (length ws) by lia. apply spread_mod. rewrite E, capacity_nwords, L. apply Z.mod_mod.
  apply Z.pow_nonzero; lia.
Qed.
Lemma words_of_eq n z z' : 1 <= n -> z mod 2 ^ capacity n = z' mod 2 ^ capacity n -> words_of n z = words_of n z'.
Proof. intros H E. apply big_eq; [exact H|apply words_of_wfn; exact H|]. rewrite words_of_num by exact H. exact E. Qed.
Lemma capacity_ge n : 1 <= n -> n <= capacity n.
Proof. intros H. rewrite capacity_nwords. pose proof (nwords_bounds n H). lia. Qed.
Lemma words_range n ws : 1 <= n -> wfn n ws -> 0 <= words_num ws < 2 ^ capacity n.
Proof.
  intros H [W L]. rewrite capacity_nwords, <- L. split; [apply words_num_nonneg; exact W|apply words_num_bound; exact W].
Qed.
Lemma words_of_self n ws : 1 <= n -> wfn n ws -> words_of n (words_num ws) = ws.
Proof. intros H W. symmetry. apply big_eq; [exact H|exact W|]. symmetry. apply Z.mod_small. apply words_range; assumption. Qed.

(** * objects *)
Lemma object_small msb lsb s z : width msb lsb <= 64 -> object msb lsb s z = mkBit msb lsb s (HN (store (width msb lsb) s z)).
Proof. intros H. unfold object. cbn zeta. replace (width msb lsb <=? 64) with true by lia. reflexivity. Qed.
Lemma object_wide msb lsb s z : 65 <= width msb lsb -> object msb lsb s z = mkBit msb lsb s (HB (words_of (width msb lsb) z)).
Proof. intros H. unfold object. cbn zeta. replace (width msb lsb <=? 64) with false by lia. reflexivity. Qed.
Lemma width_n n : 1 <= n -> width (n - 1) 0 = n.
Proof. unfold width. lia. Qed.
Lemma vec_of_small n s z : 1 <= n <= 64 -> vec_of n s z = vector n s z.
Proof. intros H. unfold vec_of. rewrite object_small; rewrite width_n by lia; [reflexivity|lia]. Qed.
Lemma vec_of_wide n s z : 65 <= n -> vec_of n s z = mkBit (n - 1) 0 s (HB (words_of n z)).
Proof. intros H. unfold vec_of. rewrite object_wide; rewrite width_n by lia; [reflexivity|lia]. Qed.
Lemma rewritten_small a z : bw a <= 64 -> rewritten a z = written a z.
Proof. intros H. unfold rewritten. rewrite object_small by exact H. reflexivity. Qed.
Lemma rewritten_wide a z : 65 <= bw a -> rewritten a z = mkBit (bmsb a) (blsb a) (bsgn a) (HB (words_of (bw a) z)).
Proof. intros H. unfold rewritten. rewrite object_wide by exact H. reflexivity. Qed.
Lemma object_vec msb lsb s z : int_ok msb -> int_ok lsb -> width msb lsb < 2 ^ 31 -> vec (object msb lsb s z).
Proof.
  intros M L W. assert (P : 1 <= width msb lsb) by (unfold width; lia).
  split; [|split; [exact M|split; [exact L|exact W]]]. unfold bit_ok, bsize, object. cbn zeta. cbn [bmsb blsb bsgn bval].
  change (vsize msb lsb) with (width msb lsb). destruct (Z.leb_spec (width msb lsb) 64) as [C | C].
  - rewrite <- conv_store by lia. cbn [andb]. replace (width msb lsb <=? 64) with true by lia. apply conv_in_ity.
  - replace (65 <=? width msb lsb) with true by lia. cbn [andb]. apply words_ok_wfn. apply words_of_wfn. exact P.
Qed.
Lemma vec_of_vec n s z : 1 <= n < 2 ^ 31 -> vec (vec_of n s z).
Proof. intros H. apply object_vec; [unfold int_ok; lia|unfold int_ok; lia|]. rewrite width_n; lia. Qed.
Lemma vec_of_bw n s z : 1 <= n -> bw (vec_of n s z) = n.
Proof. intros H. apply width_n. exact H. Qed.
Lemma rewritten_vec a z : vec a -> vec (rewritten a z).
Proof. intros (_ & M & L & W). apply object_vec; assumption. Qed.
Lemma rewritten_bw a z : bw (rewritten a z) = bw a.
Proof. reflexivity. Qed.
Lemma stored_vec_of n s z : 65 <= n -> stored (vec_of n s z) = z mod 2 ^ capacity n.
Proof. intros H. rewrite vec_of_wide by exact H. cbn [stored bval]. apply words_of_num. lia. Qed.
Lemma stored_rewritten a z : 65 <= bw a -> stored (rewritten a z) = z mod 2 ^ capacity (bw a).
Proof. intros H. rewrite rewritten_wide by exact H. cbn [stored bval]. apply words_of_num. lia. Qed.

(** wide vectors *)
Ltac wide a x E N I S :=
  match goal with V : vec a |- _ => destruct (vec_cases a V) as [(x & E & N & _) | (x & E & N & I & S)]; [lia|] end.
Lemma stored_range a : vec a -> 65 <= bw a -> 0 <= stored a < 2 ^ capacity (bw a).
Proof. intros V H. wide a x Ea Na Ia Sa. rewrite Sa. apply words_range; [lia|exact Ia]. Qed.

(** * widening *)
Lemma bit_extend_small_wide a m : vec a -> bw a <= 64 -> 65 <= m -> bit_extend a m = Ok (vec_of m (bsgn a) (stored a mod 2 ^ m)).
Proof.
  intros V H Hm. destruct (vec_cases a V) as [(v & E & N & I & Sv) | (v & E & N & _)]; [|lia]. unfold bit_extend. cbn zeta.
  rewrite (bsize_bw a _ eq_refl), E, Sv. replace (bw a <? m) with true by lia. unfold native_num. replace (m <=? 64) with false by lia.
  rewrite vec_of_wide by lia. apply f_equal. apply f_equal. apply f_equal.
  pose proof (capacity_ge m ltac:(lia)) as C. pose proof (nwords_bounds m ltac:(lia)) as NB.
  destruct (bn_of_native_spec m v ltac:(lia)) as [W0 N0]. unfold bn_of_native in *.
  assert (K : words_num (word_set (bn_zero m) 0 (u64 v)) = v mod 2 ^ 64) by exact N0.
  apply in_ity_range in I.
  destruct (bsgn a && (v <? 0)) eqn:Q.
  - apply andb_true_iff in Q. destruct Q as [Q1 Q2].
    assert (W1 : wfn m (hd 0 (word_set (bn_zero m) 0 (u64 v)) :: repeat u64max (Z.to_nat (nwords m - 1)))).
    { split; [apply wf_cons; split|].
      - destruct W0 as [W0 _]. destruct (word_set (bn_zero m) 0 (u64 v)); cbn [hd]; [lia|]. apply wf_cons in W0. apply W0.
      - apply wf_repeat. unfold u64max. lia.
      - unfold wlen in *. cbn [length]. rewrite repeat_length. lia. }
    destruct (bn_mask_off_spec m _ ltac:(lia) W1) as [W2 N2]. apply big_eq; [lia|exact W2|]. rewrite N2.
    rewrite (Z.mod_small (v mod 2 ^ m)) by (pose proof (Z.mod_pos_bound v (2 ^ m) (pow2_pos m ltac:(lia))); pose proof (pow_mono2 m (capacity m) C); lia).
    assert (F : hd 0 (word_set (bn_zero m) 0 (u64 v)) = v mod 2 ^ 64).
    { destruct W0 as [W0 L0]. destruct (word_set (bn_zero m) 0 (u64 v)) as [|w r] eqn:EE; [unfold wlen in L0; cbn [length] in L0; lia|]. cbn [hd].
      pose proof (word_set_word (bn_zero m) 0 (u64 v) 0) as X. rewrite EE, word_0, Z.eqb_refl in X. apply X; [|lia].
      rewrite bn_zero_len by lia. lia. }
    rewrite F. cbn [words_num]. assert (R : forall k, words_num (repeat u64max k) = 2 ^ (64 * Z.of_nat k) - 1).
    { intros k. induction k as [|k IH]; cbn [repeat words_num]; [reflexivity|]. rewrite IH. unfold u64max.
      replace (64 * Z.of_nat (S k)) with (64 + 64 * Z.of_nat k) by lia. rewrite (Z.pow_add_r 2 64) by lia. lia. }
    rewrite R. replace (Z.of_nat (Z.to_nat (nwords m - 1))) with (nwords m - 1) by lia.
    assert (B : - 2 ^ 63 <= v < 0).
    { pose proof (hty_width (bw a) (bsgn a) N). rewrite Q1 in I. assert (isigned (hty (bw a) true) = true \/ bw a = 1) as [G | G].
      - destruct (Z.eq_dec (bw a) 1); [right; lia|left; apply hty_signed; lia].
      - rewrite G in I. rewrite hty_iw in I. destruct (storage_cases (bw a)) as (_ & _ & SC & IW); [|rewrite IW in I; pose proof (pow_mono2 (storage (bw a) - 1) 63); lia].
        destruct (Z.eq_dec (bw a) 1) as [G1|G1]; [rewrite G1 in G; discriminate G|lia].
      - rewrite G in I. change (hty 1 true) with TBool in I. cbn in I. lia. }
    rewrite (Z.mod_eq v (2 ^ 64)) by lia. replace (v / 2 ^ 64) with (-1) by (apply Z.div_unique with (r := v + 2 ^ 64); lia).
    replace (v - 2 ^ 64 * -1 + 2 ^ 64 * (2 ^ (64 * (nwords m - 1)) - 1)) with (v + 2 ^ (64 * nwords m)).
    2:{ replace (64 * nwords m) with (64 + 64 * (nwords m - 1)) by lia. rewrite (Z.pow_add_r 2 64) by lia. lia. }
    replace (64 * nwords m) with ((64 * nwords m - m) + m) by lia. rewrite Z.pow_add_r by lia. apply Z.mod_add. apply Z.pow_nonzero; lia.
  - apply big_eq; [lia|exact W0|]. rewrite K. assert (B : 0 <= v < 2 ^ 64).
    { pose proof (hty_width (bw a) (bsgn a) N) as HW. assert (IW : iwidth (hty (bw a) (bsgn a)) <= 64) by (unfold hty; repeat match goal with |- context [if ?c then _ else _] => destruct c end; cbn; lia).
      destruct (isigned (hty (bw a) (bsgn a))) eqn:G.
      - assert (bsgn a = true) by (destruct (bsgn a); [reflexivity|]; exfalso; revert G; unfold hty; repeat match goal with |- context [if ?c then _ else _] => destruct c end; discriminate).
        rewrite H0 in Q. cbn [andb] in Q. pose proof (pow_mono2 (iwidth (hty (bw a) (bsgn a)) - 1) 64 ltac:(lia)). lia.
      - pose proof (pow_mono2 (iwidth (hty (bw a) (bsgn a))) 64 ltac:(lia)). lia. }
    rewrite !(Z.mod_small v) by (pose proof (pow_mono2 64 m ltac:(lia)); lia). rewrite Z.mod_small; [reflexivity|].
    pose proof (pow_mono2 64 (capacity m) ltac:(lia)). lia.
Qed.
Lemma bit_extend_wide_wide a m : vec a -> 65 <= bw a < m -> bit_extend a m = Ok (vec_of m (bsgn a) (widened a m)).
Proof.
  intros V H. wide a x Ea Na Ia Sa. unfold bit_extend, widened, small. cbn zeta. rewrite (bsize_bw a _ eq_refl), Ea, Sa.
  replace (bw a <? m) with true by lia. replace (bw a =? m) with false by lia. replace (bw a <=? 64) with false by lia.
  destruct (bn_extend_spec (bw a) (bsgn a) x m ltac:(lia) Ia) as (r & -> & W & N1 & N2). cbn [bind]. rewrite vec_of_wide by lia.
  apply f_equal, f_equal, f_equal. pose proof (words_range m r ltac:(lia) W) as R. apply big_eq; [lia|exact W|].
  rewrite Z.mod_small; destruct (bsgn a).
  2:{ apply N1. left. reflexivity. }
  - apply Z.bits_inj'. intros p Hp. rewrite N2 by (reflexivity || lia). rewrite Z.lor_spec, orb_comm. f_equal.
    replace (2 ^ m - 2 ^ bw a) with ((2 ^ (m - bw a) - 1) * 2 ^ bw a).
    2:{ replace (2 ^ m) with (2 ^ (m - bw a) * 2 ^ bw a) by (rewrite <- Z.pow_add_r by lia; f_equal; lia). lia. }
    destruct (Z.leb_spec (bw a) p) as [L | L].
    + rewrite Z.mul_pow2_bits by lia. replace (2 ^ (m - bw a) - 1) with (Z.ones (m - bw a)) by (rewrite Z.ones_equiv; lia).
      rewrite Z.testbit_ones_nonneg by lia. lia.
    + rewrite Z.mul_pow2_bits_low by lia. reflexivity.
  - pose proof (N2 eq_refl) as B. rewrite <- (words_of_self m r) in R by (lia || exact W). rewrite words_of_num in R by lia.
    assert (EQ : Z.lor (words_num x) (2 ^ m - 2 ^ bw a) = words_num r); [|rewrite EQ; apply (words_range m r); [lia|exact W]].
    apply Z.bits_inj'. intros p Hp. rewrite B by lia. rewrite Z.lor_spec, orb_comm. f_equal.
    replace (2 ^ m - 2 ^ bw a) with ((2 ^ (m - bw a) - 1) * 2 ^ bw a).
    2:{ replace (2 ^ m) with (2 ^ (m - bw a) * 2 ^ bw a) by (rewrite <- Z.pow_add_r by lia; f_equal; lia). lia. }
    destruct (Z.leb_spec (bw a) p) as [L | L].
    + rewrite Z.mul_pow2_bits by lia. replace (2 ^ (m - bw a) - 1) with (Z.ones (m - bw a)) by (rewrite Z.ones_equiv; lia).
      rewrite Z.testbit_ones_nonneg by lia. lia.
    + rewrite Z.mul_pow2_bits_low by lia. reflexivity.
  - rewrite <- N1 by (left; reflexivity). exact R.
Qed.
Definition own_type (a : bit) : bool := bsgn a || ((blsb a =? 0) && (0 <=? bmsb a)).
Lemma own_type_spec a : own_type a = true -> bsgn a = true \/ (bmsb a = bw a - 1 /\ blsb a = 0).
Proof. unfold own_type, bw, width. intros H. destruct (bsgn a); [left; reflexivity|]. right. cbn [orb] in H. lia. Qed.
Lemma bit_extend_same_wide a : vec a -> 65 <= bw a ->
  bit_extend a (bw a) = if own_type a then Ok (vec_of (bw a) (bsgn a) (stored a)) else IllFormed.
Proof.
  intros V H. wide a x Ea Na Ia Sa. unfold bit_extend, bit_convert, own_type. cbn zeta. rewrite (bsize_bw a _ eq_refl).
  replace (bw a <? bw a) with false by lia. rewrite Z.eqb_refl. rewrite vec_of_wide, Sa, words_of_self by (lia || exact Ia).
  rewrite Bool.eqb_reflx, andb_true_r.
  assert (W : bw a = Z.abs (bmsb a - blsb a) + 1) by reflexivity.
  destruct ((bmsb a =? bw a - 1) && (blsb a =? 0)) eqn:Q.
  - replace (bsgn a || _) with true by (destruct (bsgn a); [reflexivity|]; cbn [orb]; lia).
    destruct a as [m l s h]. cbn [bmsb blsb bsgn bval] in *. subst h. apply f_equal.
    replace (bw (mkBit m l s (HB x)) - 1) with m by lia. replace l with 0 by lia. reflexivity.
  - destruct (bsgn a) eqn:SG; cbn [orb].
    + unfold holder_assign, native_num. replace (vsize (bw a - 1) 0) with (bw a) by (unfold vsize; lia).
      replace (bw a <=? 64) with false by lia. rewrite Ea, (bsize_bw a _ eq_refl), Z.eqb_refl. reflexivity.
    + replace ((blsb a =? 0) && (0 <=? bmsb a)) with false by lia. reflexivity.
Qed.
Lemma extend_wide a m : vec a -> 65 <= m -> bw a <= m ->
  bit_extend a m = if (bw a <? m) || own_type a then Ok (vec_of m (bsgn a) (widened a m)) else IllFormed.
Proof.
  intros V H L. destruct (Z.ltb_spec (bw a) m) as [C | C]; cbn [orb].
  - destruct (Z.leb_spec (bw a) 64) as [D | D].
    + rewrite bit_extend_small_wide by (assumption || lia). unfold widened, small. replace (bw a =? m) with false by lia.
      replace (bw a <=? 64) with true by lia. reflexivity.
    + apply bit_extend_wide_wide; [exact V|lia].
  - assert (E : m = bw a) by lia. subst m. rewrite bit_extend_same_wide by (assumption || lia). unfold widened. rewrite Z.eqb_refl. reflexivity.
Qed.
Lemma widened_range a m : vec a -> 65 <= m -> bw a <= m -> 0 <= widened a m < 2 ^ capacity m.
Proof.
  intros V H L. pose proof (capacity_ge m ltac:(lia)) as C. pose proof (bw_pos a) as P.
  unfold widened, small. destruct (Z.eqb_spec (bw a) m) as [E | E]; [rewrite <- E; apply stored_range; [exact V|lia]|].
  destruct (Z.leb_spec (bw a) 64) as [D | D].
  - pose proof (Z.mod_pos_bound (stored a) (2 ^ m) (pow2_pos m ltac:(lia))). pose proof (pow_mono2 m (capacity m) C). lia.
  - pose proof (stored_range a V ltac:(lia)) as R. assert (M : capacity (bw a) <= capacity m) by (rewrite !capacity_nwords; pose proof (nwords_mono (bw a) m); lia).
    pose proof (pow_mono2 _ _ M). pose proof (pow_mono2 m (capacity m) C). pose proof (pow_mono2 (bw a) m L). pose proof (pow2_pos (bw a) ltac:(lia)).
    destruct (bsgn a); [|lia]. apply lor_range; lia.
Qed.

(** * binary operators *)
Definition wide_result (n : Z) (s : bool) (r : outcome Z) : outcome bit := omap (vec_of n s) r.
Definition same_ok (op : bit -> bit -> outcome bit) (f : bool -> Z -> Z -> Z -> outcome Z) : Prop := forall a b n,
  vec a -> vec b -> bw a = n -> bw b = n -> 65 <= n ->
  op a b = if blsb b <=? bmsb b then wide_result n (both_signed a b) (f (bsgn a) n (stored a) (stored b)) else IllFormed.
Lemma pairs_up_wide a b : bw a <> bw b -> pairs_up a b = own_type (if bw a <? bw b then b else a).
Proof. intros H. unfold pairs_up. replace (bw a =? bw b) with false by lia. reflexivity. Qed.
Lemma wide_bound a b : vec a -> vec b -> 1 <= wider a b < 2 ^ 31.
Proof. intros (_ & _ & _ & A) (_ & _ & _ & B). pose proof (bw_pos a). unfold wider. lia. Qed.
Lemma combined_match (f : Z -> Z -> outcome Z) a b : combined f a b =
  if negb (pairs_up a b) then IllFormed else wide_result (wider a b) (both_signed a b) (f (widened a (wider a b)) (widened b (wider a b))).
Proof. unfold combined, wide_result. cbn zeta. destruct (negb _); [reflexivity|]. destruct (f _ _); reflexivity. Qed.
Lemma mixed_wide op f a b : same_ok op f -> vec a -> vec b -> bw a <> bw b -> 65 <= wider a b ->
  bit_mixed op a b = combined (f (bsgn a) (wider a b)) a b.
Proof.
  intros O Va Vb D H. pose proof (wide_bound a b Va Vb) as WB. rewrite combined_match. unfold bit_mixed. cbn zeta.
  rewrite (bsize_bw a _ eq_refl), (bsize_bw b _ eq_refl). change (Z.max (bw a) (bw b)) with (wider a b).
  rewrite (extend_wide a (wider a b)) by (assumption || (unfold wider in *; lia)).
  rewrite (extend_wide b (wider a b)) by (assumption || (unfold wider in *; lia)).
  rewrite pairs_up_wide by exact D.
  assert (K : forall s t x y, 0 <= x < 2 ^ capacity (wider a b) -> 0 <= y < 2 ^ capacity (wider a b) ->
    op (vec_of (wider a b) s x) (vec_of (wider a b) t y) = wide_result (wider a b) (s && t) (f s (wider a b) x y)).
  { intros s t x y Hx Hy. rewrite (O _ _ (wider a b)); try (apply vec_of_vec; lia); try (apply vec_of_bw; lia); [|lia].
    rewrite !stored_vec_of, !Z.mod_small by lia. cbn [vec_of object bmsb blsb]. replace (0 <=? wider a b - 1) with true by lia. reflexivity. }
  assert (Ra := widened_range a (wider a b) Va ltac:(lia) ltac:(unfold wider; lia)).
  assert (Rb := widened_range b (wider a b) Vb ltac:(lia) ltac:(unfold wider; lia)).
  destruct (Z.ltb_spec (bw a) (bw b)) as [L | L].
  - replace (bw a <? wider a b) with true by (unfold wider; lia). replace (bw b <? wider a b) with false by (unfold wider; lia). cbn [orb bind].
    destruct (own_type b); cbn [negb bind]; [|reflexivity]. apply K; assumption.
  - replace (bw a <? wider a b) with false by (unfold wider; lia). replace (bw b <? wider a b) with true by (unfold wider; lia). cbn [orb bind].
    destruct (own_type a); cbn [negb bind]; [|reflexivity]. apply K; assumption.
Qed.
Lemma same_wide op f a b : same_ok op f -> vec a -> vec b -> bw a = bw b -> 65 <= wider a b ->
  op a b = combined (f (bsgn a) (wider a b)) a b.
Proof.
  intros O Va Vb D H. assert (W : wider a b = bw a) by (unfold wider; lia). rewrite combined_match, W in *. rewrite (O a b (bw a)) by (auto || lia).
  unfold pairs_up, widened. replace (bw a =? bw b) with true by lia. rewrite Z.eqb_refl. replace (bw b =? bw a) with true by lia.
  destruct (blsb b <=? bmsb b); reflexivity.
Qed.
Lemma arith_wide op f a b : same_ok op f -> vec a -> vec b -> 65 <= wider a b ->
  bit_arith op a b = combined (f (bsgn a) (wider a b)) a b.
Proof.
  intros O Va Vb H. unfold bit_arith. rewrite (bsize_bw a _ eq_refl), (bsize_bw b _ eq_refl).
  destruct (Z.eqb_spec (bw a) (bw b)) as [E | E]; [apply same_wide; assumption|apply mixed_wide; assumption].
Qed.
Lemma bin_wide f g h : (forall n x y, 65 <= n < 2 ^ 31 -> wfn n x -> wfn n y ->
    match g n x y with Ok r => wfn n r /\ exists z, h n (words_num x) (words_num y) = Ok z /\ words_num r = z mod 2 ^ capacity n | e => omap (fun _ => 0) e = h n (words_num x) (words_num y) end) ->
  same_ok (bit_bin f g) (fun _ => h).
Proof.
  intros G a b n Va Vb Wa Wb H. unfold bit_bin. cbn zeta. rewrite (bsize_bw a n Wa).
  destruct (vec_cases a Va) as [(x & Ea & Na & _) | (x & Ea & Na & Ia & Sa)]; [lia|].
  destruct (vec_cases b Vb) as [(y & Eb & Nb & _) | (y & Eb & Nb & Ib & Sb)]; [lia|].
  rewrite Ea, Eb, Sa, Sb. unfold requires, same_size_op. rewrite (bsize_bw b n Wb), Z.eqb_refl. cbn [andb].
  destruct (blsb b <=? bmsb b); [|reflexivity]. rewrite Wa in Ia, Na. rewrite Wb in Ib. specialize (G n x y Na Ia Ib).
  destruct (g n x y) as [r| | | |]; cbn [bind omap] in *; try (rewrite <- G; reflexivity).
  destruct G as (W & z & -> & E). unfold wide_result, omap. cbn [bind]. rewrite vec_of_wide by lia. rewrite (big_eq n r z ltac:(lia) W E). reflexivity.
Qed.
Lemma add_same_wide : same_ok bit_add_same (fun _ _ x y => Ok (x + y)).
Proof.
  apply (bin_wide _ _ (fun _ x y => Ok (x + y))). intros n x y H X Y. destruct (bn_add_spec n x y ltac:(lia) X Y) as [W E].
  split; [exact W|]. eexists. split; [reflexivity|]. rewrite capacity_nwords. exact E.
Qed.
Lemma sub_same_wide : same_ok bit_sub_same (fun _ _ x y => Ok (x - y)).
Proof.
  apply (bin_wide _ _ (fun _ x y => Ok (x - y))). intros n x y H X Y. destruct (bn_sub_spec n x y ltac:(lia) X Y) as [W E].
  split; [exact W|]. eexists. split; [reflexivity|]. rewrite capacity_nwords. exact E.
Qed.
Lemma small_cases a b : small a && small b = false -> 65 <= wider a b.
Proof. unfold small, wider. lia. Qed.
Lemma small_true a b : small a && small b = true -> bw a <= 64 /\ bw b <= 64.
Proof. unfold small. lia. Qed.
Lemma add_any a b : vec a -> vec b -> bit_add a b = any_sum a b.
Proof.
  intros Va Vb. unfold any_sum. destruct (small a && small b) eqn:Q; [apply small_true in Q; apply add_machine; tauto|].
  apply small_cases in Q. exact (arith_wide _ _ a b add_same_wide Va Vb Q).
Qed.
Lemma sub_any a b : vec a -> vec b -> bit_sub a b = any_difference a b.
Proof.
  intros Va Vb. unfold any_difference. destruct (small a && small b) eqn:Q; [apply small_true in Q; apply sub_machine; tauto|].
  apply small_cases in Q. exact (arith_wide _ _ a b sub_same_wide Va Vb Q).
Qed.
