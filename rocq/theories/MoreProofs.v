(** Lemmas about compositions of slices, concatenations, extensions and updates, and about the members of More.v. *)
From Coq Require Import ZArith List Bool Lia Zify ZifyBool.
From Verif Require Import Cpp BigNum Bit Logic Spec ZBits Words BigNumProofs BigArith BitProofs BitSlice BitExt BitOps
  BitShift BitCmp BitArith BitMain BitMain2 BitMain3 BitMain4 BitMain5 LogicProofs LogicOps LogicRed LogicArith LogicArith2
  LogicConv LogicConv2 LogicMain Client ClientProofs LawProofs More Program.
Import ListNotations.
Open Scope Z_scope.

(** * equal positions, nothing above: the same object *)
Lemma words_inj ws ws' : wf ws -> wf ws' -> length ws = length ws' -> words_num ws = words_num ws' -> ws = ws'.
Proof.
  revert ws'. induction ws as [|w ws IH]; intros [|w' ws'] H H' L E; try discriminate; [reflexivity|].
  apply wf_cons in H. apply wf_cons in H'. destruct H as [Hw H], H' as [Hw' H']. cbn [words_num length] in *.
  change (2 ^ 64) with 18446744073709551616 in *. assert (w = w' /\ words_num ws = words_num ws') as [-> Q] by lia.
  f_equal. apply IH; auto.
Qed.
Lemma bit_ext a b n : 1 <= n -> typed a n false -> typed b n false -> tidy a -> tidy b -> (forall p, 0 <= p < n -> bit_at a p = bit_at b p) -> a = b.
Proof.
  intros Hn Ta Tb Ya Yb H. apply (same_bits a b n false false Hn Ta Tb) in H.
  apply (tidy_u_iff a n Hn Ta) in Ya. apply (tidy_u_iff b n Hn Tb) in Yb. unfold num in H. rewrite (typed_bw _ _ _ Hn Ta), (typed_bw _ _ _ Hn Tb), !Z.mod_small in H by assumption.
  destruct (typed_cases a n false Hn Ta) as [(v & -> & R & _)|(ws & -> & R & W & L)], (typed_cases b n false Hn Tb) as [(v' & -> & R' & _)|(ws' & -> & R' & W' & L')]; try lia; unfold stored in H; cbn [bval] in H.
  - now subst.
  - repeat f_equal. apply words_inj; auto. unfold wlen in *. lia.
Qed.
Lemma sym_inj v m v' m' : sym_of v m = sym_of v' m' -> v = v' /\ m = m'.
Proof. destruct v, m, v', m'; cbn; split; congruence. Qed.
Lemma logic_ext a b n : 1 <= n -> ltyped a n false -> ltyped b n false -> ltidy a -> ltidy b -> (forall p, 0 <= p < n -> sym_at a p = sym_at b p) -> a = b.
Proof.
  intros Hn [Ta Ta'] [Tb Tb'] [Ya Ya'] [Yb Yb'] H. destruct a as [av ax], b as [bv bx]. cbn [l_val l_xz] in *. f_equal.
  - apply (bit_ext av bv n); auto. intros p Hp. apply (sym_inj _ _ _ _ (H p Hp)).
  - apply (bit_ext ax bx n); auto. intros p Hp. apply (sym_inj _ _ _ _ (H p Hp)).
Qed.

(** * slices of slices *)
Lemma bit_slice_slice x n a b c d : 1 <= n -> typed x n false -> 0 <= a < n -> 0 <= b < n ->
  0 <= c < Z.abs (a - b) + 1 -> 0 <= d < Z.abs (a - b) + 1 -> (n <= 64 \/ (Z.abs (a - b) + 1 <> 65 /\ Z.abs (c - d) + 1 <> 65)) ->
  exists r t, bit_slice_c x a b = Ok r /\ bit_slice_c r c d = Ok t /\ bit_slice_c x (Z.min a b + c) (Z.min a b + d) = Ok t.
Proof.
  intros Hn T Ha Hb Hc Hd W. destruct (slice_const_unsigned x n a b Hn T Ha Hb ltac:(lia)) as (r & Er & Tr & Yr & Qr).
  assert (Hm : 1 <= Z.abs (a - b) + 1) by lia. destruct (slice_const_unsigned r _ c d Hm Tr Hc Hd ltac:(lia)) as (t & Et & Tt & Yt & Qt).
  destruct (slice_const_unsigned x n (Z.min a b + c) (Z.min a b + d) Hn T ltac:(lia) ltac:(lia) ltac:(lia)) as (u & Eu & Tu & Yu & Qu).
  replace (Z.abs (Z.min a b + c - (Z.min a b + d))) with (Z.abs (c - d)) in * by lia.
  exists r, t. split; [exact Er|]. split; [exact Et|]. rewrite Eu. f_equal. apply (bit_ext u t (Z.abs (c - d) + 1)); auto; [lia|].
  intros p Hp. rewrite (Qu p Hp), (Qt p Hp), Qr by lia. f_equal. lia.
Qed.
Lemma logic_slice_slice x n a b c d : 1 <= n -> ltyped x n false -> 0 <= a < n -> 0 <= b < n ->
  0 <= c < Z.abs (a - b) + 1 -> 0 <= d < Z.abs (a - b) + 1 -> (n <= 64 \/ (Z.abs (a - b) + 1 <> 65 /\ Z.abs (c - d) + 1 <> 65)) ->
  exists r t, logic_slice_c x a b = Ok r /\ logic_slice_c r c d = Ok t /\ logic_slice_c x (Z.min a b + c) (Z.min a b + d) = Ok t.
Proof.
  intros Hn T Ha Hb Hc Hd W. destruct (lslice_c x n a b Hn T Ha Hb ltac:(lia)) as (r & Er & Tr & Yr & Qr).
  assert (Hm : 1 <= Z.abs (a - b) + 1) by lia. destruct (lslice_c r _ c d Hm Tr Hc Hd ltac:(lia)) as (t & Et & Tt & Yt & Qt).
  destruct (lslice_c x n (Z.min a b + c) (Z.min a b + d) Hn T ltac:(lia) ltac:(lia) ltac:(lia)) as (u & Eu & Tu & Yu & Qu).
  replace (Z.abs (Z.min a b + c - (Z.min a b + d))) with (Z.abs (c - d)) in * by lia.
  exists r, t. split; [exact Er|]. split; [exact Et|]. rewrite Eu. f_equal. apply (logic_ext u t (Z.abs (c - d) + 1)); auto; [lia|].
  intros p Hp. rewrite (Qu p Hp), (Qt p Hp), Qr by lia. f_equal. lia.
Qed.

(** * concatenation and slices *)
Lemma concat_bits a b r na nb : 1 <= na -> 1 <= nb -> typed a na false -> typed b nb false -> typed r (na + nb) false -> num r = num a * 2 ^ nb + num b ->
  forall p, 0 <= p < na + nb -> bit_at r p = if p <? nb then bit_at b p else bit_at a (p - nb).
Proof.
  intros Ha Hb Ta Tb Tr N p Hp. unfold bit_at. rewrite N. pose proof (num_range b) as R. rewrite (typed_bw b nb false Hb Tb) in R.
  rewrite Z.add_comm. destruct (Z.ltb_spec p nb).
  - rewrite <- (Z.mod_pow2_bits_low (num b + num a * 2 ^ nb) nb p) by lia. rewrite Z_mod_plus_full, Z.mod_small by exact R. reflexivity.
  - replace p with (p - nb + nb) at 1 by lia. rewrite <- Z.div_pow2_bits by lia.
    rewrite Z.div_add by (pose proof (pow2_pos nb); lia). rewrite Z.div_small by exact R. reflexivity.
Qed.

Lemma bit_slice_concat a b na nb : 1 <= na -> 1 <= nb -> na + nb < 64 -> (na + nb <= 32 \/ 33 <= na) ->
  typed a na false -> typed b nb false -> tidy a -> tidy b ->
  exists r, bit_concat a b = Ok r /\ bit_slice_c r (nb - 1) 0 = Ok b /\ bit_slice_c r (na + nb - 1) nb = Ok a.
Proof.
  intros Ha Hb L L2 Ta Tb Ya Yb. destruct (concat_num a b na nb Ha Hb L L2 Ta Tb Ya Yb) as (r & E & T & N & Y). exists r. split; [exact E|].
  pose proof (concat_bits a b r na nb Ha Hb Ta Tb T N) as Q. assert (Hn : 1 <= na + nb) by lia.
  destruct (slice_const_unsigned r _ (nb - 1) 0 Hn T ltac:(lia) ltac:(lia) ltac:(lia)) as (s & Es & Ts & Ys & Qs).
  destruct (slice_const_unsigned r _ (na + nb - 1) nb Hn T ltac:(lia) ltac:(lia) ltac:(lia)) as (t & Et & Tt & Yt & Qt).
  replace (Z.abs (nb - 1 - 0) + 1) with nb in * by lia. replace (Z.abs (na + nb - 1 - nb) + 1) with na in * by lia. split.
  - rewrite Es. f_equal. apply (bit_ext s b nb); auto. intros p Hp. rewrite (Qs p Hp), Q by lia. replace (Z.min (nb - 1) 0 + p) with p by lia. now rewrite (proj2 (Z.ltb_lt p nb)) by lia.
  - rewrite Et. f_equal. apply (bit_ext t a na); auto. intros p Hp. rewrite (Qt p Hp), Q by lia. replace (Z.min (na + nb - 1) nb + p) with (nb + p) by lia.
    rewrite (proj2 (Z.ltb_ge (nb + p) nb)) by lia. f_equal. lia.
Qed.
Lemma logic_slice_concat a b na nb : 1 <= na -> 1 <= nb -> na + nb < 64 -> (na + nb <= 32 \/ 33 <= na) ->
  ltyped a na false -> ltyped b nb false -> ltidy a -> ltidy b ->
  exists r, logic_concat a b = Ok r /\ logic_slice_c r (nb - 1) 0 = Ok b /\ logic_slice_c r (na + nb - 1) nb = Ok a.
Proof.
  intros Ha Hb L L2 Ta Tb Ya Yb. destruct (lconcat a b na nb Ha Hb L L2 Ta Tb Ya Yb) as (r & E & T & Y & Q). exists r. split; [exact E|].
  assert (Hn : 1 <= na + nb) by lia.
  destruct (lslice_c r _ (nb - 1) 0 Hn T ltac:(lia) ltac:(lia) ltac:(lia)) as (s & Es & Ts & Ys & Qs).
  destruct (lslice_c r _ (na + nb - 1) nb Hn T ltac:(lia) ltac:(lia) ltac:(lia)) as (t & Et & Tt & Yt & Qt).
  replace (Z.abs (nb - 1 - 0) + 1) with nb in * by lia. replace (Z.abs (na + nb - 1 - nb) + 1) with na in * by lia. split.
  - rewrite Es. f_equal. apply (logic_ext s b nb); auto. intros p Hp. rewrite (Qs p Hp), Q by lia. replace (Z.min (nb - 1) 0 + p) with p by lia. now rewrite (proj2 (Z.ltb_lt p nb)) by lia.
  - rewrite Et. f_equal. apply (logic_ext t a na); auto. intros p Hp. rewrite (Qt p Hp), Q by lia. replace (Z.min (na + nb - 1) nb + p) with (nb + p) by lia.
    rewrite (proj2 (Z.ltb_ge (nb + p) nb)) by lia. f_equal. lia.
Qed.
Lemma bit_concat_slices x n k : 1 <= k < n -> n < 64 -> (n <= 32 \/ 33 <= n - k) -> typed x n false -> tidy x ->
  exists hi lo, bit_slice_c x (n - 1) k = Ok hi /\ bit_slice_c x (k - 1) 0 = Ok lo /\ bit_concat hi lo = Ok x.
Proof.
  intros Hk Hn L T Y. assert (H1 : 1 <= n) by lia. destruct (slice_const_unsigned x n (n - 1) k H1 T ltac:(lia) ltac:(lia) ltac:(lia)) as (h & Eh & Th & Yh & Qh).
  destruct (slice_const_unsigned x n (k - 1) 0 H1 T ltac:(lia) ltac:(lia) ltac:(lia)) as (l & El & Tl & Yl & Ql).
  replace (Z.abs (n - 1 - k) + 1) with (n - k) in * by lia. replace (Z.abs (k - 1 - 0) + 1) with k in * by lia.
  assert (A : 1 <= n - k) by lia. assert (B : 1 <= k) by lia. destruct (concat_num h l (n - k) k A B ltac:(lia) ltac:(lia) Th Tl Yh Yl) as (r & E & Tr & N & Yr).
  pose proof (concat_bits h l r (n - k) k A B Th Tl Tr N) as Q. replace (n - k + k) with n in * by lia.
  exists h, l. split; [exact Eh|]. split; [exact El|]. rewrite E. f_equal. apply (bit_ext r x n); auto. intros p Hp. rewrite (Q p Hp).
  destruct (Z.ltb_spec p k); [rewrite Ql by lia|rewrite Qh by lia]; f_equal; lia.
Qed.
Lemma logic_concat_slices x n k : 1 <= k < n -> n < 64 -> (n <= 32 \/ 33 <= n - k) -> ltyped x n false -> ltidy x ->
  exists hi lo, logic_slice_c x (n - 1) k = Ok hi /\ logic_slice_c x (k - 1) 0 = Ok lo /\ logic_concat hi lo = Ok x.
Proof.
  intros Hk Hn L T Y. assert (H1 : 1 <= n) by lia. destruct (lslice_c x n (n - 1) k H1 T ltac:(lia) ltac:(lia) ltac:(lia)) as (h & Eh & Th & Yh & Qh).
  destruct (lslice_c x n (k - 1) 0 H1 T ltac:(lia) ltac:(lia) ltac:(lia)) as (l & El & Tl & Yl & Ql).
  replace (Z.abs (n - 1 - k) + 1) with (n - k) in * by lia. replace (Z.abs (k - 1 - 0) + 1) with k in * by lia.
  assert (A : 1 <= n - k) by lia. assert (B : 1 <= k) by lia. destruct (lconcat h l (n - k) k A B ltac:(lia) ltac:(lia) Th Tl Yh Yl) as (r & E & Tr & Yr & Q).
  replace (n - k + k) with n in * by lia.
  exists h, l. split; [exact Eh|]. split; [exact El|]. rewrite E. f_equal. apply (logic_ext r x n); auto. intros p Hp. rewrite (Q p Hp).
  destruct (Z.ltb_spec p k); [rewrite Ql by lia|rewrite Qh by lia]; f_equal; lia.
Qed.
Lemma bit_concat_assoc a b c na nb nc : 1 <= na -> 1 <= nb -> 1 <= nc -> na + nb + nc < 64 -> (na + nb + nc <= 32 \/ 33 <= na) ->
  typed a na false -> typed b nb false -> typed c nc false -> tidy a -> tidy b -> tidy c ->
  exists ab bc r, bit_concat a b = Ok ab /\ bit_concat b c = Ok bc /\ bit_concat ab c = Ok r /\ bit_concat a bc = Ok r.
Proof.
  intros Ha Hb Hc L L2 Ta Tb Tc Ya Yb Yc.
  destruct (concat_num a b na nb Ha Hb ltac:(lia) ltac:(lia) Ta Tb Ya Yb) as (ab & E1 & T1 & N1 & Y1).
  destruct (concat_num b c nb nc Hb Hc ltac:(lia) ltac:(lia) Tb Tc Yb Yc) as (bc & E2 & T2 & N2 & Y2).
  assert (A : 1 <= na + nb) by lia. assert (B : 1 <= nb + nc) by lia.
  destruct (concat_num ab c (na + nb) nc A Hc ltac:(lia) ltac:(lia) T1 Tc Y1 Yc) as (r & E3 & T3 & N3 & Y3).
  destruct (concat_num a bc na (nb + nc) Ha B ltac:(lia) ltac:(lia) Ta T2 Ya Y2) as (s & E4 & T4 & N4 & Y4).
  rewrite Z.add_assoc in T4. exists ab, bc, r. repeat (split; [assumption|]). rewrite E4. f_equal. apply (bit_ext s r (na + nb + nc)); auto; [lia|].
  apply (same_bits s r (na + nb + nc) false false ltac:(lia) T4 T3). rewrite N3, N4, N1, N2, Z.pow_add_r by lia. ring.
Qed.
Lemma logic_concat_assoc a b c na nb nc : 1 <= na -> 1 <= nb -> 1 <= nc -> na + nb + nc < 64 -> (na + nb + nc <= 32 \/ 33 <= na) ->
  ltyped a na false -> ltyped b nb false -> ltyped c nc false -> ltidy a -> ltidy b -> ltidy c ->
  exists ab bc r, logic_concat a b = Ok ab /\ logic_concat b c = Ok bc /\ logic_concat ab c = Ok r /\ logic_concat a bc = Ok r.
Proof.
  intros Ha Hb Hc L L2 Ta Tb Tc Ya Yb Yc.
  destruct (lconcat a b na nb Ha Hb ltac:(lia) ltac:(lia) Ta Tb Ya Yb) as (ab & E1 & T1 & Y1 & N1).
  destruct (lconcat b c nb nc Hb Hc ltac:(lia) ltac:(lia) Tb Tc Yb Yc) as (bc & E2 & T2 & Y2 & N2).
  assert (A : 1 <= na + nb) by lia. assert (B : 1 <= nb + nc) by lia.
  destruct (lconcat ab c (na + nb) nc A Hc ltac:(lia) ltac:(lia) T1 Tc Y1 Yc) as (r & E3 & T3 & Y3 & N3).
  destruct (lconcat a bc na (nb + nc) Ha B ltac:(lia) ltac:(lia) Ta T2 Ya Y2) as (s & E4 & T4 & Y4 & N4).
  rewrite Z.add_assoc in T4, N4. exists ab, bc, r. repeat (split; [assumption|]). rewrite E4. f_equal. apply (logic_ext s r (na + nb + nc)); auto; [lia|].
  intros p Hp. rewrite (N3 p Hp), (N4 p Hp). destruct (Z.ltb_spec p (nb + nc)), (Z.ltb_spec p nc); try lia.
  - rewrite N2 by lia. now rewrite (proj2 (Z.ltb_lt p nc)) by lia.
  - rewrite N2, N1 by lia. rewrite (proj2 (Z.ltb_ge p nc)), (proj2 (Z.ltb_lt (p - nc) nb)) by lia. reflexivity.
  - rewrite N1 by lia. rewrite (proj2 (Z.ltb_ge (p - nc) nb)) by lia. f_equal. lia.
Qed.

(** * extension and slices *)
Lemma bit_extend_slice x n m : 1 <= n <= m -> m < 2 ^ 31 -> (m <= 64 \/ n <> 65) -> typed x n false -> tidy x ->
  exists r, bit_extend x m = Ok r /\ bit_slice_c r (n - 1) 0 = Ok x.
Proof.
  intros Hn Hm W T Y. destruct (extend_zero x n m Hn Hm T Y) as (r & E & Tr & N & Yr). exists r. split; [exact E|].
  assert (H1 : 1 <= m) by lia. destruct (slice_const_unsigned r m (n - 1) 0 H1 Tr ltac:(lia) ltac:(lia) ltac:(lia)) as (s & Es & Ts & Ys & Qs).
  replace (Z.abs (n - 1 - 0) + 1) with n in * by lia. rewrite Es. f_equal. apply (bit_ext s x n); auto; [lia|]. intros p Hp. rewrite (Qs p Hp). unfold bit_at. rewrite N. f_equal. lia.
Qed.
Lemma logic_extend_slice x n m : 1 <= n <= m -> m < 2 ^ 31 -> (m <= 64 \/ n <> 65) -> ltyped x n false -> ltidy x ->
  exists r, logic_extend x m = Ok r /\ logic_slice_c r (n - 1) 0 = Ok x.
Proof.
  intros Hn Hm W T Y. destruct (logic_extend_u x n m Hn Hm T Y) as (r & E & Tr & Yr & N). exists r. split; [exact E|].
  assert (H1 : 1 <= m) by lia. destruct (lslice_c r m (n - 1) 0 H1 Tr ltac:(lia) ltac:(lia) ltac:(lia)) as (s & Es & Ts & Ys & Qs).
  replace (Z.abs (n - 1 - 0) + 1) with n in * by lia. rewrite Es. f_equal. apply (logic_ext s x n); auto; [lia|]. intros p Hp. rewrite (Qs p Hp), N by lia.
  replace (Z.min (n - 1) 0 + p) with p by lia. unfold zsym. now rewrite (proj2 (Z.ltb_lt p n)) by lia.
Qed.
Lemma bit_extend_extend x n m k : 1 <= n <= m -> m <= k -> k < 2 ^ 31 -> typed x n false -> tidy x ->
  exists r s, bit_extend x m = Ok r /\ bit_extend r k = Ok s /\ bit_extend x k = Ok s.
Proof.
  intros Hn Hm Hk T Y. destruct (extend_zero x n m Hn ltac:(lia) T Y) as (r & E & Tr & N & Yr).
  destruct (extend_zero r m k ltac:(lia) Hk Tr Yr) as (s & Es & Ts & Ns & Ys). destruct (extend_zero x n k ltac:(lia) Hk T Y) as (t & Et & Tt & Nt & Yt).
  exists r, s. repeat (split; [assumption|]). rewrite Et. f_equal. apply (bit_ext t s k); auto; [lia|]. intros p _. unfold bit_at. congruence.
Qed.
Lemma logic_extend_extend x n m k : 1 <= n <= m -> m <= k -> k < 2 ^ 31 -> ltyped x n false -> ltidy x ->
  exists r s, logic_extend x m = Ok r /\ logic_extend r k = Ok s /\ logic_extend x k = Ok s.
Proof.
  intros Hn Hm Hk T Y. destruct (logic_extend_u x n m Hn ltac:(lia) T Y) as (r & E & Tr & Yr & N).
  destruct (logic_extend_u r m k ltac:(lia) Hk Tr Yr) as (s & Es & Ts & Ys & Ns). destruct (logic_extend_u x n k ltac:(lia) Hk T Y) as (t & Et & Tt & Yt & Nt).
  exists r, s. repeat (split; [assumption|]). rewrite Et. f_equal. apply (logic_ext t s k); auto; [lia|]. intros p Hp. rewrite Nt, Ns by lia. unfold zsym in *.
  destruct (Z.ltb_spec p m); [symmetry; apply N; lia|]. now rewrite (proj2 (Z.ltb_ge p n)) by lia.
Qed.

(** * writing a range, then reading *)
Lemma logic_update_read x n v a b c d : 1 <= n -> ltyped x n false -> ltidy x -> 0 <= a < n -> 0 <= b < n ->
  ltyped v (Z.abs (a - b) + 1) false -> clean v (Z.abs (a - b) + 1) -> 0 <= c < n -> 0 <= d < n -> (n <= 64 \/ Z.abs (c - d) + 1 <> 65) ->
  exists r, logic_update_r x a b v = Ok r /\ ltyped r n false /\ ltidy r /\
    exists s, logic_slice_c r c d = Ok s /\
    (Z.min a b <= c <= Z.max a b -> Z.min a b <= d <= Z.max a b -> logic_slice_c v (c - Z.min a b) (d - Z.min a b) = Ok s) /\
    (Z.max c d < Z.min a b \/ Z.max a b < Z.min c d -> logic_slice_c x c d = Ok s).
Proof.
  intros Hn T Y Ha Hb Tv Cv Hc Hd W. assert (Hk : 1 <= Z.abs (a - b) + 1) by lia.
  destruct (lupdate x n false v _ false a b Hn Hk T Tv Ha Hb) as (r & E & Tr & Yr & Q); [intros q Hq _; now apply Cv|].
  specialize (Yr eq_refl Y). exists r. repeat (split; [assumption|]). destruct (lslice_c r n c d Hn Tr Hc Hd W) as (s & Es & Ts & Ys & Qs).
  assert (H1 : 1 <= Z.abs (c - d) + 1) by lia. exists s. split; [exact Es|]. split.
  - intros Ic Id. destruct (lslice_c v _ (c - Z.min a b) (d - Z.min a b) Hk Tv ltac:(lia) ltac:(lia) ltac:(lia)) as (t & Et & Tt & Yt & Qt).
    replace (Z.abs (c - Z.min a b - (d - Z.min a b))) with (Z.abs (c - d)) in * by lia. rewrite Et. f_equal. symmetry.
    apply (logic_ext s t _ H1 Ts Tt Ys Yt). intros p Hp. rewrite (Qs p Hp), (Qt p Hp), Q by lia.
    rewrite (proj2 (Z.leb_le (Z.min a b) _)), (proj2 (Z.leb_le _ (Z.max a b))) by lia. cbn [andb].
    rewrite (proj2 (Z.ltb_lt _ (Z.abs (a - b) + 1))) by lia. f_equal. lia.
  - intros O. destruct (lslice_c x n c d Hn T Hc Hd W) as (t & Et & Tt & Yt & Qt). rewrite Et. f_equal. symmetry.
    apply (logic_ext s t _ H1 Ts Tt Ys Yt). intros p Hp. rewrite (Qs p Hp), (Qt p Hp), Q by lia.
    destruct (Z.leb_spec (Z.min a b) (Z.min c d + p)), (Z.leb_spec (Z.min c d + p) (Z.max a b)); cbn [andb]; reflexivity || lia.
Qed.
Lemma logic_slice_all v w : 1 <= w -> ltyped v w false -> ltidy v -> w <> 65 -> logic_slice_c v (w - 1) 0 = Ok v.
Proof.
  intros Hw T Y N. destruct (lslice_c v w (w - 1) 0 Hw T ltac:(lia) ltac:(lia) ltac:(lia)) as (s & Es & Ts & Ys & Qs).
  replace (Z.abs (w - 1 - 0) + 1) with w in * by lia. rewrite Es. f_equal. apply (logic_ext s v w); auto. intros p Hp. rewrite (Qs p Hp). f_equal. lia.
Qed.
Lemma bit_update_read x n v a b c d : 1 <= n -> typed x n false -> tidy x -> 0 <= a < n -> 0 <= b < n ->
  typed v (Z.abs (a - b) + 1) false -> 0 <= c < n -> 0 <= d < n -> (n <= 64 \/ Z.abs (c - d) + 1 <> 65) ->
  exists r, bit_update_r x a b v = Ok r /\ typed r n false /\ tidy r /\
    exists s, bit_slice_c r c d = Ok s /\
    (Z.min a b <= c <= Z.max a b -> Z.min a b <= d <= Z.max a b -> bit_slice_c v (c - Z.min a b) (d - Z.min a b) = Ok s) /\
    (Z.max c d < Z.min a b \/ Z.max a b < Z.min c d -> bit_slice_c x c d = Ok s).
Proof.
  intros Hn T Y Ha Hb Tv Hc Hd W. assert (Hk : 1 <= Z.abs (a - b) + 1) by lia.
  destruct (update_runtime x n false v _ false a b Hn Hk T Tv Ha Hb ltac:(lia)) as (r & E & Tr & Q & Yr).
  specialize (Yr eq_refl Y). exists r. repeat (split; [assumption|]). destruct (slice_const_unsigned r n c d Hn Tr Hc Hd W) as (s & Es & Ts & Ys & Qs).
  assert (H1 : 1 <= Z.abs (c - d) + 1) by lia. exists s. split; [exact Es|]. split.
  - intros Ic Id. destruct (slice_const_unsigned v _ (c - Z.min a b) (d - Z.min a b) Hk Tv ltac:(lia) ltac:(lia) ltac:(lia)) as (t & Et & Tt & Yt & Qt).
    replace (Z.abs (c - Z.min a b - (d - Z.min a b))) with (Z.abs (c - d)) in * by lia. rewrite Et. f_equal. symmetry.
    apply (bit_ext s t _ H1 Ts Tt Ys Yt). intros p Hp. rewrite (Qs p Hp), (Qt p Hp), Q by lia.
    rewrite (proj2 (Z.leb_le (Z.min a b) _)), (proj2 (Z.leb_le _ (Z.max a b))) by lia. cbn [andb]. f_equal. lia.
  - intros O. destruct (slice_const_unsigned x n c d Hn T Hc Hd W) as (t & Et & Tt & Yt & Qt). rewrite Et. f_equal. symmetry.
    apply (bit_ext s t _ H1 Ts Tt Ys Yt). intros p Hp. rewrite (Qs p Hp), (Qt p Hp), Q by lia.
    destruct (Z.leb_spec (Z.min a b) (Z.min c d + p)), (Z.leb_spec (Z.min c d + p) (Z.max a b)); cbn [andb]; reflexivity || lia.
Qed.

(** two writes of different ranges commute; the second write of the same range wins *)
Lemma logic_update_update x n v w a b c d : 1 <= n -> ltyped x n false -> ltidy x -> 0 <= a < n -> 0 <= b < n -> 0 <= c < n -> 0 <= d < n ->
  ltyped v (Z.abs (a - b) + 1) false -> clean v (Z.abs (a - b) + 1) -> ltyped w (Z.abs (c - d) + 1) false -> clean w (Z.abs (c - d) + 1) ->
  exists r s u t, logic_update_r x a b v = Ok r /\ logic_update_r r c d w = Ok s /\ logic_update_r x c d w = Ok u /\ logic_update_r u a b v = Ok t /\
    (Z.max c d < Z.min a b \/ Z.max a b < Z.min c d -> s = t) /\
    (Z.min c d <= Z.min a b -> Z.max a b <= Z.max c d -> s = u).
Proof.
  intros Hn T Y Ha Hb Hc Hd Tv Cv Tw Cw. assert (Hk : 1 <= Z.abs (a - b) + 1) by lia. assert (Hk2 : 1 <= Z.abs (c - d) + 1) by lia.
  destruct (lupdate x n false v _ false a b Hn Hk T Tv Ha Hb) as (r & E & Tr & Yr & Q); [intros q Hq _; now apply Cv|]. specialize (Yr eq_refl Y).
  destruct (lupdate r n false w _ false c d Hn Hk2 Tr Tw Hc Hd) as (s & Es & Ts & Ys & Qs); [intros q Hq _; now apply Cw|]. specialize (Ys eq_refl Yr).
  destruct (lupdate x n false w _ false c d Hn Hk2 T Tw Hc Hd) as (u & Eu & Tu & Yu & Qu); [intros q Hq _; now apply Cw|]. specialize (Yu eq_refl Y).
  destruct (lupdate u n false v _ false a b Hn Hk Tu Tv Ha Hb) as (t & Et & Tt & Yt & Qt); [intros q Hq _; now apply Cv|]. specialize (Yt eq_refl Yu).
  exists r, s, u, t. repeat (split; [assumption|]). split; intros O.
  - apply (logic_ext s t n); auto. intros p Hp. rewrite (Qs p Hp), (Qt p Hp), (Q p Hp), (Qu p Hp).
    destruct (Z.leb_spec (Z.min a b) p), (Z.leb_spec p (Z.max a b)), (Z.leb_spec (Z.min c d) p), (Z.leb_spec p (Z.max c d)); cbn [andb]; reflexivity || lia.
  - intros O2. apply (logic_ext s u n); auto. intros p Hp. rewrite (Qs p Hp), (Q p Hp), (Qu p Hp).
    destruct (Z.leb_spec (Z.min a b) p), (Z.leb_spec p (Z.max a b)), (Z.leb_spec (Z.min c d) p), (Z.leb_spec p (Z.max c d)); cbn [andb]; reflexivity || lia.
Qed.
Lemma bit_update_update x n v w a b c d : 1 <= n -> typed x n false -> tidy x -> 0 <= a < n -> 0 <= b < n -> 0 <= c < n -> 0 <= d < n ->
  typed v (Z.abs (a - b) + 1) false -> typed w (Z.abs (c - d) + 1) false ->
  exists r s u t, bit_update_r x a b v = Ok r /\ bit_update_r r c d w = Ok s /\ bit_update_r x c d w = Ok u /\ bit_update_r u a b v = Ok t /\
    (Z.max c d < Z.min a b \/ Z.max a b < Z.min c d -> s = t) /\
    (Z.min c d <= Z.min a b -> Z.max a b <= Z.max c d -> s = u).
Proof.
  intros Hn T Y Ha Hb Hc Hd Tv Tw. assert (Hk : 1 <= Z.abs (a - b) + 1) by lia. assert (Hk2 : 1 <= Z.abs (c - d) + 1) by lia.
  destruct (update_runtime x n false v _ false a b Hn Hk T Tv Ha Hb ltac:(lia)) as (r & E & Tr & Q & Yr). specialize (Yr eq_refl Y).
  destruct (update_runtime r n false w _ false c d Hn Hk2 Tr Tw Hc Hd ltac:(lia)) as (s & Es & Ts & Qs & Ys). specialize (Ys eq_refl Yr).
  destruct (update_runtime x n false w _ false c d Hn Hk2 T Tw Hc Hd ltac:(lia)) as (u & Eu & Tu & Qu & Yu). specialize (Yu eq_refl Y).
  destruct (update_runtime u n false v _ false a b Hn Hk Tu Tv Ha Hb ltac:(lia)) as (t & Et & Tt & Qt & Yt). specialize (Yt eq_refl Yu).
  exists r, s, u, t. repeat (split; [assumption|]). split; intros O.
  - apply (bit_ext s t n); auto. intros p Hp. rewrite (Qs p Hp), (Qt p Hp), (Q p Hp), (Qu p Hp).
    destruct (Z.leb_spec (Z.min a b) p), (Z.leb_spec p (Z.max a b)), (Z.leb_spec (Z.min c d) p), (Z.leb_spec p (Z.max c d)); cbn [andb]; reflexivity || lia.
  - intros O2. apply (bit_ext s u n); auto. intros p Hp. rewrite (Qs p Hp), (Q p Hp), (Qu p Hp).
    destruct (Z.leb_spec (Z.min a b) p), (Z.leb_spec p (Z.max a b)), (Z.leb_spec (Z.min c d) p), (Z.leb_spec p (Z.max c d)); cbn [andb]; reflexivity || lia.
Qed.

(** * packed structs *)
Lemma field_write_read n x f v : 1 <= n -> ltyped x n false -> ltidy x -> field_ok n f -> ltyped v (f_width f) false -> ltidy v -> clean v (f_width f) ->
  exists r, field_write x (f_hi f) (f_lo f) v = Ok r /\ ltyped r n false /\ ltidy r /\ field_read r (f_hi f) (f_lo f) = Ok v /\
    forall g, field_ok n g -> apart f g -> field_read r (f_hi g) (f_lo g) = field_read x (f_hi g) (f_lo g).
Proof.
  intros Hn T Y (Ho & Hh & Hw) Tv Yv Cv. unfold f_width in *. destruct f as [hi lo]. cbn [f_hi f_lo] in *.
  unfold field_write, field_read. rewrite (lupdate_c x n false hi lo v Hn T Ho Hh).
  assert (A : Z.abs (hi - lo) = hi - lo) by lia. rewrite <- A in Tv, Cv.
  destruct (logic_update_read x n v hi lo hi lo Hn T Y ltac:(lia) ltac:(lia) Tv Cv ltac:(lia) ltac:(lia) ltac:(lia)) as (r & E & Tr & Yr & u & Eu & R & _).
  exists r. repeat (split; [assumption|]). split.
  - rewrite Eu, <- R by lia. replace (hi - Z.min hi lo) with (hi - lo + 1 - 1) by lia. replace (lo - Z.min hi lo) with 0 by lia. rewrite <- A at 1. 
    rewrite A in Tv |- *. apply logic_slice_all; auto; lia.
  - intros [gh gl] (Go & Gh & Gw) Ap. unfold apart, f_width in *. cbn [f_hi f_lo] in *.
    destruct (logic_update_read x n v hi lo gh gl Hn T Y ltac:(lia) ltac:(lia) Tv Cv ltac:(lia) ltac:(lia) ltac:(lia)) as (r' & E' & _ & _ & u' & Eu' & _ & R').
    rewrite E in E'. injection E' as <-. rewrite Eu', R' by lia. reflexivity.
Qed.
Lemma fields_program n fs s ws : 1 <= n -> ltyped s n false -> ltidy s -> Forall (field_ok n) fs ->
  (forall f g, In f fs -> In g fs -> f = g \/ apart f g) -> Forall (write_ok fs) ws ->
  exists r, run_fields s ws = Ok r /\ ltyped r n false /\ ltidy r /\ forall f, In f fs ->
    (forall pre v post, ws = pre ++ (f, v) :: post -> (forall v', ~ In (f, v') post) -> field_read r (f_hi f) (f_lo f) = Ok v) /\
    ((forall v, ~ In (f, v) ws) -> field_read r (f_hi f) (f_lo f) = field_read s (f_hi f) (f_lo f)).
Proof.
  intros Hn T Y Fo Ap V. revert s T Y. induction ws as [|[f v] ws IH]; intros s T Y.
  - exists s. split; [reflexivity|]. repeat (split; [assumption|]). intros f Hf. split; [|reflexivity]. intros [|? ?] ? ? E; discriminate E.
  - apply Forall_cons_iff in V. destruct V as [(Hf & Tv & Yv & Cv) V]. cbn [fst snd] in *. rewrite Forall_forall in Fo.
    destruct (field_write_read n s f v Hn T Y (Fo f Hf) Tv Yv Cv) as (x & E & Tx & Yx & R & O).
    destruct (IH V x Tx Yx) as (r & Er & Tr & Yr & L). exists r. unfold run_fields. cbn [ofold fst snd]. rewrite E. cbn [bind]. split; [exact Er|].
    repeat (split; [assumption|]). intros g Hg. destruct (L g Hg) as [L1 L2]. split.
    + intros pre u post E0 N. destruct pre as [|w pre]; injection E0 as E1 E2.
      * subst f u ws. rewrite L2; [exact R|exact N].
      * intros. apply (L1 pre u post); assumption.
    + intros N. rewrite L2 by (intros u Hu; apply (N u); now right).
      destruct (Ap f g Hf Hg) as [->|A]; [|apply O; auto]. exfalso. apply (N v). now left.
Qed.

(** * [bit::unpack] *)
Lemma bit_unpack_loop l n ts : 1 <= n -> typed l n false -> Forall target ts -> (n <= 64 \/ Forall (fun t => lw t <> 65) ts) ->
  forall base, 0 <= base -> base + total (map lw ts) <= n ->
  exists rs, bit_unpack_ l base ts = Ok rs /\ length rs = length ts /\
    forall pre t post, ts = pre ++ t :: post -> exists r, nth_error rs (length pre) = Some r /\ ltyped r (lw t) (lsgn t) /\ (lsgn t = false -> ltidy r) /\
      forall p, 0 <= p < lw t -> sym_at r p = sym_of_bool (bit_at l (base + total (map lw pre) + p)).
Proof.
  intros Hn T. induction ts as [|t ts IH]; intros F C base Hb Ht.
  - exists []. split; [reflexivity|]. split; [reflexivity|]. intros [|? ?] ? ?; discriminate.
  - inversion F as [|? ? Ft Fs]; subst. cbn [map] in Ht. rewrite total_cons in Ht. pose proof (lw_pos t) as Lt. pose proof (total_nonneg ts) as Ln.
    assert (C' : n <= 64 \/ Forall (fun t => lw t <> 65) ts) by (destruct C as [C|C]; [now left|right; now inversion C]).
    assert (C1 : n <= 64 \/ lw t <> 65) by (destruct C as [C|C]; [now left|right; now inversion C]).
    destruct (IH Fs C' (base + lw t) ltac:(lia) ltac:(lia)) as (rs & E & Len & H).
    cbn [bit_unpack_]. change (lsize t) with (lw t). rewrite (typed_bsize l n false Hn T), (proj2 (Z.ltb_lt base n)) by lia. cbn [requires].
    rewrite (Z.min_r (n - 1)) by lia. assert (W : Z.abs (base - (lw t + base - 1)) + 1 = lw t) by lia.
    destruct (slice_const_unsigned l n base (lw t + base - 1) Hn T ltac:(lia) ltac:(lia) ltac:(lia)) as (v & Ev & Tv & Dv & Bv).
    rewrite W in Tv, Bv. rewrite Ev. cbn [bind].
    destruct (assign_typed _ _ _ _ _ Lt (proj1 Ft) Tv) as (v' & Ev' & Tv' & Nv').
    rewrite Ev', E. cbn [bind]. eexists. split; [reflexivity|]. split; [cbn; now rewrite Len|].
    assert (Z0 : typed (bit_clear (l_xz t)) (lw t) false /\ tidy (bit_clear (l_xz t)) /\ num (bit_clear (l_xz t)) = 0).
    { unfold bit_clear. pose proof (proj2 Ft) as (Vt & [P1 P2] & S). pose proof (ltyped_lt t (lw t) _ Lt Ft) as Lm. rewrite P1, P2, S.
      destruct (zero_vec (lw t - 1) 0 false) as (A & B1 & B2 & B3 & _ & B4 & B5); [unfold int_ok; lia..|unfold width; lia|].
      exact (conj (conj A (conj (conj B1 B2) B3)) (conj B5 B4)). }
    destruct Z0 as (Z1 & Z2 & Z3).
    intros [|t0 pre] t1 post Eq; cbn in Eq; injection Eq as <- Eq.
    + eexists. split; [reflexivity|]. split; [split; assumption|].
      split. { intros U. pose proof (proj1 Ft) as Ft1. rewrite U in Ft1. split; [exact (assign_tidy _ _ _ _ Lt Ft1 Tv Dv Ev')|exact Z2]. }
      change (total (map lw [])) with 0. intros p Hp. unfold sym_at. cbn [l_val l_xz].
      rewrite (bit_at_num _ _ Nv'), Bv by exact Hp. rewrite Z.min_l by lia. rewrite (known_num0 _ Z3), sym_of_known. now rewrite Z.add_0_r.
    + destruct (H pre t1 post Eq) as (r & R1 & R2 & R2' & R3). exists r. split; [exact R1|]. split; [exact R2|]. split; [exact R2'|]. intros p Hp. rewrite R3 by exact Hp.
      do 2 f_equal. cbn [map]. rewrite total_cons. lia.
Qed.
Lemma bunpack l n ts : 1 <= n -> typed l n false -> (2 <= length ts)%nat -> Forall target ts -> (n <= 64 \/ Forall (fun t => lw t <> 65) ts) ->
  total (map lw ts) <= n ->
  exists rs, bit_unpack l ts = Ok rs /\ length rs = length ts /\
    forall pre t post, ts = pre ++ t :: post -> exists r, nth_error rs (length pre) = Some r /\ ltyped r (lw t) (lsgn t) /\ (lsgn t = false -> ltidy r) /\
      forall p, 0 <= p < lw t -> sym_at r p = sym_of_bool (bit_at l (total (map lw post) + p)).
Proof.
  intros Hn T L2 F C Ht. unfold bit_unpack. rewrite (proj2 (Z.leb_le 2 _)) by lia. cbn [requires]. pose proof T as (_ & [P1 P2] & _). rewrite P1, P2.
  assert (big_endian (n - 1) 0 = true) as -> by (unfold big_endian; apply Z.leb_le; lia).
  destruct (bit_unpack_loop l n (rev ts) Hn T) with (base := 0) as (rs & E & Len & H).
  - rewrite Forall_forall in *. intros x Hx. apply F. now apply in_rev.
  - destruct C as [C|C]; [now left|right]. rewrite Forall_forall in *. intros x Hx. apply C. now apply in_rev.
  - lia.
  - rewrite map_rev, total_rev. lia.
  - rewrite E. cbn [bind]. exists (rev rs). split; [reflexivity|]. rewrite rev_length in *. split; [exact Len|]. intros pre t post Eq.
    destruct (H (rev post) t (rev pre)) as (r & R1 & R2 & R2' & R3). { rewrite Eq, rev_app_distr. cbn. now rewrite <- app_assoc. }
    exists r. split; [|split; [exact R2|split; [exact R2'|]]].
    + rewrite rev_length in R1. rewrite nth_error_rev by (rewrite Len, Eq, app_length; cbn; lia). rewrite <- R1. f_equal. rewrite Len, Eq, app_length. cbn. lia.
    + intros p Hp. rewrite R3 by exact Hp. now rewrite map_rev, total_rev.
Qed.
Lemma bunpack_rejected l ts : (length ts < 2)%nat -> bit_unpack l ts = IllFormed.
Proof. intros H. unfold bit_unpack. rewrite (proj2 (Z.leb_gt 2 _)) by lia. reflexivity. Qed.

(** * concatenation of any number of vectors *)
Lemma logic_concat_many args : forall a na, 1 <= na -> ltyped a na false -> ltidy a ->
  Forall (fun t => ltyped t (lw t) false /\ ltidy t) args ->
  na + total (map lw args) < 64 -> (na + total (map lw args) <= 32 \/ 33 <= na) ->
  exists r, logic_concat_all a args = Ok r /\ ltyped r (na + total (map lw args)) false /\ ltidy r /\
    forall pre t post, a :: args = pre ++ t :: post -> forall p, 0 <= p < lw t -> sym_at r (total (map lw post) + p) = sym_at t p.
Proof.
  induction args as [|b args IH]; intros a na Ha Ta Ya F L C.
  - exists a. change (total (map lw [])) with 0. rewrite Z.add_0_r. split; [reflexivity|]. repeat (split; [assumption|]).
    intros [|x pre] t post E p Hp; [injection E as <- <-; reflexivity|]. destruct pre; discriminate.
  - apply Forall_cons_iff in F. destruct F as [[Tb Yb] F]. cbn [map] in *. rewrite total_cons in *. pose proof (lw_pos b) as Lb. pose proof (total_nonneg args) as Ln.
    destruct (lconcat a b na (lw b) Ha Lb ltac:(lia) ltac:(lia) Ta Tb Ya Yb) as (c & E & Tc & Yc & Q).
    assert (Hc : 1 <= na + lw b) by lia. destruct (IH c (na + lw b) Hc Tc Yc F ltac:(lia) ltac:(lia)) as (r & Er & Tr & Yr & R).
    exists r. unfold logic_concat_all in *. cbn [ofold]. rewrite E. cbn [bind]. split; [exact Er|]. rewrite Z.add_assoc. repeat (split; [assumption|]).
    pose proof (ltyped_lw _ _ _ Ha Ta) as Wa. pose proof (ltyped_lw _ _ _ Hc Tc) as Wc.
    intros [|x pre] t post E0 p Hp; injection E0 as -> E1.
    + subst post. rewrite Wa in Hp. cbn [map]. rewrite total_cons.
      replace (lw b + total (map lw args) + p) with (total (map lw args) + (lw b + p)) by lia.
      rewrite (R [] c args eq_refl) by lia. rewrite Q by lia. rewrite (proj2 (Z.ltb_ge _ _)) by lia. f_equal. lia.
    + destruct pre as [|y pre]; injection E1 as -> E2.
      * subst post. rewrite (R [] c args eq_refl) by lia. rewrite Q by lia. now rewrite (proj2 (Z.ltb_lt _ _)) by lia.
      * apply (R (c :: pre) t post); [now rewrite E2|exact Hp].
Qed.
Lemma bit_concat_many args : forall a na, 1 <= na -> typed a na false -> tidy a ->
  Forall (fun t => typed t (bw t) false /\ tidy t) args ->
  na + total (map bw args) < 64 -> (na + total (map bw args) <= 32 \/ 33 <= na) ->
  exists r, bit_concat_all a args = Ok r /\ typed r (na + total (map bw args)) false /\ tidy r /\
    num r = fold_left (fun z t => z * 2 ^ bw t + num t) args (num a).
Proof.
  induction args as [|b args IH]; intros a na Ha Ta Ya F L C.
  - exists a. change (total (map bw [])) with 0. rewrite Z.add_0_r. split; [reflexivity|]. auto.
  - apply Forall_cons_iff in F. destruct F as [[Tb Yb] F]. cbn [map] in *. rewrite total_cons in *. pose proof (bw_pos b) as Lb.
    assert (Ln : 0 <= total (map bw args)). { clear. induction args as [|t ts IH]; [cbn; lia|]. cbn [map]. rewrite total_cons. pose proof (bw_pos t). lia. }
    destruct (concat_num a b na (bw b) Ha Lb ltac:(lia) ltac:(lia) Ta Tb Ya Yb) as (c & E & Tc & Q & Yc).
    assert (Hc : 1 <= na + bw b) by lia. destruct (IH c (na + bw b) Hc Tc Yc F ltac:(lia) ltac:(lia)) as (r & Er & Tr & Yr & R).
    exists r. unfold bit_concat_all in *. cbn [ofold fold_left]. rewrite E. cbn [bind]. split; [exact Er|]. rewrite Z.add_assoc. repeat (split; [assumption|]).
    rewrite R, Q. reflexivity.
Qed.

(** * references to slices *)
Lemma slice_ref_forms x n s v a b k base (up : bool) : 1 <= n -> ltyped x n s ->
  logic_slice_ref_r x a b v = logic_update_r x a b v /\
  (0 <= b <= a -> a < n -> logic_slice_ref_c x a b v = logic_update_r x a b v) /\
  (n <= Z.max a b -> logic_slice_ref_c x a b v = IllFormed) /\
  (0 <= base < n -> logic_slice_ref_idx x k up base v = logic_update_r x base (if up then base + k - 1 else base - k + 1) v).
Proof.
  intros Hn T. pose proof (ltyped_lt x n s Hn T). split; [reflexivity|]. unfold logic_slice_ref_c. rewrite (ltyped_lsize x n s Hn T). split; [|split].
  - intros H1 H2. rewrite (proj2 (Z.ltb_lt _ _)) by lia. cbn [requires]. now apply (lupdate_c x n s).
  - intros H1. now rewrite (proj2 (Z.ltb_ge _ _)) by lia.
  - intros H1. unfold logic_slice_ref_idx, logic_slice_ref_r. rewrite i32_id by lia. destruct up; f_equal; lia.
Qed.
Lemma bit_slice_ref_forms x n s v a b k base (up : bool) : 1 <= n -> typed x n s ->
  bit_slice_ref_r x a b v = bit_update_r x a b v /\
  (Z.max a b < n -> bit_slice_ref_c x a b v = bit_update_c x a b v) /\
  (n <= Z.max a b -> bit_slice_ref_c x a b v = IllFormed) /\
  (0 <= base < n -> bit_slice_ref_idx x k up base v = bit_update_r x base (if up then base + k - 1 else base - k + 1) v).
Proof.
  intros Hn T. pose proof (typed_lt x n s Hn T). split; [reflexivity|]. unfold bit_slice_ref_c. rewrite (typed_bsize x n s Hn T). split; [|split].
  - intros H1. now rewrite (proj2 (Z.ltb_lt _ _)) by lia.
  - intros H1. now rewrite (proj2 (Z.ltb_ge _ _)) by lia.
  - intros H1. unfold bit_slice_ref_idx, bit_slice_ref_r. rewrite i32_id by lia. destruct up; f_equal; lia.
Qed.

(** * mixed operators that do not compile, case equality, logical not *)
Lemma op_bit_rejected op a b : logic_op_bit op a b = IllFormed.
Proof.
  unfold logic_op_bit, requires, logic_of_bit. destruct (Z.eqb_spec (bsize b) (lsize a)) as [|N]; [reflexivity|]. cbn [negb].
  destruct (Z.eqb_spec (bmsb b) (lmsb a)) as [E1|]; [|reflexivity]. destruct (Z.eqb_spec (blsb b) (llsb a)) as [E2|]; [|reflexivity].
  exfalso. apply N. unfold lsize, bsize. unfold lmsb, llsb in *. congruence.
Qed.
Lemma lnot_bit b : vec b -> tidy b -> bw b <= 64 \/ visible (num b) -> bit_lnot b = (num b =? 0).
Proof. intros V T C. unfold bit_lnot. rewrite any_set_iff by assumption. apply negb_involutive. Qed.
Lemma match_bit a b : vec a -> vec b -> eq_ok a b -> bit_match a b = Ok (value a =? value b) /\ bit_nmatch a b = Ok (negb (value a =? value b)).
Proof. intros Va Vb E. unfold bit_match, bit_nmatch, bit_match. rewrite (equality a b Va Vb E). auto. Qed.

(** * defaults, unions, 2-state structs *)
Lemma struct_default n hi lo : 1 <= n < 2 ^ 31 -> 0 <= lo <= hi -> hi < n -> n <= 64 \/ hi - lo + 1 <> 65 ->
  exists r, field_read (packed_default4 n) hi lo = Ok r /\ ltyped r (hi - lo + 1) false /\ forall p, 0 <= p < hi - lo + 1 -> sym_at r p = SX.
Proof.
  intros Hn Hl Hh W. assert (H1 : 1 <= n) by lia. destruct (default_typed n false Hn) as (T & X & Y). unfold field_read, packed_default4.
  destruct (lslice_c _ n hi lo H1 T ltac:(lia) ltac:(lia) ltac:(lia)) as (r & E & Tr & _ & Q). replace (Z.abs (hi - lo)) with (hi - lo) in * by lia.
  exists r. split; [exact E|]. split; [exact Tr|]. intros p Hp. rewrite (Q p Hp). apply X. rewrite (ltyped_lw _ _ _ H1 T). lia.
Qed.
Lemma union_members n x w w' v : 1 <= w' <= w -> w <= n -> ltyped x n false -> ltidy x -> ltyped v w false -> ltidy v -> clean v w -> w' <> 65 ->
  exists r u, field_write x (w - 1) 0 v = Ok r /\ ltyped r n false /\ field_read r (w' - 1) 0 = Ok u /\ field_read v (w' - 1) 0 = Ok u.
Proof.
  intros Hw Hn T Y Tv Yv Cv N. assert (H1 : 1 <= n) by lia. unfold field_write, field_read.
  rewrite (lupdate_c x n false (w - 1) 0 v H1 T ltac:(lia) ltac:(lia)). assert (A : Z.abs (w - 1 - 0) + 1 = w) by lia.
  destruct (logic_update_read x n v (w - 1) 0 (w' - 1) 0 H1 T Y ltac:(lia) ltac:(lia)) as (r & E & Tr & _ & u & Eu & R & _); rewrite ?A; auto; try lia.
  exists r, u. split; [exact E|]. split; [exact Tr|]. split; [exact Eu|]. rewrite <- R by lia. f_equal; lia.
Qed.
Lemma struct2_counter : exists s v r w, typed s 8 false /\ tidy s /\ typed v 4 false /\ tidy v /\
  field_write2 s 7 4 v = Ok r /\ field_read2 r 7 4 = Ok w /\ num v = 5 /\ num w <> 5.
Proof. exists (bit_zero 7 0 false), (bit_of_native 3 0 false 5), (bit_zero 7 0 false), (bit_zero 3 0 false). conc. Qed.
