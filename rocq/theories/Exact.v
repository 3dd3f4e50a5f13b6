(** Exact behaviour of the 2-state operations outside the cases in which they are right: part selects,
    extension, concatenation, shifts. *)
From Coq Require Import ZArith List Bool Lia Zify ZifyBool.
From Verif Require Import Cpp BigNum Bit Logic Spec ZBits Words BigNumProofs BigArith BitProofs BitSlice BitExt BitOps BitShift BitArith BitMain BitMain2.
Import ListNotations.
Open Scope Z_scope.

(** * Part selects of signed vectors *)
Lemma slice_top_ub x n a b : n = 8 \/ n = 16 \/ n = 32 \/ n = 64 -> typed x n true -> 0 <= a < n -> 0 <= b < n -> Z.max a b = n - 1 ->
  bit_slice_c x a b = UB.
Proof.
  intros Hn T Ha Hb M. assert (B : 1 <= n <= 64) by lia. destruct (typed_cases x n true ltac:(lia) T) as [(v & -> & N & I) | (ws & -> & N & I)]; [|lia].
  unfold bit_slice_c, requires, bsize, vsize. cbn [bmsb blsb bsgn bval]. replace (Z.abs (n - 1 - 0) + 1) with n by lia.
  replace ((Z.max a b <? n) && (0 <=? b)) with true by lia. unfold native_slice_c, vsize. replace (Z.abs (n - 1 - 0) + 1) with n by lia.
  replace (Z.min (n - 1) 0) with 0 by lia. rewrite !Z.sub_0_r. replace (n =? 1) with false by lia. rewrite andb_false_r. cbv zeta.
  assert (S : c_shr (hty n false) (cmax (hty n false)) (u64 (szbits (hty n true) - Z.max a b - 2)) = UB).
  { rewrite M. destruct Hn as [-> | [-> | [-> | ->]]]; vm_compute; reflexivity. }
  rewrite S. assert (Q : exists m, c_shl (hty n false) (cmax (hty n false)) (Z.min a b) = Ok m).
  { unfold c_shl. cbv zeta. replace ((0 <=? Z.min a b) && (Z.min a b <? iwidth (promote (hty n false)))) with true; [eexists; reflexivity|].
    symmetry. pose proof (promote_width (hty n false)). pose proof (hty_width n false ltac:(lia)). lia. }
  destruct Q as (m & ->). reflexivity.
Qed.

Lemma slice_one_exact x n p : 2 <= n <= 64 -> typed x n true -> 0 <= p < n -> p + 2 <= iwidth (hty n true) ->
  exists r, bit_slice_c x p p = Ok r /\ typed r 1 false /\ num r = Z.b2z (Z.testbit (stored x) p || Z.testbit (stored x) (p + 1)).
Proof.
  intros Hn T Hp Hw. destruct (typed_cases x n true ltac:(lia) T) as [(v & -> & N & I) | (ws & -> & N & I)]; [|lia].
  unfold bit_slice_c, requires, bsize, vsize. cbn [bmsb blsb bsgn bval]. replace (Z.abs (n - 1 - 0) + 1) with n by lia.
  replace ((Z.max p p <? n) && (0 <=? p)) with true by lia. unfold native_slice_c, vsize. replace (Z.abs (n - 1 - 0) + 1) with n by lia.
  replace (Z.min (n - 1) 0) with 0 by lia. rewrite !Z.sub_0_r. replace (n =? 1) with false by lia. rewrite andb_false_r. cbv zeta.
  rewrite Z.max_id, Z.min_id, Z.sub_diag. change (Z.abs 0 + 1) with 1. change (Z.abs 0) with 0. unfold stored. cbn [bval].
  assert (Nb : hty n true <> TBool) by (apply hty_nb; lia). pose proof (iwidth_pos (hty n true)) as Hi.
  rewrite (szbits_nb _ Nb), u64_id by lia. set (w := iwidth (hty n true)) in *.
  destruct (slice_core n true v p (w - p - 2) ltac:(lia) I ltac:(fold w; lia) ltac:(fold w; lia)) as (m1 & m2 & r & E1 & E2 & E3 & B1 & _).
  rewrite E1. cbn [bind]. rewrite E2. cbn [bind]. rewrite E3. cbn [bind]. fold w in B1.
  assert (Zr : r = 0 <-> Z.testbit v p || Z.testbit v (p + 1) = false).
  { split; intros Hz.
    - rewrite Hz in B1. pose proof (B1 0 ltac:(lia) ltac:(lia)) as Q0. pose proof (B1 1 ltac:(lia) ltac:(lia)) as Q1. rewrite Z.bits_0 in *.
      replace (0 + p <? w - (w - p - 2)) with true in Q0 by lia. replace (1 + p <? w - (w - p - 2)) with true in Q1 by lia. cbn [andb] in *.
      rewrite Z.add_0_l in Q0. rewrite (Z.add_comm p 1), <- Q0, <- Q1. reflexivity.
    - apply orb_false_iff in Hz. destruct Hz as [H0 H1]. apply Z.bits_inj_0. intros q.
      destruct (Z.ltb_spec q 0); [now apply Z.testbit_neg_r|].
      assert (Sg : - 2 ^ (w - 1) <= v < 2 ^ (w - 1)). { apply in_ity_range in I. rewrite hty_signed in I by lia. exact I. }
      destruct (Z.ltb_spec (q + p) w).
      + rewrite B1 by lia. destruct (Z.ltb_spec (q + p) (w - (w - p - 2))); [|reflexivity]. cbn [andb].
        assert (q = 0 \/ q = 1) as [-> | ->] by lia; [rewrite Z.add_0_l; exact H0 | rewrite Z.add_comm; exact H1].
      + unfold c_shr in E3. cbv zeta in E3. destruct ((0 <=? p) && _) in E3; [|discriminate]. injection E3 as <-.
        rewrite Z.shiftr_spec by lia. set (M := conv (hty n true) _) in *.
        assert (Iand : c_and (hty n true) (hty n true) v M = Z.land v M).
        { unfold c_and. rewrite uac_same. cbn zeta. rewrite !conv_promote by (try apply conv_in_ity; exact I). reflexivity. }
        rewrite Iand.
        assert (SM : - 2 ^ (w - 1) <= M < 2 ^ (w - 1)). { pose proof (conv_in_ity (hty n true) (Z.land (u64 m1) (u64 m2))) as J. fold M in J. apply in_ity_range in J. rewrite hty_signed in J by lia. exact J. }
        rewrite (sign_bits w (Z.land v M)) by (try apply land_range_s; lia). rewrite <- (sign_bits w (Z.land v M) (w - 1)) by (try apply land_range_s; lia).
        specialize (B1 (w - 1 - p) ltac:(lia) ltac:(lia)). rewrite Iand, Z.shiftr_spec in B1 by lia. replace (w - 1 - p + p) with (w - 1) in B1 by lia. rewrite B1.
        destruct (Z.ltb_spec (w - 1) (w - (w - p - 2))); [|reflexivity]. cbn [andb]. replace (w - 1) with (p + 1) by lia. exact H1. }
  eexists. split; [reflexivity|]. split.
  { replace (mkBit 0 0 false (HN (conv (hty 1 false) r))) with (nat_bit (1 - 1) 0 false r) by reflexivity. apply typed_nat. lia. }
  unfold num, stored, bw, width. cbn [bval bmsb blsb]. change (hty 1 false) with TBool. cbn [conv].
  destruct (Z.testbit v p || Z.testbit v (p + 1)) eqn:Q.
  - replace (r =? 0) with false; [reflexivity|]. symmetry. apply Z.eqb_neq. intros Hr. apply Zr in Hr. congruence.
  - rewrite (proj2 Zr eq_refl). reflexivity.
Qed.

Lemma slice_single x s : typed x 1 s -> exists r, bit_slice_c x 0 0 = Ok r /\ typed r 1 false /\ num r = num x.
Proof.
  intros T. destruct (typed_cases x 1 s ltac:(lia) T) as [(v & -> & N & I) | (ws & -> & N & I)]; [|lia].
  change (hty 1 s) with TBool in I. apply in_bool in I.
  exists (nat_bit (1 - 1) 0 false v). destruct I as [-> | ->]; (split; [reflexivity|]); (split; [apply typed_nat; lia | reflexivity]).
Qed.
Lemma slice_signed_65 x n a b : 65 <= n -> typed x n true -> 0 <= a < n -> 0 <= b < n -> Z.abs (a - b) + 1 = 65 -> bit_slice_c x a b = IllFormed.
Proof.
  intros Hn T Ha Hb H. destruct (typed_cases x n true ltac:(lia) T) as [(v & -> & N & I) | (ws & -> & N & I)]; [lia|].
  unfold bit_slice_c, requires, bsize, vsize. cbn [bmsb blsb bsgn bval]. replace (Z.abs (n - 1 - 0) + 1) with n by lia.
  replace ((Z.max a b <? n) && (0 <=? b)) with true by lia. replace (0 <=? Z.min a b) with true by lia.
  destruct (bn_slice_c_spec n ws a b ltac:(lia) I Ha Hb) as (r & -> & _). cbn [bind].
  unfold native_num. replace (Z.abs (a - b) <=? 64) with true by lia. replace (Z.abs (a - b) + 1 <=? 64) with false by lia. reflexivity.
Qed.
(** run-time select of a one-bit vector: always 0 *)
Lemma slice_runtime_single x s : typed x 1 s -> exists r, bit_slice_r x 1 0 0 = Ok r /\ typed r 1 false /\ num r = 0.
Proof.
  intros T. destruct (typed_cases x 1 s ltac:(lia) T) as [(v & -> & N & I) | (ws & -> & N & I)]; [|lia].
  change (hty 1 s) with TBool in I. apply in_bool in I.
  exists (nat_bit (1 - 1) 0 false 0). destruct I as [-> | ->], s; (split; [reflexivity|]); (split; [apply typed_nat; lia | reflexivity]).
Qed.

(** * Extension of one-bit signed vectors: with zeros *)
Lemma extend_single x m : 1 <= m < 2 ^ 31 -> typed x 1 true -> exists r, bit_extend x m = Ok r /\ typed r m true /\ num r = num x.
Proof.
  intros Hm T. destruct (Z.eq_dec m 1) as [-> | Nm]. { exists x. split; [now apply (bit_extend_same x 1 true)|]. auto. }
  destruct (typed_cases x 1 true ltac:(lia) T) as [(v & -> & N & I) | (ws & -> & N & I)]; [|lia].
  change (hty 1 true) with TBool in I. apply in_bool in I. assert (Hv : 0 <= v < 2) by lia. clear I.
  unfold bit_extend. replace (bsize (mkBit (1 - 1) 0 true (HN v))) with 1 by reflexivity. replace (1 <? m) with true by lia. cbn [bval bsgn].
  rewrite (num_plain_nat 1 true v) by lia. rewrite (Z.mod_small v) by (change (2 ^ 1) with 2; lia).
  assert (P : 2 <= 2 ^ m) by (change 2 with (2 ^ 1) at 1; apply pow2_mono; lia).
  unfold native_num. destruct (Z.leb_spec m 64).
  - eexists. split; [reflexivity|]. unfold bit_of_native. replace (vsize (m - 1) 0) with m by (unfold vsize; lia). rewrite nat_bit_eq by lia.
    split; [apply typed_nat; lia|]. rewrite nat_bit_num, width_plain by (rewrite ?width_plain; lia). apply Z.mod_small. lia.
  - eexists. split; [reflexivity|]. replace (v <? 0) with false by lia. rewrite andb_false_r.
    fold (bn_of_native m v). destruct (bn_of_native_spec m v ltac:(lia)) as [W2 E2]. split; [apply typed_big; (assumption || lia)|].
    rewrite num_plain_big, E2, u64_id by lia. apply Z.mod_small. lia.
Qed.

(** * Concatenation *)
Lemma concat_gen a b na nb sa sb : 1 <= na -> 1 <= nb -> na + nb < 64 -> typed a na sa -> typed b nb sb ->
  let pt := promote (hty na sa) in let T := uac (hty na sa) (hty nb sb) in
  (nb < iwidth pt -> exists r, bit_concat a b = Ok r /\ typed r (na + nb) false /\
     num r = Z.lor (conv T (conv pt (stored a * 2 ^ nb))) (conv T (stored b)) mod 2 ^ (na + nb)) /\
  (iwidth pt <= nb -> bit_concat a b = UB).
Proof.
  intros Ha Hb F Ta Tb pt T.
  destruct (typed_cases a na sa ltac:(lia) Ta) as [(va & -> & N & I) | (ws & -> & N & I)]; [|lia].
  destruct (typed_cases b nb sb ltac:(lia) Tb) as [(vb & -> & N' & I') | (ws & -> & N' & I')]; [|lia].
  unfold stored, bit_concat, bsize, vsize. cbn [bmsb blsb bval bsgn].
  replace (Z.abs (na - 1 - 0) + 1) with na by lia. replace (Z.abs (nb - 1 - 0) + 1) with nb by lia.
  replace (na + nb <? 64) with true by lia. unfold c_shl. fold pt. cbv zeta. split; intros L.
  - replace ((0 <=? nb) && (nb <? iwidth pt)) with true by lia. cbn [bind]. eexists. split; [reflexivity|].
    unfold bit_of_native. replace (vsize (na + nb - 1) 0) with (na + nb) by (unfold vsize; lia). rewrite nat_bit_eq by lia.
    split; [apply typed_nat; lia|]. rewrite nat_bit_num, width_plain by (rewrite ?width_plain; lia).
    unfold c_or. unfold pt at 1 3. rewrite uac_promote_l. fold T. cbv zeta. rewrite Z.shiftl_mul_pow2 by lia. reflexivity.
  - replace ((0 <=? nb) && (nb <? iwidth pt)) with false by lia. reflexivity.
Qed.

Lemma lor_low z v k : 0 <= k -> 0 <= v < 2 ^ k -> Z.lor (z * 2 ^ k) v = z * 2 ^ k + v.
Proof.
  intros Hk Hv. apply lor_disjoint_add. apply Z.bits_inj'. intros p Hp. rewrite Z.land_spec, Z.bits_0.
  rewrite <- Z.shiftl_mul_pow2, Z.shiftl_spec by lia.
  destruct (Z.ltb_spec p k); [rewrite Z.testbit_neg_r by lia; reflexivity|].
  rewrite (testbit_small v k) by lia. apply andb_false_r.
Qed.
Lemma lor_neg z v k : 0 <= k -> - 2 ^ k <= v < 0 -> Z.lor (z * 2 ^ k) v = v.
Proof.
  intros Hk Hv. apply Z.bits_inj'. intros p Hp. rewrite Z.lor_spec, <- Z.shiftl_mul_pow2, Z.shiftl_spec by lia.
  destruct (Z.ltb_spec p k); [rewrite Z.testbit_neg_r by lia; reflexivity|].
  assert (H1 : Z.testbit (Z.lnot v) p = false) by (apply (testbit_small _ k); unfold Z.lnot; lia).
  rewrite Z.lnot_spec in H1 by lia. apply negb_false_iff in H1. rewrite H1. apply orb_true_r.
Qed.
Lemma concat_mod z nz v k : 0 <= k -> 0 <= nz -> 0 <= v < 2 ^ k -> (z * 2 ^ k + v) mod 2 ^ (nz + k) = (z mod 2 ^ nz) * 2 ^ k + v.
Proof.
  intros Hk Hn Hv. pose proof (pow2_pos k Hk). pose proof (pow2_pos nz Hn). rewrite pow2_split by lia.
  rewrite (Z.div_mod z (2 ^ nz)) at 1 by lia. pose proof (Z.mod_pos_bound z (2 ^ nz) ltac:(lia)).
  replace ((2 ^ nz * (z / 2 ^ nz) + z mod 2 ^ nz) * 2 ^ k + v) with ((z mod 2 ^ nz * 2 ^ k + v) + (z / 2 ^ nz) * (2 ^ nz * 2 ^ k)) by ring.
  rewrite Z_mod_plus_full. apply Z.mod_small. nia.
Qed.

(** the left operand may be signed and untidy, the right one signed but not negative *)
Lemma concat_right a b na nb sa sb : 1 <= na -> 1 <= nb -> na + nb < 64 -> (na + nb <= 32 \/ 33 <= na) ->
  typed a na sa -> typed b nb sb -> tidy b -> 0 <= stored b ->
  exists r, bit_concat a b = Ok r /\ typed r (na + nb) false /\ num r = num a * 2 ^ nb + num b.
Proof.
  intros Ha Hb F D Ta Tb Ti Nn. destruct (concat_gen a b na nb sa sb Ha Hb F Ta Tb) as [G _].
  assert (W : na + nb <= iwidth (promote (hty na sa))).
  { destruct D; [pose proof (promote_32 (hty na sa)); lia|]. unfold hty. replace (na <=? 1) with false by lia. replace (na <=? 8) with false by lia.
    replace (na <=? 16) with false by lia. replace (na <=? 32) with false by lia. destruct sa; cbn; lia. }
  destruct (G ltac:(lia)) as (r & E & Tr & Q). exists r. split; [exact E|]. split; [exact Tr|]. rewrite Q. clear G Q E.
  set (pt := promote (hty na sa)) in *. set (T := uac (hty na sa) (hty nb sb)).
  assert (WT : iwidth pt <= iwidth T). { unfold T. rewrite <- (uac_promote_l (hty na sa)). apply uac_width. }
  pose proof (iwidth_pos T). assert (Hvb : 0 <= stored b < 2 ^ nb).
  { split; [exact Nn|]. unfold tidy in Ti. rewrite (typed_bw b nb sb ltac:(lia) Tb) in Ti.
    destruct (typed_cases b nb sb ltac:(lia) Tb) as [(vb & -> & N' & I') | (ws & -> & N' & I')]; [|lia]. unfold stored in *. cbn [bval bsgn] in *.
    pose proof (pow2_mono (nb - 1) nb ltac:(lia)). destruct (sb && (1 <? nb)); lia. }
  rewrite lor_mod_pow2 by lia. rewrite (conv_mod T) by (try apply uac_nb; lia). rewrite (conv_mod pt) by (try apply promote_nb; lia).
  rewrite (conv_mod T) by (try apply uac_nb; lia). rewrite <- lor_mod_pow2 by lia. rewrite lor_low by lia. rewrite concat_mod by lia.
  unfold num. rewrite (typed_bw a na sa ltac:(lia) Ta), (typed_bw b nb sb ltac:(lia) Tb). now rewrite (Z.mod_small (stored b)) by lia.
Qed.

(** a negative right operand erases the left one *)
Lemma concat_negative a b na nb sa : 1 <= na -> 2 <= nb -> na + nb < 64 -> (na + nb <= 32 \/ 33 <= na) ->
  typed a na sa -> typed b nb true -> tidy b -> value b < 0 ->
  exists r, bit_concat a b = Ok r /\ typed r (na + nb) false /\ num r = value b mod 2 ^ (na + nb).
Proof.
  intros Ha Hb F D Ta Tb Ti Nn. destruct (concat_gen a b na nb sa true Ha ltac:(lia) F Ta Tb) as [G _].
  assert (W : na + nb <= iwidth (promote (hty na sa))).
  { destruct D; [pose proof (promote_32 (hty na sa)); lia|]. unfold hty. replace (na <=? 1) with false by lia. replace (na <=? 8) with false by lia.
    replace (na <=? 16) with false by lia. replace (na <=? 32) with false by lia. destruct sa; cbn; lia. }
  destruct (G ltac:(lia)) as (r & E & Tr & Q). exists r. split; [exact E|]. split; [exact Tr|]. rewrite Q. clear G Q E.
  set (pt := promote (hty na sa)) in *. set (T := uac (hty na sa) (hty nb true)).
  assert (WT : iwidth pt <= iwidth T). { unfold T. rewrite <- (uac_promote_l (hty na sa)). apply uac_width. }
  pose proof (iwidth_pos T). assert (Sv : stored b = value b).
  { rewrite (tidy_snum b nb) by (auto; lia). unfold value. now rewrite (proj2 (proj2 Tb)). }
  assert (R : - 2 ^ nb <= value b < 0).
  { split; [|exact Nn]. unfold value. rewrite (proj2 (proj2 Tb)). pose proof (num_range b) as R. unfold snum, twos.
    rewrite (typed_bw b nb true ltac:(lia) Tb) in *. destruct (Z.testbit (num b) (nb - 1)); lia. }
  rewrite lor_mod_pow2 by lia. rewrite (conv_mod T) by (try apply uac_nb; lia). rewrite (conv_mod pt) by (try apply promote_nb; lia).
  rewrite (conv_mod T) by (try apply uac_nb; lia). rewrite <- lor_mod_pow2 by lia. rewrite Sv, lor_neg by lia. reflexivity.
Qed.

(** a left operand of at most 32 bits and a total of more: what exceeds 32 bits is lost *)
Lemma concat_wide a b na nb : 1 <= na <= 32 -> 1 <= nb -> 33 <= na + nb < 64 -> typed a na false -> typed b nb false -> tidy b ->
  (nb <= 31 -> exists r, bit_concat a b = Ok r /\ typed r (na + nb) false /\ num r = (num a * 2 ^ nb) mod 2 ^ 32 + num b) /\
  (32 <= nb -> bit_concat a b = UB).
Proof.
  intros Ha Hb F Ta Tb Ti. destruct (concat_gen a b na nb false false ltac:(lia) Hb ltac:(lia) Ta Tb) as [G1 G2].
  assert (W : iwidth (promote (hty na false)) = 32) by (hty_cases na; reflexivity || lia). rewrite W in *.
  split; [|exact G2]. intros L. destruct (G1 ltac:(lia)) as (r & E & Tr & Q). exists r. split; [exact E|]. split; [exact Tr|]. rewrite Q. clear G1 G2 Q E.
  assert (ET : uac (hty na false) (hty nb false) = TU32).
  { hty_cases na; hty_cases nb; try reflexivity; lia. }
  rewrite ET. cbv zeta.
  rewrite (num_of_tidy b Ti (proj2 (proj2 Tb))). apply (tidy_u_iff b nb ltac:(lia) Tb) in Ti.
  pose proof (pow2_mono nb 32 ltac:(lia)) as P1. change (conv TU32) with (fun z => z mod 2 ^ 32). cbv beta.
  rewrite (Z.mod_small (stored b) (2 ^ 32)) by lia.
  rewrite conv_mod by (try apply promote_nb; lia). set (z := stored a * 2 ^ nb).
  assert (Z1 : z mod 2 ^ 32 = (stored a mod 2 ^ (32 - nb)) * 2 ^ nb).
  { unfold z. replace (stored a * 2 ^ nb) with (stored a * 2 ^ nb + 0) by lia. replace 32 with ((32 - nb) + nb) at 1 by lia.
    rewrite concat_mod by (try lia; pose proof (pow2_pos nb); lia). lia. }
  assert (Z2 : (num a * 2 ^ nb) mod 2 ^ 32 = z mod 2 ^ 32).
  { unfold z, num. rewrite (typed_bw a na false ltac:(lia) Ta). pose proof (pow2_pos nb ltac:(lia)). pose proof (pow2_pos (32 - nb) ltac:(lia)).
    apply Z.bits_inj'. intros p Hp. rewrite !testbit_mod_pow2 by lia. destruct (Z.ltb_spec p 32); [|reflexivity]. cbn [andb].
    rewrite <- !Z.shiftl_mul_pow2, !Z.shiftl_spec by lia. destruct (Z.ltb_spec p nb); [now rewrite !Z.testbit_neg_r by lia|].
    rewrite testbit_mod_pow2 by lia. now replace (p - nb <? na) with true by lia. }
  rewrite Z2, Z1, lor_low by lia. apply Z.mod_small. pose proof (Z.mod_pos_bound (stored a) (2 ^ (32 - nb)) (pow2_pos (32 - nb) ltac:(lia))).
  pose proof (pow2_mono 32 (na + nb) ltac:(lia)). assert (2 ^ 32 = 2 ^ (32 - nb) * 2 ^ nb) by (rewrite <- pow2_split by lia; f_equal; lia). nia.
Qed.
