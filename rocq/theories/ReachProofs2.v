(** Every 2-state vector a program can make is well formed. *)
From Coq Require Import ZArith List Bool Lia Zify ZifyBool.
From Verif Require Import Cpp BigNum Bit Logic Util More Rest Spec Reach ZBits Words BigNumProofs BigArith BitProofs BitExt ReachProofs.
Import ListNotations.
Open Scope Z_scope.
Local Ltac Zify.zify_post_hook ::= idtac.

Lemma shr_in t v k r : in_ity t v = true -> c_shr t v k = Ok r -> in_ity t r = true.
Proof.
  intros I H. unfold c_shr in H. cbn zeta in H. destruct (_ && _) eqn:K; [|discriminate]. injection H as <-. rewrite Z.shiftr_div_pow2 by lia.
  apply in_ity_range in I. apply in_ity_range. assert (P : 1 <= 2 ^ k) by (pose proof (pow2_pos k); lia).
  destruct (isigned t); split.
  - apply Z.div_le_lower_bound; nia.
  - apply Z.div_lt_upper_bound; nia.
  - apply Z.div_pos; lia.
  - apply Z.div_lt_upper_bound; nia.
Qed.
Lemma set_in t v i x r : native_set t v i x = Ok r -> in_ity t r = true.
Proof. unfold native_set. intros H. inv_ok H. destruct x; injection H as <-; apply conv_in_ity. Qed.

Lemma set_vec a i x r : vec a -> bit_set a i x = Ok r -> vec r.
Proof.
  intros V H. destruct (vec_facts a V) as (A & B & C). unfold bit_set in H. rewrite bsize_bw in H. vcase a V; rewrite Eb in H; cbn zeta in H.
  - inv_ok H. injection H as <-. apply vec_nat; try assumption; [apply Rb|]. apply (set_in _ _ _ _ _ E).
  - injection H as <-. apply big_vec; try assumption. apply set_wfn. exact Ib.
Qed.
Lemma set_bit_vec a i x r : vec a -> bit_set_bit0 a i x = Ok r -> vec r.
Proof.
  intros V H. destruct (vec_facts a V) as (A & B & C). unfold bit_set_bit0 in H. rewrite bsize_bw in H. vcase a V; rewrite Eb in H; cbn zeta in H.
  - inv_ok H. injection H as <-. apply vec_nat; try assumption; [apply Rb|]. apply (set_in _ _ _ _ _ E).
  - injection H as <-. apply big_vec; try assumption. apply set_wfn. exact Ib.
Qed.
Lemma set_keeps a i x r : bit_set a i x = Ok r -> bmsb r = bmsb a /\ blsb r = blsb a /\ bsgn r = bsgn a.
Proof. unfold bit_set. intros H. destruct (bval a); cbn zeta in H; inv_ok H; injection H as <-; auto. Qed.
Lemma set_bit_keeps a i x r : bit_set_bit0 a i x = Ok r -> bmsb r = bmsb a /\ blsb r = blsb a /\ bsgn r = bsgn a.
Proof. unfold bit_set_bit0. intros H. destruct (bval a); cbn zeta in H; inv_ok H; injection H as <-; auto. Qed.

(** what a vector can be assigned: the holder fits the target *)
Lemma holder_vec msb lsb s a h : declarable msb lsb -> vec a -> holder_assign (width msb lsb) s a = Ok h -> vec (mkBit msb lsb s h).
Proof.
  intros (A & B & C) V H. unfold holder_assign, native_num in H. rewrite bsize_bw in H. destruct (Z.leb_spec (width msb lsb) 64); vcase a V; rewrite Eb in H; try discriminate.
  - injection H as <-. apply vec_conv; try assumption. reflexivity.
  - destruct (Z.eqb_spec (bw a) (width msb lsb)) as [E|E]; [|discriminate]. injection H as <-. rewrite E in Ib. apply big_vec; try assumption. lia.
Qed.
Lemma decl_of a : vec a -> declarable (bmsb a) (blsb a).
Proof. intros (_ & A & B & C). repeat split; try apply A; try apply B. exact C. Qed.
Lemma decl_plain n : 1 <= n < 2 ^ 31 -> declarable (n - 1) 0.
Proof. intros. unfold declarable, int_ok, width. lia. Qed.
Lemma assign_vec d a r : vec d -> vec a -> bit_assign d a = Ok r -> vec r.
Proof. intros D V H. unfold bit_assign in H. inv_ok H. injection H as <-. apply (holder_vec _ _ _ a); [apply decl_of; exact D|exact V|exact E]. Qed.
Lemma assign_keeps d a r : bit_assign d a = Ok r -> bmsb r = bmsb d /\ blsb r = blsb d /\ bsgn r = bsgn d.
Proof. intros H. unfold bit_assign in H. inv_ok H. injection H as <-. auto. Qed.
Lemma assign_arith_vec d v r : vec d -> bit_assign_arith d v = Ok r -> vec r.
Proof.
  intros V H. destruct (vec_facts d V) as (A & B & C). unfold bit_assign_arith in H. rewrite bsize_bw in H. vcase d V; rewrite Eb in H; [|discriminate].
  injection H as <-. apply vec_conv; try assumption; [apply Rb|reflexivity].
Qed.
Lemma convert_vec msb lsb s a r : declarable msb lsb -> vec a -> bit_convert msb lsb s a = Ok r -> vec r.
Proof.
  intros D V H. unfold bit_convert in H. destruct (_ && _); [injection H as <-; exact V|]. destruct (bsgn a); [|discriminate].
  inv_ok H. injection H as <-. apply (holder_vec _ _ _ a); assumption.
Qed.
Lemma convert_keeps msb lsb s a r : bit_convert msb lsb s a = Ok r -> bmsb r = msb /\ blsb r = lsb /\ bsgn r = s.
Proof.
  intros H. unfold bit_convert in H. destruct (_ && _) eqn:C.
  - injection H as <-. apply andb_true_iff in C. destruct C as [C C3]. apply andb_true_iff in C. destruct C as [C1 C2]. apply eqb_prop in C3. split; [lia|]. split; [lia|exact C3].
  - destruct (bsgn a); [|discriminate]. inv_ok H. injection H as <-. auto.
Qed.

Lemma slice_vec x a b r : vec x -> bit_slice_c x a b = Ok r -> vec r /\ bmsb r = Z.abs (a - b) /\ blsb r = 0 /\ bsgn r = false.
Proof.
  intros V H. destruct (vec_facts x V) as (A & B & C). unfold bit_slice_c in H. rewrite bsize_bw in H. inv_ok H. cbn zeta in H. vcase x V; rewrite Eb in H.
  - inv_ok H. injection H as <-. split; [|auto]. unfold native_slice_c in E0. change (vsize (bmsb x) (blsb x)) with (bw x) in E0. cbn zeta in E0.
    destruct ((Z.abs (a - b) + 1 =? 1) && (bw x =? 1)) eqn:One.
    + injection E0 as <-. replace (Z.abs (a - b)) with (Z.abs (a - b) + 1 - 1) at 1 by lia. apply vec_plain_conv; [lia|reflexivity].
    + inv_ok E0. injection E0 as <-. replace (Z.abs (a - b)) with (Z.abs (a - b) + 1 - 1) at 1 by lia. apply vec_plain_conv; [|reflexivity].
      unfold c_shl in E1. cbn zeta in E1. destruct (_ && _) eqn:K1 in E1; [|discriminate].
      unfold c_shr in E2. cbn zeta in E2. destruct (_ && _) eqn:K2 in E2; [|discriminate].
      assert (S : szbits (hty (bw x) (bsgn x)) <= 64) by (unfold hty; repeat (destruct (_ <=? _)); destruct (bsgn x); cbn; lia).
      assert (S2 : iwidth (promote (hty (bw x) false)) <= 64) by (unfold hty; repeat (destruct (_ <=? _)); cbn; lia).
      set (mx := Z.max a b - Z.min (bmsb x) (blsb x)) in *. set (mn := Z.min a b - Z.min (bmsb x) (blsb x)) in *.
      assert (Z.abs (a - b) = mx - mn) by lia.
      assert (mx < 64); [|lia]. set (q := szbits (hty (bw x) (bsgn x)) - mx - (if bsgn x then 2 else 1)) in *.
      assert (q < 64 -> 0 <= q \/ q < - 2 ^ 40 \/ 64 <= u64 q).
      { intros Q. destruct (Z.ltb_spec q 0); [|lia]. destruct (Z.ltb_spec q (- 2 ^ 40)); [lia|]. right. right. unfold u64.
        replace (q mod 2 ^ 64) with (q + 2 ^ 64); [lia|]. apply Z.mod_unique with (-1); lia. }
      assert (S0 : 8 <= szbits (hty (bw x) (bsgn x))) by (unfold hty; repeat (destruct (_ <=? _)); destruct (bsgn x); cbn; lia).
      assert (M : int_ok (bmsb x) /\ int_ok (blsb x)) by auto. unfold int_ok in M.
      assert (mx < 2 ^ 33) by lia. destruct (bsgn x); lia.
  - inv_ok H. assert (W := slice_c_wfn _ _ _ _ _ E1). destruct (native_num (Z.abs (a - b))) eqn:N.
    + inv_ok H. injection H as <-. split; [|auto]. replace (Z.abs (a - b)) with (Z.abs (a - b) + 1 - 1) at 1 by lia. apply vec_plain_conv; [lia|reflexivity].
    + injection H as <-. split; [|auto]. unfold native_num in N. replace (Z.abs (a - b)) with (Z.abs (a - b) + 1 - 1) at 1 by lia. apply vec_plain_big; [lia|exact W].
Qed.
Lemma slice_at_vec x k a b r : vec x -> 1 <= k < 2 ^ 31 -> bit_slice_r x k a b = Ok r -> vec r /\ bmsb r = k - 1 /\ blsb r = 0 /\ bsgn r = false.
Proof.
  intros V K H. unfold bit_slice_r in H. vcase x V; rewrite Eb in H.
  - inv_ok H. injection H as <-. split; [|auto]. unfold native_slice_r in E0. cbn zeta in E0. inv_ok E0. injection E0 as <-. unfold native_num in E. apply vec_plain_conv; [lia|reflexivity].
  - inv_ok H. assert (W := slice_r_wfn _ _ _ _ _ _ (proj1 K) E). unfold native_num in H. destruct (Z.leb_spec k 64); injection H as <-; (split; [|auto]).
    + apply vec_plain_conv; [lia|reflexivity].
    + apply vec_plain_big; [lia|exact W].
Qed.
Lemma mask_off_vec a : vec a -> vec (bit_mask_off a) /\ bmsb (bit_mask_off a) = bmsb a /\ blsb (bit_mask_off a) = blsb a /\ bsgn (bit_mask_off a) = bsgn a.
Proof.
  intros V. split; [|auto]. destruct (vec_facts a V) as (A & B & C). unfold bit_mask_off. rewrite bsize_bw. vcase a V; rewrite Eb.
  - apply vec_nat; try assumption; [apply Rb|]. unfold native_mask_off. destruct (1 <? bw a); [apply conv_in_ity|exact Ib].
  - apply big_vec; try assumption. apply mask_off_wfn; [lia|exact Ib].
Qed.
Lemma extend_vec x m r : vec x -> 1 <= m < 2 ^ 31 -> bit_extend x m = Ok r -> vec r /\ bmsb r = m - 1 /\ blsb r = 0 /\ bsgn r = bsgn x.
Proof.
  intros V M H. unfold bit_extend in H. rewrite bsize_bw in H. cbn zeta in H. destruct (Z.ltb_spec (bw x) m).
  - vcase x V; rewrite Eb in H.
    + unfold native_num in H. destruct (Z.leb_spec m 64); injection H as <-; (split; [|auto]).
      * unfold bit_of_native. change (vsize (m - 1) 0) with (width (m - 1) 0). rewrite width_plain by lia. apply vec_plain_conv; [lia|reflexivity].
      * apply vec_plain_big; [lia|]. pose proof (word_set_wfn m (bn_zero m) 0 (u64 v) (zero_wfn m ltac:(lia)) (u64_range v)) as N.
        destruct (_ && _); [|exact N]. apply mask_off_wfn; [lia|]. apply fill_wfn; [lia|]. apply (hd_range _ _ N).
    + inv_ok H. injection H as <-. split; [|auto]. apply vec_plain_big; [lia|]. apply (extend_wfn (bw x) (bsgn x) ws m a); [lia|exact Ib|exact E].
  - destruct (Z.eqb_spec m (bw x)).
    + split; [apply (convert_vec _ _ _ _ _ (decl_plain m M) V H)|]. apply (convert_keeps _ _ _ _ _ H).
    + inv_ok H. destruct (slice_vec _ _ _ _ V E) as (Va & _). split; [apply (convert_vec _ _ _ _ _ (decl_plain m M) Va H)|]. apply (convert_keeps _ _ _ _ _ H).
Qed.
Lemma bin_vec f g a b r : (forall n x y z, 1 <= n -> wfn n x -> wfn n y -> g n x y = Ok z -> wfn n z) -> vec a -> vec b -> bit_bin f g a b = Ok r ->
  vec r /\ bmsb r = bw a - 1 /\ blsb r = 0 /\ bsgn r = bsgn a && bsgn b.
Proof.
  intros G V U H. destruct (vec_facts a V) as (A & B & C). unfold bit_bin in H. rewrite bsize_bw in H. inv_ok H. unfold same_size_op in E. rewrite bsize_bw in E.
  vcase a V; rewrite Eb in H; vcase b U; rewrite Eb0 in H; try discriminate; cbn zeta in H.
  - inv_ok H. injection H as <-. split; [|auto]. apply vec_plain_conv; [lia|reflexivity].
  - inv_ok H. injection H as <-. split; [|auto]. apply vec_plain_big; [lia|]. apply (G (bw a) ws ws0); [lia|exact Ib| |exact E0].
    replace (bw a) with (bw b) by lia. exact Ib0.
Qed.
Definition good (op : bit -> bit -> outcome bit) : Prop := forall a b r, vec a -> vec b -> op a b = Ok r ->
  vec r /\ bmsb r = Z.max (bw a) (bw b) - 1 /\ blsb r = 0 /\ bsgn r = bsgn a && bsgn b.
Definition good_same (op : bit -> bit -> outcome bit) : Prop := forall a b r, vec a -> vec b -> op a b = Ok r ->
  bw b = bw a /\ vec r /\ bmsb r = bw a - 1 /\ blsb r = 0 /\ bsgn r = bsgn a && bsgn b.
Lemma good_bin f g : (forall n x y z, 1 <= n -> wfn n x -> wfn n y -> g n x y = Ok z -> wfn n z) -> good_same (bit_bin f g).
Proof.
  intros G a b r V U H. split; [|apply (bin_vec f g a b r G V U H)]. unfold bit_bin in H. rewrite bsize_bw in H. inv_ok H. unfold same_size_op in E. rewrite bsize_bw in E. rewrite andb_true_iff, Z.eqb_eq in E. lia.
Qed.
Lemma mixed_good op a b r : good_same op -> vec a -> vec b -> bit_mixed op a b = Ok r ->
  vec r /\ bmsb r = Z.max (bw a) (bw b) - 1 /\ blsb r = 0 /\ bsgn r = bsgn a && bsgn b.
Proof.
  intros G V U H. unfold bit_mixed in H. rewrite (bsize_bw a), (bsize_bw b) in H. cbn zeta in H. destruct (vec_facts a V) as (_ & _ & C). destruct (vec_facts b U) as (_ & _ & D). inv_ok H.
  assert (K : 1 <= Z.max (bw a) (bw b) < 2 ^ 31) by lia.
  destruct (extend_vec _ _ _ V K E) as (V1 & M1 & L1 & S1). destruct (extend_vec _ _ _ U K E0) as (V2 & M2 & L2 & S2).
  destruct (G _ _ _ V1 V2 H) as (_ & V3 & M3 & L3 & S3). rewrite S1, S2 in S3. split; [exact V3|]. split; [|auto]. rewrite M3. unfold bw at 1. rewrite M1, L1. unfold width. lia.
Qed.
Lemma good_arith op : good_same op -> good (bit_arith op).
Proof.
  intros G a b r V U H. unfold bit_arith in H. rewrite (bsize_bw a), (bsize_bw b) in H. destruct (Z.eqb_spec (bw a) (bw b)).
  - destruct (G a b r V U H) as (E & V3 & M3 & R). split; [exact V3|]. split; [lia|exact R].
  - apply (mixed_good op); assumption.
Qed.
Lemma good_masked op : good_same op -> good (fun a b => if bsize a =? bsize b then op a b else omap bit_mask_off (bit_mixed op a b)).
Proof.
  intros G a b r V U H. cbv beta in H. rewrite (bsize_bw a), (bsize_bw b) in H. destruct (Z.eqb_spec (bw a) (bw b)).
  - destruct (G a b r V U H) as (E & V3 & M3 & R). split; [exact V3|]. split; [lia|exact R].
  - inv_ok H. injection H as <-. destruct (mixed_good op a b a0 G V U E) as (V1 & M1 & L1 & S1). destruct (mask_off_vec a0 V1) as (V2 & M2 & L2 & S2).
    split; [exact V2|]. rewrite M2, L2, S2. auto.
Qed.
Lemma good_and : good bit_and.
Proof. apply (good_masked bit_and_same). apply good_bin. intros n x y z Hn Wx Wy E. injection E as <-. apply and_wfn; assumption. Qed.
Lemma good_or : good bit_or.
Proof. apply (good_masked bit_or_same). apply good_bin. intros n x y z Hn Wx Wy E. injection E as <-. apply or_wfn; assumption. Qed.
Lemma good_xor : good bit_xor.
Proof. apply (good_masked bit_xor_same). apply good_bin. intros n x y z Hn Wx Wy E. injection E as <-. apply xor_wfn; assumption. Qed.
Lemma good_add : good bit_add.
Proof. apply (good_arith bit_add_same). apply good_bin. intros n x y z Hn Wx Wy E. injection E as <-. apply add_wfn; assumption. Qed.
Lemma good_sub : good bit_sub.
Proof. apply (good_arith bit_sub_same). apply good_bin. intros n x y z Hn Wx Wy E. injection E as <-. apply sub_wfn; assumption. Qed.
Lemma good_mul : good bit_mul.
Proof. apply (good_arith bit_mul_same). apply good_bin. intros n x y z Hn Wx Wy E. apply (mul_wfn n x y z Hn E). Qed.
Lemma good_div : good bit_div.
Proof.
  apply (good_arith bit_div_same). intros a b r V U H. unfold bit_div_same in H. revert H. apply good_bin; try assumption.
  intros n x y z Hn Wx Wy E. inv_ok E. destruct a0 as [q t]. injection E as <-. apply (div_wfn n _ x _ y q t Hn Wx E0).
Qed.
Lemma good_rem : good bit_rem.
Proof.
  apply (good_arith bit_rem_same). intros a b r V U H. unfold bit_rem_same in H. revert H. apply good_bin; try assumption.
  intros n x y z Hn Wx Wy E. inv_ok E. destruct a0 as [q t]. injection E as <-. apply (div_wfn n _ x _ y q t Hn Wx E0).
Qed.
(** shifts keep the width of the left operand *)
Definition good_shift (op : bit -> bit -> outcome bit) : Prop := forall a b r, vec a -> vec b -> op a b = Ok r ->
  vec r /\ bmsb r = bw a - 1 /\ blsb r = 0 /\ bsgn r = bsgn a && bsgn b.
Lemma good_shr : good_shift bit_shr.
Proof.
  intros a b r V U H. unfold bit_shr in H. rewrite ?(bsize_bw a), ?(bsize_bw b) in H. vcase a V; rewrite Eb in H; vcase b U; rewrite Eb0 in H; try discriminate; cbn zeta in H; inv_ok H; injection H as <-; (split; [|auto]).
  - apply vec_plain_conv; [lia|reflexivity].
  - apply vec_plain_big; [lia|]. apply shr_wfn. lia.
  - apply vec_plain_big; [lia|]. apply shr_big_wfn. lia.
Qed.
Lemma good_shl : good_shift bit_shl.
Proof.
  intros a b r V U H. unfold bit_shl in H. rewrite ?(bsize_bw a), ?(bsize_bw b) in H. vcase a V; rewrite Eb in H; vcase b U; rewrite Eb0 in H; try discriminate; cbn zeta in H; inv_ok H; injection H as <-; (split; [|auto]).
  - apply vec_plain_conv; [lia|reflexivity].
  - apply vec_plain_big; [lia|]. apply shl_wfn. lia.
  - apply vec_plain_big; [lia|]. apply shl_big_wfn. lia.
Qed.
Lemma good_ashr : good_shift bit_ashr.
Proof.
  intros a b r V U H. unfold bit_ashr in H. rewrite ?(bsize_bw a), ?(bsize_bw b) in H. vcase a V; rewrite Eb in H; vcase b U; rewrite Eb0 in H; try discriminate; cbn zeta in H; inv_ok H; injection H as <-; (split; [|auto]).
  - apply vec_plain_conv; [lia|reflexivity].
  - apply vec_plain_big; [lia|]. apply ashr_wfn. lia.
  - apply vec_plain_big; [lia|]. apply ashr_big_wfn. lia.
Qed.
Lemma concat_vec a b r : vec a -> vec b -> bit_concat a b = Ok r -> vec r /\ bmsb r = bw a + bw b - 1 /\ blsb r = 0 /\ bsgn r = false.
Proof.
  intros V U H. unfold bit_concat in H. rewrite ?(bsize_bw a), ?(bsize_bw b) in H. cbn zeta in H. destruct (Z.ltb_spec (bw a + bw b) 64); [|discriminate].
  vcase a V; rewrite Eb in H; [|discriminate]; vcase b U; rewrite Eb0 in H; try discriminate. inv_ok H. injection H as <-. split; [|auto].
  unfold bit_of_native. change (vsize (bw a + bw b - 1) 0) with (width (bw a + bw b - 1) 0). rewrite width_plain by lia. apply vec_plain_conv; [lia|reflexivity].
Qed.
Lemma not_vec a : vec a -> vec (bit_not a) /\ bmsb (bit_not a) = bw a - 1 /\ blsb (bit_not a) = 0 /\ bsgn (bit_not a) = false.
Proof.
  intros V. split; [|auto]. unfold bit_not. rewrite bsize_bw. cbn zeta. vcase a V; rewrite Eb.
  - destruct (Z.eqb_spec (bw a) 1) as [E|E].
    + rewrite E. apply vec_nat; try (unfold int_ok, width; lia). change (width (1 - 1) 0) with 1. destruct (v =? 0); reflexivity.
    + apply vec_plain_conv; [lia|reflexivity].
  - apply vec_plain_big; [lia|]. apply not_wfn. exact Ib.
Qed.
Lemma neg_vec a r : vec a -> bit_neg a = Ok r -> vec r /\ bmsb r = bmsb a /\ blsb r = blsb a /\ bsgn r = bsgn a.
Proof.
  intros V H. destruct (vec_facts a V) as (A & B & C). unfold bit_neg in H. vcase a V; rewrite Eb in H; [|discriminate]. inv_ok H. injection H as <-. split; [|auto].
  unfold bit_of_native. apply vec_conv; try assumption; [apply Rb|reflexivity].
Qed.
Lemma negate_vec a r : vec a -> bit_negate a = Ok r -> vec r.
Proof.
  intros V H. unfold bit_negate in H. rewrite bsize_bw in H. cbn zeta in H. vcase a V; rewrite Eb in H.
  - inv_ok H. injection H as <-. apply mask_off_vec. apply vec_plain_conv; [lia|reflexivity].
  - injection H as <-. apply vec_plain_big; [lia|]. apply negate_wfn; [lia|exact Ib].
Qed.
Lemma resign_vec s a : vec a -> vec (bit_resign s a) /\ bmsb (bit_resign s a) = bw a - 1 /\ blsb (bit_resign s a) = 0 /\ bsgn (bit_resign s a) = s.
Proof.
  intros V. split; [|auto]. unfold bit_resign. rewrite bsize_bw. cbn zeta. vcase a V; rewrite Eb.
  - apply vec_plain_conv; [lia|reflexivity].
  - apply vec_plain_big; [lia|exact Ib].
Qed.
Lemma one_vec : vec bit_one. Proof. apply vec_nat; try (unfold int_ok, width; lia). reflexivity. Qed.
Lemma inc_vec a r : vec a -> bit_inc a = Ok r -> vec r.
Proof. intros V H. unfold bit_inc in H. inv_ok H. apply (assign_vec a a0); [exact V| |exact H]. apply (good_add _ _ _ V one_vec E). Qed.
Lemma dec_vec a r : vec a -> bit_dec a = Ok r -> vec r.
Proof. intros V H. unfold bit_dec in H. inv_ok H. apply (assign_vec a a0); [exact V| |exact H]. apply (good_sub _ _ _ V one_vec E). Qed.
Lemma post_vec step a r : vec a -> omap fst (bit_post step a) = Ok r -> vec r.
Proof.
  intros V H. unfold bit_post in H. inv_ok H. destruct (bit_convert _ _ _ a) eqn:E1; cbn [bind] in E; try discriminate. inv_ok E. injection E as <-. injection H as <-. cbn [fst].
  apply (convert_vec (bsize a - 1) 0 (bsgn a) a); [|exact V|exact E1]. rewrite bsize_bw. apply decl_plain. apply vec_facts. exact V.
Qed.
Lemma compound_vec op a b r : good op -> vec a -> vec b -> bit_compound op a b = Ok r -> vec r /\ bmsb r = bmsb a /\ blsb r = blsb a /\ bsgn r = bsgn a.
Proof.
  intros G V U H. unfold bit_compound in H. inv_ok H. injection H as <-. destruct (G _ _ _ V U E0) as (W & _). pose proof (assign_vec _ _ _ V W E1) as X. destruct (assign_keeps _ _ _ E1) as (A & B & C).
  destruct (mask_off_vec a1 X) as (Y & D & F & I). split; [exact Y|]. rewrite D, F, I. auto.
Qed.
Lemma shift_assign_vec op a b r : good_shift op -> vec a -> vec b -> bit_shift_assign op a b = Ok r -> vec r.
Proof. intros G V U H. unfold bit_shift_assign in H. inv_ok H. apply (assign_vec a a0 r V); [apply (G _ _ _ V U E0)|exact H]. Qed.
Lemma update_vec a i j x r : vec a -> bit_update_c a i j x = Ok r -> vec r.
Proof.
  intros V H. unfold bit_update_c in H. inv_ok H. apply (ofold_inv vec) in H; [exact H| |exact V]. intros y p z W _ Hz. cbv beta zeta in Hz. inv_ok Hz. apply (set_bit_vec _ _ _ _ W Hz).
Qed.
Lemma update_at_vec a i j x r : vec a -> bit_update_r a i j x = Ok r -> vec r.
Proof.
  intros V H. unfold bit_update_r in H. cbv zeta in H. apply (ofold_inv vec) in H; [exact H| |exact V]. intros y p z W _ Hz. cbv beta in Hz. inv_ok Hz. apply (set_bit_vec _ _ _ _ W Hz).
Qed.
Lemma negate_in_vec a r : vec a -> bit_negate_in a = Ok r -> vec r.
Proof.
  intros V H. unfold bit_negate_in in H. destruct (vec_facts a V) as (A & B & C). rewrite ?bsize_bw in H. vcase a V; rewrite Eb in H; [|discriminate]. cbn zeta in H. inv_ok H. injection H as <-.
  apply mask_off_vec. apply vec_conv; try assumption; [apply Rb|reflexivity].
Qed.

Lemma made2_vec b : made2 b -> vec b.
Proof.
  induction 1 as [msb lsb s D|msb lsb s D|msb lsb s v D|msb lsb s t r D E|a v r M IH E|msb lsb s a r D M IH E|a i x r M IH E|a i x r M IH E|a i j r M IH E|a k i j r M IH K E|a m r M IH K E
    |a i j x r M IH M2 IH2 E|a i j x r M IH M2 IH2 E|f a r I M IH E|f a b r I M IH M2 IH2 E].
  - apply zero_vec2. exact D.
  - apply mask_vec. exact D.
  - apply arith_vec. exact D.
  - apply (text_vec _ _ _ _ _ D E).
  - apply (assign_arith_vec _ _ _ IH E).
  - apply (convert_vec _ _ _ _ _ D IH E).
  - apply (set_vec _ _ _ _ IH E).
  - apply (set_bit_vec _ _ _ _ IH E).
  - apply (slice_vec _ _ _ _ IH E).
  - apply (slice_at_vec _ _ _ _ _ IH K E).
  - apply (extend_vec _ _ _ IH K E).
  - apply (update_vec _ _ _ _ _ IH E).
  - apply (update_at_vec _ _ _ _ _ IH E).
  - cbn [In unary2] in I. repeat (destruct I as [<- | I]); [..|contradiction]; cbv beta in E; try (injection E as <-).
    + apply not_vec. exact IH.
    + apply (neg_vec _ _ IH E).
    + apply (negate_vec _ _ IH E).
    + apply (negate_in_vec _ _ IH E).
    + apply (inc_vec _ _ IH E).
    + apply (dec_vec _ _ IH E).
    + apply mask_off_vec. exact IH.
    + apply (resign_vec true). exact IH.
    + apply (resign_vec false). exact IH.
    + apply zero_vec2. apply decl_of. exact IH.
    + apply (post_vec _ _ _ IH E).
    + apply (post_vec _ _ _ IH E).
  - cbn [In binary2] in I. repeat (destruct I as [<- | I]); [..|contradiction].
    + apply (good_and _ _ _ IH IH2 E).
    + apply (good_or _ _ _ IH IH2 E).
    + apply (good_xor _ _ _ IH IH2 E).
    + apply (good_add _ _ _ IH IH2 E).
    + apply (good_sub _ _ _ IH IH2 E).
    + apply (good_mul _ _ _ IH IH2 E).
    + apply (good_div _ _ _ IH IH2 E).
    + apply (good_rem _ _ _ IH IH2 E).
    + apply (good_shl _ _ _ IH IH2 E).
    + apply (good_shr _ _ _ IH IH2 E).
    + apply (good_ashr _ _ _ IH IH2 E).
    + apply (concat_vec _ _ _ IH IH2 E).
    + apply (assign_vec _ _ _ IH IH2 E).
    + apply (compound_vec _ _ _ _ good_and IH IH2 E).
    + apply (compound_vec _ _ _ _ good_or IH IH2 E).
    + apply (compound_vec _ _ _ _ good_xor IH IH2 E).
    + apply (shift_assign_vec _ _ _ _ good_shr IH IH2 E).
    + apply (shift_assign_vec _ _ _ _ good_shl IH IH2 E).
Qed.
