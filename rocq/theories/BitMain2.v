(** bit: the final form of the lemmas behind PropsBit.v, second part (reductions, shifts, comparisons). *)
From Coq Require Import ZArith List Bool Lia Zify ZifyBool.
From Verif Require Import Cpp BigNum Bit Logic Spec ZBits Words BigNumProofs BigArith BitProofs BitSlice BitExt BitOps
  BitShift BitCmp BitArith BitMain.
Import ListNotations.
Open Scope Z_scope.

(** ** default construction *)
Lemma zero_vec msb lsb s : int_ok msb -> int_ok lsb -> width msb lsb < 2 ^ 31 ->
  let b := bit_zero msb lsb s in
  vec b /\ bmsb b = msb /\ blsb b = lsb /\ bsgn b = s /\ stored b = 0 /\ num b = 0 /\ tidy b.
Proof.
  intros Hm Hl Hw b. unfold b, bit_zero. change (vsize msb lsb) with (width msb lsb). unfold native_num.
  assert (P : 0 < 2 ^ width msb lsb) by (apply pow2_pos; unfold width; lia).
  destruct (Z.leb_spec (width msb lsb) 64).
  - replace (mkBit msb lsb s (HN 0)) with (nat_bit msb lsb s 0)
      by (unfold nat_bit; f_equal; f_equal; apply conv_id, in_ity_range; destruct (hty (width msb lsb) s); cbn; lia).
    split; [apply nat_bit_vec; assumption|]. repeat (split; [reflexivity|]).
    assert (S0 : stored (nat_bit msb lsb s 0) = 0) by (unfold stored, nat_bit; cbn [bval]; apply conv_id, in_ity_range; destruct (hty (width msb lsb) s); cbn; lia).
    split; [exact S0|]. unfold num. rewrite S0. split; [apply Z.mod_0_l; pose proof (pow_bw (nat_bit msb lsb s 0)); lia|].
    unfold tidy. change (bval (nat_bit msb lsb s 0)) with (HN (stored (nat_bit msb lsb s 0))). rewrite S0.
    change (bw (nat_bit msb lsb s 0)) with (width msb lsb).
    assert (0 < 2 ^ (width msb lsb - 1)) by (apply pow2_pos; unfold width; lia).
    destruct (_ && _); lia.
  - pose proof (bn_zero_wfn (width msb lsb) ltac:(lia)) as W. split; [apply big_vec; assumption || lia|].
    repeat (split; [reflexivity|]). unfold num, stored, tidy. cbn [bval]. rewrite bn_zero_num.
    split; [reflexivity|]. split; [apply Z.mod_0_l; unfold bw; cbn; lia|]. unfold bw. cbn. lia.
Qed.
Lemma default_zero msb lsb s : int_ok msb -> int_ok lsb -> width msb lsb < 2 ^ 31 ->
  let b := bit_zero msb lsb s in
  vec b /\ bmsb b = msb /\ blsb b = lsb /\ bsgn b = s /\ (forall p, bit_at b p = false) /\ tidy b.
Proof.
  intros A B C b. destruct (zero_vec msb lsb s A B C) as (V & E1 & E2 & E3 & _ & N & T). fold b in V, E1, E2, E3, N, T.
  repeat (split; [assumption|]). split; [|assumption]. intros p. unfold bit_at. rewrite N. apply Z.testbit_0_l.
Qed.

(** ** reductions *)
Lemma all_ones_iff n z : 0 <= n -> 0 <= z < 2 ^ n -> ((z =? 2 ^ n - 1) = true <-> forall p, 0 <= p < n -> Z.testbit z p = true).
Proof.
  intros Hn Hz. rewrite Z.eqb_eq. split.
  - intros -> p Hp. rewrite testbit_ones by lia. lia.
  - intros H. apply Z.bits_inj'. intros p Hp. rewrite testbit_ones by lia.
    destruct (Z.ltb_spec p n); [rewrite H by lia | rewrite (testbit_small z n) by lia]; lia.
Qed.
Lemma nonzero_iff n z : 0 <= n -> 0 <= z < 2 ^ n -> (negb (z =? 0) = true <-> exists p, 0 <= p < n /\ Z.testbit z p = true).
Proof.
  intros Hn Hz. split.
  - intros H. exists (Z.log2 z). split; [|apply Z.bit_log2; lia]. split; [apply Z.log2_nonneg|].
    apply Z.log2_lt_pow2; lia.
  - intros (p & Hp & T). destruct (Z.eqb_spec z 0) as [->|]; [rewrite Z.testbit_0_l in T; discriminate | reflexivity].
Qed.
Lemma any_set_iff b : vec b -> tidy b -> (bw b <= 64 \/ visible (num b)) ->
  bit_any_set b = negb (num b =? 0).
Proof.
  intros V T C. destruct (vec_cases b V) as [(v & E & _) | (ws & E & N & W & S)].
  - eapply bit_any_native; eauto.
  - apply (bit_any_big b ws); try assumption. apply halves_visible; [apply W|]. destruct C as [C|C]; [lia|].
    rewrite <- (num_of_tidy_big b ws E T). exact C.
Qed.
Lemma reductions b : vec b -> tidy b ->
  (bsgn b = false -> 2 <= bw b <= 64 -> (bit_r_and b = true <-> forall p, 0 <= p < bw b -> bit_at b p = true)) /\
  (bw b <= 64 \/ visible (num b) -> (bit_any_set b = true <-> exists p, 0 <= p < bw b /\ bit_at b p = true)) /\
  (65 <= bw b -> bit_r_xor b = Ok (Z.odd (ones (bw b) (num b)))).
Proof.
  intros V T. pose proof (num_range b) as R. pose proof (bw_pos b). split; [|split].
  - intros S0 W. rewrite bit_r_and_u by assumption. apply all_ones_iff; [lia | exact R].
  - intros C. rewrite any_set_iff by assumption. apply nonzero_iff; [lia | exact R].
  - intros. apply bit_r_xor_big; assumption.
Qed.
Lemma any_set_exact_big b : vec b -> 65 <= bw b -> tidy b -> (bit_any_set b = true <-> ~ low_halves_zero (num b)).
Proof.
  intros V N T. destruct (vec_cases b V) as [(v & E & Nv & _) | (ws & E & _ & W & S)]; [lia|].
  unfold bit_any_set. rewrite E, (num_of_tidy_big b ws E T). apply bn_any_exact, W.
Qed.

(** ** shifts *)
Lemma cwidth_promote n s : 1 <= n <= 64 -> iwidth (promote (hty n s)) = cwidth n.
Proof. intros. rewrite <- uac_same. apply cwidth_uac. assumption. Qed.
Lemma shift_right a amt : vec a -> vec amt -> tidy amt -> 0 <= value amt ->
  (bw a <= 64 -> bw amt <= 64 /\ value amt < bw a) ->
  exists r, bit_shr a amt = Ok r /\ typed r (bw a) (bsgn a && bsgn amt) /\ num r = num a / 2 ^ value amt.
Proof.
  intros Va Vk Tk Hk C. pose proof (tidy_value_stored amt Vk Tk Hk) as S.
  destruct (Z.leb_spec (bw a) 64).
  - destruct (C H). apply shr_native; auto; lia.
  - destruct (shr_big a amt (bw a) (value amt) Va Vk eq_refl ltac:(lia) S Hk) as (r & E & T & N & _). eauto.
Qed.
Lemma shift_left a amt : vec a -> vec amt -> tidy amt -> 0 <= value amt ->
  (bw a <= 64 -> bw amt <= 64 /\ (value amt = 0 \/ 2 <= bw a /\ value amt < (if bw a <=? 32 then 32 else 64))) ->
  exists r, bit_shl a amt = Ok r /\ typed r (bw a) (bsgn a && bsgn amt) /\ num r = (num a * 2 ^ value amt) mod 2 ^ bw a.
Proof.
  intros Va Vk Tk Hk C. pose proof (tidy_value_stored amt Vk Tk Hk) as S. pose proof (bw_pos a).
  destruct (Z.leb_spec (bw a) 64).
  - destruct (C H0) as [C1 C2]. apply shl_native; auto.
    destruct C2 as [C2 | [C2 C3]]; [right; exact C2 | left]. rewrite cwidth_promote by lia. auto.
  - destruct (shl_big a amt (bw a) (value amt) Va Vk eq_refl ltac:(lia) S Hk) as (r & E & T & N & _). eauto.
Qed.
Lemma shift_arith a amt : vec a -> vec amt -> tidy amt -> 0 <= value amt -> tidy a ->
  (2 <= bw a <= 64 /\ bw amt <= 64 /\ value amt < (if bw a <=? 32 then 32 else 64)) \/
  (65 <= bw a /\ (0 <= value a \/ bw a <= value amt)) ->
  exists r, bit_ashr a amt = Ok r /\ typed r (bw a) (bsgn a && bsgn amt) /\
    num r = (value a / 2 ^ value amt) mod 2 ^ bw a.
Proof.
  intros Va Vk Tk Hk Ta C. pose proof (tidy_value_stored amt Vk Tk Hk) as S.
  destruct C as [(C1 & C2 & C3) | (C1 & C2)].
  - rewrite <- (ext_value a Va ltac:(lia)) by (split; [exact Ta | lia]).
    apply ashr_native; auto. rewrite cwidth_promote by lia. split; assumption.
  - destruct (ashr_big a amt (bw a) (value amt) Va Vk eq_refl C1 Ta S Hk) as (r & E & T & _ & N).
    exists r. split; [exact E|]. split; [exact T|]. rewrite N.
    replace ((value a <? 0) && (value amt <? bw a)) with false by lia. lia.
Qed.
Lemma shift_arith_big_neg a amt : vec a -> vec amt -> tidy amt -> 0 <= value amt < bw a -> tidy a -> 65 <= bw a ->
  value a < 0 ->
  exists r, bit_ashr a amt = Ok r /\ typed r (bw a) (bsgn a && bsgn amt) /\
    num r = (value a / 2 ^ value amt) mod 2 ^ bw a - 2 ^ (bw a - 1 - value amt).
Proof.
  intros Va Vk Tk Hk Ta Hn Neg. pose proof (tidy_value_stored amt Vk Tk ltac:(lia)) as S.
  destruct (ashr_big a amt (bw a) (value amt) Va Vk eq_refl Hn Ta S ltac:(lia)) as (r & E & T & _ & N).
  exists r. split; [exact E|]. split; [exact T|]. rewrite N.
  replace ((value a <? 0) && (value amt <? bw a)) with true by lia. reflexivity.
Qed.
Lemma shift_rejected a amt : vec a -> vec amt -> bw a <= 64 -> 65 <= bw amt ->
  bit_shr a amt = IllFormed /\ bit_shl a amt = IllFormed /\ bit_ashr a amt = IllFormed.
Proof.
  intros Va Vk Ha Hk. destruct (vec_cases a Va) as [(x & Ea & _) | (x & Ea & N & _)]; [|lia].
  destruct (vec_cases amt Vk) as [(y & Eb & N & _) | (y & Eb & _)]; [lia|].
  unfold bit_shr, bit_shl, bit_ashr. rewrite Ea, Eb. auto.
Qed.

(** ** equality *)
(** operand pairs on which [==] is right *)
Definition eq_ok (a b : bit) : Prop :=
  bsgn a = bsgn b /\ extendable a /\ extendable b /\
  (bw a <= 64 /\ bw b <= 64 /\ iwidth (hty (bw b) (bsgn b)) <= iwidth (hty (bw a) (bsgn a)) \/
   bsgn a = false /\ (bw a <= 64 < bw b \/ bw b <= 64 < bw a) \/
   bsgn a = false /\ 65 <= bw a /\ 65 <= bw b /\
     (nwords (bw a) = nwords (bw b) \/ visible (excess (num a) (bw b)) /\ visible (excess (num b) (bw a)))).
Lemma value_u b : bsgn b = false -> value b = num b. Proof. unfold value. now intros ->. Qed.
Lemma equality a b : vec a -> vec b -> eq_ok a b -> bit_eq a b = Ok (value a =? value b).
Proof.
  intros Va Vb (Sg & Ea & Eb & [(H1 & H2 & H3) | [(S0 & [[H1 H2] | [H1 H2]]) | (S0 & H1 & H2 & H3)]]).
  - apply eq_native; assumption.
  - rewrite !value_u by congruence. apply eq_mixed; try assumption; (apply Ea || apply Eb || lia).
  - rewrite !value_u by congruence. rewrite Z.eqb_sym. apply eq_mixed; try assumption; (apply Ea || apply Eb || lia || congruence).
  - rewrite !value_u by congruence. apply eq_big; try assumption; try (apply Ea || apply Eb). rewrite S0. reflexivity.
Qed.
Lemma inequality a b : bit_ne a b = omap negb (bit_eq a b).
Proof.
  unfold bit_ne, bit_eq, c_ne, c_eq. destruct (bval a), (bval b); cbn [omap bind]; try reflexivity.
Qed.
Lemma equality_counter : exists a b, typed a 8 false /\ typed b 16 false /\ tidy a /\ tidy b /\
  bit_eq a b = Ok true /\ num a <> num b /\ bit_eq b a = Ok false.
Proof. exists (bit_of_native 7 0 false 1), (bit_of_native 15 0 false 257). conc. Qed.

(** ** order *)
Lemma order_unsigned_native a b : vec a -> vec b -> bw a <= 64 -> bw b <= 64 -> bsgn a = false -> bsgn b = false ->
  tidy a -> tidy b ->
  bit_gt a b = Ok (num b <? num a) /\ bit_lt a b = Ok (num a <? num b) /\
  bit_ge a b = Ok (num b <=? num a) /\ bit_le a b = Ok (num a <=? num b).
Proof.
  intros Va Vb Ha Hb Sa Sb Ta Tb. rewrite <- !(value_u a), <- !(value_u b) by assumption.
  pose proof (num_range a). pose proof (num_range b).
  unfold bit_gt, bit_lt, bit_ge, bit_le.
  rewrite !rel_native_u; try assumption; try (rewrite ?value_u by assumption; lia); try (rewrite Sa; reflexivity).
  rewrite Z.gtb_ltb, Z.geb_leb. auto.
Qed.
Lemma order_signed_native a b : vec a -> vec b -> 2 <= bw a <= 64 -> 2 <= bw b <= 64 -> bsgn a = true -> bsgn b = true ->
  tidy a -> tidy b ->
  bit_gt a b = Ok (snum b <? snum a) /\ bit_lt a b = Ok (snum a <? snum b) /\
  bit_ge a b = Ok (snum b <=? snum a) /\ bit_le a b = Ok (snum a <=? snum b).
Proof.
  intros Va Vb Ha Hb Sa Sb Ta Tb. unfold bit_gt, bit_lt, bit_ge, bit_le.
  rewrite !rel_native_s by assumption. rewrite Z.gtb_ltb, Z.geb_leb. auto.
Qed.
Lemma order_big_unsigned a b : vec a -> vec b -> 65 <= bw a -> 65 <= bw b -> bsgn a && bsgn b = false -> tidy a -> tidy b ->
  bit_gt a b = Ok (num b <? num a) /\ bit_lt a b = Ok (num a <? num b) /\
  (nwords (bw a) = nwords (bw b) \/ visible (excess (num a) (bw b)) /\ visible (excess (num b) (bw a)) ->
   bit_ge a b = Ok (num b <=? num a) /\ bit_le a b = Ok (num a <=? num b)).
Proof.
  intros Va Vb Ha Hb S Ta Tb. destruct (gt_big_u a b Va Vb Ha Hb S Ta Tb) as [G L]. repeat (split; [assumption|]).
  intros C. apply ge_big_u; assumption.
Qed.
Lemma order_native_big a b : vec a -> vec b -> bw a <= 64 -> 65 <= bw b ->
  bit_gt a b = UB /\ bit_lt a b = UB /\ bit_ge a b = UB /\ bit_le a b = UB /\
  bit_gt b a = IllFormed /\ bit_lt b a = IllFormed /\ bit_ge b a = IllFormed /\ bit_le b a = IllFormed.
Proof.
  intros Va Vb Ha Hb. destruct (vec_cases a Va) as [(x & Ea & _) | (x & Ea & N & _)]; [|lia].
  destruct (vec_cases b Vb) as [(y & Eb & N & _) | (y & Eb & _)]; [lia|].
  unfold bit_gt, bit_lt, bit_ge, bit_le, bit_rel. rewrite Ea, Eb. auto 10.
Qed.
Lemma order_mixed_native a b : vec a -> vec b -> bw a <= 64 -> bw b <= 64 -> bsgn a && bsgn b = false ->
  tidy a -> tidy b -> (0 <= value a /\ 0 <= value b) \/ (bw a = 64 /\ bw b = 64) ->
  bit_gt a b = Ok (num b <? num a) /\ bit_lt a b = Ok (num a <? num b) /\
  bit_ge a b = Ok (num b <=? num a) /\ bit_le a b = Ok (num a <=? num b).
Proof.
  intros Va Vb Ha Hb S Ta Tb [[C1 C2] | [C1 C2]].
  - assert (G : forall x, 0 <= value x -> value x = num x).
    { intros x. unfold value, snum, twos. destruct (bsgn x); [|reflexivity]. pose proof (num_range x).
      destruct (Z.testbit (num x) (bw x - 1)); lia. }
    rewrite <- !(G a), <- !(G b) by assumption. unfold bit_gt, bit_lt, bit_ge, bit_le.
    rewrite !rel_native_u by assumption. rewrite Z.gtb_ltb, Z.geb_leb. auto.
  - unfold bit_gt, bit_lt, bit_ge, bit_le. rewrite !rel_native_64 by assumption. rewrite Z.gtb_ltb, Z.geb_leb. auto.
Qed.
Definition min70 : bit := mkBit 69 0 true (HB [0; 2 ^ 5]).
Lemma min70_loop : forall fuel, bn_gt_f fuel 70 true [0; 2 ^ 5] 70 true [0; 2 ^ 5] = Fuel.
Proof. apply bn_gt_min_loop; [lia | apply words_ok_wfn; reflexivity | reflexivity]. Qed.
