(** Exact behaviour of the native shifts and arithmetic. *)
From Coq Require Import ZArith List Bool Lia Zify ZifyBool.
From Verif Require Import Cpp BigNum Bit Logic Spec SpecExact ZBits Words BigNumProofs BigArith BitProofs BitSlice BitExt BitOps BitShift BitArith BitMain BitMain2 Exact2.
Import ListNotations.
Open Scope Z_scope.
Ltac Zify.zify_post_hook ::= Z.div_mod_to_equations.


Ltac natives Va Vk :=
  match type of Va with vec ?a => match type of Vk with vec ?b =>
    let x := fresh "x" in let y := fresh "y" in let Ea := fresh "Ea" in let Eb := fresh "Eb" in let Ia := fresh "Ia" in let Ib := fresh "Ib" in
    let Sa := fresh "Sa" in let Sb := fresh "Sb" in
    destruct (vec_cases a Va) as [(x & Ea & ? & Ia & Sa) | (x & Ea & ? & _)]; [|lia];
    destruct (vec_cases b Vk) as [(y & Eb & ? & Ib & Sb) | (y & Eb & ? & _)]; [|lia] end end.

Lemma computing_cases n : 1 <= n <= 64 -> n <= computing n /\ (computing n = 32 \/ computing n = 64).
Proof. intros H. unfold computing. destruct (n <=? 32) eqn:?; lia. Qed.

Lemma shr_wide_ub a amt : vec a -> vec amt -> 2 <= bw a <= 64 -> bw amt <= 64 -> bw a <= stored amt -> bit_shr a amt = UB.
Proof.
  intros Va Vk Hn Wk Hk. pose proof (bw_pos amt). natives Va Vk. rewrite Sb in Hk.
  unfold bit_shr. rewrite Ea, Eb. rewrite (bsize_bw a _ eq_refl), (bsize_bw amt _ eq_refl). cbn zeta.
  set (t := hty (bw a) (bsgn a)) in *. unfold c_shr at 1. cbn zeta.
  destruct ((0 <=? conv t y) && (conv t y <? iwidth (promote t))) eqn:C; [|reflexivity]. cbn [bind].
  assert (Wt : iwidth (promote t) = computing (bw a)) by (apply computing_hty; lia).
  pose proof (computing_cases (bw a) ltac:(lia)).
  match goal with |- bind (c_sub TI32 ?tb ?n y) (fun req => bind (value_mask t req) ?f) = UB =>
    pose proof (mask_ub t tb n y (hty_nb (bw a) (bsgn a) ltac:(lia)) (conj (proj1 Hn) (hty_width (bw a) (bsgn a) ltac:(lia))) Ib Hk ltac:(lia)) as M end.
  destruct (c_sub TI32 _ _ y) as [req | | | |]; try discriminate; cbn [bind] in *; [rewrite M; reflexivity | reflexivity].
Qed.
Lemma shr_single_ub a amt : vec a -> vec amt -> bw a = 1 -> bw amt <= 64 -> 1 <= stored amt < 2 ^ 31 -> bit_shr a amt = UB.
Proof.
  intros Va Vk Hn Wk Hk. pose proof (bw_pos amt). natives Va Vk. rewrite Sb in Hk.
  unfold bit_shr. rewrite Ea, Eb. rewrite (bsize_bw a _ eq_refl), (bsize_bw amt _ eq_refl), Hn. cbn zeta. rewrite hty_1.
  cbn [conv]. replace (y =? 0) with false by lia.
  assert (Q : exists req, c_sub TI32 (hty (bw amt) (bsgn amt)) 1 y = Ok req /\ 64 <= u64 (64 - u64 req)).
  { unfold c_sub, arith. destruct (hty (bw amt) (bsgn amt)); cbn [uac promote isigned iwidth conv] in *; unfold swrap, u64, in_ity in *; cbn [isigned iwidth] in *;
    change (2 ^ 8) with 256 in *; change (2 ^ 16) with 65536 in *; change (2 ^ 32) with 4294967296 in *; change (2 ^ 64) with 18446744073709551616 in *;
    change (2 ^ (8 - 1)) with 128 in *; change (2 ^ (16 - 1)) with 32768 in *; change (2 ^ (32 - 1)) with 2147483648 in *; change (2 ^ (64 - 1)) with 9223372036854775808 in *;
    change (2 ^ 1) with 2 in *; change (2 ^ 31) with 2147483648 in *;
    try (match goal with |- context [if ?c then Ok ?z else UB] => replace c with true by lia end); (eexists; split; [reflexivity|]; lia). }
  destruct Q as (req & -> & L). unfold c_shr at 1. cbn zeta. change (iwidth (promote TBool)) with 32. cbn [Z.leb Z.ltb Z.compare Pos.compare Pos.compare_cont andb bind].
  unfold value_mask, c_shr. cbv zeta. change (iwidth (promote TU64)) with 64.
  replace ((0 <=? u64 (64 - u64 req)) && (u64 (64 - u64 req) <? 64)) with false by lia. reflexivity.
Qed.

(** an amount is first reduced to the storage of the shifted vector *)
Lemma shl_exact a amt n k : vec a -> vec amt -> bw a = n -> 2 <= n <= 64 -> bw amt <= 64 -> 0 <= stored amt -> k = stored amt mod 2 ^ storage n ->
  (k < computing n -> exists r, bit_shl a amt = Ok r /\ typed r n (bsgn a && bsgn amt) /\ num r = (num a * 2 ^ k) mod 2 ^ n) /\
  (computing n <= k -> bit_shl a amt = UB).
Proof.
  intros Va Vk Wa Hn Wk Hk0 ->. destruct (conv_amount_mod n (bsgn a) (stored amt) Hn Hk0) as [C1 C2].
  pose proof (computing_cases n ltac:(lia)). pose proof (storage_cases n Hn).
  assert (P : 0 < 2 ^ storage n) by (apply pow2_pos; lia). pose proof (Z.mod_pos_bound (stored amt) _ P) as B.
  assert (Va' := Va). assert (Vk' := Vk). pose proof (bw_pos amt).
  destruct (vec_cases_n a n Va Wa) as [(x & Ea & Na & Ia & Sa & Ma) | (x & Ea & Na & _)]; [|lia].
  destruct (vec_cases amt Vk) as [(y & Eb & Nb & Ib & Sb) | (y & Eb & Nb & _)]; [|lia].
  unfold bit_shl. rewrite Ea, Eb. rewrite (bsize_bw a n Wa). cbn zeta. rewrite <- Sb.
  set (k := stored amt mod 2 ^ storage n) in *. set (t := hty n (bsgn a)) in *.
  assert (Wt : iwidth (promote t) = computing n) by (apply computing_hty; lia).
  unfold c_shl. cbn zeta. rewrite Wt. split; intros Hk.
  - rewrite C1 by lia. replace ((0 <=? k) && (k <? computing n)) with true by lia. cbn [bind].
    eexists. split; [reflexivity|]. rewrite nat_bit_eq by lia. split; [apply typed_nat; lia|].
    rewrite Z.shiftl_mul_pow2 by lia. rewrite nat_bit_num, width_plain by (rewrite ?width_plain; lia).
    rewrite conv_mod by (apply promote_nb || lia). rewrite Ma, Z.mul_mod_idemp_l by (pose proof (pow2_pos n); lia). reflexivity.
  - replace ((0 <=? conv t (stored amt)) && (conv t (stored amt) <? computing n)) with false; [reflexivity|].
    destruct (Z.ltb_spec k 64); [rewrite C1 by lia | specialize (C2 ltac:(lia))]; lia.
Qed.
Lemma ashr_exact a amt n k : vec a -> vec amt -> bw a = n -> 2 <= n <= 64 -> bw amt <= 64 -> 0 <= stored amt -> k = stored amt mod 2 ^ storage n ->
  (k < computing n -> exists r, bit_ashr a amt = Ok r /\ typed r n (bsgn a && bsgn amt) /\ num r = (stored a / 2 ^ k) mod 2 ^ n) /\
  (computing n <= k -> bit_ashr a amt = UB).
Proof.
  intros Va Vk Wa Hn Wk Hk0 ->. destruct (conv_amount_mod n (bsgn a) (stored amt) Hn Hk0) as [C1 C2].
  pose proof (computing_cases n ltac:(lia)). pose proof (storage_cases n Hn).
  assert (P : 0 < 2 ^ storage n) by (apply pow2_pos; lia). pose proof (Z.mod_pos_bound (stored amt) _ P) as B.
  pose proof (bw_pos amt).
  destruct (vec_cases_n a n Va Wa) as [(x & Ea & Na & Ia & Sa & Ma) | (x & Ea & Na & _)]; [|lia].
  destruct (vec_cases amt Vk) as [(y & Eb & Nb & Ib & Sb) | (y & Eb & Nb & _)]; [|lia].
  unfold bit_ashr. rewrite Ea, Eb. rewrite (bsize_bw a n Wa). cbn zeta. rewrite <- Sb.
  set (k := stored amt mod 2 ^ storage n) in *. set (t := hty n (bsgn a)) in *.
  assert (Wt : iwidth (promote t) = computing n) by (apply computing_hty; lia).
  unfold c_shr. cbn zeta. rewrite Wt. split; intros Hk.
  - rewrite C1 by lia. replace ((0 <=? k) && (k <? computing n)) with true by lia. cbn [bind].
    eexists. split; [reflexivity|]. rewrite nat_bit_eq by lia. split; [apply typed_nat; lia|].
    rewrite Z.shiftr_div_pow2 by lia. rewrite nat_bit_num, width_plain by (rewrite ?width_plain; lia). rewrite Sa. reflexivity.
  - replace ((0 <=? conv t (stored amt)) && (conv t (stored amt) <? computing n)) with false; [reflexivity|].
    destruct (Z.ltb_spec k 64); [rewrite C1 by lia | specialize (C2 ltac:(lia))]; lia.
Qed.
(** one bit: every non-zero amount shifts by one, and the result is then tested against zero *)
Ltac one_bit Ia := rewrite nat_bit_num1 by (rewrite width_plain; lia); destruct Ia as [-> | ->]; reflexivity.
Lemma shl_single a amt : vec a -> vec amt -> bw a = 1 -> bw amt <= 64 ->
  exists r, bit_shl a amt = Ok r /\ typed r 1 (bsgn a && bsgn amt) /\ num r = num a.
Proof.
  intros Va Vk Hn Wk. pose proof (bw_pos amt).
  destruct (vec_cases_n a 1 Va Hn) as [(x & Ea & Na & Ia & Sa & Ma) | (x & Ea & Na & _)]; [|lia].
  destruct (vec_cases amt Vk) as [(y & Eb & Nb & Ib & Sb) | (y & Eb & Nb & _)]; [|lia].
  unfold bit_shl. rewrite Ea, Eb. rewrite (bsize_bw a 1 Hn). cbn zeta. rewrite hty_1 in Ia. apply in_bool in Ia. rewrite Ma, hty_1.
  assert (Q : exists z, c_shl TBool x (conv TBool y) = Ok z /\ (z =? 0) = (x =? 0)).
  { cbn [conv]. destruct (y =? 0), Ia as [-> | ->]; eexists; split; reflexivity. }
  destruct Q as (z & -> & Qz). cbn [bind]. eexists. split; [reflexivity|]. rewrite nat_bit_eq by lia. split; [apply typed_nat; lia|].
  rewrite nat_bit_num1 by (rewrite width_plain; lia). rewrite Qz. destruct Ia as [-> | ->]; reflexivity.
Qed.
Lemma ashr_single a amt : vec a -> vec amt -> bw a = 1 -> bw amt <= 64 ->
  exists r, bit_ashr a amt = Ok r /\ typed r 1 (bsgn a && bsgn amt) /\ num r = if stored amt =? 0 then num a else 0.
Proof.
  intros Va Vk Hn Wk. pose proof (bw_pos amt).
  destruct (vec_cases_n a 1 Va Hn) as [(x & Ea & Na & Ia & Sa & Ma) | (x & Ea & Na & _)]; [|lia].
  destruct (vec_cases amt Vk) as [(y & Eb & Nb & Ib & Sb) | (y & Eb & Nb & _)]; [|lia].
  unfold bit_ashr. rewrite Ea, Eb. rewrite (bsize_bw a 1 Hn). cbn zeta. rewrite hty_1 in Ia. apply in_bool in Ia. rewrite Ma, Sb, hty_1.
  assert (Q : exists z, c_shr TBool x (conv TBool y) = Ok z /\ z = if y =? 0 then x else 0).
  { cbn [conv]. destruct (y =? 0), Ia as [-> | ->]; eexists; split; reflexivity. }
  destruct Q as (z & -> & ->). cbn [bind]. eexists. split; [reflexivity|]. rewrite nat_bit_eq by lia. split; [apply typed_nat; lia|].
  rewrite nat_bit_num1 by (rewrite width_plain; lia). destruct (y =? 0), Ia as [-> | ->]; reflexivity.
Qed.

(** * arithmetic of equal widths *)
Section Exactly.
Variables (zop : Z -> Z -> Z) (cop : ity -> ity -> Z -> Z -> outcome Z) (g : Z -> list Z -> list Z -> outcome (list Z)).
Hypothesis zmod : forall a b m, 0 < m -> zop a b mod m = zop (a mod m) (b mod m) mod m.
Hypothesis copdef : forall ta tb a b, cop ta tb a b = arith (uac ta tb) (zop (conv (uac ta tb) a) (conv (uac ta tb) b)).
Lemma arith_ub a b n : vec a -> vec b -> bw a = n -> bw b = n -> blsb b <= bmsb b -> n <= 64 ->
  (n <= 16 \/ bsgn a && bsgn b = true) -> ~ signed_fits (computing n) (zop (stored a) (stored b)) -> bit_bin cop g a b = UB.
Proof.
  intros Va Vb Wa Wb Be Hn D F. pose proof (bw_pos a) as Hp. rewrite Wa in Hp.
  destruct (vec_cases_n a n Va Wa) as [(x & Ea & Na & Ia & Sa & Ma) | (x & Ea & Na & _)]; [|lia].
  destruct (vec_cases_n b n Vb Wb) as [(y & Eb & Nb & Ib & Sb & Mb) | (y & Eb & Nb & _)]; [|lia].
  rewrite Sa, Sb in *. unfold bit_bin, requires, same_size_op. cbn zeta.
  rewrite (bsize_bw a n Wa), (bsize_bw b n Wb), Z.eqb_refl.
  replace (blsb b <=? bmsb b) with true by lia. cbn [andb]. rewrite Ea, Eb, copdef.
  set (t := uac (hty n (bsgn a)) (hty n (bsgn b))).
  assert (Wt : iwidth t = computing n) by (apply cwidth_uac; lia).
  assert (Q : (n <=? 16) || (bsgn a && bsgn b) = true) by (destruct D as [D | ->]; [lia | apply orb_true_r]).
  assert (St : isigned t = true) by (unfold t; rewrite uac_sign by lia; exact Q).
  assert (Cx : conv t x = x) by (apply uac_conv; auto; lia).
  assert (Cy : conv t y = y) by (apply uac_conv; auto; lia).
  rewrite Cx, Cy. unfold arith. rewrite St. destruct (in_ity t (zop x y)) eqn:I; [|reflexivity].
  exfalso. apply F. apply in_ity_range in I. rewrite St, Wt in I. exact I.
Qed.
Lemma arith_exact a b n : vec a -> vec b -> bw a = n -> bw b = n -> blsb b <= bmsb b -> 2 <= n <= 64 ->
  ((17 <= n /\ bsgn a && bsgn b = false) \/ signed_fits (computing n) (zop (stored a) (stored b)) ->
   exists r, bit_bin cop g a b = Ok r /\ typed r n (bsgn a && bsgn b) /\ num r = zop (num a) (num b) mod 2 ^ n) /\
  (n <= 16 \/ bsgn a && bsgn b = true -> ~ signed_fits (computing n) (zop (stored a) (stored b)) -> bit_bin cop g a b = UB).
Proof.
  intros Va Vb Wa Wb Be Hn. split.
  - intros D. apply (arith_native_num zop cop g zmod copdef); assumption.
  - intros D F. apply arith_ub with (n := n); try assumption. lia.
Qed.
End Exactly.

Ltac same_width Wa Wb := unfold bit_add, bit_sub, bit_mul, bit_arith; rewrite (bsize_bw _ _ Wa), (bsize_bw _ _ Wb), Z.eqb_refl.
Lemma add_exact a b n : vec a -> vec b -> bw a = n -> bw b = n -> blsb b <= bmsb b -> 2 <= n <= 64 ->
  ((17 <= n /\ bsgn a && bsgn b = false) \/ signed_fits (computing n) (stored a + stored b) ->
   exists r, bit_add a b = Ok r /\ typed r n (bsgn a && bsgn b) /\ num r = (num a + num b) mod 2 ^ n) /\
  (n <= 16 \/ bsgn a && bsgn b = true -> ~ signed_fits (computing n) (stored a + stored b) -> bit_add a b = UB).
Proof. intros Va Vb Wa Wb Be Hn. same_width Wa Wb. apply (arith_exact Z.add c_add _ add_zmod ltac:(reflexivity)); assumption. Qed.
Lemma sub_exact a b n : vec a -> vec b -> bw a = n -> bw b = n -> blsb b <= bmsb b -> 2 <= n <= 64 ->
  ((17 <= n /\ bsgn a && bsgn b = false) \/ signed_fits (computing n) (stored a - stored b) ->
   exists r, bit_sub a b = Ok r /\ typed r n (bsgn a && bsgn b) /\ num r = (num a - num b) mod 2 ^ n) /\
  (n <= 16 \/ bsgn a && bsgn b = true -> ~ signed_fits (computing n) (stored a - stored b) -> bit_sub a b = UB).
Proof. intros Va Vb Wa Wb Be Hn. same_width Wa Wb. apply (arith_exact Z.sub c_sub _ sub_zmod ltac:(reflexivity)); assumption. Qed.
Lemma mul_exact a b n : vec a -> vec b -> bw a = n -> bw b = n -> blsb b <= bmsb b -> 2 <= n <= 64 ->
  ((17 <= n /\ bsgn a && bsgn b = false) \/ signed_fits (computing n) (stored a * stored b) ->
   exists r, bit_mul a b = Ok r /\ typed r n (bsgn a && bsgn b) /\ num r = (num a * num b) mod 2 ^ n) /\
  (n <= 16 \/ bsgn a && bsgn b = true -> ~ signed_fits (computing n) (stored a * stored b) -> bit_mul a b = UB).
Proof. intros Va Vb Wa Wb Be Hn. same_width Wa Wb. apply (arith_exact Z.mul c_mul _ mul_zmod ltac:(reflexivity)); assumption. Qed.
