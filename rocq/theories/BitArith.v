(** bit: arithmetic. *)
From Coq Require Import ZArith List Bool Lia Zify ZifyBool.
From Verif Require Import Cpp BigNum Bit Logic Spec ZBits Words BigNumProofs BigArith BitProofs BitSlice BitExt BitOps BitShift BitCmp.
Import ListNotations.
Open Scope Z_scope.

(** width in which C++ computes with [n]-bit native vectors *)
Definition cwidth (n : Z) : Z := if n <=? 32 then 32 else 64.
Definition fits (w z : Z) : Prop := - 2 ^ (w - 1) <= z < 2 ^ (w - 1).

Lemma cwidth_uac n s1 s2 : 1 <= n <= 64 -> iwidth (uac (hty n s1) (hty n s2)) = cwidth n.
Proof.
  intros. unfold hty, cwidth.
  repeat match goal with |- context [if ?c then _ else _] => destruct c eqn:? end; reflexivity || lia.
Qed.
Lemma uac_sign n s1 s2 : 1 <= n <= 64 -> isigned (uac (hty n s1) (hty n s2)) = (n <=? 16) || (s1 && s2).
Proof.
  intros. unfold hty. destruct s1, s2;
  repeat match goal with |- context [if ?c then _ else _] => destruct c eqn:? end; cbn; lia.
Qed.
Lemma uac_conv n s1 s2 x : 1 <= n <= 64 -> (n <=? 16) || (s1 && s2) = true ->
  (in_ity (hty n s1) x = true \/ in_ity (hty n s2) x = true) ->
  conv (uac (hty n s1) (hty n s2)) x = x.
Proof.
  intros Hn C I. apply conv_id. revert I. unfold hty. destruct s1, s2; cbn [andb orb] in *;
  repeat match goal with |- context [if ?c then _ else _] => destruct c eqn:? end; rewrite !in_ity_range; cbn; lia.
Qed.

Section Arith.
Variables (zop : Z -> Z -> Z) (cop : ity -> ity -> Z -> Z -> outcome Z) (g : Z -> list Z -> list Z -> outcome (list Z)).
Hypothesis zmod : forall a b m, 0 < m -> zop a b mod m = zop (a mod m) (b mod m) mod m.
Hypothesis copdef : forall ta tb a b, cop ta tb a b = arith (uac ta tb) (zop (conv (uac ta tb) a) (conv (uac ta tb) b)).

Lemma arith_native a b n : vec a -> vec b -> bw a = n -> bw b = n -> blsb b <= bmsb b -> n <= 64 ->
  (17 <= n /\ bsgn a && bsgn b = false \/ fits (cwidth n) (zop (stored a) (stored b))) ->
  exists r z, bit_bin cop g a b = Ok r /\ r = nat_bit (n - 1) 0 (bsgn a && bsgn b) z /\
    z mod 2 ^ n = zop (stored a) (stored b) mod 2 ^ n /\
    (n <= 16 \/ bsgn a && bsgn b = true -> z = zop (stored a) (stored b)).
Proof.
  intros Va Vb Wa Wb Be Hn D. pose proof (bw_pos a) as Hp. rewrite Wa in Hp.
  destruct (vec_cases_n a n Va Wa) as [(x & Ea & Na & Ia & Sa & Ma) | (x & Ea & Na & _)]; [|lia].
  destruct (vec_cases_n b n Vb Wb) as [(y & Eb & Nb & Ib & Sb & Mb) | (y & Eb & Nb & _)]; [|lia].
  rewrite Sa, Sb in *. unfold bit_bin, requires, same_size_op. cbn zeta.
  rewrite (bsize_bw a n Wa), (bsize_bw b n Wb), Z.eqb_refl.
  replace (blsb b <=? bmsb b) with true by lia. cbn [andb]. rewrite Ea, Eb, copdef.
  set (t := uac (hty n (bsgn a)) (hty n (bsgn b))).
  assert (Wt : iwidth t = cwidth n) by (apply cwidth_uac; lia).
  assert (St : isigned t = (n <=? 16) || (bsgn a && bsgn b)) by (apply uac_sign; lia).
  assert (Cn : n <= cwidth n) by (unfold cwidth; destruct (n <=? 32) eqn:?; lia).
  assert (P : 0 < 2 ^ n) by (apply pow2_pos; lia).
  assert (Zm : zop (conv t x) (conv t y) mod 2 ^ n = zop x y mod 2 ^ n).
  { rewrite zmod by lia. rewrite !conv_mod by (apply uac_nb || lia). rewrite <- zmod by lia. reflexivity. }
  destruct ((n <=? 16) || (bsgn a && bsgn b)) eqn:Q.
  - assert (Cx : conv t x = x) by (apply uac_conv; auto; lia).
    assert (Cy : conv t y = y) by (apply uac_conv; auto; lia).
    rewrite Cx, Cy in *. assert (F : fits (cwidth n) (zop x y)).
    { destruct D as [[D1 D2] | D]; [|exact D]. rewrite D2 in Q. lia. }
    unfold arith. rewrite St. replace (in_ity t (zop x y)) with true.
    2:{ symmetry. apply in_ity_range. rewrite St, Wt. exact F. }
    cbn [bind]. exists (nat_bit (n - 1) 0 (bsgn a && bsgn b) (zop x y)), (zop x y).
    rewrite nat_bit_eq by lia. auto.
  - unfold arith. rewrite St. cbn [bind]. eexists. exists (zop (conv t x) (conv t y) mod 2 ^ iwidth t).
    rewrite nat_bit_eq by lia. repeat (split; [reflexivity|]). rewrite Wt. split.
    + rewrite mod_mod_pow2 by lia. exact Zm.
    + apply orb_false_iff in Q. intros [H | H]; [lia | destruct Q; congruence].
Qed.
Lemma arith_native_num a b n : vec a -> vec b -> bw a = n -> bw b = n -> blsb b <= bmsb b -> 2 <= n <= 64 ->
  (17 <= n /\ bsgn a && bsgn b = false \/ fits (cwidth n) (zop (stored a) (stored b))) ->
  exists r, bit_bin cop g a b = Ok r /\ typed r n (bsgn a && bsgn b) /\ num r = zop (num a) (num b) mod 2 ^ n.
Proof.
  intros Va Vb Wa Wb Be Hn D. destruct (arith_native a b n Va Vb Wa Wb Be ltac:(lia) D) as (r & z & E & -> & M & _).
  eexists. split; [exact E|]. split; [apply typed_nat; lia|].
  rewrite nat_bit_num, width_plain by (rewrite ?width_plain; lia). rewrite M, zmod by (apply pow2_pos; lia).
  unfold num. rewrite Wa, Wb. reflexivity.
Qed.
End Arith.

Lemma add_zmod a b m : 0 < m -> (a + b) mod m = (a mod m + b mod m) mod m.
Proof. intros. apply Z.add_mod. lia. Qed.
Lemma sub_zmod a b m : 0 < m -> (a - b) mod m = (a mod m - b mod m) mod m.
Proof. intros. apply Zminus_mod. Qed.
Lemma mul_zmod a b m : 0 < m -> (a * b) mod m = ((a mod m) * (b mod m)) mod m.
Proof. intros. apply Z.mul_mod. lia. Qed.

(** small holders never overflow in + and - *)
Lemma small_stored b n : vec b -> bw b = n -> n <= 16 -> - 2 ^ 15 <= stored b < 2 ^ 16.
Proof.
  intros V W Hn. pose proof (bw_pos b). destruct (vec_cases_n b n V W) as [(x & _ & N & I & -> & _) | (x & _ & N & _)]; [|lia].
  revert I. unfold hty. destruct (bsgn b);
  repeat match goal with |- context [if ?c then _ else _] => destruct c eqn:? end; rewrite in_ity_range; cbn; lia.
Qed.

(** the operand conditions under which C++ defines + and - *)
Definition add_ok (z : Z -> Z -> Z) (a b : bit) (n : Z) : Prop :=
  65 <= n \/ n <= 16 \/ bsgn a && bsgn b = false \/ fits (cwidth n) (z (stored a) (stored b)).

Lemma big_mod n : 1 <= n -> 0 <= n <= 64 * nwords n.
Proof. intros. pose proof (nwords_bounds n H). lia. Qed.

Lemma bit_add_same_spec a b n : vec a -> vec b -> bw a = n -> bw b = n -> blsb b <= bmsb b -> 2 <= n ->
  add_ok Z.add a b n ->
  exists r, bit_add_same a b = Ok r /\ typed r n (bsgn a && bsgn b) /\ num r = (num a + num b) mod 2 ^ n.
Proof.
  intros Va Vb Wa Wb Be Hn D. unfold bit_add_same.
  destruct (Z.leb_spec n 64).
  - apply (arith_native_num Z.add c_add _ add_zmod ltac:(reflexivity)); try assumption; try lia.
    unfold add_ok in D. destruct D as [D | [D | [D | D]]]; [lia | | | right; exact D].
    + right. pose proof (small_stored a n Va Wa D). pose proof (small_stored b n Vb Wb D).
      unfold fits, cwidth. replace (n <=? 32) with true by lia. lia.
    + destruct (Z.leb_spec n 16).
      * right. pose proof (small_stored a n Va Wa H0). pose proof (small_stored b n Vb Wb H0).
        unfold fits, cwidth. replace (n <=? 32) with true by lia. lia.
      * left. split; [lia | exact D].
  - destruct (vec_cases_n a n Va Wa) as [(x & _ & N & _) | (x & Ea & Na & Ia & Sa & Ma)]; [lia|].
    destruct (vec_cases_n b n Vb Wb) as [(y & _ & N & _) | (y & Eb & Nb & Ib & Sb & Mb)]; [lia|].
    unfold bit_bin, requires, same_size_op. cbn zeta. rewrite (bsize_bw a n Wa), (bsize_bw b n Wb), Z.eqb_refl.
    replace (blsb b <=? bmsb b) with true by lia. cbn [andb]. rewrite Ea, Eb. cbn [bind].
    destruct (bn_add_spec n x y ltac:(lia) Ia Ib) as [W E]. eexists. split; [reflexivity|].
    split; [apply typed_big; assumption|]. rewrite num_plain_big, E by lia. pose proof (big_mod n ltac:(lia)).
    rewrite mod_mod_pow2 by lia. rewrite Ma, Mb. apply add_zmod, pow2_pos. lia.
Qed.
Lemma bit_sub_same_spec a b n : vec a -> vec b -> bw a = n -> bw b = n -> blsb b <= bmsb b ->
  add_ok Z.sub a b n ->
  exists r, bit_sub_same a b = Ok r /\ typed r n (bsgn a && bsgn b) /\ num r = (num a - num b) mod 2 ^ n.
Proof.
  intros Va Vb Wa Wb Be D. pose proof (bw_pos a) as Hp. rewrite Wa in Hp. unfold bit_sub_same.
  destruct (Z.leb_spec n 64).
  - assert (D' : 17 <= n /\ bsgn a && bsgn b = false \/ fits (cwidth n) (stored a - stored b)).
    { unfold add_ok in D. destruct D as [D | [D | [D | D]]]; [lia | | | right; exact D].
      + right. pose proof (small_stored a n Va Wa D). pose proof (small_stored b n Vb Wb D).
        unfold fits, cwidth. replace (n <=? 32) with true by lia. lia.
      + destruct (Z.leb_spec n 16).
        * right. pose proof (small_stored a n Va Wa H0). pose proof (small_stored b n Vb Wb H0).
          unfold fits, cwidth. replace (n <=? 32) with true by lia. lia.
        * left. split; [lia | exact D]. }
    destruct (Z.eq_dec n 1) as [E1|N1].
    + destruct (arith_native Z.sub c_sub (fun n x y => Ok (bn_sub n x y)) sub_zmod ltac:(reflexivity) a b n Va Vb Wa Wb Be ltac:(lia) D')
        as (r & z & E & -> & _ & Z0). eexists. split; [exact E|]. split; [apply typed_nat; lia|].
      rewrite Z0 by lia. rewrite nat_bit_num1 by (rewrite width_plain; lia).
      destruct (vec_cases_n a n Va Wa) as [(x & Ea & Na & Ia & Sa & Ma) | (x & Ea & Na & _)]; [|lia].
      destruct (vec_cases_n b n Vb Wb) as [(y & Eb & Nb & Ib & Sb & Mb) | (y & Eb & Nb & _)]; [|lia].
      rewrite Sa, Sb, Ma, Mb. rewrite E1 in *. rewrite hty_1 in *. apply in_bool in Ia, Ib.
      destruct Ia as [-> | ->], Ib as [-> | ->]; reflexivity.
    + apply (arith_native_num Z.sub c_sub _ sub_zmod ltac:(reflexivity)); (assumption || lia).
  - destruct (vec_cases_n a n Va Wa) as [(x & _ & N & _) | (x & Ea & Na & Ia & Sa & Ma)]; [lia|].
    destruct (vec_cases_n b n Vb Wb) as [(y & _ & N & _) | (y & Eb & Nb & Ib & Sb & Mb)]; [lia|].
    unfold bit_bin, requires, same_size_op. cbn zeta. rewrite (bsize_bw a n Wa), (bsize_bw b n Wb), Z.eqb_refl.
    replace (blsb b <=? bmsb b) with true by lia. cbn [andb]. rewrite Ea, Eb. cbn [bind].
    destruct (bn_sub_spec n x y ltac:(lia) Ia Ib) as [W E]. eexists. split; [reflexivity|].
    split; [apply typed_big; assumption|]. rewrite num_plain_big, E by lia. pose proof (big_mod n ltac:(lia)).
    rewrite mod_mod_pow2 by lia. rewrite Ma, Mb. apply sub_zmod, pow2_pos. lia.
Qed.

(** multiplication, native *)
Lemma bit_mul_native a b n : vec a -> vec b -> bw a = n -> bw b = n -> blsb b <= bmsb b -> n <= 64 ->
  (17 <= n /\ bsgn a && bsgn b = false \/ fits (cwidth n) (stored a * stored b)) ->
  exists r, bit_mul_same a b = Ok r /\ typed r n (bsgn a && bsgn b) /\ num r = (num a * num b) mod 2 ^ n.
Proof.
  intros Va Vb Wa Wb Be Hn D. pose proof (bw_pos a) as Hp. rewrite Wa in Hp. unfold bit_mul_same.
  destruct (Z.eq_dec n 1) as [E1|N1].
  - destruct (arith_native Z.mul c_mul bn_mul mul_zmod ltac:(reflexivity) a b n Va Vb Wa Wb Be ltac:(lia) D)
      as (r & z & E & -> & _ & Z0). eexists. split; [exact E|]. split; [apply typed_nat; lia|].
    rewrite Z0 by lia. rewrite nat_bit_num1 by (rewrite width_plain; lia).
    destruct (vec_cases_n a n Va Wa) as [(x & Ea & Na & Ia & Sa & Ma) | (x & Ea & Na & _)]; [|lia].
    destruct (vec_cases_n b n Vb Wb) as [(y & Eb & Nb & Ib & Sb & Mb) | (y & Eb & Nb & _)]; [|lia].
    rewrite Sa, Sb, Ma, Mb. rewrite E1 in *. rewrite hty_1 in *. apply in_bool in Ia, Ib.
    destruct Ia as [-> | ->], Ib as [-> | ->]; reflexivity.
  - apply (arith_native_num Z.mul c_mul _ mul_zmod ltac:(reflexivity)); (assumption || lia).
Qed.

(** multiplication, multi-word *)
Lemma below_of_num ws k : wf ws -> 0 <= k -> words_num ws < 2 ^ (64 * k) -> below ws k.
Proof.
  intros W Hk H i Hi. rewrite <- words_num_word by (assumption || lia).
  rewrite Z.div_small; [reflexivity|]. pose proof (words_num_nonneg ws W). pose proof (pow2_mono (64 * k) (64 * i) ltac:(lia)). lia.
Qed.
Lemma halves_tl ws : wf ws -> (halves_ok (tl ws) <-> visible (words_num ws / 2 ^ 64)).
Proof.
  intros W. rewrite halves_visible by (apply wf_tl, W).
  rewrite (words_num_tl ws) at 1. rewrite Z.mul_comm, Z.div_add by lia.
  rewrite (Z.div_small (word ws 0)) by (apply word_range, W). reflexivity.
Qed.
Lemma bit_mul_big a b n ka kb : vec a -> vec b -> bw a = n -> bw b = n -> blsb b <= bmsb b -> 65 <= n -> tidy a -> tidy b ->
  visible (num a / 2 ^ 64) -> visible (num b / 2 ^ 64) -> 0 <= ka -> 0 <= kb ->
  num a < 2 ^ (64 * ka) -> num b < 2 ^ (64 * kb) -> ka + kb <= nwords n ->
  exists r, bit_mul_same a b = Ok r /\ typed r n (bsgn a && bsgn b) /\ num r = (num a * num b) mod 2 ^ n.
Proof.
  intros Va Vb Wa Wb Be Hn Ta Tb Ha Hb Ka Kb La Lb Hk.
  destruct (vec_cases_n a n Va Wa) as [(x & _ & N & _) | (x & Ea & Na & Ia & Sa & Ma)]; [lia|].
  destruct (vec_cases_n b n Vb Wb) as [(y & _ & N & _) | (y & Eb & Nb & Ib & Sb & Mb)]; [lia|].
  rewrite (num_of_tidy_big a x Ea Ta), (num_of_tidy_big b y Eb Tb) in *.
  unfold bit_mul_same, bit_bin, requires, same_size_op. cbn zeta. rewrite (bsize_bw a n Wa), (bsize_bw b n Wb), Z.eqb_refl.
  replace (blsb b <=? bmsb b) with true by lia. cbn [andb]. rewrite Ea, Eb.
  destruct (bn_mul_spec n x y ka kb Hn Ia Ib) as (r & E & W & N).
  - apply halves_tl; [apply Ia | exact Ha].
  - apply halves_tl; [apply Ib | exact Hb].
  - apply below_of_num; (apply Ia || assumption).
  - apply below_of_num; (apply Ib || assumption).
  - exact Hk.
  - rewrite E. cbn [bind]. eexists. split; [reflexivity|]. split; [apply typed_big; assumption|].
    rewrite num_plain_big, N by lia. pose proof (big_mod n ltac:(lia)). apply mod_mod_pow2. lia.
Qed.

(** division and remainder *)
Lemma divrem_native_u a b n : vec a -> vec b -> bw a = n -> bw b = n -> blsb b <= bmsb b -> n <= 64 ->
  bsgn a = false -> bsgn b = false -> tidy a -> tidy b -> num b <> 0 ->
  (exists q, bit_div_same a b = Ok q /\ typed q n false /\ num q = num a / num b /\ tidy q) /\
  (exists r, bit_rem_same a b = Ok r /\ typed r n false /\ num r = num a mod num b /\ tidy r).
Proof.
  intros Va Vb Wa Wb Be Hn Sga Sgb Ta Tb Nz. pose proof (bw_pos a) as Hp. rewrite Wa in Hp.
  rewrite (num_of_tidy a Ta Sga), (num_of_tidy b Tb Sgb) in *.
  destruct (vec_cases_n a n Va Wa) as [(x & Ea & Na & Ia & Sa & Ma) | (x & Ea & Na & _)]; [|lia].
  destruct (vec_cases_n b n Vb Wb) as [(y & Eb & Nb & Ib & Sb & Mb) | (y & Eb & Nb & _)]; [|lia].
  rewrite Sa, Sb in *. unfold tidy in Ta, Tb. rewrite Ea, Sga, Wa in Ta. rewrite Eb, Sgb, Wb in Tb. cbn [andb] in Ta, Tb.
  rewrite Sga in Ia. rewrite Sgb in Ib.
  unfold bit_div_same, bit_rem_same, bit_bin, requires, same_size_op. cbn zeta.
  rewrite (bsize_bw a n Wa), (bsize_bw b n Wb), Z.eqb_refl. replace (blsb b <=? bmsb b) with true by lia.
  rewrite Sga, Sgb, Ea, Eb. cbn [andb]. set (h := hty n false) in *.
  assert (Cx : forall v, in_ity h v = true -> conv (uac h h) v = v) by (intros; rewrite uac_same; apply conv_promote; assumption).
  unfold c_div, c_rem. cbn zeta. rewrite (Cx x Ia), (Cx y Ib). replace (y =? 0) with false by lia.
  assert (Q : Z.quot x y = x / y) by (apply Z.quot_div_nonneg; lia).
  assert (Rm : Z.rem x y = x mod y) by (apply Z.rem_mod_nonneg; lia).
  assert (Rq : 0 <= x / y <= x) by (split; [apply Z.div_pos; lia | apply Z.div_le_upper_bound; nia]).
  assert (Rr : 0 <= x mod y < y) by (apply Z.mod_pos_bound; lia).
  assert (Iq : in_ity (uac h h) (x / y) = true).
  { rewrite uac_same. apply in_promote. revert Ia. rewrite !in_ity_range. unfold h.
    destruct (Z.eq_dec n 1) as [->|]; [rewrite hty_1; cbn; lia|]. rewrite hty_signed by lia. lia. }
  rewrite Q, Rm, Iq. unfold arith. rewrite Iq.
  assert (G : forall z, 0 <= z < 2 ^ n -> let r := mkBit (n - 1) 0 false (HN (conv h z)) in typed r n false /\ num r = z /\ tidy r).
  { intros z Hz r. unfold r, h. rewrite nat_bit_eq by lia. split; [apply typed_nat; lia|].
    rewrite nat_bit_num_small by (rewrite width_plain; lia). split; [reflexivity|].
    apply nat_bit_tidy; rewrite width_plain; lia. }
  split.
  - assert (E : (if isigned (uac h h) then Ok (x / y) else Ok ((x / y) mod 2 ^ iwidth (uac h h))) = Ok (x / y)).
    { destruct (isigned (uac h h)) eqn:Sg; [reflexivity|]. f_equal. apply Z.mod_small. apply in_ity_range in Iq.
      rewrite Sg in Iq. exact Iq. }
    rewrite E. cbn [bind]. eexists. split; [reflexivity|]. apply G. lia.
  - cbn [bind]. eexists. split; [reflexivity|]. apply G. lia.
Qed.
Lemma divrem_big_u a b n : vec a -> vec b -> bw a = n -> bw b = n -> blsb b <= bmsb b -> 65 <= n ->
  bsgn a = false -> bsgn b = false -> tidy a -> tidy b -> num b <> 0 ->
  visible (num b) -> visible (num b / 2 ^ 64) -> visible (num a / 2 ^ 64) ->
  (exists q, bit_div_same a b = Ok q /\ typed q n false /\ num q = num a / num b /\ tidy q) /\
  (exists r, bit_rem_same a b = Ok r /\ typed r n false /\ num r = num a mod num b /\ tidy r).
Proof.
  intros Va Vb Wa Wb Be Hn Sga Sgb Ta Tb Nz V1 V2 V3.
  destruct (vec_cases_n a n Va Wa) as [(x & _ & N & _) | (x & Ea & Na & Ia & Sa & Ma)]; [lia|].
  destruct (vec_cases_n b n Vb Wb) as [(y & _ & N & _) | (y & Eb & Nb & Ib & Sb & Mb)]; [lia|].
  rewrite (num_of_tidy_big a x Ea Ta), (num_of_tidy_big b y Eb Tb) in *.
  unfold tidy in Ta, Tb. rewrite Ea, Wa in Ta. rewrite Eb, Wb in Tb.
  unfold bit_div_same, bit_rem_same, bit_bin, requires, same_size_op. cbn zeta.
  rewrite (bsize_bw a n Wa), (bsize_bw b n Wb), Z.eqb_refl. replace (blsb b <=? bmsb b) with true by lia.
  rewrite Sga, Sgb, Ea, Eb. cbn [andb].
  destruct (bn_div_mod_spec n x y ltac:(lia) Ia Ib ltac:(lia) Nz) as (qr & E & Wq & Wr & D & R).
  - apply halves_visible; [apply Ib | exact V1].
  - apply halves_tl; [apply Ib | exact V2].
  - apply halves_tl; [apply Ia | exact V3].
  - rewrite E. unfold omap. cbn [bind].
    assert (Q : words_num (fst qr) = words_num x / words_num y).
    { apply Z.div_unique with (r := words_num (snd qr)); [left; lia | lia]. }
    assert (M : words_num (snd qr) = words_num x mod words_num y).
    { apply Z.mod_unique with (q := words_num (fst qr)); [left; lia | lia]. }
    assert (G : forall ws z, wfn n ws -> words_num ws = z -> 0 <= z < 2 ^ n ->
      let r := mkBit (n - 1) 0 false (HB ws) in typed r n false /\ num r = z /\ tidy r).
    { intros ws z W Ez Hz r. split; [apply typed_big; assumption|]. unfold r. rewrite num_plain_big, Ez by lia.
      split; [apply Z.mod_small; exact Hz|]. apply big_tidy. rewrite width_plain, Ez by lia. exact Hz. }
    pose proof (words_num_nonneg _ (proj1 Wq)). 
    split; (eexists; split; [reflexivity|]; apply G; [assumption | assumption |]); [|rewrite <- M; lia].
    rewrite <- Q. split; [lia|]. assert (words_num (fst qr) <= words_num x) by nia. lia.
Qed.

(** signed native division truncates towards zero *)
Lemma divrem_native_s a b n : vec a -> vec b -> bw a = n -> bw b = n -> blsb b <= bmsb b -> 2 <= n <= 64 ->
  bsgn a = true -> bsgn b = true -> tidy a -> tidy b -> snum b <> 0 ->
  ~ ((n = 32 \/ n = 64) /\ snum a = - 2 ^ (n - 1) /\ snum b = -1) ->
  (exists q, bit_div_same a b = Ok q /\ typed q n true /\ num q = Z.quot (snum a) (snum b) mod 2 ^ n) /\
  (exists r, bit_rem_same a b = Ok r /\ typed r n true /\ num r = Z.rem (snum a) (snum b) mod 2 ^ n).
Proof.
  intros Va Vb Wa Wb Be Hn Sga Sgb Ta Tb Nz Ov.
  pose proof (tidy_s_stored a Va ltac:(lia) Sga Ta) as Xa. pose proof (tidy_s_stored b Vb ltac:(lia) Sgb Tb) as Xb.
  rewrite <- Xa, <- Xb in *.
  destruct (vec_cases_n a n Va Wa) as [(x & Ea & Na & Ia & Sa & Ma) | (x & Ea & Na & _)]; [|lia].
  destruct (vec_cases_n b n Vb Wb) as [(y & Eb & Nb & Ib & Sb & Mb) | (y & Eb & Nb & _)]; [|lia].
  rewrite Sa, Sb in *. unfold tidy in Ta, Tb. rewrite Ea, Sga, Wa in Ta. rewrite Eb, Sgb, Wb in Tb.
  replace (true && (1 <? n)) with true in Ta, Tb by lia. rewrite Sga in Ia. rewrite Sgb in Ib.
  unfold bit_div_same, bit_rem_same, bit_bin, requires, same_size_op. cbn zeta.
  rewrite (bsize_bw a n Wa), (bsize_bw b n Wb), Z.eqb_refl. replace (blsb b <=? bmsb b) with true by lia.
  rewrite Sga, Sgb, Ea, Eb. cbn [andb]. set (h := hty n true) in *.
  assert (Cx : forall v, in_ity h v = true -> conv (uac h h) v = v) by (intros; rewrite uac_same; apply conv_promote; assumption).
  unfold c_div, c_rem. cbn zeta. rewrite (Cx x Ia), (Cx y Ib). replace (y =? 0) with false by lia.
  assert (Sg : isigned (uac h h) = true) by (unfold h; rewrite uac_sign by lia; rewrite orb_true_r; reflexivity).
  assert (Wt : iwidth (uac h h) = cwidth n) by (apply cwidth_uac; lia).
  assert (Ab : Z.abs (Z.quot x y) <= Z.abs x /\ (y <> -1 -> 2 * Z.abs (Z.quot x y) <= Z.abs x \/ y = 1)).
  { rewrite Z.quot_abs_r || idtac. pose proof (Z.quot_abs x y Nz) as Qa.
    rewrite Z.quot_div_nonneg in Qa by lia. rewrite <- Qa.
    split; [apply Z.div_le_upper_bound; nia|]. intros Y1. destruct (Z.eq_dec y 1) as [->|Y2]; [right; reflexivity | left].
    assert (2 <= Z.abs y) by lia. pose proof (Z.mul_div_le (Z.abs x) (Z.abs y) ltac:(lia)).
    assert (0 <= Z.abs x / Z.abs y) by (apply Z.div_pos; lia). nia. }
  assert (Iq : in_ity (uac h h) (Z.quot x y) = true).
  { apply in_ity_range. rewrite Sg, Wt.
    assert (P : 2 ^ (n - 1) <= 2 ^ (cwidth n - 1)).
    { apply pow2_mono. unfold cwidth. destruct (n <=? 32) eqn:?; lia. }
    assert (P2 : n <> 32 -> n <> 64 -> 2 * 2 ^ (n - 1) <= 2 ^ (cwidth n - 1)).
    { intros. rewrite <- Z.pow_succ_r by lia. apply pow2_mono. unfold cwidth. destruct (n <=? 32) eqn:?; lia. }
    assert (0 < 2 ^ (n - 1)) by (apply pow2_pos; lia).
    destruct (Z.eq_dec y 1) as [->|Y1]; [rewrite Z.quot_1_r; lia|].
    destruct (Z.eq_dec y (-1)) as [->|Y2].
    - replace (Z.quot x (-1)) with (- x) by (change (-1) with (- (1)); rewrite Z.quot_opp_r, Z.quot_1_r by lia; reflexivity).
      destruct (Z.eq_dec x (- 2 ^ (n - 1))) as [Ex|]; [|lia].
      assert (n <> 32 /\ n <> 64) as [N1 N2] by (split; intros ->; apply Ov; auto). specialize (P2 N1 N2). lia.
    - destruct Ab as [_ Ab]. destruct (Ab Y2) as [Ab'|]; lia. }
  rewrite Iq. unfold arith. rewrite Sg, Iq. cbn [bind]. unfold h.
  split; (eexists; split; [reflexivity|]; rewrite nat_bit_eq by lia; split; [apply typed_nat; lia|];
    rewrite nat_bit_num, width_plain by (rewrite ?width_plain; lia); reflexivity).
Qed.

(** unary minus *)
Lemma bit_neg_spec a n s : n <= 64 -> 1 <= n -> typed a n s ->
  (s = false \/ n <= 16 \/ stored a <> - 2 ^ (cwidth n - 1)) ->
  exists r, bit_neg a = Ok r /\ typed r n s /\ num r = (- num a) mod 2 ^ n.
Proof.
  intros Hn H1 T D. destruct (typed_cases a n s H1 T) as [(x & -> & N & I) | (x & _ & N & _)]; [|lia].
  unfold bit_neg, c_neg, stored, bsize, vsize in *. cbn [bval bmsb blsb bsgn] in *. replace (Z.abs (n - 1 - 0) + 1) with n by lia. cbn zeta.
  rewrite num_plain_nat by lia.
  assert (E : exists z, arith (promote (hty n s)) (- x) = Ok z /\ z mod 2 ^ n = (- x) mod 2 ^ n /\ (n = 1 -> z = - x)).
  { assert (Wp : n <= iwidth (promote (hty n s))).
    { pose proof (hty_width n s ltac:(lia)). pose proof (promote_width (hty n s)). lia. }
    assert (Sg : isigned (promote (hty n s)) = (n <=? 16) || s).
    { rewrite <- uac_same. rewrite uac_sign by lia. rewrite andb_diag. reflexivity. }
    assert (Cw : iwidth (promote (hty n s)) = cwidth n) by (rewrite <- uac_same; apply cwidth_uac; lia).
    unfold arith. rewrite Sg. destruct ((n <=? 16) || s) eqn:Q.
    - replace (in_ity (promote (hty n s)) (- x)) with true; [eexists; auto|].
      symmetry. apply in_ity_range. rewrite Sg, Cw. apply in_promote in I. apply in_ity_range in I. rewrite Sg, Cw in I.
      destruct D as [-> | [D | D]]; [| |lia].
      + assert (n <= 16) by (rewrite orb_false_r in Q; lia). 
        assert (S : - 2 ^ 15 <= x < 2 ^ 16) by (apply (small_stored _ n (proj1 T)); [apply bw_plain; [lia | split; reflexivity] | lia]).
        unfold cwidth in *. replace (n <=? 32) with true in * by lia. lia.
      + assert (S : - 2 ^ 15 <= x < 2 ^ 16) by (apply (small_stored _ n (proj1 T)); [apply bw_plain; [lia | split; reflexivity] | lia]).
        unfold cwidth in *. replace (n <=? 32) with true in * by lia. lia.
    - eexists. split; [reflexivity|]. split; [apply mod_mod_pow2; lia|]. intros ->. cbn in Q. discriminate. }
  destruct E as (z & E & M & Z1). rewrite E. cbn [bind]. eexists. split; [reflexivity|]. unfold bit_of_native.
  change (vsize (n - 1) 0) with (width (n - 1) 0). rewrite width_plain, nat_bit_eq by lia. split; [apply typed_nat; lia|].
  assert (P : 0 < 2 ^ n) by (apply pow2_pos; lia).
  replace ((- (x mod 2 ^ n)) mod 2 ^ n) with ((- x) mod 2 ^ n)
    by (rewrite <- !(Z.sub_0_l _), (Zminus_mod 0 x), (Zminus_mod 0 (x mod 2 ^ n)), Zmod_mod; reflexivity).
  destruct (Z.eq_dec n 1) as [E1|N1].
  - rewrite nat_bit_num1 by (rewrite width_plain; lia). rewrite Z1 by exact E1. rewrite E1 in *. rewrite hty_1 in I. apply in_bool in I.
    destruct I as [-> | ->]; reflexivity.
  - rewrite nat_bit_num, width_plain by (rewrite ?width_plain; lia). exact M.
Qed.
