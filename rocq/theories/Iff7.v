(** Exactly when << >>> == and the order are right. *)
From Coq Require Import ZArith List Bool Lia.
From Verif Require Exact.
From Verif Require Import Cpp BigNum Bit Spec SpecExact SpecMachine SpecWide SpecIff BitExt BitOps ZBits Words BigNumProofs BitProofs BitCmp BitShift BitMain BitMain2 BitMain5 MachineProofs ReachProofs WideProofs WideProofs2 WideProofs3 WideProofs4 LogicRed Iff2 Iff3 Iff4 Iff5 Iff6.
Import ListNotations.
Open Scope Z_scope.
Local Ltac Zify.zify_post_hook ::= idtac.

Lemma storage_pow n : 2 <= n <= 64 -> n <= storage n /\ n < 2 ^ (storage n - 1) /\ 8 <= storage n.
Proof. intros H. unfold storage. destruct (Z.leb_spec n 8), (Z.leb_spec n 16), (Z.leb_spec n 32); match goal with |- context [2 ^ ?e] => let v := eval vm_compute in (2 ^ e) in change (2 ^ e) with v end; lia. Qed.
Lemma wrap_id s w z : 1 <= w -> 0 <= z < 2 ^ (w - 1) -> wrap s w z = z.
Proof.
  intros Hw R. pose proof (pow_double w Hw). pose proof (pow2_pos (w - 1) ltac:(lia)). unfold wrap. destruct s; [|apply Z.mod_small; lia].
  rewrite Z.mod_small by lia. lia.
Qed.
Lemma big_shift z k n : 0 <= n <= k -> (z * 2 ^ k) mod 2 ^ n = 0.
Proof. intros H. replace k with ((k - n) + n) by lia. rewrite Z.pow_add_r, Z.mul_assoc by lia. apply Z.mod_mul. pose proof (pow2_pos n). lia. Qed.

(** << *)
Lemma shl_iff a k n s : 1 <= n -> typed a n s -> vec k -> tidy k -> 0 <= value k ->
  (exists r, bit_shl a k = Ok r /\ num r = (num a * 2 ^ value k) mod 2 ^ n) <->
  (n = 1 /\ bw k <= 64 /\ (value k = 0 \/ num a = 0)) \/
  (2 <= n <= 64 /\ bw k <= 64 /\ 0 <= wrap s (storage n) (value k) < computing n /\ (wrap s (storage n) (value k) = value k \/ (num a * 2 ^ wrap s (storage n) (value k)) mod 2 ^ n = 0)) \/
  65 <= n.
Proof.
  intros Hn T Vk Tk Rk. pose proof (typed_bw a n s Hn T) as W. destruct T as (V & (M & L) & S). pose proof (tidy_value_stored k Vk Tk Rk) as St.
  rewrite shl_any by assumption. unfold any_left, any_shift. unfold small at 1. rewrite W. destruct (Z.leb_spec n 64) as [G|G].
  - unfold small. destruct (Z.leb_spec (bw k) 64) as [Gk|Gk].
    2: { split; [intros (r & E & _); discriminate|lia]. }
    unfold shifted_left, shiftable, amount. rewrite W, S, St. destruct (Z.eq_dec n 1) as [N1|N1].
    + rewrite N1 in *. unfold store. change (1 =? 1) with true. cbv iota. destruct (stored_one a V W) as [Sa Oa]. rewrite Sa.
      assert (B : (0 <=? (if value k =? 0 then 0 else 1)) && ((if value k =? 0 then 0 else 1) <? computing 1) = true) by (destruct (value k =? 0); reflexivity). rewrite B. clear B.
      split.
      * intros (r & E & Nr). injection E as <-. left. split; [reflexivity|]. split; [assumption|]. revert Nr. rewrite vector_one. destruct (Z.eqb_spec (value k) 0); [auto|]. destruct Oa as [-> | ->]; [auto|]. intros Q. rewrite big_shift in Q by lia. discriminate.
      * intros [(_ & _ & Q)|[Q|Q]]; [|lia|lia]. eexists. split; [reflexivity|]. rewrite vector_one. destruct (Z.eqb_spec (value k) 0) as [-> |Nk]; [destruct Oa as [-> | ->]; reflexivity|]. destruct Q as [Q|Q]; [congruence|]. rewrite Q. reflexivity.
    + unfold store. replace (n =? 1) with false by lia. set (m := wrap s (storage n) (value k)).
      destruct (Z.leb_spec 0 m), (Z.ltb_spec m (computing n)); cbn [andb]; try (split; [intros (r & E & _); discriminate|lia]).
      assert (Q : num (vector n (both_signed a k) (stored a * 2 ^ m)) = (num a * 2 ^ m) mod 2 ^ n). { rewrite <- (vec_of_small n) by lia. rewrite vec_of_num by lia. unfold num. rewrite W. now rewrite Z.mul_mod_idemp_l by (pose proof (pow2_pos n); lia). }
      destruct (storage_pow n ltac:(lia)) as (P1 & P2 & P3).
      assert (D : m = value k \/ n <= value k). { destruct (Z.lt_ge_cases (value k) (2 ^ (storage n - 1))); [left; apply wrap_id; lia|right; lia]. }
      split.
      * intros (r & E & Nr). injection E as <-. rewrite Q in Nr. right; left. repeat split; try lia. destruct D as [D|D]; [left; exact D|right]. rewrite Nr. apply big_shift; lia.
      * intros [C|[(_ & _ & _ & C)|C]]; [lia| |lia]. eexists; split; [reflexivity|]. rewrite Q. destruct C as [C|C]; [now rewrite C|]. destruct D as [D|D]; [now rewrite D|]. rewrite C. symmetry. apply big_shift; lia.
  - split; [intros _; right; right; lia|]. intros _. eexists. split; [reflexivity|]. rewrite vec_of_num by lia. rewrite Z.mod_mod by (pose proof (pow2_pos n); lia). unfold num. rewrite W, Z.mul_mod_idemp_l by (pose proof (pow2_pos n); lia).
    assert (A : any_amount k = value k); [|now rewrite A]. unfold any_amount. rewrite St. destruct (small k) eqn:Sk; [|reflexivity]. apply Z.mod_small. split; [lia|]. destruct (value_range k) as (R & _). unfold small in Sk. assert (2 ^ bw k <= 2 ^ 64) by (apply Z.pow_le_mono_r; lia). lia.
Qed.
(** >>> *)
Lemma small_quot z m : 0 <= m -> z / 2 ^ m = (if z <? 0 then -1 else 0) <-> - 2 ^ m <= z < 2 ^ m.
Proof.
  intros Hm. pose proof (pow2_pos m Hm) as P. pose proof (Z.div_mod z (2 ^ m) ltac:(lia)) as D. pose proof (Z.mod_pos_bound z (2 ^ m) P) as R. set (q := z / 2 ^ m) in *. destruct (Z.ltb_spec z 0); split; intros Q.
  - rewrite Q in D. lia.
  - assert (q < 0) by nia. assert (-2 < q) by nia. lia.
  - rewrite Q in D. lia.
  - assert (q < 1) by nia. assert (-1 < q) by nia. lia.
Qed.
Lemma mod_twos n x y : 0 <= n -> - 2 ^ n <= x < 2 ^ n -> - 2 ^ n <= y < 2 ^ n -> (x < 0 <-> y < 0) -> x mod 2 ^ n = y mod 2 ^ n -> x = y.
Proof.
  intros Hn Rx Ry Sg E. pose proof (pow2_pos n Hn) as P. destruct (Z.lt_ge_cases x 0).
  - rewrite <- (Z.mod_add x 1), <- (Z.mod_add y 1), !Z.mod_small in E by lia. lia.
  - rewrite !Z.mod_small in E by lia. exact E.
Qed.
Lemma quot_range z m n : 0 <= m -> 0 <= n -> - 2 ^ n <= z < 2 ^ n -> - 2 ^ n <= z / 2 ^ m < 2 ^ n /\ (z / 2 ^ m < 0 <-> z < 0).
Proof.
  intros Hm Hn R. pose proof (pow2_pos m Hm) as P. pose proof (pow2_pos n Hn) as Pn. split; [split|].
  - apply Z.div_le_lower_bound; nia.
  - apply Z.div_lt_upper_bound; nia.
  - split; intros H; [|apply Z.div_lt_upper_bound; lia]. destruct (Z.lt_ge_cases z 0); [assumption|]. pose proof (Z.div_pos z (2 ^ m)). lia.
Qed.
Lemma ashr_iff a k n s : 1 <= n -> typed a n s -> tidy a -> vec k -> tidy k -> 0 <= value k ->
  (exists r, bit_ashr a k = Ok r /\ num r = (value a / 2 ^ value k) mod 2 ^ n) <->
  (n = 1 /\ bw k <= 64 /\ (s = false \/ value k = 0 \/ num a = 0)) \/
  (2 <= n <= 64 /\ bw k <= 64 /\ 0 <= wrap s (storage n) (value k) < computing n /\ (wrap s (storage n) (value k) = value k \/ - 2 ^ wrap s (storage n) (value k) <= value a < 2 ^ wrap s (storage n) (value k))) \/
  (65 <= n /\ (0 <= value a \/ n <= value k)).
Proof.
  intros Hn T Ta Vk Tk Rk. pose proof (typed_bw a n s Hn T) as W. pose proof T as T0. destruct T as (V & (M & L) & S). pose proof (tidy_value_stored k Vk Tk Rk) as St.
  assert (Pn : 0 < 2 ^ n) by (apply pow2_pos; lia).
  assert (Va : - 2 ^ n <= value a < 2 ^ n) by (destruct (value_range a) as (R & _); rewrite W in R; pose proof (pow_double n Hn); pose proof (pow2_pos (n - 1)); lia).
  rewrite ashr_any by assumption. unfold any_arith, any_shift. unfold small at 1. rewrite W, S. destruct (Z.leb_spec n 64) as [G|G].
  - unfold small. destruct (Z.leb_spec (bw k) 64) as [Gk|Gk].
    2: { split; [intros (r & E & _); discriminate|lia]. }
    unfold shifted_arith, shiftable, amount. rewrite W, S, St. destruct (Z.eq_dec n 1) as [N1|N1].
    + rewrite N1 in *. unfold store. change (1 =? 1) with true. cbv iota. destruct (stored_one a V W) as [Sa Oa]. rewrite Sa.
      assert (B : (0 <=? (if value k =? 0 then 0 else 1)) && ((if value k =? 0 then 0 else 1) <? computing 1) = true) by (destruct (value k =? 0); reflexivity). rewrite B. clear B.
      assert (Q : forall r, num (vector 1 (both_signed a k) (num a / 2 ^ (if value k =? 0 then 0 else 1))) = r <-> r = if value k =? 0 then num a else 0). { intros r. rewrite vector_one. destruct (value k =? 0), Oa as [-> | ->]; cbn; lia. }
      assert (K : (value a / 2 ^ value k) mod 2 ^ 1 = (if value k =? 0 then num a else 0) <-> s = false \/ value k = 0 \/ num a = 0). {
        unfold value at 1. rewrite S. unfold snum. rewrite W. destruct (Z.eqb_spec (value k) 0) as [-> |Nk]; [destruct s, Oa as [-> | ->]; cbn; tauto|].
        destruct s, Oa as [-> | ->]; cbn [twos Z.testbit Z.sub Z.pos_sub Pos.pred_double].
        - rewrite Z.div_0_l by (pose proof (pow2_pos (value k)); lia). cbn. tauto.
        - change (twos 1 1) with (-1). replace (-1 / 2 ^ value k) with (-1) by (symmetry; apply (small_quot (-1) (value k) Rk); pose proof (pow2_pos (value k)); lia). cbn. split; [discriminate|]. intros [X|[X|X]]; [discriminate X|congruence|discriminate X].
        - rewrite Z.div_0_l by (pose proof (pow2_pos (value k)); lia). cbn. tauto.
        - assert (2 <= 2 ^ value k) by (change 2 with (2 ^ 1) at 1; apply Z.pow_le_mono_r; lia). rewrite Z.div_small by lia. cbn. tauto. }
      split.
      * intros (r & E & Nr). injection E as <-. left. split; [reflexivity|]. split; [assumption|]. apply K, Q. exact Nr.
      * intros [(_ & _ & C)|[C|C]]; [|lia|lia]. eexists. split; [reflexivity|]. apply Q, K, C.
    + unfold store. replace (n =? 1) with false by lia. set (m := wrap s (storage n) (value k)).
      destruct (Z.leb_spec 0 m), (Z.ltb_spec m (computing n)); cbn [andb]; try (split; [intros (r & E & _); discriminate|lia]).
      assert (Q : num (vector n (both_signed a k) (stored a / 2 ^ m)) = (value a / 2 ^ m) mod 2 ^ n). { rewrite <- (vec_of_small n) by lia. rewrite vec_of_num by lia. now rewrite (tidy_stored a V Ta) by lia. }
      destruct (storage_pow n ltac:(lia)) as (P1 & P2 & P3).
      assert (D : m = value k \/ n <= value k). { destruct (Z.lt_ge_cases (value k) (2 ^ (storage n - 1))); [left; apply wrap_id; lia|right; lia]. }
      assert (Z0 : n <= value k -> value a / 2 ^ value k = if value a <? 0 then -1 else 0). { intros Lk. apply small_quot; [lia|]. assert (2 ^ n <= 2 ^ value k) by (apply Z.pow_le_mono_r; lia). lia. }
      split.
      * intros (r & E & Nr). injection E as <-. rewrite Q in Nr. right; left. repeat split; try lia. destruct D as [D|D]; [left; exact D|right]. apply small_quot; [lia|]. rewrite <- (Z0 D).
        destruct (quot_range (value a) m n) as (R1 & N1'); [lia..|]. destruct (quot_range (value a) (value k) n) as (R2 & N2); [lia..|]. apply (mod_twos n); [lia|assumption..| |exact Nr]. tauto.
      * intros [C|[(_ & _ & _ & C)|C]]; [lia| |lia]. eexists; split; [reflexivity|]. rewrite Q. destruct C as [C|C]; [now rewrite C|]. destruct D as [D|D]; [now rewrite D|]. rewrite (Z0 D). f_equal. apply small_quot; lia.
  - destruct (Z.lt_ge_cases (value a) 0) as [Ng|Ps]; [destruct (Z.lt_ge_cases (value k) n) as [Lk|Lk]|].
    + split; [|lia]. intros (r & E & Nr). exfalso.
      destruct (shift_arith_big_neg a k V Vk Tk) as (r' & E' & _ & N'); [lia|exact Ta|lia|exact Ng|].
      rewrite ashr_any in E' by assumption. unfold any_arith, any_shift in E'. unfold small at 1 in E'. rewrite W, S in E'. replace (n <=? 64) with false in E' by lia. rewrite E in E'. injection E' as <-. rewrite W, Nr in N'. pose proof (pow2_pos (n - 1 - value k)). lia.
    + split; [intros _; right; right; lia|]. intros _. destruct (shift_arith a k V Vk Tk Rk Ta) as (r' & E' & _ & N'); [right; lia|]. rewrite ashr_any in E' by assumption. unfold any_arith, any_shift in E'. unfold small at 1 in E'. rewrite W, S in E'. replace (n <=? 64) with false in E' by lia. rewrite W in N'. eauto.
    + split; [intros _; right; right; lia|]. intros _. destruct (shift_arith a k V Vk Tk Rk Ta) as (r' & E' & _ & N'); [right; lia|]. rewrite ashr_any in E' by assumption. unfold any_arith, any_shift in E'. unfold small at 1 in E'. rewrite W, S in E'. replace (n <=? 64) with false in E' by lia. rewrite W in N'. eauto.
Qed.
