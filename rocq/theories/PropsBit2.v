(** Property theorems about 2-state vectors, second part: construction, reductions, shifts, comparisons,
    arithmetic, conversions, updates.  Same conventions as PropsBit.v. *)
From Coq Require Import ZArith List Bool.
From Verif Require Import Cpp BigNum Bit Logic Spec BitMain BitMain2 BitMain3 BitMain4 BitMain5 PropsBit.
Import ListNotations.
Open Scope Z_scope.

Definition u1_1 := bit_of_native 0 0 false 1.
Definition u16_300 := bit_of_native 15 0 false 300.
Definition s32_max := bit_of_native 31 0 true (2 ^ 31 - 1).
Definition u128_big := mkBit 127 0 false (HB [2 ^ 63 + 5; 7]).
Definition s128_m2 := mkBit 127 0 true (HB [u64max - 1; u64max]).

(** C04, 2-state half (4-state half: PropsLogic.v) *)
Theorem C04_default_bit : forall msb lsb s, int_ok msb -> int_ok lsb -> width msb lsb < 2 ^ 31 ->
  let b := bit_zero msb lsb s in
  vec b /\ bmsb b = msb /\ blsb b = lsb /\ bsgn b = s /\ (forall p, bit_at b p = false) /\ tidy b.
Proof. exact default_zero. Qed.
Print Assumptions C04_default_bit.
Example C04_bit_ex : int_ok 99 /\ int_ok 3 /\ width 99 3 < 2 ^ 31.
Proof. conc. Qed.

(** C14: + * << ~ leave garbage above the width *)
Theorem C14_refuted : exists a r1 r2 r3 r4 amt, typed a 4 false /\ tidy a /\ typed amt 4 false /\ tidy amt /\
  bit_add a a = Ok r1 /\ ~ tidy r1 /\ bit_mul a a = Ok r2 /\ ~ tidy r2 /\
  bit_shl a amt = Ok r3 /\ ~ tidy r3 /\ bit_not a = r4 /\ ~ tidy r4.
Proof. exact tidy_counter. Qed.
Print Assumptions C14_refuted.
(** Missing: + - * << ~ unary minus (false), signed operands. *)
Theorem C14_partial : forall a b n, typed a n false -> typed b n false -> 1 <= n -> tidy a -> tidy b ->
  (forall r, bit_and a b = Ok r -> tidy r) /\ (forall r, bit_or a b = Ok r -> tidy r) /\ (forall r, bit_xor a b = Ok r -> tidy r) /\
  (num b <> 0 -> (65 <= n -> visible (num b) /\ visible (num b / 2 ^ 64) /\ visible (num a / 2 ^ 64)) ->
     (forall r, bit_div a b = Ok r -> tidy r) /\ (forall r, bit_rem a b = Ok r -> tidy r)) /\
  (forall amt r, vec amt -> tidy amt -> 0 <= value amt -> (n <= 64 -> bw amt <= 64 /\ value amt < n) ->
     bit_shr a amt = Ok r -> tidy r) /\
  (forall i x r, 0 <= i < n -> bit_set a i x = Ok r -> tidy r) /\
  (forall i j r, 0 <= i < n -> 0 <= j < n -> bit_slice_c a i j = Ok r -> tidy r) /\
  (forall m r, n <= m < 2 ^ 31 -> bit_extend a m = Ok r -> tidy r) /\
  (forall i j op k s r, 0 <= i < n -> 0 <= j < n -> 1 <= k -> typed op k s -> Z.abs (i - j) + 1 <= k ->
     bit_update_r a i j op = Ok r -> tidy r).
Proof. exact tidy_ops. Qed.
Print Assumptions C14_partial.
Example C14_ex : typed u8_200 8 false /\ tidy u8_200 /\ num u8_200 <> 0 /\ typed u128_big 128 false /\ tidy u128_big.
Proof. conc. Qed.

(** C24: r_and of the one-bit vector 1 is false; so is that of a signed all-ones vector;
    a 128-bit vector with only bit 32 set is "not any set" *)
Theorem C24_refuted :
  (exists b, typed b 1 false /\ num b = 1 /\ bit_r_and b = false) /\
  (exists b, typed b 8 true /\ tidy b /\ num b = 255 /\ bit_r_and b = false) /\
  (exists b, typed b 128 false /\ tidy b /\ bit_at b 32 = true /\ bit_any_set b = false) /\
  (exists b, typed b 128 false /\ tidy b /\ num b = 1 /\ bit_r_and b = true).
Proof. exact reductions_counter. Qed.
Print Assumptions C24_refuted.
(** Missing: r_and for one-bit, signed and multi-word vectors (false); r_or of multi-word vectors whose
    ones all lie in upper halves of 64-bit groups (false); r_xor of native vectors (does not compile). *)
Theorem C24_partial : forall b, vec b -> tidy b ->
  (bsgn b = false -> 2 <= bw b <= 64 -> (bit_r_and b = true <-> forall p, 0 <= p < bw b -> bit_at b p = true)) /\
  (bw b <= 64 \/ visible (num b) -> (bit_any_set b = true <-> exists p, 0 <= p < bw b /\ bit_at b p = true)) /\
  (65 <= bw b -> bit_r_xor b = Ok (Z.odd (ones (bw b) (num b)))).
Proof. exact reductions. Qed.
Print Assumptions C24_partial.
(** multi-word any_set / r_or / operator bool exactly: it looks at the low half of each 64-bit group only *)
Theorem C24_any_set_exact_partial : forall b, vec b -> 65 <= bw b -> tidy b ->
  (bit_any_set b = true <-> ~ low_halves_zero (num b)).
Proof. exact any_set_exact_big. Qed.
Print Assumptions C24_any_set_exact_partial.
Example C24_ex : vec u8_200 /\ tidy u8_200 /\ bsgn u8_200 = false /\ 2 <= bw u8_200 <= 64 /\
  vec u70_9 /\ tidy u70_9 /\ 65 <= bw u70_9 /\ visible (num u70_9).
Proof. exact c24_ex. Qed.

(** C26: u8 >> 8 is undefined behaviour *)
Theorem C26_refuted : exists a k, typed a 8 false /\ typed k 8 false /\ num k = 8 /\ bit_shr a k = UB.
Proof. exact shr_counter. Qed.
Print Assumptions C26_refuted.
(** Missing: amounts >= width for native vectors (false). *)
Theorem C26_partial : forall a amt, vec a -> vec amt -> tidy amt -> 0 <= value amt ->
  (bw a <= 64 -> bw amt <= 64 /\ value amt < bw a) ->
  exists r, bit_shr a amt = Ok r /\ typed r (bw a) (bsgn a && bsgn amt) /\ num r = num a / 2 ^ value amt.
Proof. exact shift_right. Qed.
Print Assumptions C26_partial.
(** a native vector and a multi-word amount do not compile *)
Theorem C26_rejected : forall a amt, vec a -> vec amt -> bw a <= 64 -> 65 <= bw amt ->
  bit_shr a amt = IllFormed /\ bit_shl a amt = IllFormed /\ bit_ashr a amt = IllFormed.
Proof. exact shift_rejected. Qed.
Print Assumptions C26_rejected.
Example C26_ex : vec u8_200 /\ vec u4_5 /\ tidy u4_5 /\ 0 <= value u4_5 /\ value u4_5 < bw u8_200 /\ bw u4_5 <= 64 /\
  vec u70_9 /\ vec u128_big /\ tidy u128_big /\ 0 <= value u128_big.
Proof. conc. Qed.

(** C27 *)
Theorem C27_refuted :
  (exists a k, typed a 8 false /\ typed k 8 false /\ num k = 32 /\ bit_shl a k = UB) /\
  (exists a k r, typed a 1 false /\ typed k 1 false /\ num k = 1 /\ bit_shl a k = Ok r /\ num r <> (num a * 2 ^ 1) mod 2 ^ 1).
Proof. exact shl_counter. Qed.
Print Assumptions C27_refuted.
(** Missing: native amounts of at least 32 (64 for widths above 32) and one-bit vectors (false). *)
Theorem C27_partial : forall a amt, vec a -> vec amt -> tidy amt -> 0 <= value amt ->
  (bw a <= 64 -> bw amt <= 64 /\ (value amt = 0 \/ 2 <= bw a /\ value amt < (if bw a <=? 32 then 32 else 64))) ->
  exists r, bit_shl a amt = Ok r /\ typed r (bw a) (bsgn a && bsgn amt) /\ num r = (num a * 2 ^ value amt) mod 2 ^ bw a.
Proof. exact shift_left. Qed.
Print Assumptions C27_partial.
Example C27_ex : vec u8_200 /\ vec (bit_of_native 7 0 false 31) /\ tidy (bit_of_native 7 0 false 31) /\
  2 <= bw u8_200 /\ value (bit_of_native 7 0 false 31) < (if bw u8_200 <=? 32 then 32 else 64).
Proof. conc. Qed.

(** C28: -2 in 128 bits shifted by 1 is not -1 *)
Theorem C28_refuted : exists a k r, typed a 128 true /\ tidy a /\ value a = -2 /\ typed k 8 false /\ num k = 1 /\
  bit_ashr a k = Ok r /\ num r <> (value a / 2 ^ 1) mod 2 ^ 128.
Proof. exact ashr_counter. Qed.
Print Assumptions C28_refuted.
(** Missing: native amounts of at least 32/64, one-bit vectors, negative multi-word values (false). *)
Theorem C28_partial : forall a amt, vec a -> vec amt -> tidy amt -> 0 <= value amt -> tidy a ->
  (2 <= bw a <= 64 /\ bw amt <= 64 /\ value amt < (if bw a <=? 32 then 32 else 64)) \/
  (65 <= bw a /\ (0 <= value a \/ bw a <= value amt)) ->
  exists r, bit_ashr a amt = Ok r /\ typed r (bw a) (bsgn a && bsgn amt) /\
    num r = (value a / 2 ^ value amt) mod 2 ^ bw a.
Proof. exact shift_arith. Qed.
Print Assumptions C28_partial.
(** negative multi-word values: exactly one position is wrong, bit width-1-amount is cleared *)
Theorem C28_negative_partial : forall a amt, vec a -> vec amt -> tidy amt -> 0 <= value amt < bw a -> tidy a -> 65 <= bw a ->
  value a < 0 ->
  exists r, bit_ashr a amt = Ok r /\ typed r (bw a) (bsgn a && bsgn amt) /\
    num r = (value a / 2 ^ value amt) mod 2 ^ bw a - 2 ^ (bw a - 1 - value amt).
Proof. exact shift_arith_big_neg. Qed.
Print Assumptions C28_negative_partial.
Example C28_ex : vec s8_m3 /\ vec u4_5 /\ tidy u4_5 /\ 0 <= value u4_5 /\ tidy s8_m3 /\ 2 <= bw s8_m3 <= 64 /\
  value u4_5 < (if bw s8_m3 <=? 32 then 32 else 64) /\ vec s128_m2 /\ tidy s128_m2 /\ value s128_m2 < 0 /\ value u4_5 < bw s128_m2.
Proof. conc. Qed.

(** C30: 8-bit 1 == 16-bit 257 *)
Theorem C30_refuted : exists a b, typed a 8 false /\ typed b 16 false /\ tidy a /\ tidy b /\
  bit_eq a b = Ok true /\ num a <> num b /\ bit_eq b a = Ok false.
Proof. exact equality_counter. Qed.
Print Assumptions C30_refuted.
(** Missing: a right operand stored in a wider integer type; multi-word vectors of different word counts
    whose excess words have ones in upper halves only (both false); multi-word signed operands. *)
Theorem C30_partial : forall a b, vec a -> vec b -> 
  (bsgn a = bsgn b /\ extendable a /\ extendable b /\
  (bw a <= 64 /\ bw b <= 64 /\ iwidth (hty (bw b) (bsgn b)) <= iwidth (hty (bw a) (bsgn a)) \/
   bsgn a = false /\ (bw a <= 64 < bw b \/ bw b <= 64 < bw a) \/
   bsgn a = false /\ 65 <= bw a /\ 65 <= bw b /\
     (nwords (bw a) = nwords (bw b) \/
      visible (num a / 2 ^ (64 * nwords (bw b))) /\ visible (num b / 2 ^ (64 * nwords (bw a)))))) ->
  bit_eq a b = Ok (value a =? value b).
Proof. exact equality. Qed.
Print Assumptions C30_partial.
Example C30_ex : vec u16_300 /\ vec u8_200 /\ extendable u16_300 /\ extendable u8_200 /\
  iwidth (hty (bw u8_200) false) <= iwidth (hty (bw u16_300) false) /\
  vec u70_9 /\ vec u128_big /\ extendable u70_9 /\ extendable u128_big /\ nwords (bw u70_9) = nwords (bw u128_big).
Proof. conc. Qed.

(** C31, 2-state half *)
Theorem C31_ne_bit : forall a b, bit_ne a b = omap negb (bit_eq a b).
Proof. exact inequality. Qed.
Print Assumptions C31_ne_bit.

(** C32: a native vector against a multi-word one falls off the end of the function *)
Theorem C32_refuted : exists a b, typed a 8 false /\ typed b 128 false /\ tidy a /\ tidy b /\
  bit_gt a b = UB /\ bit_lt a b = UB /\ bit_ge a b = UB /\ bit_le a b = UB.
Proof. exact order_counter. Qed.
Print Assumptions C32_refuted.
(** both native *)
Theorem C32_native_partial : forall a b, vec a -> vec b -> bw a <= 64 -> bw b <= 64 -> bsgn a = false -> bsgn b = false ->
  tidy a -> tidy b ->
  bit_gt a b = Ok (num b <? num a) /\ bit_lt a b = Ok (num a <? num b) /\
  bit_ge a b = Ok (num b <=? num a) /\ bit_le a b = Ok (num a <=? num b).
Proof. exact order_unsigned_native. Qed.
Print Assumptions C32_native_partial.
(** both multi-word (one of them may be signed: C34) *)
Theorem C32_big_partial : forall a b, vec a -> vec b -> 65 <= bw a -> 65 <= bw b -> bsgn a && bsgn b = false -> tidy a -> tidy b ->
  bit_gt a b = Ok (num b <? num a) /\ bit_lt a b = Ok (num a <? num b) /\
  (nwords (bw a) = nwords (bw b) \/
   visible (num a / 2 ^ (64 * nwords (bw b))) /\ visible (num b / 2 ^ (64 * nwords (bw a))) ->
   bit_ge a b = Ok (num b <=? num a) /\ bit_le a b = Ok (num a <=? num b)).
Proof. exact order_big_unsigned. Qed.
Print Assumptions C32_big_partial.
(** native against multi-word *)
Theorem C32_rejected : forall a b, vec a -> vec b -> bw a <= 64 -> 65 <= bw b ->
  bit_gt a b = UB /\ bit_lt a b = UB /\ bit_ge a b = UB /\ bit_le a b = UB /\
  bit_gt b a = IllFormed /\ bit_lt b a = IllFormed /\ bit_ge b a = IllFormed /\ bit_le b a = IllFormed.
Proof. exact order_native_big. Qed.
Print Assumptions C32_rejected.
Example C32_ex : vec u8_200 /\ vec u16_300 /\ tidy u8_200 /\ tidy u16_300 /\ vec u70_9 /\ vec u128_big /\ tidy u70_9 /\ tidy u128_big.
Proof. conc. Qed.

(** C33: the most negative 70-bit number compared with itself never terminates, whatever the recursion budget *)
Theorem C33_refuted : exists a ws, typed a 70 true /\ tidy a /\ bval a = HB ws /\ bit_gt a a = Fuel /\
  forall fuel, bn_gt_f fuel 70 true ws 70 true ws = Fuel.
Proof. exact signed_order_counter. Qed.
Print Assumptions C33_refuted.
Theorem C33_native_partial : forall a b, vec a -> vec b -> 2 <= bw a <= 64 -> 2 <= bw b <= 64 ->
  bsgn a = true -> bsgn b = true -> tidy a -> tidy b ->
  bit_gt a b = Ok (snum b <? snum a) /\ bit_lt a b = Ok (snum a <? snum b) /\
  bit_ge a b = Ok (snum b <=? snum a) /\ bit_le a b = Ok (snum a <=? snum b).
Proof. exact order_signed_native. Qed.
Print Assumptions C33_native_partial.
(** Missing: multi-word with the minimal value or two negative numbers of different width; >= and <=
    (do not compile for equal widths); one-bit signed vectors. *)
Theorem C33_big_partial : forall a b, vec a -> vec b -> 65 <= bw a -> 65 <= bw b -> bsgn a = true -> bsgn b = true -> tidy a -> tidy b ->
  (0 <= snum a \/ 0 <= snum b \/ bw a = bw b /\ snum a <> - 2 ^ (bw a - 1) /\ snum b <> - 2 ^ (bw b - 1)) ->
  bit_gt a b = Ok (snum b <? snum a) /\ bit_lt a b = Ok (snum a <? snum b).
Proof. exact BitCmp.gt_big_s. Qed.
Print Assumptions C33_big_partial.
Example C33_ex : vec s8_m3 /\ tidy s8_m3 /\ vec s70_m9 /\ tidy s70_m9 /\ vec s128_m2 /\ tidy s128_m2 /\
  snum s70_m9 <> - 2 ^ (bw s70_m9 - 1).
Proof. conc. Qed.

(** C34: 8-bit signed -1 is greater than 8-bit unsigned 255 *)
Theorem C34_refuted : exists a b, typed a 8 true /\ typed b 8 false /\ tidy a /\ tidy b /\ num a = num b /\ bit_gt a b = Ok true.
Proof. exact mixed_sign_counter. Qed.
Print Assumptions C34_refuted.
(** Missing: negative signed operands in native vectors of less than 64 bits (false).  Multi-word operands:
    C32_big_partial. *)
Theorem C34_partial : forall a b, vec a -> vec b -> bw a <= 64 -> bw b <= 64 -> bsgn a && bsgn b = false ->
  tidy a -> tidy b -> (0 <= value a /\ 0 <= value b) \/ (bw a = 64 /\ bw b = 64) ->
  bit_gt a b = Ok (num b <? num a) /\ bit_lt a b = Ok (num a <? num b) /\
  bit_ge a b = Ok (num b <=? num a) /\ bit_le a b = Ok (num a <=? num b).
Proof. exact order_mixed_native. Qed.
Print Assumptions C34_partial.
Example C34_ex : vec (bit_of_native 7 0 true 3) /\ tidy (bit_of_native 7 0 true 3) /\ 0 <= value (bit_of_native 7 0 true 3) /\
  vec u8_200 /\ tidy u8_200 /\ 0 <= value u8_200 /\ vec (bit_of_native 63 0 true (-3)) /\ tidy (bit_of_native 63 0 true (-3)).
Proof. conc. Qed.

(** C37: 1 + 1 = 1 in one bit *)
Theorem C37_refuted : exists a r, typed a 1 false /\ bit_add a a = Ok r /\ num r <> (num a + num a) mod 2 ^ 1.
Proof. exact add_counter. Qed.
Print Assumptions C37_refuted.
(** equal widths; the operands may carry garbage above their width.  Missing: one bit (false), signed
    overflow of 32- and 64-bit vectors (undefined), untidy signed vectors of 17 to 64 bits. *)
Theorem C37_same_width_partial : forall a b n, vec a -> vec b -> bw a = n -> bw b = n -> blsb b <= bmsb b -> 2 <= n ->
  (bsgn a = true -> bsgn b = true -> 17 <= n <= 64 ->
     tidy a /\ tidy b /\ (n = 32 \/ n = 64 -> - 2 ^ (n - 1) <= value a + value b < 2 ^ (n - 1))) ->
  exists r, bit_add a b = Ok r /\ typed r n (bsgn a && bsgn b) /\ num r = (num a + num b) mod 2 ^ n.
Proof. exact add_same_width. Qed.
Print Assumptions C37_same_width_partial.
(** different widths.  Missing: operands that cannot be widened correctly (C08, C09). *)
Theorem C37_mixed_width_partial : forall a b na nb sa sb, 1 <= na -> 1 <= nb -> na <> nb -> typed a na sa -> typed b nb sb ->
  extendable a -> extendable b ->
  (sa = true -> sb = true -> Z.max na nb = 32 \/ Z.max na nb = 64 ->
    - 2 ^ (Z.max na nb - 1) <= value a + value b < 2 ^ (Z.max na nb - 1)) ->
  exists r, bit_add a b = Ok r /\ typed r (Z.max na nb) (sa && sb) /\ num r = (value a + value b) mod 2 ^ Z.max na nb.
Proof. exact add_mixed_width. Qed.
Print Assumptions C37_mixed_width_partial.
Example C37_ex : vec u8_200 /\ bw u8_200 = 8 /\ vec s128_m2 /\ typed u8_200 8 false /\ typed u70_9 70 false /\ extendable u8_200 /\ extendable u70_9 /\
  typed s8_m3 8 true /\ extendable s8_m3.
Proof. conc. Qed.

(** C38 *)
Theorem C38_refuted : exists a b, typed a 32 true /\ typed b 32 true /\ tidy a /\ tidy b /\ bit_sub a b = UB /\ bit_neg a = UB.
Proof. exact sub_counter. Qed.
Print Assumptions C38_refuted.
(** Missing: as for C37, except that one bit is right. *)
Theorem C38_same_width_partial : forall a b n, vec a -> vec b -> bw a = n -> bw b = n -> blsb b <= bmsb b ->
  (bsgn a = true -> bsgn b = true -> 17 <= n <= 64 ->
     tidy a /\ tidy b /\ (n = 32 \/ n = 64 -> - 2 ^ (n - 1) <= value a - value b < 2 ^ (n - 1))) ->
  exists r, bit_sub a b = Ok r /\ typed r n (bsgn a && bsgn b) /\ num r = (num a - num b) mod 2 ^ n.
Proof. exact sub_same_width. Qed.
Print Assumptions C38_same_width_partial.
Theorem C38_mixed_width_partial : forall a b na nb sa sb, 1 <= na -> 1 <= nb -> na <> nb -> typed a na sa -> typed b nb sb ->
  extendable a -> extendable b ->
  (sa = true -> sb = true -> Z.max na nb = 32 \/ Z.max na nb = 64 ->
    - 2 ^ (Z.max na nb - 1) <= value a - value b < 2 ^ (Z.max na nb - 1)) ->
  exists r, bit_sub a b = Ok r /\ typed r (Z.max na nb) (sa && sb) /\ num r = (value a - value b) mod 2 ^ Z.max na nb.
Proof. exact sub_mixed_width. Qed.
Print Assumptions C38_mixed_width_partial.
Theorem C38_neg_partial : forall a n s, 1 <= n <= 64 -> typed a n s ->
  (s = true -> 17 <= n -> tidy a /\ (n = 32 \/ n = 64 -> snum a <> - 2 ^ (n - 1))) ->
  exists r, bit_neg a = Ok r /\ typed r n s /\ num r = (- num a) mod 2 ^ n.
Proof. exact negation. Qed.
Print Assumptions C38_neg_partial.
(** unary minus does not compile for multi-word vectors *)
Theorem C38_neg_rejected : forall a, vec a -> 65 <= bw a -> bit_neg a = IllFormed.
Proof. exact negation_rejected. Qed.
Print Assumptions C38_neg_rejected.
Example C38_ex : typed u8_200 8 false /\ typed s8_m3 8 true /\ typed s32_max 32 true /\ tidy s32_max /\ snum s32_max <> - 2 ^ 31.
Proof. conc. Qed.

(** C39: 65535 * 65535 in 16 bits and 2^64 * 2^64 in 128 bits are undefined *)
Theorem C39_refuted : (exists a, typed a 16 false /\ tidy a /\ bit_mul a a = UB) /\
  (exists a, typed a 128 false /\ tidy a /\ bit_mul a a = UB).
Proof. exact mul_counter. Qed.
Print Assumptions C39_refuted.
(** native, equal widths *)
Theorem C39_same_width_partial : forall a b n, vec a -> vec b -> bw a = n -> bw b = n -> blsb b <= bmsb b ->
  (n <= 8 \/ 17 <= n <= 64 /\ bsgn a && bsgn b = false \/
   n <= 64 /\ extendable a /\ extendable b /\
     - 2 ^ ((if n <=? 32 then 32 else 64) - 1) <= value a * value b < 2 ^ ((if n <=? 32 then 32 else 64) - 1)) ->
  exists r, bit_mul a b = Ok r /\ typed r n (bsgn a && bsgn b) /\ num r = (num a * num b) mod 2 ^ n.
Proof. exact mul_same_width. Qed.
Print Assumptions C39_same_width_partial.
(** multi-word: the factors must fit in ka and kb 64-bit groups with ka+kb groups available *)
Theorem C39_big_partial : forall a b n ka kb, vec a -> vec b -> bw a = n -> bw b = n -> blsb b <= bmsb b -> 65 <= n ->
  tidy a -> tidy b -> visible (num a / 2 ^ 64) -> visible (num b / 2 ^ 64) -> 0 <= ka -> 0 <= kb ->
  num a < 2 ^ (64 * ka) -> num b < 2 ^ (64 * kb) -> 64 * (ka + kb) < n + 64 ->
  exists r, bit_mul a b = Ok r /\ typed r n (bsgn a && bsgn b) /\ num r = (num a * num b) mod 2 ^ n.
Proof. exact mul_big_width. Qed.
Print Assumptions C39_big_partial.
Theorem C39_mixed_width_partial : forall a b na nb, 1 <= na -> 1 <= nb -> na <> nb -> typed a na false -> typed b nb false ->
  tidy a -> tidy b -> Z.max na nb <= 64 -> (Z.max na nb <= 8 \/ 17 <= Z.max na nb \/ value a * value b < 2 ^ 31) ->
  exists r, bit_mul a b = Ok r /\ typed r (Z.max na nb) false /\ num r = (value a * value b) mod 2 ^ Z.max na nb.
Proof. exact mul_mixed_width. Qed.
Print Assumptions C39_mixed_width_partial.
Example C39_ex : typed u8_200 8 false /\ typed u16_300 16 false /\ tidy u8_200 /\ tidy u16_300 /\ value u8_200 * value u16_300 < 2 ^ 31 /\
  vec u70_9 /\ tidy u70_9 /\ bw u70_9 = 70 /\ num u70_9 < 2 ^ (64 * 1) /\ 64 * (1 + 1) < 70 + 64 /\ num u70_9 / 2 ^ 64 = 0.
Proof. conc. Qed.

(** C40: a 128-bit division by 2^32 gives 0 *)
Theorem C40_refuted : exists a b q, typed a 128 false /\ typed b 128 false /\ tidy a /\ tidy b /\ num b = 2 ^ 32 /\ num a = 2 ^ 40 /\
  bit_div a b = Ok q /\ num q = 0.
Proof. exact div_counter. Qed.
Print Assumptions C40_refuted.
(** Missing: multi-word numbers indistinguishable from small ones by their low halves (false). *)
Theorem C40_partial : forall a b na nb, 1 <= na -> 1 <= nb -> typed a na false -> typed b nb false -> tidy a -> tidy b ->
  num b <> 0 -> (65 <= Z.max na nb -> visible (num b) /\ visible (num b / 2 ^ 64) /\ visible (num a / 2 ^ 64)) ->
  exists q r, bit_div a b = Ok q /\ bit_rem a b = Ok r /\
    typed q (Z.max na nb) false /\ typed r (Z.max na nb) false /\ tidy q /\ tidy r /\
    num a = num q * num b + num r /\ 0 <= num r < num b.
Proof. exact division. Qed.
Print Assumptions C40_partial.
Example C40_ex : typed u8_200 8 false /\ typed u4_5 4 false /\ tidy u8_200 /\ tidy u4_5 /\ num u4_5 <> 0 /\
  typed u128_big 128 false /\ tidy u128_big /\ num u128_big <> 0 /\ visible (num u128_big) /\ visible (num u128_big / 2 ^ 64).
Proof. exact c40_ex. Qed.

(** C43 *)
Theorem C43_refuted :
  (exists a b, typed a 32 true /\ typed b 32 true /\ tidy a /\ tidy b /\ bit_add a b = UB) /\
  (exists a, typed a 16 false /\ tidy a /\ bit_mul a a = UB) /\
  (exists a, typed a 128 false /\ tidy a /\ bit_mul a a = UB) /\
  (exists a b, typed a 8 false /\ typed b 8 false /\ bit_div a b = UB).
Proof. exact undefined_counter. Qed.
Print Assumptions C43_refuted.
(** Missing: 9- to 16-bit and multi-word products, division by zero, signed operands (false). *)
Theorem C43_partial : forall a b n, typed a n false -> typed b n false -> 1 <= n ->
  (exists r, bit_add a b = Ok r) /\ (exists r, bit_sub a b = Ok r) /\
  (n <= 8 \/ 17 <= n <= 64 -> exists r, bit_mul a b = Ok r) /\
  (n <= 64 -> tidy a -> tidy b -> num b <> 0 -> (exists q, bit_div a b = Ok q) /\ (exists r, bit_rem a b = Ok r)) /\
  (n <= 64 -> exists r, bit_neg a = Ok r).
Proof. exact defined_ops. Qed.
Print Assumptions C43_partial.
Example C43_ex : typed u8_200 8 false /\ tidy u8_200 /\ num u8_200 <> 0 /\ typed u70_9 70 false.
Proof. conc. Qed.

(** C44: ++ on the one-bit 1 *)
Theorem C44_refuted : exists a r, typed a 1 false /\ bit_inc a = Ok r /\ num r <> (num a + 1) mod 2 ^ 1.
Proof. exact inc_counter. Qed.
Print Assumptions C44_refuted.
(** Missing: one bit. *)
Theorem C44_partial : forall a n s, 2 <= n -> typed a n s ->
  (exists r, bit_inc a = Ok r /\ typed r n s /\ num r = (num a + 1) mod 2 ^ n /\ bit_post bit_inc a = Ok (a, r)) /\
  (exists r, bit_dec a = Ok r /\ typed r n s /\ num r = (num a - 1) mod 2 ^ n /\ bit_post bit_dec a = Ok (a, r)).
Proof. exact inc_dec. Qed.
Print Assumptions C44_partial.
Example C44_ex : typed s32_max 32 true /\ typed s70_m9 70 true.
Proof. conc. Qed.

(** C45 *)
Theorem C45_resign : forall x n s0, 1 <= n -> typed x n s0 ->
  typed (bit_to_signed x) n true /\ typed (bit_to_unsigned x) n false /\
  (forall p, 0 <= p < n -> bit_at (bit_to_signed x) p = bit_at x p) /\
  (forall p, 0 <= p < n -> bit_at (bit_to_unsigned x) p = bit_at x p) /\
  (s0 = false -> bit_to_unsigned (bit_to_signed x) = x) /\
  (s0 = true -> bit_to_signed (bit_to_unsigned x) = x).
Proof. exact resign. Qed.
Print Assumptions C45_resign.
Example C45_ex : typed u8_200 8 false /\ typed s70_m9 70 true.
Proof. conc. Qed.

(** C46: the 4-bit vector 1111 re-interpreted as signed reads 15 *)
Theorem C46_refuted : exists x, typed x 4 false /\ tidy x /\ bit_to_num (bit_to_signed x) = Ok 15 /\ twos 4 (num x) = -1.
Proof. exact signed_reading_counter. Qed.
Print Assumptions C46_refuted.
(** Missing: negative readings at widths other than 8, 16, 32, 64. *)
Theorem C46_partial : forall x n s0, 1 <= n <= 64 -> typed x n s0 -> tidy x ->
  (n = 8 \/ n = 16 \/ n = 32 \/ n = 64 \/ (s0 = false /\ bit_at x (n - 1) = false)) ->
  bit_to_num (bit_to_signed x) = Ok (twos n (num x)).
Proof. exact signed_reading. Qed.
Print Assumptions C46_partial.
Example C46_ex : typed u8_200 8 false /\ tidy u8_200 /\ bit_at u8_200 7 = true /\ typed u4_5 4 false /\ bit_at u4_5 3 = false.
Proof. conc. Qed.

(** C47: 4-bit 8+8 reads 0000 but converts to 16 *)
Theorem C47_refuted : exists a r, typed a 4 false /\ tidy a /\ bit_add a a = Ok r /\ typed r 4 false /\ num r = 0 /\ bit_to_num r = Ok 16.
Proof. exact to_number_counter. Qed.
Print Assumptions C47_refuted.
(** Missing: vectors that carry garbage above their width (false). *)
Theorem C47_bit_partial : forall b, vec b -> extendable b ->
  (bw b <= 64 -> bit_to_num b = Ok (value b) /\ bit_to_uint64 b = value b mod 2 ^ 64) /\
  (65 <= bw b -> bit_to_num b = IllFormed /\ bit_to_uint64 b = num b mod 2 ^ 64).
Proof. exact to_number. Qed.
Print Assumptions C47_bit_partial.
Example C47_bit_ex : vec s8_m3 /\ extendable s8_m3 /\ vec u128_big /\ extendable u128_big.
Proof. conc. Qed.

(** C48: assigning 8-bit 2 to one bit gives 1 *)
Theorem C48_refuted : exists d x r, typed d 1 false /\ typed x 8 false /\ bit_assign d x = Ok r /\ num r <> num x mod 2 ^ 1.
Proof. exact assignment_counter. Qed.
Print Assumptions C48_refuted.
(** Missing: one-bit destinations.  Multi-word assignments exist for equal widths only. *)
Theorem C48_partial : forall dst src n s m s2, 1 <= m -> typed dst n s -> typed src m s2 ->
  (2 <= n <= 64 -> m <= 64 -> exists r, bit_assign dst src = Ok r /\ typed r n s /\
     (n <= m -> num r = num src mod 2 ^ n) /\ (m < n -> extendable src -> num r = value src mod 2 ^ n)) /\
  (65 <= n -> m = n -> exists r, bit_assign dst src = Ok r /\ typed r n s /\ num r = num src) /\
  (1 <= n -> m <> n -> 65 <= n \/ 65 <= m -> bit_assign dst src = IllFormed).
Proof. exact assignment. Qed.
Print Assumptions C48_partial.
Example C48_ex : typed u4_5 4 false /\ typed u8_200 8 false /\ extendable u4_5.
Proof. conc. Qed.

(** C50: update<7,4>(1111) writes 0000 *)
Theorem C50_refuted : exists x op r, typed x 8 false /\ typed op 4 false /\ tidy x /\ tidy op /\
  bit_update_c x 7 4 op = Ok r /\ num op = 15 /\ num r = 0.
Proof. exact update_counter. Qed.
Print Assumptions C50_refuted.
(** the run-time form.  Missing: sources narrower than the range, ascending ranges. *)
Theorem C50_runtime_partial : forall x n s op k so a b, 1 <= n -> 1 <= k -> typed x n s -> typed op k so ->
  0 <= a < n -> 0 <= b < n -> Z.abs (a - b) + 1 <= k ->
  exists r, bit_update_r x a b op = Ok r /\ typed r n s /\
    (forall p, 0 <= p < n -> bit_at r p =
       if (Z.min a b <=? p) && (p <=? Z.max a b) then bit_at op (p - Z.min a b) else bit_at x p) /\
    (s = false -> tidy x -> tidy r).
Proof. exact update_runtime. Qed.
Print Assumptions C50_runtime_partial.
(** the constant form is right for ranges that start at 0 only *)
Theorem C50_constant_partial : forall x n s op k so hi, 1 <= n -> 1 <= k -> typed x n s -> typed op k so ->
  0 <= hi < n -> hi < k ->
  exists r, bit_update_c x hi 0 op = Ok r /\ typed r n s /\
    (forall p, 0 <= p < n -> bit_at r p = if p <=? hi then bit_at op p else bit_at x p) /\
    (s = false -> tidy x -> tidy r).
Proof. exact update_constant. Qed.
Print Assumptions C50_constant_partial.
Example C50_ex : typed u8_200 8 false /\ typed u4_5 4 false /\ 0 <= 6 < 8 /\ 0 <= 3 < 8 /\ Z.abs (6 - 3) + 1 <= 4.
Proof. conc. Qed.

(** C66: one-bit 0 |= 2-bit 10 gives 1 *)
Theorem C66_refuted : exists a b r, typed a 1 false /\ typed b 2 false /\ tidy a /\ tidy b /\
  bit_or_assign a b = Ok r /\ num r <> Z.lor (num a) (num b) mod 2 ^ 1.
Proof. exact compound_counter. Qed.
Print Assumptions C66_refuted.
(** Missing: one-bit destination with a wider operand; signed destination with unsigned operand and
    multi-word destination with a wider operand (do not compile). *)
Theorem C66_bitwise_partial : forall a b n s, 1 <= n -> typed a n s -> (s = true -> bsgn b = true) ->
  (bw b = n /\ vec b /\ blsb b <= bmsb b \/
   exists nb, 1 <= nb /\ nb <> n /\ typed b nb (bsgn b) /\ extendable a /\ extendable b /\
     (2 <= n <= 64 /\ nb <= 64 \/ 65 <= n /\ nb < n)) ->
  (exists r, bit_and_assign a b = Ok r /\ typed r n s /\ num r = Z.land (value a) (value b) mod 2 ^ n) /\
  (exists r, bit_or_assign a b = Ok r /\ typed r n s /\ num r = Z.lor (value a) (value b) mod 2 ^ n) /\
  (exists r, bit_xor_assign a b = Ok r /\ typed r n s /\ num r = Z.lxor (value a) (value b) mod 2 ^ n).
Proof. exact compound_bitwise. Qed.
Print Assumptions C66_bitwise_partial.
Theorem C66_shift_partial : forall a amt n s, 1 <= n -> typed a n s -> vec amt -> (s = true -> bsgn amt = true) -> tidy amt -> 0 <= value amt ->
  ((n <= 64 -> bw amt <= 64 /\ value amt < n) ->
    exists r, bit_shift_assign bit_shr a amt = Ok r /\ typed r n s /\ num r = num a / 2 ^ value amt) /\
  ((n <= 64 -> bw amt <= 64 /\ (value amt = 0 \/ 2 <= n /\ value amt < (if n <=? 32 then 32 else 64))) ->
    exists r, bit_shift_assign bit_shl a amt = Ok r /\ typed r n s /\ num r = (num a * 2 ^ value amt) mod 2 ^ n).
Proof. exact compound_shift. Qed.
Print Assumptions C66_shift_partial.
Example C66_ex : typed u8_200 8 false /\ typed u16_300 16 false /\ extendable u8_200 /\ extendable u16_300 /\ typed u70_9 70 false /\
  vec u4_5 /\ tidy u4_5 /\ 0 <= value u4_5 /\ value u4_5 < 8.
Proof. conc. Qed.

(** C67 *)
Theorem C67_mixed_is_extended : forall a b na nb, 1 <= na -> 1 <= nb -> typed a na false -> typed b nb false -> tidy a -> tidy b ->
  exists a' b', bit_extend a (Z.max na nb) = Ok a' /\ bit_extend b (Z.max na nb) = Ok b' /\
    typed a' (Z.max na nb) false /\ typed b' (Z.max na nb) false /\ num a' = num a /\ num b' = num b /\
    bit_add a b = bit_add a' b' /\ bit_sub a b = bit_sub a' b' /\ bit_mul a b = bit_mul a' b' /\
    bit_div a b = bit_div a' b' /\ bit_rem a b = bit_rem a' b'.
Proof. exact mixed_is_extended. Qed.
Print Assumptions C67_mixed_is_extended.
Example C67_ex : typed u8_200 8 false /\ typed u70_9 70 false /\ tidy u8_200 /\ tidy u70_9.
Proof. conc. Qed.

(** C68 *)
Theorem C68_refuted :
  (exists ws, words_ok 128 ws = true /\ bn_is_one ws = true /\ words_num ws <> 1 /\ bn_fit_in_64 ws = true /\ 2 ^ 64 <= words_num ws) /\
  (exists ws, words_ok 128 ws = true /\ words_num ws = 2 ^ 128 - 1 /\ bn_all_set 128 ws = false).
Proof. exact (conj queries_counter all_set_counter). Qed.
Print Assumptions C68_refuted.
Theorem C68_highest_bit_partial : forall b, vec b -> bsgn b = false -> tidy b -> num b <> 0 ->
  bit_highest_bit b < bw b /\ bit_at b (bit_highest_bit b) = true /\
  forall p, bit_highest_bit b < p -> bit_at b p = false.
Proof. exact highest. Qed.
Print Assumptions C68_highest_bit_partial.
(** Missing: all_set (always false above 64 bits), numbers whose upper words have ones in upper halves only. *)
Theorem C68_partial : forall n ws, 65 <= n -> words_ok n ws = true -> visible (words_num ws / 2 ^ 64) ->
  bn_is_one ws = (words_num ws =? 1) /\ bn_fit_in_64 ws = (words_num ws <? 2 ^ 64).
Proof. exact queries_ok. Qed.
Print Assumptions C68_partial.
Example C68_ex : vec u70_9 /\ tidy u70_9 /\ num u70_9 <> 0 /\ words_ok 128 [1; 0] = true /\ words_num [1; 0] / 2 ^ 64 = 0.
Proof. conc. Qed.

(** C69, 2-state half *)
Theorem C69_bit_literals : forall v,
  (exists r, lit_bit v = Ok r /\ typed r 32 true /\ num r = v mod 2 ^ 32 /\ tidy r) /\
  (exists r, lit_bit64 v = Ok r /\ typed r 64 true /\ num r = v mod 2 ^ 64 /\ tidy r).
Proof. exact literals. Qed.
Print Assumptions C69_bit_literals.

(** C70: signed division of native vectors truncates towards zero *)
Theorem C70_overflow_undefined : exists a b, typed a 32 true /\ typed b 32 true /\ tidy a /\ tidy b /\ snum b <> 0 /\ bit_div a b = UB.
Proof. exact sdiv_counter. Qed.
Print Assumptions C70_overflow_undefined.
(** The one excluded case is the overflowing quotient of 32- and 64-bit vectors (above); multi-word signed
    division does not compile. *)
Theorem C70_signed_division : forall a b n, 2 <= n <= 64 -> typed a n true -> typed b n true -> tidy a -> tidy b -> snum b <> 0 ->
  ~ ((n = 32 \/ n = 64) /\ snum a = - 2 ^ (n - 1) /\ snum b = -1) ->
  exists q r, bit_div a b = Ok q /\ bit_rem a b = Ok r /\ typed q n true /\ typed r n true /\
    num q = Z.quot (snum a) (snum b) mod 2 ^ n /\ num r = Z.rem (snum a) (snum b) mod 2 ^ n.
Proof. exact division_signed. Qed.
Print Assumptions C70_signed_division.
Example C70_ex : typed s8_m3 8 true /\ tidy s8_m3 /\ snum s8_m3 = -3.
Proof. conc. Qed.
