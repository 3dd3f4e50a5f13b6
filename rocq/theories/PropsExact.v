(** Property theorems about 2-state vectors, third part: what exactly happens in the cases the theorems of
    PropsBit.v and PropsBit2.v leave out.  [storage] and [computing] (SpecExact.v) are the numbers of bits in
    which a native vector is stored and in which C++ computes with it. *)
From Coq Require Import ZArith List Bool.
From Verif Require Import Cpp BigNum Bit Logic Spec SpecExact BitMain BitMain2 BitMain3 BitMain4 BitMain5 PropsBit PropsBit2 Exact Exact2 Exact3 Exact4 Exact5.
Import ListNotations.
Open Scope Z_scope.

Definition s16_m2 := bit_of_native 15 0 true (-2).
Definition s5_7 := bit_of_native 4 0 true 7.
Definition u40_9 := bit_of_native 39 0 false 9.
Definition u12_9 := bit_of_native 11 0 false (2 ^ 11 + 9).

(** C06: a select that reaches the top position of a signed vector whose width fills its storage is undefined *)
Theorem C06_top_undefined : forall x n a b, n = 8 \/ n = 16 \/ n = 32 \/ n = 64 -> typed x n true -> 0 <= a < n -> 0 <= b < n -> Z.max a b = n - 1 ->
  bit_slice_c x a b = UB.
Proof. exact slice_top_ub. Qed.
Print Assumptions C06_top_undefined.
(** a select of a single position of a signed vector reads that position or the next one up *)
Theorem C06_single_position : forall x n p, 2 <= n <= 64 -> typed x n true -> 0 <= p < n -> p + 2 <= storage n ->
  exists r, bit_slice_c x p p = Ok r /\ typed r 1 false /\ num r = Z.b2z (Z.testbit (stored x) p || Z.testbit (stored x) (p + 1)).
Proof. exact slice_one_storage. Qed.
Print Assumptions C06_single_position.
Theorem C06_one_bit : forall x s, typed x 1 s -> exists r, bit_slice_c x 0 0 = Ok r /\ typed r 1 false /\ num r = num x.
Proof. exact slice_single. Qed.
Print Assumptions C06_one_bit.
(** 65 positions of a wider signed vector do not compile *)
Theorem C06_65_rejected : forall x n a b, 65 <= n -> typed x n true -> 0 <= a < n -> 0 <= b < n -> Z.abs (a - b) + 1 = 65 -> bit_slice_c x a b = IllFormed.
Proof. exact slice_signed_65. Qed.
Print Assumptions C06_65_rejected.
Example C06_exact_ex : typed s8_m3 8 true /\ Z.max 7 2 = 8 - 1 /\ typed s5_7 5 true /\ 3 + 2 <= storage 5 /\ typed s70_m9 70 true /\ Z.abs (66 - 2) + 1 = 65.
Proof. conc. Qed.

(** C07: the run-time select of a one-bit vector is always 0 *)
Theorem C07_one_bit : forall x s, typed x 1 s -> exists r, bit_slice_r x 1 0 0 = Ok r /\ typed r 1 false /\ num r = 0.
Proof. exact slice_runtime_single. Qed.
Print Assumptions C07_one_bit.
Example C07_exact_ex : typed u1_1 1 false /\ num u1_1 = 1.
Proof. conc. Qed.

(** C09: one-bit signed vectors are extended with zeros *)
Theorem C09_one_bit : forall x m, 1 <= m < 2 ^ 31 -> typed x 1 true -> exists r, bit_extend x m = Ok r /\ typed r m true /\ num r = num x.
Proof. exact extend_single. Qed.
Print Assumptions C09_one_bit.
Example C09_exact_ex : typed (bit_of_native 0 0 true 1) 1 true /\ value (bit_of_native 0 0 true 1) = -1.
Proof. conc. Qed.

(** C10: the left operand may be signed and carry anything above its width, the right one may be signed but not negative.
    Missing: results of more than 32 positions with a left operand of at most 32 (below), more than 63 positions (rejected). *)
Theorem C10_signed_partial : forall a b na nb sa sb, 1 <= na -> 1 <= nb -> na + nb < 64 -> (na + nb <= 32 \/ 33 <= na) ->
  typed a na sa -> typed b nb sb -> tidy b -> 0 <= stored b ->
  exists r, bit_concat a b = Ok r /\ typed r (na + nb) false /\ num r = num a * 2 ^ nb + num b.
Proof. exact concat_right. Qed.
Print Assumptions C10_signed_partial.
(** a negative right operand erases the left one *)
Theorem C10_negative_right : forall a b na nb sa, 1 <= na -> 2 <= nb -> na + nb < 64 -> (na + nb <= 32 \/ 33 <= na) ->
  typed a na sa -> typed b nb true -> tidy b -> value b < 0 ->
  exists r, bit_concat a b = Ok r /\ typed r (na + nb) false /\ num r = value b mod 2 ^ (na + nb).
Proof. exact concat_negative. Qed.
Print Assumptions C10_negative_right.
(** a left operand of at most 32 positions is moved within 32 bits: what leaves them is lost, and moving it by 32 or more is undefined *)
Theorem C10_wide : forall a b na nb, 1 <= na <= 32 -> 1 <= nb -> 33 <= na + nb < 64 -> typed a na false -> typed b nb false -> tidy b ->
  (nb <= 31 -> exists r, bit_concat a b = Ok r /\ typed r (na + nb) false /\ num r = (num a * 2 ^ nb) mod 2 ^ 32 + num b) /\
  (32 <= nb -> bit_concat a b = UB).
Proof. exact concat_wide. Qed.
Print Assumptions C10_wide.
Example C10_exact_ex : typed s8_m3 8 true /\ typed s5_7 5 true /\ tidy s5_7 /\ 0 <= stored s5_7 /\ tidy s8_m3 /\ value s8_m3 < 0 /\
  typed u16_300 16 false /\ typed u40_9 40 false /\ tidy u40_9 /\ 33 <= 16 + 40 < 64.
Proof. conc. Qed.

(** C14: vectors that fill their storage are always in order, so every operation on them keeps them so *)
Theorem C14_full_storage : forall b, vec b ->
  (bw b = 8 \/ bw b = 16 \/ bw b = 32 \/ bw b = 64 \/ (65 <= bw b /\ bw b mod 64 = 0)) -> tidy b.
Proof. exact full_always_tidy. Qed.
Print Assumptions C14_full_storage.
(** signed native operands.  Missing: + - * / << ~ unary minus (false), multi-word operands. *)
Theorem C14_signed_partial : forall a b n, 2 <= n <= 64 -> typed a n true -> typed b n true -> tidy a -> tidy b ->
  (forall r, bit_and a b = Ok r -> tidy r) /\ (forall r, bit_or a b = Ok r -> tidy r) /\ (forall r, bit_xor a b = Ok r -> tidy r) /\
  (forall amt r, vec amt -> bsgn amt = true -> bw amt <= 64 -> tidy amt -> 0 <= value amt -> bit_ashr a amt = Ok r -> tidy r) /\
  (forall m r, n <= m < 2 ^ 31 -> bit_extend a m = Ok r -> tidy r).
Proof. exact tidy_signed. Qed.
Print Assumptions C14_signed_partial.
Example C14_exact_ex : vec s32_max /\ bw s32_max = 32 /\ vec u128_big /\ bw u128_big mod 64 = 0 /\ typed s5_7 5 true /\ tidy s5_7 /\ bsgn s5_7 = true /\ 0 <= value s5_7.
Proof. conc. Qed.

(** C26: an amount of at least the width is always undefined for native vectors *)
Theorem C26_wide_undefined : forall a amt, vec a -> vec amt -> 2 <= bw a <= 64 -> bw amt <= 64 -> bw a <= stored amt -> bit_shr a amt = UB.
Proof. exact shr_wide_ub. Qed.
Print Assumptions C26_wide_undefined.
Theorem C26_one_bit_undefined : forall a amt, vec a -> vec amt -> bw a = 1 -> bw amt <= 64 -> 1 <= stored amt < 2 ^ 31 -> bit_shr a amt = UB.
Proof. exact shr_single_ub. Qed.
Print Assumptions C26_one_bit_undefined.
Example C26_exact_ex : vec u4_5 /\ vec u8_200 /\ 2 <= bw u4_5 <= 64 /\ bw u4_5 <= stored u8_200 /\ vec u1_1 /\ bw u1_1 = 1 /\ 1 <= stored u8_200 < 2 ^ 31.
Proof. conc. Qed.

(** C27: the amount is reduced modulo 2^storage; the result is right for reduced amounts below 32 (64 for vectors of more
    than 32 positions), undefined otherwise *)
Theorem C27_any_amount : forall a amt n k, vec a -> vec amt -> bw a = n -> 2 <= n <= 64 -> bw amt <= 64 -> 0 <= stored amt -> k = stored amt mod 2 ^ storage n ->
  (k < computing n -> exists r, bit_shl a amt = Ok r /\ typed r n (bsgn a && bsgn amt) /\ num r = (num a * 2 ^ k) mod 2 ^ n) /\
  (computing n <= k -> bit_shl a amt = UB).
Proof. exact shl_exact. Qed.
Print Assumptions C27_any_amount.
(** a one-bit vector is never changed by << *)
Theorem C27_one_bit : forall a amt, vec a -> vec amt -> bw a = 1 -> bw amt <= 64 ->
  exists r, bit_shl a amt = Ok r /\ typed r 1 (bsgn a && bsgn amt) /\ num r = num a.
Proof. exact shl_single. Qed.
Print Assumptions C27_one_bit.
(** C28: as for the left shift *)
Theorem C28_any_amount : forall a amt n k, vec a -> vec amt -> bw a = n -> 2 <= n <= 64 -> bw amt <= 64 -> 0 <= stored amt -> k = stored amt mod 2 ^ storage n ->
  (k < computing n -> exists r, bit_ashr a amt = Ok r /\ typed r n (bsgn a && bsgn amt) /\ num r = (stored a / 2 ^ k) mod 2 ^ n) /\
  (computing n <= k -> bit_ashr a amt = UB).
Proof. exact ashr_exact. Qed.
Print Assumptions C28_any_amount.
Theorem C28_one_bit : forall a amt, vec a -> vec amt -> bw a = 1 -> bw amt <= 64 ->
  exists r, bit_ashr a amt = Ok r /\ typed r 1 (bsgn a && bsgn amt) /\ num r = if stored amt =? 0 then num a else 0.
Proof. exact ashr_single. Qed.
Print Assumptions C28_one_bit.
Example C27_exact_ex : vec u4_5 /\ vec u16_300 /\ 2 <= bw u4_5 <= 64 /\ 0 <= stored u16_300 /\ stored u16_300 mod 2 ^ storage (bw u4_5) = 44 /\ computing (bw u4_5) = 32 /\
  vec s8_m3 /\ vec u1_1 /\ bw u1_1 = 1.
Proof. conc. Qed.

(** C30: the right operand is first reduced modulo 2^storage of the left one *)
Theorem C30_any_width : forall a b, vec a -> vec b -> bsgn a = false -> bsgn b = false -> tidy a -> tidy b -> 2 <= bw a <= 64 -> bw b <= 64 ->
  bit_eq a b = Ok (num a =? num b mod 2 ^ storage (bw a)).
Proof. exact eq_exact. Qed.
Print Assumptions C30_any_width.
Example C30_exact_ex : vec u4_5 /\ vec u16_300 /\ tidy u4_5 /\ tidy u16_300 /\ 2 <= bw u4_5 <= 64 /\ bw u16_300 <= 64.
Proof. conc. Qed.

(** C37, C38, C39 at equal native widths: exactly when the operation is defined.  In up to 16 positions, and when both operands are
    signed, the exact result of the stored numbers must be representable in 32 or 64 signed bits. *)
Theorem C37_defined : forall a b n, vec a -> vec b -> bw a = n -> bw b = n -> blsb b <= bmsb b -> 2 <= n <= 64 ->
  ((17 <= n /\ bsgn a && bsgn b = false) \/ signed_fits (computing n) (stored a + stored b) ->
   exists r, bit_add a b = Ok r /\ typed r n (bsgn a && bsgn b) /\ num r = (num a + num b) mod 2 ^ n) /\
  (n <= 16 \/ bsgn a && bsgn b = true -> ~ signed_fits (computing n) (stored a + stored b) -> bit_add a b = UB).
Proof. exact add_exact. Qed.
Print Assumptions C37_defined.
(** one-bit addition is OR *)
Theorem C37_one_bit : forall a b sa sb, typed a 1 sa -> typed b 1 sb ->
  exists r, bit_add a b = Ok r /\ typed r 1 (sa && sb) /\ num r = Z.lor (num a) (num b).
Proof. exact add_single. Qed.
Print Assumptions C37_one_bit.
Theorem C38_defined : forall a b n, vec a -> vec b -> bw a = n -> bw b = n -> blsb b <= bmsb b -> 2 <= n <= 64 ->
  ((17 <= n /\ bsgn a && bsgn b = false) \/ signed_fits (computing n) (stored a - stored b) ->
   exists r, bit_sub a b = Ok r /\ typed r n (bsgn a && bsgn b) /\ num r = (num a - num b) mod 2 ^ n) /\
  (n <= 16 \/ bsgn a && bsgn b = true -> ~ signed_fits (computing n) (stored a - stored b) -> bit_sub a b = UB).
Proof. exact sub_exact. Qed.
Print Assumptions C38_defined.
(** negating the least 32- or 64-bit number is undefined *)
Theorem C38_neg_undefined : forall a n, n = 32 \/ n = 64 -> typed a n true -> stored a = - 2 ^ (n - 1) -> bit_neg a = UB.
Proof. exact neg_ub. Qed.
Print Assumptions C38_neg_undefined.
Theorem C39_defined : forall a b n, vec a -> vec b -> bw a = n -> bw b = n -> blsb b <= bmsb b -> 2 <= n <= 64 ->
  ((17 <= n /\ bsgn a && bsgn b = false) \/ signed_fits (computing n) (stored a * stored b) ->
   exists r, bit_mul a b = Ok r /\ typed r n (bsgn a && bsgn b) /\ num r = (num a * num b) mod 2 ^ n) /\
  (n <= 16 \/ bsgn a && bsgn b = true -> ~ signed_fits (computing n) (stored a * stored b) -> bit_mul a b = UB).
Proof. exact mul_exact. Qed.
Print Assumptions C39_defined.
Example C37_exact_ex : vec u16_300 /\ bw u16_300 = 16 /\ blsb u16_300 <= bmsb u16_300 /\ signed_fits (computing 16) (stored u16_300 * stored u16_300) /\
  typed s32_max 32 true /\ ~ signed_fits (computing 32) (stored s32_max + stored s32_max) /\ typed (bit_of_native 31 0 true (- 2 ^ 31)) 32 true /\
  stored (bit_of_native 31 0 true (- 2 ^ 31)) = - 2 ^ 31 /\ typed u1_1 1 false.
Proof. unfold signed_fits. conc. Qed.

(** C40: native division by zero is undefined *)
Theorem C40_zero_undefined : forall a b na nb, 1 <= na <= 64 -> 1 <= nb <= 64 -> typed a na false -> typed b nb false -> tidy a -> tidy b ->
  num b = 0 -> bit_div a b = UB /\ bit_rem a b = UB.
Proof. exact unsigned_division_zero. Qed.
Print Assumptions C40_zero_undefined.
(** multi-word division by zero, or by a number all of whose ones lie in upper halves of 64-bit groups: quotient and remainder are 0 *)
Theorem C40_unseen_divisor : forall a b n s, 65 <= n -> typed a n false -> typed b n s -> low_halves_zero (num b) -> tidy b ->
  exists q r, bit_div a b = Ok q /\ bit_rem a b = Ok r /\ typed q n false /\ typed r n false /\ num q = 0 /\ num r = 0.
Proof. exact big_division_unseen. Qed.
Print Assumptions C40_unseen_divisor.
Example C40_exact_ex : typed u8_200 8 false /\ typed (bit_of_native 3 0 false 0) 4 false /\ num (bit_of_native 3 0 false 0) = 0 /\ tidy u8_200 /\
  typed u128_big 128 false /\ typed (mkBit 127 0 false (HB [2 ^ 32; 0])) 128 false /\ low_halves_zero (2 ^ 32) /\ num (mkBit 127 0 false (HB [2 ^ 32; 0])) = 2 ^ 32 /\ tidy (mkBit 127 0 false (HB [2 ^ 32; 0])).
Proof. exact unseen_ex. Qed.

(** C46: at widths that do not fill the storage, re-interpretation as signed does not change the reading, and re-interpretation
    of a negative vector as unsigned adds 2^storage *)
Theorem C46_other_widths : forall x n s, 2 <= n <= 64 -> n < storage n -> typed x n s -> tidy x ->
  bit_to_num (bit_to_signed x) = Ok (value x) /\
  bit_to_num (bit_to_unsigned x) = Ok (if value x <? 0 then value x + 2 ^ storage n else value x).
Proof. exact resign_reading. Qed.
Print Assumptions C46_other_widths.
Example C46_exact_ex : 5 < storage 5 /\ typed s5_7 5 true /\ tidy s5_7 /\ 12 < storage 12 /\ typed u12_9 12 false /\ tidy u12_9 /\ bit_at u12_9 11 = true.
Proof. conc. Qed.

(** C48: a one-bit destination becomes 1 iff the source is not 0 *)
Theorem C48_one_bit : forall d x s m t, 1 <= m <= 64 -> typed d 1 s -> typed x m t ->
  exists r, bit_assign d x = Ok r /\ typed r 1 s /\ num r = if stored x =? 0 then 0 else 1.
Proof. exact assign_single. Qed.
Print Assumptions C48_one_bit.
Example C48_exact_ex : typed u1_1 1 false /\ typed u8_200 8 false.
Proof. conc. Qed.

(** C50: update<a, b> takes the positions of the source at the indices of the destination; positions the source does not have
    count as 0 *)
Theorem C50_constant_exact : forall x n s op k a b, 1 <= n -> 1 <= k -> typed x n s -> typed op k false -> tidy op -> 0 <= a < n -> 0 <= b < n ->
  (k <= 64 -> Z.max a b < computing k) ->
  exists r, bit_update_c x a b op = Ok r /\ typed r n s /\
    (forall p, 0 <= p < n -> bit_at r p = if (Z.min a b <=? p) && (p <=? Z.max a b) then bit_at op p else bit_at x p).
Proof. exact update_c_exact. Qed.
Print Assumptions C50_constant_exact.
(** ... and indices of 32 (64) and more are undefined for native sources *)
Theorem C50_constant_undefined : forall x n s op k so a b, 1 <= n -> 1 <= k <= 64 -> typed x n s -> typed op k so -> 0 <= a < n -> 0 <= b < n ->
  computing k <= Z.max a b -> bit_update_c x a b op = UB.
Proof. exact update_c_ub. Qed.
Print Assumptions C50_constant_undefined.
Example C50_exact_ex : typed u8_200 8 false /\ typed u4_5 4 false /\ tidy u4_5 /\ Z.max 7 2 < computing 4 /\ typed u40_9 40 false /\ computing 4 <= Z.max 35 2.
Proof. conc. Qed.

(** C70: signed operands of any two native widths; the quotient truncates towards zero and the remainder takes the sign of the dividend *)
Theorem C70_any_widths : forall a b na nb m, 2 <= na <= 64 -> 2 <= nb <= 64 -> m = Z.max na nb -> typed a na true -> typed b nb true -> tidy a -> tidy b ->
  (value b = 0 -> bit_div a b = UB /\ bit_rem a b = UB) /\
  ((m = 32 \/ m = 64) -> value a = - 2 ^ (m - 1) -> value b = - 1 -> bit_div a b = UB /\ bit_rem a b = UB) /\
  (value b <> 0 -> ~ (value a = - 2 ^ (m - 1) /\ value b = - 1) ->
   exists q r, bit_div a b = Ok q /\ bit_rem a b = Ok r /\ typed q m true /\ typed r m true /\
     value a = value q * value b + value r /\ Z.abs (value r) < Z.abs (value b) /\ 0 <= value r * value a).
Proof. exact signed_division. Qed.
Print Assumptions C70_any_widths.
Example C70_exact_ex : typed s16_m2 16 true /\ typed s5_7 5 true /\ tidy s16_m2 /\ tidy s5_7 /\ value s5_7 <> 0.
Proof. conc. Qed.

(** C101: reading outside the range.  Native vectors: the storage is read, up to 32 (64) positions; beyond and below it is undefined *)
Theorem C101_native : forall x n s i, 1 <= n <= 64 -> typed x n s ->
  (0 <= i < computing n -> bit_get x i = Ok (Z.testbit (stored x) i)) /\ (i < 0 \/ computing n <= i -> bit_get x i = UB).
Proof. exact read_exact. Qed.
Print Assumptions C101_native.
(** reading 4-bit 0101 at 40 *)
Theorem C101_refuted : exists x i, typed x 4 false /\ tidy x /\ 4 <= i /\ bit_get x i = UB.
Proof. exact read_counter. Qed.
Print Assumptions C101_refuted.
(** unsigned: 0 up to the limit *)
Theorem C101_unsigned_partial : forall x n i, 1 <= n <= 64 -> typed x n false -> tidy x -> n <= i < computing n -> bit_get x i = Ok false.
Proof. exact read_outside. Qed.
Print Assumptions C101_unsigned_partial.
(** signed: the sign *)
Theorem C101_signed : forall x n i, 2 <= n <= 64 -> typed x n true -> tidy x -> n <= i < computing n -> bit_get x i = Ok (bit_at x (n - 1)).
Proof. exact read_outside_signed. Qed.
Print Assumptions C101_signed.
(** multi-word: always 0 *)
Theorem C101_big_partial : forall x n s i, 65 <= n -> typed x n s -> int_ok i -> i < 0 \/ n <= i -> bit_get x i = Ok false.
Proof. exact read_outside_big. Qed.
Print Assumptions C101_big_partial.
Example C101_ex : typed u4_5 4 false /\ tidy u4_5 /\ 4 <= 20 < computing 4 /\ typed s5_7 5 true /\ tidy s5_7 /\ typed s70_m9 70 true /\ int_ok (-3) /\ int_ok 70.
Proof. conc. Qed.
