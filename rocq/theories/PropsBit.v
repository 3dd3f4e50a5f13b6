(** Property theorems about 2-state vectors.  Statements use the model's API functions ([bit_set],
    [bit_get], ...) and the vocabulary of Spec.v only.  Every theorem is closed by a lemma of another
    file; below each one an [Example] shows that its hypotheses are met by a concrete vector. *)
From Coq Require Import ZArith List Bool.
From Verif Require Import Cpp BigNum Bit Logic Spec BitExt BitMain.
Import ListNotations.
Open Scope Z_scope.

(** concrete vectors *)
Definition u4_5 := bit_of_native 3 0 false 5.
Definition u8_200 := bit_of_native 7 0 false 200.
Definition s8_m3 := bit_of_native 7 0 true (-3).
Definition u70_9 := bit_of_arith 69 0 false (2 ^ 63 + 9).
Definition s70_m9 := bit_of_arith 69 0 true (-9).
Definition asc6 := bit_of_native 0 5 false 44.

(** C01 *)
Theorem C01_set_get : forall b i x, vec b -> Z.min (bmsb b) (blsb b) = 0 -> in_range (bmsb b) (blsb b) i ->
  (forall j, in_range (bmsb b) (blsb b) j -> bit_get b j = Ok (bit_at b (place (bmsb b) (blsb b) j))) /\
  exists b', bit_set b i x = Ok b' /\ vec b' /\ bmsb b' = bmsb b /\ blsb b' = blsb b /\ bsgn b' = bsgn b /\
    bit_get b' i = Ok x /\
    (forall j, in_range (bmsb b) (blsb b) j -> j <> i -> bit_get b' j = bit_get b j).
Proof. exact set_get_zero_based. Qed.
Print Assumptions C01_set_get.
Example C01_ex : vec s70_m9 /\ Z.min (bmsb s70_m9) (blsb s70_m9) = 0 /\ in_range (bmsb s70_m9) (blsb s70_m9) 68.
Proof. conc. Qed.
Example C01_ex_asc : vec asc6 /\ Z.min (bmsb asc6) (blsb asc6) = 0 /\ in_range (bmsb asc6) (blsb asc6) 5.
Proof. conc. Qed.

(** C02: false of the code for [5:2] *)
Theorem C02_refuted : exists b b' i, vec b /\ in_range (bmsb b) (blsb b) i /\
  bit_set b i true = Ok b' /\ bit_get b' i = Ok false.
Proof. exact set_get_offset_counter. Qed.
Print Assumptions C02_refuted.
(** what holds: [operator[]] addresses the declared position of every ascending range, [set] that of every
    descending range.  Missing: the other two combinations, false by [C02_refuted]. *)
Theorem C02_partial : forall b i x, vec b -> in_range (bmsb b) (blsb b) i ->
  (bmsb b < blsb b -> bit_get b i = Ok (bit_at b (place (bmsb b) (blsb b) i))) /\
  (blsb b <= bmsb b -> exists b', bit_set b i x = Ok b' /\ vec b' /\
    bmsb b' = bmsb b /\ blsb b' = blsb b /\ bsgn b' = bsgn b /\
    forall p, 0 <= p < bw b -> bit_at b' p = if p =? place (bmsb b) (blsb b) i then x else bit_at b p).
Proof. exact access_any_range. Qed.
Print Assumptions C02_partial.
Example C02_ex : vec (bit_of_native 5 2 false 9) /\ in_range 5 2 4.
Proof. conc. Qed.

(** C05 *)
Theorem C05_slice : forall x n a b, 1 <= n -> typed x n false -> 0 <= a < n -> 0 <= b < n ->
  (n <= 64 \/ Z.abs (a - b) + 1 <> 65) ->
  exists r, bit_slice_c x a b = Ok r /\ typed r (Z.abs (a - b) + 1) false /\ tidy r /\
    forall p, 0 <= p < Z.abs (a - b) + 1 -> bit_at r p = bit_at x (Z.min a b + p).
Proof. exact slice_const_unsigned. Qed.
Print Assumptions C05_slice.
(** the remaining instantiations, 65-bit slices of multi-word vectors, are rejected by the compiler *)
Theorem C05_rejected : forall x n a b, 65 <= n -> typed x n false -> 0 <= a < n -> 0 <= b < n ->
  Z.abs (a - b) + 1 = 65 -> bit_slice_c x a b = IllFormed.
Proof. exact slice_65_rejected. Qed.
Print Assumptions C05_rejected.
Example C05_ex : typed u70_9 70 false /\ 0 <= 67 < 70 /\ 0 <= 2 < 70 /\ Z.abs (67 - 2) + 1 <> 65.
Proof. conc. Qed.

(** C06: the top of a signed vector cannot be sliced *)
Theorem C06_refuted : exists x n a b, typed x n true /\ 0 <= a < n /\ 0 <= b < n /\ bit_slice_c x a b = UB.
Proof. exact slice_signed_counter. Qed.
Print Assumptions C06_refuted.
(** Missing: one-bit slices of native signed vectors and slices that reach within one bit of the
    storage width (8, 16, 32, 64). *)
Theorem C06_partial : forall x n a b, typed x n true -> 0 <= a < n -> 0 <= b < n ->
  (2 <= n <= 64 /\ a <> b /\ Z.max a b + 2 <= iwidth (hty n true)) \/ (65 <= n /\ Z.abs (a - b) + 1 <> 65) ->
  exists r, bit_slice_c x a b = Ok r /\ typed r (Z.abs (a - b) + 1) false /\
    forall p, 0 <= p < Z.abs (a - b) + 1 -> bit_at r p = bit_at x (Z.min a b + p).
Proof. exact slice_const_signed. Qed.
Print Assumptions C06_partial.
Example C06_ex : typed s8_m3 8 true /\ 2 <= 8 <= 64 /\ 6 <> 1 /\ Z.max 6 1 + 2 <= iwidth (hty 8 true).
Proof. conc. Qed.

(** C07 *)
Theorem C07_refuted : exists x r, typed x 1 false /\ bit_slice_r x 1 0 0 = Ok r /\ bit_at r 0 <> bit_at x 0.
Proof. exact slice_runtime_counter. Qed.
Print Assumptions C07_refuted.
(** Missing: vectors of one bit. *)
Theorem C07_partial : forall x n s a b, 2 <= n -> typed x n s -> 0 <= a < n -> 0 <= b < n ->
  exists r, bit_slice_r x (Z.abs (a - b) + 1) a b = Ok r /\ typed r (Z.abs (a - b) + 1) false /\
    forall p, 0 <= p < Z.abs (a - b) + 1 -> bit_at r p = bit_at x (Z.min a b + p).
Proof. exact slice_runtime. Qed.
Print Assumptions C07_partial.
Theorem C07_indexed_partial : forall x n s k (up : bool) base, 2 <= n -> typed x n s -> 1 <= k -> 0 <= base < n ->
  (if up then base + k <= n else k <= base + 1) ->
  exists r, bit_slice_idx x k up base = Ok r /\ typed r k false /\
    forall p, 0 <= p < k -> bit_at r p = bit_at x ((if up then base else base - k + 1) + p).
Proof. exact slice_indexed. Qed.
Print Assumptions C07_indexed_partial.
Example C07_ex : typed s70_m9 70 true /\ 0 <= 3 < 70 /\ 0 <= 66 < 70 /\ 66 + 4 <= 70 /\ 66 <= 66 + 1.
Proof. conc. Qed.

(** C08 *)
Theorem C08_refuted : exists a x r, typed a 4 false /\ bit_add a a = Ok x /\ typed x 4 false /\
  bit_extend x 8 = Ok r /\ num r <> num x.
Proof. exact extend_zero_counter. Qed.
Print Assumptions C08_refuted.
(** Missing: vectors that carry garbage above their width (produced by + - * << ~). *)
Theorem C08_partial : forall x n m, 1 <= n <= m -> m < 2 ^ 31 -> typed x n false -> tidy x ->
  exists r, bit_extend x m = Ok r /\ typed r m false /\ num r = num x /\ tidy r.
Proof. exact extend_zero. Qed.
Print Assumptions C08_partial.
Example C08_ex : typed u8_200 8 false /\ tidy u8_200 /\ typed u70_9 70 false /\ tidy u70_9.
Proof. conc. Qed.

(** C09: a positive 70-bit value, and -1 in one bit *)
Theorem C09_refuted :
  (exists x r, typed x 70 true /\ tidy x /\ bit_extend x 80 = Ok r /\ snum r <> snum x) /\
  (exists x r, typed x 1 true /\ tidy x /\ bit_extend x 8 = Ok r /\ snum r <> snum x).
Proof. exact extend_sign_counter. Qed.
Print Assumptions C09_refuted.
(** Missing: one-bit and multi-word sources. *)
Theorem C09_partial : forall x n m, 2 <= n <= 64 -> n <= m < 2 ^ 31 -> typed x n true -> tidy x ->
  exists r, bit_extend x m = Ok r /\ typed r m true /\ snum r = snum x /\ tidy r.
Proof. exact extend_sign. Qed.
Print Assumptions C09_partial.
(** multi-word sources: ones are filled in whatever the sign, so negative numbers (and only these) survive *)
Theorem C09_big_partial : forall x n m, 65 <= n < m -> m < 2 ^ 31 -> typed x n true -> tidy x ->
  exists r, bit_extend x m = Ok r /\ typed r m true /\ (snum r = snum x <-> snum x < 0).
Proof. exact extend_sign_big. Qed.
Print Assumptions C09_big_partial.
Example C09_ex : typed s8_m3 8 true /\ tidy s8_m3 /\ snum s8_m3 = -3 /\ typed s70_m9 70 true /\ tidy s70_m9 /\ snum s70_m9 = -9.
Proof. conc. Qed.

(** C10 *)
Theorem C10_refuted : exists a b r, typed a 31 false /\ typed b 2 false /\ tidy a /\ tidy b /\
  bit_concat a b = Ok r /\ num r <> num a * 2 ^ 2 + num b.
Proof. exact concat_counter. Qed.
Print Assumptions C10_refuted.
(** Missing: totals above 32 with a left operand of at most 32 bits; signed operands. *)
Theorem C10_partial : forall a b na nb, 1 <= na -> 1 <= nb -> na + nb < 64 ->
  (na + nb <= 32 \/ 33 <= na) ->
  typed a na false -> typed b nb false -> tidy a -> tidy b ->
  exists r, bit_concat a b = Ok r /\ typed r (na + nb) false /\ num r = num a * 2 ^ nb + num b /\ tidy r.
Proof. exact concat_num. Qed.
Print Assumptions C10_partial.
(** totals of 64 and more do not compile *)
Theorem C10_rejected : forall a b, 64 <= bw a + bw b -> bit_concat a b = IllFormed.
Proof. exact concat_rejected. Qed.
Print Assumptions C10_rejected.
Example C10_ex : typed u8_200 8 false /\ typed u4_5 4 false /\ tidy u8_200 /\ tidy u4_5.
Proof. conc. Qed.

(** C13 *)
Theorem C13_same_width : forall a b n, vec a -> vec b -> bw a = n -> bw b = n -> blsb b <= bmsb b ->
  (exists r, bit_and a b = Ok r /\ typed r n (bsgn a && bsgn b) /\
     forall p, 0 <= p < n -> bit_at r p = bit_at a p && bit_at b p) /\
  (exists r, bit_or a b = Ok r /\ typed r n (bsgn a && bsgn b) /\
     forall p, 0 <= p < n -> bit_at r p = bit_at a p || bit_at b p) /\
  (exists r, bit_xor a b = Ok r /\ typed r n (bsgn a && bsgn b) /\
     forall p, 0 <= p < n -> bit_at r p = xorb (bit_at a p) (bit_at b p)) /\
  (typed (bit_not a) n false /\ forall p, 0 <= p < n -> bit_at (bit_not a) p = negb (bit_at a p)).
Proof. exact bitwise_same_all. Qed.
Print Assumptions C13_same_width.
Theorem C13_refuted : exists a x b r, typed a 4 false /\ bit_add a a = Ok x /\ typed x 4 false /\
  typed b 8 false /\ bit_or x b = Ok r /\ num r <> Z.lor (num x) (num b).
Proof. exact bitwise_mixed_counter. Qed.
Print Assumptions C13_refuted.
(** Missing: different widths when an operand cannot be widened correctly (C08, C09). *)
Theorem C13_mixed_partial : forall a b na nb sa sb, 1 <= na -> 1 <= nb -> na <> nb ->
  typed a na sa -> typed b nb sb -> extendable a -> extendable b ->
  (exists r, bit_and a b = Ok r /\ typed r (Z.max na nb) (sa && sb) /\
     forall p, 0 <= p < Z.max na nb -> bit_at r p = Z.testbit (value a) p && Z.testbit (value b) p) /\
  (exists r, bit_or a b = Ok r /\ typed r (Z.max na nb) (sa && sb) /\
     forall p, 0 <= p < Z.max na nb -> bit_at r p = Z.testbit (value a) p || Z.testbit (value b) p) /\
  (exists r, bit_xor a b = Ok r /\ typed r (Z.max na nb) (sa && sb) /\
     forall p, 0 <= p < Z.max na nb -> bit_at r p = xorb (Z.testbit (value a) p) (Z.testbit (value b) p)).
Proof. exact bitwise_mixed_all. Qed.
Print Assumptions C13_mixed_partial.
Example C13_ex : typed u4_5 4 false /\ typed s8_m3 8 true /\ extendable u4_5 /\ extendable s8_m3 /\
  vec u70_9 /\ vec s70_m9 /\ bw u70_9 = 70 /\ bw s70_m9 = 70.
Proof. conc. Qed.
