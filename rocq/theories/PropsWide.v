(** Exact behaviour of 2-state vectors of any width.  SpecWide.v gives, for every operation, one formula on the stored integers, with the
    formulas of SpecMachine.v up to 64 positions; the theorems say that the library computes this formula for every pair of widths, bounds,
    signednesses and stored numbers, and is undefined, does not compile or does not finish exactly where the formula says so. *)
From Coq Require Import ZArith List Bool Lia.
From Verif Require Import Cpp BigNum Bit Logic Spec SpecExact SpecMachine SpecWide MachineProg WideProg BitMain WideProofs WideProofs2 WideProofs3 WideProofs4 WideProofs5 WideProofs6.
Import ListNotations.
Open Scope Z_scope.

(** a 100-bit vector storing bits above its width, a signed 130-bit one, a signed 12-bit one *)
Definition w100 := mkBit 99 0 false (HB [5; 2 ^ 40 + 3]).
Definition w130 := mkBit 129 0 true (HB [2 ^ 64 - 1; 2 ^ 64 - 1; 3]).
Definition w12 := mkBit 11 0 true (HN (-1)).

(** C128: arithmetic operators *)
Theorem C128_add : forall a b, vec a -> vec b -> bit_add a b = any_sum a b.
Proof. exact add_any. Qed.
Print Assumptions C128_add.
Theorem C128_sub : forall a b, vec a -> vec b -> bit_sub a b = any_difference a b.
Proof. exact sub_any. Qed.
Print Assumptions C128_sub.
Theorem C128_mul : forall a b, vec a -> vec b -> bit_mul a b = any_product a b.
Proof. exact mul_any. Qed.
Print Assumptions C128_mul.
Theorem C128_div : forall a b, vec a -> vec b -> bit_div a b = any_quotient a b.
Proof. exact div_any. Qed.
Print Assumptions C128_div.
Theorem C128_rem : forall a b, vec a -> vec b -> bit_rem a b = any_remainder a b.
Proof. exact rem_any. Qed.
Print Assumptions C128_rem.
(** the formula of wide quotients and remainders is division for numbers inside the declared width whose words are not misread as 0 *)
Theorem C128_division : forall n x y, 1 <= n -> 0 <= x < 2 ^ n -> 0 < y < 2 ^ n ->
  seems_zero n y = false -> seems_small n x = (x <? 2 ^ 64) -> seems_small n y = (y <? 2 ^ 64) -> divided n x y = Ok (x / y, x mod y).
Proof. exact divided_exact. Qed.
Print Assumptions C128_division.
Theorem C128_inc : forall a, vec a -> bit_inc a = any_step 1 a.
Proof. exact inc_any. Qed.
Print Assumptions C128_inc.
Theorem C128_dec : forall a, vec a -> bit_dec a = any_step (-1) a.
Proof. exact dec_any. Qed.
Print Assumptions C128_dec.
Theorem C128_neg : forall a, vec a -> bit_neg a = any_minus a.
Proof. exact neg_any. Qed.
Print Assumptions C128_neg.
Theorem C128_negate : forall a, vec a -> bit_negate a = any_two_complement a.
Proof. exact negate_any. Qed.
Print Assumptions C128_negate.
(** a 12-bit -1 is widened with its sign; a product by 7 is undefined; bits above the width spoil quotients (2^40 + 3 would be right) *)
Example C128_ex : vec w100 /\ vec w130 /\ vec w12 /\
  any_sum w100 w12 = Ok (mkBit 99 0 false (HB [4; 2 ^ 40 + 2 ^ 36 + 3])) /\
  any_product w100 w100 = UB /\ any_product w100 (mkBit 63 0 false (HN 7)) = UB /\
  any_quotient w100 (mkBit 99 0 false (HB [0; 1])) = Ok (mkBit 99 0 false (HB [2 ^ 41 - 1; 0])) /\
  any_minus w100 = IllFormed /\ any_step 1 w130 = Ok (mkBit 129 0 true (HB [0; 0; 4])).
Proof. conc. Qed.

(** C129: bitwise operators, shifts and their compound assignments *)
Theorem C129_and : forall a b, vec a -> vec b -> bit_and a b = any_bitwise Z.land true a b.
Proof. exact and_any. Qed.
Print Assumptions C129_and.
Theorem C129_or : forall a b, vec a -> vec b -> bit_or a b = any_bitwise Z.lor false a b.
Proof. exact or_any. Qed.
Print Assumptions C129_or.
Theorem C129_xor : forall a b, vec a -> vec b -> bit_xor a b = any_bitwise Z.lxor false a b.
Proof. exact xor_any. Qed.
Print Assumptions C129_xor.
Theorem C129_not : forall a, vec a -> bit_not a = any_inverse a.
Proof. exact not_any. Qed.
Print Assumptions C129_not.
Theorem C129_shl : forall a k, vec a -> vec k -> bit_shl a k = any_left a k.
Proof. exact shl_any. Qed.
Print Assumptions C129_shl.
Theorem C129_shr : forall a k, vec a -> vec k -> bit_shr a k = any_right a k.
Proof. exact shr_any. Qed.
Print Assumptions C129_shr.
Theorem C129_ashr : forall a k, vec a -> vec k -> bit_ashr a k = any_arith a k.
Proof. exact ashr_any. Qed.
Print Assumptions C129_ashr.
Theorem C129_assign : forall o a b, vec a -> vec b -> lib_put o a b = any_put o a b.
Proof. exact put_any. Qed.
Print Assumptions C129_assign.
(** the position the sign of -1 >> 3 moves to is 0 *)
Example C129_ex : any_bitwise Z.land true w100 w100 = Ok (mkBit 99 0 false (HB [5; 3])) /\ any_bitwise Z.lor false w100 w100 = Ok w100 /\
  any_inverse w100 = mkBit 99 0 false (HB [2 ^ 64 - 6; 2 ^ 64 - 2 ^ 40 - 4]) /\
  any_left w100 (mkBit 7 0 false (HN 64)) = Ok (mkBit 99 0 false (HB [0; 5])) /\
  any_arith w130 (mkBit 7 0 true (HN 3)) = Ok (mkBit 129 0 true (HB [2 ^ 64 - 1; 2 ^ 64 - 1 - 2 ^ 62; 3])) /\ any_left w12 w100 = IllFormed.
Proof. conc. Qed.

(** C130: comparisons and queries *)
Theorem C130_eq : forall a b, vec a -> vec b -> bit_eq a b = any_equal a b.
Proof. exact eq_any. Qed.
Print Assumptions C130_eq.
Theorem C130_ne : forall a b, vec a -> vec b -> bit_ne a b = omap negb (any_equal a b).
Proof. exact ne_any. Qed.
Print Assumptions C130_ne.
Theorem C130_lt : forall a b, vec a -> vec b -> bit_lt a b = any_less a b.
Proof. exact lt_any. Qed.
Print Assumptions C130_lt.
Theorem C130_le : forall a b, vec a -> vec b -> bit_le a b = any_less_equal a b.
Proof. exact le_any. Qed.
Print Assumptions C130_le.
Theorem C130_gt : forall a b, vec a -> vec b -> bit_gt a b = any_greater a b.
Proof. exact gt_any. Qed.
Print Assumptions C130_gt.
Theorem C130_ge : forall a b, vec a -> vec b -> bit_ge a b = any_greater_equal a b.
Proof. exact ge_any. Qed.
Print Assumptions C130_ge.
Theorem C130_any_set : forall a, vec a -> bit_any_set a = any_true a.
Proof. exact any_set_any. Qed.
Print Assumptions C130_any_set.
Theorem C130_r_and : forall a, vec a -> bit_r_and a = any_all_ones a.
Proof. exact r_and_any. Qed.
Print Assumptions C130_r_and.
Theorem C130_highest : forall a, vec a -> bit_highest_bit a = any_top_one a.
Proof. exact highest_any. Qed.
Print Assumptions C130_highest.
Theorem C130_to_uint64 : forall a, vec a -> bit_to_uint64 a = stored a mod 2 ^ 64.
Proof. exact to_uint64_any. Qed.
Print Assumptions C130_to_uint64.
(** the least signed number counts as above -1, and comparing it with itself does not finish *)
Example C130_ex : let least := mkBit 129 0 true (HB [0; 0; 2]) in
  vec least /\ any_less least w130 = Ok false /\ any_less w130 least = Ok true /\ any_less least least = Fuel /\ any_less w12 w100 = UB /\
  any_less w100 w12 = IllFormed /\ any_true (mkBit 99 0 false (HB [2 ^ 40; 0])) = false /\ any_all_ones w130 = false /\ any_equal w100 w100 = Ok true.
Proof. conc. Qed.

(** C131: construction, assignment, signedness, mask_off and change of width *)
Theorem C131_new : forall msb lsb s z, int_ok msb -> int_ok lsb -> width msb lsb < 2 ^ 31 -> - 2 ^ 63 <= z < 2 ^ 64 ->
  bit_of_arith msb lsb s z = any_new msb lsb s z.
Proof. exact new_any. Qed.
Print Assumptions C131_new.
Theorem C131_assign : forall d a, vec d -> vec a -> bit_assign d a = any_assign d a.
Proof. exact assign_any. Qed.
Print Assumptions C131_assign.
Theorem C131_assign_number : forall d v, vec d -> bit_assign_arith d v = any_assign_number d v.
Proof. exact assign_arith_any. Qed.
Print Assumptions C131_assign_number.
Theorem C131_sign : forall s a, vec a -> bit_resign s a = vec_of (bw a) s (stored a).
Proof. exact resign_any. Qed.
Print Assumptions C131_sign.
Theorem C131_mask_off : forall a, vec a -> bit_mask_off a = rewritten a (stored a mod 2 ^ bw a).
Proof. exact mask_off_every. Qed.
Print Assumptions C131_mask_off.
Theorem C131_resize : forall a m, vec a -> 1 <= m < 2 ^ 31 -> bit_extend a m = any_resize a m.
Proof. exact extend_any. Qed.
Print Assumptions C131_resize.
(** a negative number fills a signed wide vector, but only 64 bits of an unsigned one *)
Example C131_ex : any_new 129 0 true (-2) = mkBit 129 0 true (HB [2 ^ 64 - 2; 2 ^ 64 - 1; 3]) /\ any_new 129 0 false (-2) = mkBit 129 0 false (HB [2 ^ 64 - 2; 0; 0]) /\
  any_assign w100 w12 = IllFormed /\ any_resize w12 70 = Ok (mkBit 69 0 true (HB [2 ^ 64 - 1; 63])) /\
  any_resize (mkBit 69 0 true (HB [1; 0])) 72 = Ok (mkBit 71 0 true (HB [1; 192])).
Proof. conc. Qed.

(** C132: single positions, slices, concatenation *)
Theorem C132_get : forall a i, vec a -> bit_get a i = any_position a i.
Proof. exact get_any. Qed.
Print Assumptions C132_get.
Theorem C132_set : forall a i x, vec a -> int_ok i -> bit_set a i x = any_with_position a i x.
Proof. exact set_any. Qed.
Print Assumptions C132_set.
Theorem C132_set_bit : forall a i x, vec a -> int_ok i -> bit_set_bit0 a i x = any_with_position_bit a i x.
Proof. exact set_bit0_any. Qed.
Print Assumptions C132_set_bit.
Theorem C132_slice : forall a i j, vec a -> int_ok i -> int_ok j -> bit_slice_c a i j = any_slice a i j.
Proof. exact slice_c_any. Qed.
Print Assumptions C132_slice.
Theorem C132_slice_runtime : forall a m i j, vec a -> 1 <= m -> int_ok i -> int_ok j -> bit_slice_r a m i j = any_slice_dynamic a m i j.
Proof. exact slice_r_any. Qed.
Print Assumptions C132_slice_runtime.
Theorem C132_concat : forall a b, vec a -> vec b -> bit_concat a b = joined a b.
Proof. exact concat_any. Qed.
Print Assumptions C132_concat.
Example C132_ex : any_position w100 64 = Ok true /\ any_position w100 100 = Ok false /\ any_position w100 (-1) = Ok false /\
  any_with_position w100 70 true = Ok (mkBit 99 0 false (HB [5; 2 ^ 40 + 67])) /\ any_slice w100 70 2 = Ok (mkBit 68 0 false (HB [2 ^ 62 * 3 + 1; 0])) /\
  any_slice w100 66 2 = IllFormed /\ any_slice w100 65 62 = Ok (mkBit 3 0 false (HN 12)) /\ any_slice_dynamic w100 4 65 (-1) = Fuel /\
  joined w12 w100 = IllFormed.
Proof. conc. Qed.

(** C133: whole programs on vectors of any widths: [lib_run] with the library and [any_run] with the reference machine *)
Theorem C133_programs : forall fuel st c, (forall k, vec (st k)) -> wide_stmt_ok c -> lib_run fuel st c = any_run fuel st c.
Proof. exact programs_any. Qed.
Print Assumptions C133_programs.
(** all variables stay objects of their declared type *)
Theorem C133_types : forall fuel st c st', (forall k, vec (st k)) -> wide_stmt_ok c -> lib_run fuel st c = Ok st' -> forall k, vec (st' k).
Proof. exact programs_any_types. Qed.
Print Assumptions C133_types.
(** Fibonacci numbers in 128 bits: while (n != 0) { t = a + b; a = b; b = t; --n; } *)
Definition fibonacci := While (Rel RNe (Var 0) (New 3 0 false 0))
  (Seq (Put 3 (Bin Plus (Var 1) (Var 2))) (Seq (Put 1 (Var 2)) (Seq (Put 2 (Var 3)) (Dec 0)))).
Definition fibonacci_start (k : nat) : bit :=
  match k with O => mkBit 7 0 false (HN 120) | 1%nat => mkBit 127 0 false (HB [0; 0]) | _ => mkBit 127 0 false (HB [1; 0]) end.
Example C133_ex : wide_stmt_ok fibonacci /\ (forall k, vec (fibonacci_start k)) /\
  exists st, any_run 400 fibonacci_start fibonacci = Ok st /\ stored (st 1%nat) = 5358359254990966640871840.
Proof.
  split; [conc|]. split; [intros [|[|k]]; conc|]. eexists. split; [vm_compute; reflexivity|]. reflexivity.
Qed.
