(** Exact behaviour of native (at most 64 positions) 2-state vectors.  SpecMachine.v gives, for every operation, one formula on the stored
    integers; the theorems say that the library computes this formula, for every pair of widths, bounds, signednesses and stored
    numbers, and that it is undefined or does not compile exactly where the formula says so. *)
From Coq Require Import ZArith List Bool Lia.
From Verif Require Import Cpp BigNum Bit Logic Spec SpecExact SpecMachine MachineProg BitMain MachineProofs MachineProofs2 MachineProofs3 MachineProofs4 MachineProofs5.
Import ListNotations.
Open Scope Z_scope.

(** a 12-bit signed vector storing more than 12 bits, a 40-bit unsigned one and a 16-bit one *)
Definition m12 := mkBit 11 0 true (HN (-30000)).
Definition m40 := mkBit 39 0 false (HN 1099511627775).
Definition m16 := mkBit 15 0 false (HN 65535).

(** C121: arithmetic operators *)
Theorem C121_add : forall a b, vec a -> vec b -> bw a <= 64 -> bw b <= 64 -> bit_add a b = computed Z.add false a b.
Proof. exact add_machine. Qed.
Print Assumptions C121_add.
Theorem C121_sub : forall a b, vec a -> vec b -> bw a <= 64 -> bw b <= 64 -> bit_sub a b = computed Z.sub false a b.
Proof. exact sub_machine. Qed.
Print Assumptions C121_sub.
Theorem C121_mul : forall a b, vec a -> vec b -> bw a <= 64 -> bw b <= 64 -> bit_mul a b = computed Z.mul false a b.
Proof. exact mul_machine. Qed.
Print Assumptions C121_mul.
Theorem C121_div : forall a b, vec a -> vec b -> bw a <= 64 -> bw b <= 64 -> bit_div a b = computed Z.quot (stored b =? 0) a b.
Proof. exact div_machine. Qed.
Print Assumptions C121_div.
Theorem C121_rem : forall a b, vec a -> vec b -> bw a <= 64 -> bw b <= 64 -> bit_rem a b = remainder a b.
Proof. exact rem_machine. Qed.
Print Assumptions C121_rem.
Theorem C121_inc : forall a, vec a -> bw a <= 64 -> bit_inc a = stepped 1 a.
Proof. exact inc_machine. Qed.
Print Assumptions C121_inc.
Theorem C121_dec : forall a, vec a -> bw a <= 64 -> bit_dec a = stepped (-1) a.
Proof. exact dec_machine. Qed.
Print Assumptions C121_dec.
Theorem C121_neg : forall a, vec a -> bw a <= 64 -> bit_neg a = negated a.
Proof. exact neg_machine. Qed.
Print Assumptions C121_neg.
Theorem C121_negate : forall a, vec a -> bw a <= 64 -> bit_negate a = two_complement a.
Proof. exact negate_machine. Qed.
Print Assumptions C121_negate.
Example C121_ex : vec m12 /\ vec m40 /\ vec m16 /\ computed Z.add false m12 m40 = Ok (vector 40 false (1099511627775 - 30000)) /\
  computed Z.mul false m16 m16 = UB /\ remainder m40 m12 = Ok (vector 40 false 1099511627775) /\
  computed Z.quot false m40 m12 = Ok (vector 40 false 0) /\ negated m12 = Ok (mkBit 11 0 true (HN 30000)).
Proof. conc. Qed.

(** C122: bitwise operators and their compound assignments *)
Theorem C122_and : forall a b, vec a -> vec b -> bw a <= 64 -> bw b <= 64 -> bit_and a b = bitwise Z.land a b.
Proof. exact and_machine. Qed.
Print Assumptions C122_and.
Theorem C122_or : forall a b, vec a -> vec b -> bw a <= 64 -> bw b <= 64 -> bit_or a b = bitwise Z.lor a b.
Proof. exact or_machine. Qed.
Print Assumptions C122_or.
Theorem C122_xor : forall a b, vec a -> vec b -> bw a <= 64 -> bw b <= 64 -> bit_xor a b = bitwise Z.lxor a b.
Proof. exact xor_machine. Qed.
Print Assumptions C122_xor.
Theorem C122_not : forall a, vec a -> bw a <= 64 -> bit_not a = inverse a.
Proof. exact not_machine. Qed.
Print Assumptions C122_not.
Theorem C122_assign : forall a b, vec a -> vec b -> bw a <= 64 -> bw b <= 64 ->
  bit_and_assign a b = assigned true a b (bitwise Z.land a b) /\ bit_or_assign a b = assigned true a b (bitwise Z.lor a b) /\
  bit_xor_assign a b = assigned true a b (bitwise Z.lxor a b).
Proof. exact bits_assign_machine. Qed.
Print Assumptions C122_assign.
Example C122_ex : bitwise Z.lor m12 m16 = Ok (vector 16 false 65535) /\ bitwise Z.land m12 m12 = Ok m12 /\
  inverse m12 = vector 12 false 29999 /\ assigned true m16 m12 (bitwise Z.land m16 m12) = Ok (mkBit 15 0 false (HN 35536)).
Proof. conc. Qed.

(** C123: shifts and their compound assignments *)
Theorem C123_shl : forall a k, vec a -> vec k -> bw a <= 64 -> bw k <= 64 -> bit_shl a k = shifted_left a k.
Proof. exact shl_machine. Qed.
Print Assumptions C123_shl.
Theorem C123_shr : forall a k, vec a -> vec k -> bw a <= 64 -> bw k <= 64 -> bit_shr a k = shifted_right a k.
Proof. exact shr_machine. Qed.
Print Assumptions C123_shr.
Theorem C123_ashr : forall a k, vec a -> vec k -> bw a <= 64 -> bw k <= 64 -> bit_ashr a k = shifted_arith a k.
Proof. exact ashr_machine. Qed.
Print Assumptions C123_ashr.
Theorem C123_assign : forall a k, vec a -> vec k -> bw a <= 64 -> bw k <= 64 ->
  bit_shift_assign bit_shl a k = assigned false a k (shifted_left a k) /\ bit_shift_assign bit_shr a k = assigned false a k (shifted_right a k).
Proof. exact shifts_assign_machine. Qed.
Print Assumptions C123_assign.
(** one 8-bit vector shifted by 20: defined for <<, undefined for >>; by 259, which is 3 in 8 bits: defined for <<; a single bit by 2^32 - 10 *)
Example C123_ex : let a := mkBit 7 0 false (HN 129) in let k n := mkBit 31 0 false (HN n) in
  vec a /\ vec (k 20) /\ shifted_left a (k 20) = Ok (vector 8 false 0) /\ shifted_right a (k 20) = UB /\
  shifted_left a (k 259) = Ok (vector 8 false 8) /\ shifted_right a (k 3) = Ok (vector 8 false 16) /\
  shifted_arith m12 (k 3) = Ok (vector 12 false (-3750)) /\ shifted_right (mkBit 0 0 false (HN 1)) (k 4294967286) = Ok (vector 1 false 0).
Proof. conc. Qed.

(** C124: comparisons *)
Theorem C124_eq : forall a b, vec a -> vec b -> bw a <= 64 -> bw b <= 64 ->
  bit_eq a b = Ok (equal_native a b) /\ bit_ne a b = Ok (negb (equal_native a b)).
Proof. exact eq_ne_machine. Qed.
Print Assumptions C124_eq.
Theorem C124_order : forall a b, vec a -> vec b -> bw a <= 64 -> bw b <= 64 ->
  bit_lt a b = Ok (ordered Z.ltb a b) /\ bit_le a b = Ok (ordered Z.leb a b) /\
  bit_gt a b = Ok (ordered Z.gtb a b) /\ bit_ge a b = Ok (ordered Z.geb a b).
Proof. exact order_machine. Qed.
Print Assumptions C124_order.
Theorem C124_queries : forall a, vec a -> bw a <= 64 ->
  bit_any_set a = negb (stored a =? 0) /\ bit_r_and a = all_ones a /\ bit_highest_bit a = top_one a /\ bit_to_uint64 a = stored a mod 2 ^ 64.
Proof. exact queries_machine. Qed.
Print Assumptions C124_queries.
(** == is not symmetric between widths: 256 + 1 is 1 in 8 bits *)
Example C124_ex : let a := mkBit 7 0 false (HN 1) in let b := mkBit 15 0 false (HN 257) in
  vec a /\ vec b /\ equal_native a b = true /\ equal_native b a = false /\ ordered Z.ltb m12 m40 = false /\ ordered Z.ltb m12 m12 = false /\ all_ones m16 = true.
Proof. conc. Qed.

(** C125: assignment, change of signedness and width, mask_off *)
Theorem C125_assign : forall d a, vec d -> vec a -> bw d <= 64 -> bw a <= 64 -> bit_assign d a = Ok (written d (stored a)).
Proof. exact assign_machine. Qed.
Print Assumptions C125_assign.
Theorem C125_assign_number : forall d v, vec d -> bw d <= 64 -> bit_assign_arith d v = Ok (written d v).
Proof. exact assign_arith_machine. Qed.
Print Assumptions C125_assign_number.
Theorem C125_sign : forall a, vec a -> bw a <= 64 ->
  bit_to_signed a = vector (bw a) true (stored a) /\ bit_to_unsigned a = vector (bw a) false (stored a).
Proof. exact sign_machine. Qed.
Print Assumptions C125_sign.
Theorem C125_mask_off : forall a, vec a -> bw a <= 64 -> bit_mask_off a = written a (stored a mod 2 ^ bw a).
Proof. exact mask_off_any. Qed.
Print Assumptions C125_mask_off.
Theorem C125_resize : forall a m, vec a -> bw a <= 64 -> 1 <= m <= 64 -> bit_extend a m = resized a m.
Proof. exact extend_machine. Qed.
Print Assumptions C125_resize.
Example C125_ex : written m12 100000 = mkBit 11 0 true (HN (-31072)) /\ resized m12 20 = Ok (vector 20 true (-30000)) /\ resized m12 5 = IllFormed /\
  resized m16 5 = Ok (vector 5 false 31) /\ vector 16 true (stored m16) = mkBit 15 0 true (HN (-1)).
Proof. conc. Qed.

(** C126: single positions, slices, concatenation *)
Theorem C126_get : forall a i, vec a -> bw a <= 64 -> bit_get a i = position a i.
Proof. exact get_machine. Qed.
Print Assumptions C126_get.
Theorem C126_set : forall a i x, vec a -> bw a <= 64 -> int_ok i -> bit_set a i x = with_position a i x.
Proof. exact set_machine. Qed.
Print Assumptions C126_set.
Theorem C126_slice : forall a i j, vec a -> bw a <= 64 -> int_ok i -> int_ok j -> bit_slice_c a i j = slice_fixed a i j.
Proof. exact slice_c_machine. Qed.
Print Assumptions C126_slice.
Theorem C126_slice_runtime : forall a m i j, vec a -> bw a <= 64 -> 1 <= m -> int_ok i -> int_ok j -> bit_slice_r a m i j = slice_dynamic a m i j.
Proof. exact slice_r_machine. Qed.
Print Assumptions C126_slice_runtime.
Theorem C126_concat : forall a b, vec a -> vec b -> bw a <= 64 -> bw b <= 64 -> bit_concat a b = joined a b.
Proof. exact concat_machine. Qed.
Print Assumptions C126_concat.
(** a slice of a signed vector takes one position more; reading outside the range is defined as long as it stays inside the computing type *)
Example C126_ex : let a := mkBit 7 0 true (HN (-1)) in
  vec a /\ slice_fixed a 3 1 = Ok (vector 3 false 15) /\ slice_fixed a 7 0 = UB /\ slice_dynamic a 8 7 0 = Ok (vector 8 false 255) /\
  position a 20 = Ok true /\ position a 32 = UB /\ with_position m12 40 true = Ok m12 /\
  joined (mkBit 3 0 false (HN 9)) (mkBit 3 0 false (HN 200)) = Ok (vector 8 false 216).
Proof. conc. Qed.

(** C127: whole programs.  [lib_run] and [ref_run] (MachineProg.v) run the same program with the library and with the reference machine;
    the outcomes, including the final values of all variables, undefined behaviour, code that does not compile and not having
    finished yet, are the same. *)
Theorem C127_programs : forall fuel st c, (forall k, native (st k)) -> stmt_ok c -> lib_run fuel st c = ref_run fuel st c.
Proof. exact programs_machine. Qed.
Print Assumptions C127_programs.
(** all variables stay objects of their declared type *)
Theorem C127_types : forall fuel st c st', (forall k, native (st k)) -> stmt_ok c -> lib_run fuel st c = Ok st' -> forall k, native (st' k).
Proof. exact programs_types. Qed.
Print Assumptions C127_types.
(** while (x != 0) { y = y * x; --x; } with a 12-bit signed x = 10 and a 24-bit unsigned y = 1 *)
Definition factorial := While (Rel RNe (Var 0) (New 3 0 false 0)) (Seq (Put 1 (Bin Times (Var 1) (Un Unsigned (Var 0)))) (Dec 0)).
Definition factorial_start (k : nat) : bit := match k with O => mkBit 11 0 true (HN 10) | _ => mkBit 23 0 false (HN 1) end.
Example C127_ex : stmt_ok factorial /\ (forall k, native (factorial_start k)) /\
  exists st, ref_run 40 factorial_start factorial = Ok st /\ st 1%nat = mkBit 23 0 false (HN 3628800).
Proof.
  split; [conc|]. split; [intros [|k]; conc|]. eexists. split; [vm_compute; reflexivity|]. reflexivity.
Qed.
