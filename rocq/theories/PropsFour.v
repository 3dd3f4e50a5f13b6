(** Exact behaviour of 4-state vectors of any width.  SpecFour.v gives, for every operation, one formula on the two numbers a vector stores
    (values and x/z mask) or one table on its symbols; the theorems say that the library computes it for every pair of widths, bounds,
    signednesses and stored numbers, and is undefined, does not compile or does not finish exactly where the formula says so. *)
From Coq Require Import ZArith List Bool Lia.
From Verif Require Import Cpp BigNum Bit Logic Spec SpecExact SpecMachine SpecWide SpecFour MachineProg WideProg FourProg BitMain Reach ReachProofs4 FourProofs FourProofs2 FourProofs3 FourProofs4.
From Verif Require SpecExact4.
Import ListNotations.
Open Scope Z_scope.

(** 4'b10xz, 4'b0110, 4'b0000, a 100-bit vector with an x the library does not see, a signed 12-bit -1 *)
Definition f4 := vec4 4 false 9 3.
Definition f6 := vec4 4 false 6 0.
Definition f0 := vec4 4 false 0 0.
Definition f100 := vec4 100 false 5 (2 ^ 40).
Definition f12 := vec4 12 true (-1) 0.
Example operands_ok : lvec f4 /\ lvec f6 /\ lvec f0 /\ lvec f100 /\ lvec f12.
Proof. conc. Qed.

(** C134: arithmetic operators *)
Theorem C134_add : forall a b, lvec a -> lvec b -> logic_add a b = four_arith false any_sum a b.
Proof. exact add_four. Qed.
Print Assumptions C134_add.
Theorem C134_sub : forall a b, lvec a -> lvec b -> logic_sub a b = four_arith false any_difference a b.
Proof. exact sub_four. Qed.
Print Assumptions C134_sub.
Theorem C134_mul : forall a b, lvec a -> lvec b -> logic_mul a b = four_arith false any_product a b.
Proof. exact mul_four. Qed.
Print Assumptions C134_mul.
Theorem C134_div : forall a b, lvec a -> lvec b -> logic_div a b = four_arith true any_quotient a b.
Proof. exact div_four. Qed.
Print Assumptions C134_div.
Theorem C134_rem : forall a b, lvec a -> lvec b -> logic_rem a b = four_arith true any_remainder a b.
Proof. exact rem_four. Qed.
Print Assumptions C134_rem.
Theorem C134_minus : forall a, lvec a -> logic_neg a = four_minus a.
Proof. exact neg_four. Qed.
Print Assumptions C134_minus.
Theorem C134_plus : forall a, lvec a -> logic_plus a = four_plus a.
Proof. exact plus_four. Qed.
Print Assumptions C134_plus.
Theorem C134_increment : forall a, lvec a -> logic_inc a = four_step 1 a.
Proof. exact inc_four. Qed.
Print Assumptions C134_increment.
Theorem C134_decrement : forall a, lvec a -> logic_dec a = four_step (-1) a.
Proof. exact dec_four. Qed.
Print Assumptions C134_decrement.
(** an x or z in either operand, or division by 0, gives x everywhere; an x in the upper half of a word of a wide vector goes unnoticed *)
Example C134_ex : four_arith false any_sum f4 f6 = Ok (vec4 4 false 0 15) /\ four_arith false any_sum f6 f6 = Ok (vec4 4 false 12 0) /\
  four_arith true any_quotient f6 f0 = Ok (vec4 4 false 0 15) /\ four_arith false any_sum f100 f100 = Ok (vec4 100 false 10 0) /\
  four_arith false any_sum f6 (object4 0 9 false 1 0) = IllFormed /\ four_step 1 f4 = Ok (vec4 4 false 0 15) /\
  four_step 1 (object4 7 2 false 1 0) = IllFormed.
Proof. conc. Qed.

(** C135: bitwise operators *)
Theorem C135_and : forall a b, lvec a -> lvec b -> logic_and a b = four_table SpecExact4.lib_and a b.
Proof. exact and_four. Qed.
Print Assumptions C135_and.
Theorem C135_or : forall a b, lvec a -> lvec b -> logic_or a b = four_table SpecExact4.lib_or a b.
Proof. exact or_four. Qed.
Print Assumptions C135_or.
Theorem C135_xor : forall a b, lvec a -> lvec b -> logic_xor a b = four_xor a b.
Proof. exact xor_four. Qed.
Print Assumptions C135_xor.
Theorem C135_not : forall a, lvec a -> logic_not a = Ok (four_not a).
Proof. exact not_four. Qed.
Print Assumptions C135_not.
(** 10xz & 0110 = 00x0; ~10xz = 01xx *)
Example C135_ex : four_table SpecExact4.lib_and f4 f6 = Ok (vec4 4 false 0 2) /\ four_table SpecExact4.lib_or f4 f6 = Ok (vec4 4 false 14 1) /\
  four_xor f4 f6 = Ok (vec4 4 false 12 3) /\ four_not f4 = vec4 4 false 4 3 /\ four_xor f6 f12 = Ok (vec4 12 false 4095 0) /\
  four_table SpecExact4.lib_and f12 f12 = IllFormed.
Proof. conc. Qed.

(** C136: shifts *)
Theorem C136_left : forall a k, lvec a -> lvec k -> logic_shl a k = four_shift any_left a k.
Proof. exact shl_four. Qed.
Print Assumptions C136_left.
Theorem C136_right : forall a k, lvec a -> lvec k -> logic_shr a k = four_shift any_right a k.
Proof. exact shr_four. Qed.
Print Assumptions C136_right.
Theorem C136_arithmetic : forall a k, lvec a -> lvec k -> logic_ashr a k = four_shift any_arith a k.
Proof. exact ashr_four. Qed.
Print Assumptions C136_arithmetic.
(** an x or z anywhere makes all of the result x, except where the library does not see it *)
Example C136_ex : four_shift any_left f6 f4 = Ok (vec4 4 false 0 15) /\ four_shift any_right f4 f6 = Ok (vec4 4 false 0 15) /\
  four_shift any_right f6 (vec4 4 false 1 0) = Ok (vec4 4 false 3 0) /\ four_shift any_left f100 f6 = Ok (vec4 100 false 320 (2 ^ 46)).
Proof. conc. Qed.

(** C137: comparisons, matching, truth *)
Theorem C137_eq : forall a b, lvec a -> lvec b -> logic_eq a b = four_compare any_equal a b.
Proof. exact eq_four. Qed.
Print Assumptions C137_eq.
Theorem C137_ne : forall a b, lvec a -> lvec b -> logic_ne a b = four_compare (fun x y => omap negb (any_equal x y)) a b.
Proof. exact ne_four. Qed.
Print Assumptions C137_ne.
Theorem C137_lt : forall a b, lvec a -> lvec b -> logic_lt a b = four_compare any_less a b.
Proof. exact lt_four. Qed.
Print Assumptions C137_lt.
Theorem C137_le : forall a b, lvec a -> lvec b -> logic_le a b = four_compare any_less_equal a b.
Proof. exact le_four. Qed.
Print Assumptions C137_le.
Theorem C137_gt : forall a b, lvec a -> lvec b -> logic_gt a b = four_compare any_greater a b.
Proof. exact gt_four. Qed.
Print Assumptions C137_gt.
Theorem C137_ge : forall a b, lvec a -> lvec b -> logic_ge a b = four_compare any_greater_equal a b.
Proof. exact ge_four. Qed.
Print Assumptions C137_ge.
Theorem C137_match : forall a b, lvec a -> lvec b -> logic_match a b = four_match a b.
Proof. exact match_four. Qed.
Print Assumptions C137_match.
Theorem C137_false : forall a, lvec a -> logic_lnot a = four_false a.
Proof. exact lnot_four. Qed.
Print Assumptions C137_false.
Theorem C137_true : forall a, lvec a -> logic_bool a = four_true a.
Proof. exact bool_four. Qed.
Print Assumptions C137_true.
Theorem C137_to_uint64 : forall a, lvec a -> logic_to_uint64 a = four_to_uint64 a.
Proof. exact to_uint64_four. Qed.
Print Assumptions C137_to_uint64.
Example C137_ex : four_compare any_less f4 f6 = Ok (single SX) /\ four_compare any_less f0 f6 = Ok (single S1) /\ four_match f4 f4 = Ok true /\
  four_match f4 f6 = Ok false /\ four_false f4 = single SX /\ four_false f0 = single S1 /\ four_true f4 = false /\ four_true f100 = true /\
  four_to_uint64 f4 = 0 /\ four_to_uint64 f12 = 2 ^ 64 - 1.
Proof. conc. Qed.

(** C138: reductions *)
Theorem C138_and : forall a, lvec a -> logic_r_and a = four_all a.
Proof. exact r_and_four. Qed.
Print Assumptions C138_and.
Theorem C138_or : forall a, lvec a -> logic_r_or a = four_some a.
Proof. exact r_or_four. Qed.
Print Assumptions C138_or.
Theorem C138_xor : forall a, lvec a -> logic_r_xor a = four_parity a.
Proof. exact r_xor_four. Qed.
Print Assumptions C138_xor.
Theorem C138_nand : forall a, lvec a -> logic_r_nand a = inverted (four_all a).
Proof. exact r_nand_four. Qed.
Print Assumptions C138_nand.
Theorem C138_nor : forall a, lvec a -> logic_r_nor a = inverted (four_some a).
Proof. exact r_nor_four. Qed.
Print Assumptions C138_nor.
Theorem C138_xnor : forall a, lvec a -> logic_r_xnor a = inverted (four_parity a).
Proof. exact r_xnor_four. Qed.
Print Assumptions C138_xnor.
(** the first decisive symbol from index 0 on wins: & of x0 is 0, & of 0x is x *)
Example C138_ex : four_all (vec4 2 false 0 2) = Ok (single S0) /\ four_all (vec4 2 false 0 1) = Ok (single SX) /\ four_some f4 = Ok (single SX) /\
  four_some f6 = Ok (single S1) /\ four_parity f6 = Ok (single S0) /\ four_parity f12 = IllFormed /\ inverted (four_all f6) = Ok (single S1).
Proof. conc. Qed.

(** C139: positions, slices, widths, signedness, concatenation, construction, assignment *)
Theorem C139_get : forall a i, lvec a -> int_ok i -> logic_get a i = four_at a i.
Proof. exact get_four. Qed.
Print Assumptions C139_get.
Theorem C139_set : forall a i x, lvec a -> int_ok i -> logic_set a i x = four_put_at a i (sym_of_bool x).
Proof. exact set_four. Qed.
Print Assumptions C139_set.
Theorem C139_set_x : forall a i, lvec a -> int_ok i -> logic_set_x a i = four_put_at a i SX.
Proof. exact set_x_four. Qed.
Print Assumptions C139_set_x.
Theorem C139_set_z : forall a i, lvec a -> int_ok i -> logic_set_z a i = four_put_at a i SZ.
Proof. exact set_z_four. Qed.
Print Assumptions C139_set_z.
Theorem C139_set_logic : forall a i x, lvec a -> int_ok i -> lvec x -> lw x = 1 -> logic_set_l a i x = four_put_at a i (symbol x).
Proof. exact set_l_four. Qed.
Print Assumptions C139_set_logic.
Theorem C139_slice : forall a i j, lvec a -> int_ok i -> int_ok j -> logic_slice_c a i j = four_slice a i j.
Proof. exact slice_four. Qed.
Print Assumptions C139_slice.
Theorem C139_slice_runtime : forall a m i j, lvec a -> 1 <= m -> int_ok i -> int_ok j -> logic_slice_r a m i j = four_slice_dynamic a m i j.
Proof. exact slice_dynamic_four. Qed.
Print Assumptions C139_slice_runtime.
Theorem C139_widen : forall a m, lvec a -> 1 <= m < 2 ^ 31 -> logic_extend a m = four_widen a m.
Proof. exact widen_four. Qed.
Print Assumptions C139_widen.
Theorem C139_sign : forall s a, lvec a -> logic_resign s a = Ok (four_sign s a).
Proof. exact sign_four. Qed.
Print Assumptions C139_sign.
Theorem C139_concat : forall a b, lvec a -> lvec b -> logic_concat a b = four_join a b.
Proof. exact join_four. Qed.
Print Assumptions C139_concat.
Theorem C139_concat_bit : forall a b, lvec a -> vec b -> logic_concat_bit a b = four_join_bit a b.
Proof. exact join_bit_four. Qed.
Print Assumptions C139_concat_bit.
Theorem C139_of_bit : forall msb lsb s b, declarable msb lsb -> vec b -> logic_of_bit msb lsb s b = four_of_bit msb lsb s b.
Proof. exact of_bit_four. Qed.
Print Assumptions C139_of_bit.
Theorem C139_assign : forall d a, lvec d -> lvec a -> logic_assign d a = four_assign d a.
Proof. exact assign_four. Qed.
Print Assumptions C139_assign.
Theorem C139_compound : forall o a b, lvec a -> lvec b -> lib4_put o a b = four_put o a b.
Proof. exact put_four_op. Qed.
Print Assumptions C139_compound.
(** reading an x at position 70 is undefined; joining a 2-state vector leaves the x mask in place *)
Example C139_ex : four_at f4 0 = Ok (single SZ) /\ four_at f4 1 = Ok (single SX) /\ four_at f4 9 = Ok (single SX) /\ four_at (vec4 100 false 0 (2 ^ 70)) 70 = UB /\
  four_put_at f6 0 SZ = Ok (vec4 4 false 7 1) /\ four_slice f4 2 1 = Ok (vec4 2 false 0 1) /\ four_slice_dynamic f4 2 2 1 = Ok (vec4 2 false 0 1) /\
  four_widen f4 6 = Ok (vec4 6 false 9 3) /\ four_sign true f4 = vec4 4 true 9 3 /\ four_join f4 f6 = Ok (vec4 8 false 150 48) /\
  four_join_bit f4 (l_val f6) = Ok (vec4 8 false 150 3) /\ four_assign f6 f4 = Ok f4 /\ four_put BAnd f6 f4 = Ok (vec4 4 false 0 2) /\ four_put BPlus f6 f4 = IllFormed.
Proof. conc. Qed.

(** C140: whole programs on 2-state and 4-state variables of any widths: [lib4_run] with the library and [four_run] with the reference machine *)
Theorem C140_programs : forall fuel st c, state4_ok st -> stmt4_ok c -> lib4_run fuel st c = four_run fuel st c.
Proof. exact programs_four. Qed.
Print Assumptions C140_programs.
(** all variables stay objects of their declared type *)
Theorem C140_types : forall fuel st c st', state4_ok st -> stmt4_ok c -> lib4_run fuel st c = Ok st' -> state4_ok st'.
Proof. exact programs_four_types. Qed.
Print Assumptions C140_types.
(** a 20-bit shift register fed by the xor of its positions 19 and 16: for (n = 50; n != 0; --n) r = {r[18:0], r[19] ^ r[16]}, starting at 1 *)
Definition feedback := Two (Put 0 (New 7 0 false 50)).
Definition register := Seq4 feedback (While4 (Test2 (Rel RNe (Var 0) (New 7 0 false 0)))
  (Seq4 (Put4 0 (Bin4 BJoin (Un4 (USlice 18 0) (Var4 0)) (Bin4 BXor (Un4 (UAt 19) (Var4 0)) (Un4 (UAt 16) (Var4 0))))) (Two (Dec 0)))).
Definition register_start (x : Z) := mkState4 (fun _ => mkBit 7 0 false (HN 0)) (fun _ => vec4 20 false 1 x).
Example C140_ex : stmt4_ok register /\ state4_ok (register_start 0) /\ state4_ok (register_start 8) /\
  (exists st, four_run 200 (register_start 0) register = Ok st /\ four st 0%nat = vec4 20 false 66560 0) /\
  (* an x at the start spreads *)
  exists st, four_run 200 (register_start 8) register = Ok st /\ stored (l_xz (four st 0%nat)) <> 0.
Proof.
  split; [conc|]. split; [split; intros; conc|]. split; [split; intros; conc|]. split; eexists.
  - split; [vm_compute; reflexivity|]. vm_compute. reflexivity.
  - split; [vm_compute; reflexivity|]. vm_compute. discriminate.
Qed.
