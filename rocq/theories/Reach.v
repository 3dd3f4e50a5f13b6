(** Which objects a program can make: everything obtained from constructors by calls of the public API, in any number and order.
    Only chains calls of the model; used to state properties of every reachable object. *)
From Coq Require Import ZArith List Bool.
From Verif Require Import Cpp BigNum Bit Logic Util More Rest Spec.
Import ListNotations.
Open Scope Z_scope.

(** a declaration [msb:lsb] the compiler accepts: [int] bounds and an [int] number of positions *)
Definition declarable (msb lsb : Z) : Prop := int_ok msb /\ int_ok lsb /\ width msb lsb < 2 ^ 31.

(** operators and members taking one vector and giving one *)
Definition unary2 : list (bit -> outcome bit) :=
  [fun a => Ok (bit_not a); bit_neg; bit_negate; bit_negate_in; bit_inc; bit_dec; fun a => Ok (bit_mask_off a);
   fun a => Ok (bit_to_signed a); fun a => Ok (bit_to_unsigned a); fun a => Ok (bit_clear a);
   fun a => omap fst (bit_post bit_inc a); fun a => omap fst (bit_post bit_dec a)].
(** operators taking two vectors *)
Definition binary2 : list (bit -> bit -> outcome bit) :=
  [bit_and; bit_or; bit_xor; bit_add; bit_sub; bit_mul; bit_div; bit_rem; bit_shl; bit_shr; bit_ashr; bit_concat; bit_assign;
   bit_and_assign; bit_or_assign; bit_xor_assign; bit_shift_assign bit_shr; bit_shift_assign bit_shl].

(** 2-state vectors a program can make *)
Inductive made2 : bit -> Prop :=
| M2_default msb lsb s : declarable msb lsb -> made2 (bit_zero msb lsb s)
| M2_mask msb lsb s : declarable msb lsb -> made2 (bit_mask msb lsb s)
| M2_number msb lsb s v : declarable msb lsb -> made2 (bit_of_arith msb lsb s v)
| M2_text msb lsb s t r : declarable msb lsb -> bit_of_str msb lsb s t = Ok r -> made2 r
| M2_assign_number a v r : made2 a -> bit_assign_arith a v = Ok r -> made2 r
| M2_convert msb lsb s a r : declarable msb lsb -> made2 a -> bit_convert msb lsb s a = Ok r -> made2 r
| M2_set a i x r : made2 a -> bit_set a i x = Ok r -> made2 r
| M2_set_bit a i x r : made2 a -> bit_set_bit0 a i x = Ok r -> made2 r
| M2_slice a i j r : made2 a -> bit_slice_c a i j = Ok r -> made2 r
| M2_slice_at a k i j r : made2 a -> 1 <= k < 2 ^ 31 -> bit_slice_r a k i j = Ok r -> made2 r
| M2_extend a m r : made2 a -> 1 <= m < 2 ^ 31 -> bit_extend a m = Ok r -> made2 r
| M2_update a i j x r : made2 a -> made2 x -> bit_update_c a i j x = Ok r -> made2 r
| M2_update_at a i j x r : made2 a -> made2 x -> bit_update_r a i j x = Ok r -> made2 r
| M2_unary f a r : In f unary2 -> made2 a -> f a = Ok r -> made2 r
| M2_binary f a b r : In f binary2 -> made2 a -> made2 b -> f a b = Ok r -> made2 r.

(** the same for 4-state vectors *)
Definition unary4 : list (logic -> outcome logic) :=
  [logic_not; logic_neg; fun a => Ok (logic_plus a); fun a => Ok (logic_lnot a); logic_inc; logic_dec; logic_resign true; logic_resign false;
   logic_r_and; logic_r_or; logic_r_xor; logic_r_nand; logic_r_nor; logic_r_xnor].
Definition binary4 : list (logic -> logic -> outcome logic) :=
  [logic_and; logic_or; logic_xor; logic_add; logic_sub; logic_mul; logic_div; logic_rem; logic_shl; logic_shr; logic_ashr; logic_concat; logic_assign;
   logic_eq; logic_ne; logic_lt; logic_gt; logic_le; logic_ge;
   logic_compound logic_and; logic_compound logic_or; logic_compound logic_xor; logic_compound logic_shr; logic_compound logic_shl].
Inductive made4 : logic -> Prop :=
| M4_default msb lsb s : declarable msb lsb -> made4 (logic_default msb lsb s)
| M4_number msb lsb s v : declarable msb lsb -> made4 (logic_of_arith msb lsb s v)
| M4_bit msb lsb s b r : declarable msb lsb -> made2 b -> logic_of_bit msb lsb s b = Ok r -> made4 r
| M4_text msb lsb s t r : declarable msb lsb -> logic_of_str msb lsb s t = Ok r -> made4 r
| M4_assign_number a v r : made4 a -> logic_assign_arith a v = Ok r -> made4 r
| M4_convert msb lsb s a r : declarable msb lsb -> made4 a -> logic_convert msb lsb s a = Ok r -> made4 r
| M4_set a i x r : made4 a -> logic_set a i x = Ok r -> made4 r
| M4_set_x a i r : made4 a -> logic_set_x a i = Ok r -> made4 r
| M4_set_z a i r : made4 a -> logic_set_z a i = Ok r -> made4 r
| M4_set_logic a i x r : made4 a -> made4 x -> lw x = 1 -> logic_set_l a i x = Ok r -> made4 r
| M4_get a i r : made4 a -> logic_get a i = Ok r -> made4 r
| M4_slice a i j r : made4 a -> logic_slice_c a i j = Ok r -> made4 r
| M4_slice_at a k i j r : made4 a -> 1 <= k < 2 ^ 31 -> logic_slice_r a k i j = Ok r -> made4 r
| M4_extend a m r : made4 a -> 1 <= m < 2 ^ 31 -> logic_extend a m = Ok r -> made4 r
| M4_concat_bit a b r : made4 a -> made2 b -> logic_concat_bit a b = Ok r -> made4 r
| M4_unpack a ts rs r : made4 a -> Forall made4 ts -> logic_unpack a ts = Ok rs -> In r rs -> made4 r
| M4_update a i j x r : made4 a -> made4 x -> logic_update_c a i j x = Ok r -> made4 r
| M4_update_at a i j x r : made4 a -> made4 x -> logic_update_r a i j x = Ok r -> made4 r
| M4_unary f a r : In f unary4 -> made4 a -> f a = Ok r -> made4 r
| M4_binary f a b r : In f binary4 -> made4 a -> made4 b -> f a b = Ok r -> made4 r.

(** unsigned vectors made with nothing but constructors, bitwise operators, right shifts by less than the width, ranges, widening,
    concatenation, writing a position, division at native widths, and whatever else if followed by [mask_off()] *)
Inductive neat2 : bit -> Prop :=
| N2_default n : 1 <= n < 2 ^ 31 -> neat2 (bit_zero (n - 1) 0 false)
| N2_mask n : 1 <= n < 2 ^ 31 -> neat2 (bit_mask (n - 1) 0 false)
| N2_number n v : 1 <= n < 2 ^ 31 -> 0 <= v < 2 ^ Z.min n 64 -> neat2 (bit_of_arith (n - 1) 0 false v)
| N2_mask_off n b : 1 <= n -> made2 b -> plain b n -> bsgn b = false -> neat2 (bit_mask_off b)
| N2_set a i x r : neat2 a -> 0 <= i < bw a -> bit_set a i x = Ok r -> neat2 r
| N2_slice a i j r : neat2 a -> 0 <= i -> 0 <= j -> bit_slice_c a i j = Ok r -> neat2 r
| N2_extend a m r : neat2 a -> bw a <= m < 2 ^ 31 -> bit_extend a m = Ok r -> neat2 r
| N2_concat a b r : neat2 a -> neat2 b -> bw a + bw b <= 32 \/ 33 <= bw a -> bit_concat a b = Ok r -> neat2 r
| N2_shr a amt r : neat2 a -> neat2 amt -> num amt < bw a -> bit_shr a amt = Ok r -> neat2 r
| N2_bitwise f a b r : In f [bit_and; bit_or; bit_xor] -> neat2 a -> neat2 b -> f a b = Ok r -> neat2 r
| N2_divide f a b r : In f [bit_div; bit_rem] -> neat2 a -> neat2 b -> bw a <= 64 -> bw b <= 64 -> num b <> 0 -> f a b = Ok r -> neat2 r.
