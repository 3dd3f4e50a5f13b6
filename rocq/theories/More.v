(** Model of the thin members on top of Bit.v and Logic.v: slice references, chained concatenation, [bit::unpack],
    packed structs and unions, case equality of [bit], left arithmetic shift, mixed operators.  No proofs in this file. *)
From Coq Require Import ZArith List Bool.
From Verif Require Import Cpp BigNum Bit Logic.
Import ListNotations.
Open Scope Z_scope.

(** assignment through [slice_ref<a, b>()], bit.hh 181-184, 1203-1216 and logic.hh 183-187 *)
Definition bit_slice_ref_c (x : bit) (a b : Z) (v : bit) : outcome bit :=
  requires (Z.max a b <? bsize x) (bit_update_c x a b v).
Definition logic_slice_ref_c (x : logic) (a b : Z) (v : logic) : outcome logic :=
  requires (Z.max a b <? lsize x) (logic_update_c x a b v).

(** assignment through [slice_ref(a, b)], bit.hh 191, 1218-1232 and logic.hh 198 *)
Definition bit_slice_ref_r (x : bit) (a b : Z) (v : bit) : outcome bit := bit_update_r x a b v.
Definition logic_slice_ref_r (x : logic) (a b : Z) (v : logic) : outcome logic := logic_update_r x a b v.

(** assignment through [slice_ref<target_size, increase>(base)], bit.hh 205-215 and logic.hh 212-222 *)
Definition bit_slice_ref_idx (x : bit) (tsize : Z) (increase : bool) (base_num : Z) (v : bit) : outcome bit :=
  let b := i32 base_num in bit_slice_ref_r x b (if increase then b + (tsize - 1) else b - (tsize - 1)) v.
Definition logic_slice_ref_idx (x : logic) (tsize : Z) (increase : bool) (base_num : Z) (v : logic) : outcome logic :=
  let b := i32 base_num in logic_slice_ref_r x b (if increase then b + (tsize - 1) else b - (tsize - 1)) v.

(** [concat(arg0, args...)] and the free [concat], bit.hh 293-296, logic.hh 259-262, 1199-1202: left to right *)
Definition bit_concat_all (a : bit) (args : list bit) : outcome bit := ofold bit_concat args a.
Definition logic_concat_all (a : logic) (args : list logic) : outcome logic := ofold logic_concat args a.

(** [bit::unpack_] into [logic] targets, bit.hh 1066-1072, 1082-1087.  The slice is assigned to the member [value],
    the mask is cleared.  (A [bit] target assigns a [bit] to a native integer or to a [big_num], which does not compile,
    bit.hh 1059-1064.) *)
Fixpoint bit_unpack_ (b : bit) (base : Z) (targets : list logic) : outcome (list logic) :=
  match targets with
  | [] => Ok []
  | t :: rest =>
      requires (base <? bsize b)
        (let upper := Z.min (bsize b - 1) (lsize t + base - 1) in
         let! v := bit_slice_c b base upper in
         let! v' := bit_assign (l_val t) v in
         let! rest' := bit_unpack_ b (base + lsize t) rest in
         Ok (mkLogic v' (bit_clear (l_xz t)) :: rest'))
  end.
(** [bit::unpack(args...)], bit.hh 301-310.  Unlike in logic.hh there is no empty [unpack_<base>()], so a call with
    fewer than two targets does not compile. *)
Definition bit_unpack (b : bit) (targets : list logic) : outcome (list logic) :=
  requires (2 <=? Z.of_nat (length targets))
    (if big_endian (bmsb b) (blsb b) then
       let! r := bit_unpack_ b 0 (rev targets) in Ok (rev r)
     else bit_unpack_ b 0 targets).

(** [bit::match], [bit::nmatch], bit.hh 616-624 *)
Definition bit_match (a b : bit) : outcome bool := bit_eq a b.
Definition bit_nmatch (a b : bit) : outcome bool := omap negb (bit_match a b).

(** [bit::operator!], bit.hh 316 *)
Definition bit_lnot (b : bit) : bool := negb (bit_any_set b).

(** [logic::ashl(logic)], logic.hh 624-635; [bit::ashl] is [operator<<] *)
Definition logic_ashl := logic_shift bit_shl.

(** [packed_struct<size, true>::type], [union_<size, true>::type]: struct.hh 12-15, union.hh 13-16 *)
Definition packed_default4 (size : Z) : logic := logic_default (size - 1) 0 false.
(** [packed_struct<size, false>::type], [union_<size, false>::type]: struct.hh 17-20, union.hh 18-21 *)
Definition packed_default2 (size : Z) : bit := bit_zero (size - 1) 0 false.
(** field accessors are written by the user with [slice<hi, lo>] and [update<hi, lo>], as in tests/test_struct.cc 7-27
    and tests/test_union.cc *)
Definition field_read (v : logic) (hi lo : Z) : outcome logic := logic_slice_c v hi lo.
Definition field_write (v : logic) (hi lo : Z) (k : logic) : outcome logic := logic_update_c v hi lo k.

(** [logic op bit] for [& | ^ >> <<] and [ashl], logic.hh 328-333, 393-398, 447-452, 568-572, 596-600, 637-640: the operand
    is first converted with [logic(op)].  Inside the class template this names the enclosing [logic<msb, lsb, signed_>],
    whose constructor from a [bit] needs the same bounds ([logic_of_bit]); for [& | ^ >> <<] the overload requires a
    different size, so it never compiles. *)
Definition logic_op_bit (op : logic -> logic -> outcome logic) (a : logic) (b : bit) : outcome logic :=
  requires (negb (bsize b =? lsize a)) (let! b' := logic_of_bit (lmsb a) (llsb a) (lsgn a) b in op a b').
Definition logic_ashl_bit (a : logic) (b : bit) : outcome logic :=
  let! b' := logic_of_bit (lmsb a) (llsb a) (lsgn a) b in logic_ashl a b'.
