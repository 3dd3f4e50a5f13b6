(** Model of the members that take the position as a template argument.  No proofs in this file. *)
From Coq Require Import ZArith List Bool.
From Verif Require Import Cpp BigNum Bit Logic.
Import ListNotations.
Open Scope Z_scope.

(** [get<idx>()], bit.hh 49-52 *)
Definition bit_get_const (b : bit) (idx : Z) : outcome bool :=
  requires ((idx <? bsize b) && native_num (bsize b)) (bit_get b idx).

(** [idx_] and [i], bit.hh 85-86, 123-124: constant expressions of type [int], in which an overflow does not compile *)
Definition const_pos (b : bit) (idx : Z) : outcome Z :=
  let j := if big_endian (bmsb b) (blsb b) then idx else blsb b - idx in
  requires (in_ity TI32 j) (let i := j - Z.min (blsb b) (bmsb b) in requires (in_ity TI32 i) (Ok i)).

(** [set<idx>(bool)], [set<idx>(bit<0>)], [set<idx, v>()]: bit.hh 83-98, 116-136.  The multi-word forms call [big_num::set<i>], which is
    declared for [i < size] only (big_num.hh 31-51); a negative [i] is no [uint64_t] constant or a large one. *)
Definition bit_set_const (b : bit) (idx : Z) (x : bool) : outcome bit :=
  let! i := const_pos b idx in
  match bval b with
  | HN v =>
      let! v' := native_set (hty (bsize b) (bsgn b)) v (u64 i) x in
      Ok (mkBit (bmsb b) (blsb b) (bsgn b) (HN v'))
  | HB ws =>
      requires ((0 <=? i) && (i <? bsize b))
        (Ok (mkBit (bmsb b) (blsb b) (bsgn b) (HB (bn_set (bsize b) ws i x))))
  end.

(** [set<idx>(bool)], [set<idx, v>()]: logic.hh 122-132, 1083-1086; [unmask_bit<idx>] takes the index as [uint64_t], so a negative one does
    not compile *)
Definition logic_set_const (l : logic) (idx : Z) (x : bool) : outcome logic :=
  requires (0 <=? idx)
    (let! v := bit_set_const (l_val l) idx x in
     let! m := bit_set_const (l_xz l) idx false in
     Ok (mkLogic v m)).
(** [set_x<idx>()], [set_z<idx>()]: logic.hh 158-162, 169-173 *)
Definition logic_set_x_const (l : logic) (idx : Z) : outcome logic :=
  let! m := bit_set_const (l_xz l) idx true in
  let! v := bit_set_const (l_val l) idx false in
  Ok (mkLogic v m).
Definition logic_set_z_const (l : logic) (idx : Z) : outcome logic :=
  let! m := bit_set_const (l_xz l) idx true in
  let! v := bit_set_const (l_val l) idx true in
  Ok (mkLogic v m).
(** [x_set<idx>()], [z_set<idx>()]: logic.hh 141-144, 148-151 ([&&] short-circuits) *)
Definition logic_x_set_const (l : logic) (idx : Z) : outcome bool :=
  requires ((idx <? lsize l) && native_num (lsize l))
    (let! m := bit_get (l_xz l) idx in
     if m then let! v := bit_get (l_val l) idx in Ok (negb v) else Ok false).
Definition logic_z_set_const (l : logic) (idx : Z) : outcome bool :=
  requires ((idx <? lsize l) && native_num (lsize l))
    (let! m := bit_get (l_xz l) idx in
     if m then bit_get (l_val l) idx else Ok false).
