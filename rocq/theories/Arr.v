(** Model of include/logic/array.hh.  No proofs in this file. *)
From Coq Require Import ZArith List Bool.
From Verif Require Import Cpp BigNum Bit Logic.
Import ListNotations.
Open Scope Z_scope.

(** The compile-time description of a [packed_array<T, msb, lsb>], array.hh 37-50: element width
    ([T::size]), element signedness and the index range. *)
Record parr_ty := mkParrTy { pa_base : Z; pa_sgn : bool; pa_msb : Z; pa_lsb : Z }.
(** [array_size], array.hh 48 (in bits) *)
Definition pa_count (t : parr_ty) : Z := vsize (pa_msb t) (pa_lsb t).
Definition pa_size (t : parr_ty) : Z := pa_base t * pa_count t.

(** the storage of a 4-state packed array is a [logic<array_size-1, 0, is_signed>], array.hh 12-15 *)
Definition pa_ok (t : parr_ty) (a : logic) : bool :=
  logic_ok a && (1 <=? pa_base t) && (lmsb a =? pa_size t - 1) && (llsb a =? 0) &&
  Bool.eqb (lsgn a) (pa_sgn t).

(** bit addresses, array.hh 58-61, 71-74 *)
Definition pa_start (t : parr_ty) (hi lo : Z) : Z := (Z.min hi lo - Z.min (pa_msb t) (pa_lsb t)) * pa_base t.
Definition pa_end (t : parr_ty) (hi lo : Z) : Z := (Z.max hi lo - Z.min (pa_msb t) (pa_lsb t) + 1) * pa_base t.

(** [slice_array<hi, lo>()], array.hh 52-64 (4-state and 2-state storage) *)
Definition pa_slice_array (t : parr_ty) (a : logic) (hi lo : Z) : outcome logic :=
  logic_slice_c a (pa_end t hi lo - 1) (pa_start t hi lo).
(** the 2-state storage goes to [bit::slice_<a,b>], which exists for native arrays only *)
Definition pa_slice_array_bit (t : parr_ty) (a : bit) (hi lo : Z) : outcome bit :=
  requires (native_num (bsize a)) (bit_slice_c a (pa_end t hi lo - 1) (pa_start t hi lo)).

(** [update<hi, lo>(v)], array.hh 68-77; [bit] has no [update_<hi, lo>], so this is 4-state only *)
Definition pa_update_c (t : parr_ty) (a : logic) (hi lo : Z) (v : logic) : outcome logic :=
  logic_update_c a (pa_end t hi lo - 1) (pa_start t hi lo) v.

(** [op.xz_mask.any_set() || op >= size_logic], array.hh 82-83, 102-103.  The comparison of a multi-word
    [op] with the native [size_logic] does not compile (see [bit_ge]). *)
Definition pa_index_bad (t : parr_ty) (op : logic) : outcome bool :=
  requires (native_num (lsize op))
  (if bit_any_set (l_xz op) then Ok true
  else let! g := logic_ge op (logic_of_arith 31 0 false (pa_size t)) in Ok (logic_bool g)).

(** [int index = op.value.value]; a multi-word index does not compile, array.hh 87-92 *)
Definition pa_index (op : logic) : outcome Z :=
  match bval (l_val op) with
  | HN v => Ok (i32 v)
  | HB _ => IllFormed
  end.

(** [idx], [start_addr] and [end_addr], array.hh 93-95, 112-114: computed with [int] *)
Definition pa_addresses (t : parr_ty) (index : Z) : outcome (Z * Z) :=
  let! idx := arith TI32 (index - Z.min (pa_msb t) (pa_lsb t)) in
  let! start := arith TI32 (idx * pa_base t) in
  let! next := arith TI32 (idx + 1) in
  let! stop := arith TI32 (next * pa_base t) in
  Ok (start, stop).

(** [operator[](logic)], array.hh 79-98: the end address is passed inclusively *)
Definition pa_get (t : parr_ty) (a : logic) (op : logic) : outcome logic :=
  let! bad := pa_index_bad t op in
  if bad then Ok (logic_default (pa_base t - 1) 0 false)
  else
    let! index := pa_index op in
    let! addr := pa_addresses t index in
    logic_slice_r a (pa_base t) (fst addr) (snd addr).
Definition pa_get_bit (t : parr_ty) (a : bit) (op : logic) : outcome bit :=
  let! bad := pa_index_bad t op in
  if bad then Ok (bit_zero (pa_base t - 1) 0 false)
  else
    let! index := pa_index op in
    let! addr := pa_addresses t index in
    bit_slice_r a (pa_base t) (fst addr) (snd addr).

(** [update(op, value)], array.hh 100-117: the end address is passed inclusively *)
Definition pa_update (t : parr_ty) (a : logic) (op : logic) (v : logic) : outcome logic :=
  let! bad := pa_index_bad t op in
  if bad then Ok a
  else
    let! index := pa_index op in
    let! addr := pa_addresses t index in
    logic_update_r a (fst addr) (snd addr) v.
Definition pa_update_bit (t : parr_ty) (a : bit) (op : logic) (v : bit) : outcome bit :=
  let! bad := pa_index_bad t op in
  if bad then Ok a
  else
    let! index := pa_index op in
    let! addr := pa_addresses t index in
    bit_update_r a (fst addr) (snd addr) v.

(** [unpacked_array<T, msb, lsb>], array.hh 126-152: [std::array<T, size>] *)
Section Unpacked.
  Context {T : Type}.
  (** [operator[](int)], array.hh 132-140; [dflt] is [T{}].  The subtraction is an [int] one. *)
  Definition ua_get (dflt : T) (msb lsb : Z) (a : list T) (idx : Z) : outcome T :=
    let! d := arith TI32 (idx - Z.min msb lsb) in
    let i := d mod 2 ^ 32 in
    Ok (if vsize msb lsb <=? i then dflt else nth (Z.to_nat i) a dflt).

  (** [update<idx>(v)], array.hh 142-149.  [i] is a constant expression, so an overflow does not compile.
      [idx >= size] compares an [int] with an unsigned 64-bit size; the write [value[i]] is outside the array
      when [i] is not in [0, size).  [assign] is [T::operator=]. *)
  Definition ua_update {V} (assign : T -> V -> outcome T) (dflt : T) (msb lsb : Z) (a : list T) (idx : Z)
      (v : V) : outcome (list T) :=
    let i := idx - Z.min msb lsb in
    requires (in_ity TI32 i)
      (if vsize msb lsb <=? u64 idx then Ok a
       else
         ub_unless ((0 <=? i) && (i <? vsize msb lsb))
           (let! x := assign (nth (Z.to_nat i) a dflt) v in Ok (lupd a (Z.to_nat i) x))).
End Unpacked.
