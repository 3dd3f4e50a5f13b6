(** Model of include/logic/bit.hh: [bit<msb, lsb, signed_, array>].
    The template parameters travel with the value (fields [bmsb], [blsb], [bsgn]); the [array] flag only
    disables members and is dropped.  [bval] is the member [value], whose C++ type is
    [get_holder_type<size, signed_>::type] (util.hh 82-138): a native integer up to 64 bits, a
    [big_num] above.  [int] arithmetic on indices and template arguments is unbounded [Z]
    (simplification).  No proofs in this file. *)
From Coq Require Import ZArith List Bool.
From Verif Require Import Cpp BigNum.
Import ListNotations.
Open Scope Z_scope.

Inductive holder := HN (v : Z) | HB (ws : list Z).

Record bit := mkBit { bmsb : Z; blsb : Z; bsgn : bool; bval : holder }.

(** bit.hh 18-19, util.hh 45-47, 80 *)
Definition vsize (msb lsb : Z) : Z := Z.abs (msb - lsb) + 1.
Definition bsize (b : bit) : Z := vsize (bmsb b) (blsb b).
Definition big_endian (msb lsb : Z) : bool := lsb <=? msb.

(** util.hh 49 *)
Definition native_num (size : Z) : bool := size <=? 64.

(** [get_holder_type] for native sizes, util.hh 85-133 *)
Definition hty (n : Z) (s : bool) : ity :=
  if n <=? 1 then TBool
  else if n <=? 8 then (if s then TI8 else TU8)
  else if n <=? 16 then (if s then TI16 else TU16)
  else if n <=? 32 then (if s then TI32 else TU32)
  else (if s then TI64 else TU64).

(** [sizeof(T) * 8]; a [bool] occupies a byte *)
Definition szbits (t : ity) : Z := match t with TBool => 8 | _ => iwidth t end.
(** [std::numeric_limits<T>::max()] *)
Definition cmax (t : ity) : Z := if isigned t then 2 ^ (iwidth t - 1) - 1 else 2 ^ iwidth t - 1.

(** What the C++ type system guarantees about a stored value (not a semantic invariant: bits above
    [size] inside the holder are unconstrained). *)
Definition words_ok (n : Z) (ws : list Z) : bool :=
  (Z.of_nat (length ws) =? nwords n) && forallb (fun w => (0 <=? w) && (w <? 2 ^ 64)) ws.
Definition bit_ok (b : bit) : bool :=
  match bval b with
  | HN v => (bsize b <=? 64) && in_ity (hty (bsize b) (bsgn b)) v
  | HB ws => (65 <=? bsize b) && words_ok (bsize b) ws
  end.

(** default constructor, bit.hh 1022-1028 *)
Definition bit_zero (msb lsb : Z) (s : bool) : bit :=
  mkBit msb lsb s (if native_num (vsize msb lsb) then HN 0 else HB (bn_zero (vsize msb lsb))).

(** [explicit bit(T v)] for native sizes, bit.hh 1008; the argument is converted to [T] *)
Definition bit_of_native (msb lsb : Z) (s : bool) (v : Z) : bit :=
  mkBit msb lsb s (HN (conv (hty (vsize msb lsb) s) v)).

(** [bit(K v)] for multi-word sizes, bit.hh 1009-1011 with big_num.hh 902-913.  For a signed target and a
    negative argument the upper words are filled with ones and the top word masked.  ([values({v})]
    is a narrowing list-initialisation when [K] is signed; gcc accepts it, clang does not.) *)
Definition bit_of_arith_big (msb lsb : Z) (s : bool) (v : Z) : bit :=
  let n := vsize msb lsb in
  let ws := bn_of_native n v in
  mkBit msb lsb s
    (HB (if s && (v <? 0) then
           bn_mask_off n (hd 0 ws :: repeat u64max (Z.to_nat (nwords n - 1)))
         else ws)).

(** [bit<msb,lsb,s>(v)] for an arithmetic [v] whatever the size *)
Definition bit_of_arith (msb lsb : Z) (s : bool) (v : Z) : bit :=
  if native_num (vsize msb lsb) then bit_of_native msb lsb s v else bit_of_arith_big msb lsb s v.

(** [operator=] and the converting constructor from a signed [bit], bit.hh 1030-1035, 1043-1046:
    [value = b.value].  Native from native is an integral conversion; [big_num] from [big_num] exists
    only for equal sizes; the other two combinations do not compile. *)
Definition holder_assign (n : Z) (s : bool) (src : bit) : outcome holder :=
  if native_num n then
    match bval src with
    | HN v => Ok (HN (conv (hty n s) v))
    | HB _ => IllFormed
    end
  else
    match bval src with
    | HN _ => IllFormed
    | HB ws => if bsize src =? n then Ok (HB ws) else IllFormed
    end.

Definition bit_assign (dst src : bit) : outcome bit :=
  let! h := holder_assign (bsize dst) (bsgn dst) src in
  Ok (mkBit (bmsb dst) (blsb dst) (bsgn dst) h).

(** [operator=(T v)] for arithmetic [v], bit.hh 1037-1041 (a [big_num] cannot be assigned an integer) *)
Definition bit_assign_arith (dst : bit) (v : Z) : outcome bit :=
  match bval dst with
  | HN _ => Ok (mkBit (bmsb dst) (blsb dst) (bsgn dst) (HN (conv (hty (bsize dst) (bsgn dst)) v)))
  | HB _ => IllFormed
  end.

(** implicit conversion to [bit<msb,lsb,s>] in a [return] or initialisation: identical type, or from a signed one by the
    converting constructor bit.hh 1043-1046 *)
Definition bit_convert (msb lsb : Z) (s : bool) (src : bit) : outcome bit :=
  if (bmsb src =? msb) && (blsb src =? lsb) && Bool.eqb (bsgn src) s then Ok src
  else if bsgn src then
    let! h := holder_assign (vsize msb lsb) s src in Ok (mkBit msb lsb s h)
  else IllFormed.

(** [operator[](int)], [get<idx>], [get_]: bit.hh 47-52, 1093-1120.  The position is not shifted by the
    lower bound of the range. *)
Definition bit_get (b : bit) (idx : Z) : outcome bool :=
  let idx := if big_endian (bmsb b) (blsb b) then idx else blsb b - idx in
  match bval b with
  | HN v =>
      let t := hty (bsize b) (bsgn b) in
      let! x := c_shr t v idx in
      Ok (negb (c_and (promote t) TI32 x 1 =? 0))
  | HB ws => Ok (bn_get (bsize b) ws (u64 idx))
  end.

(** writing one position of a native holder: bit.hh 75-79.  [1ull << i] is undefined for [i >= 64];
    the compound assignment is computed in 64 bits and converted back to [T]. *)
Definition native_set (t : ity) (v i : Z) (x : bool) : outcome Z :=
  let! m := c_shl TU64 1 i in
  if x then Ok (conv t (c_or t TU64 v m))
  else Ok (conv t (c_and t TU64 v (c_not TU64 m))).

(** [set(int, bool)]: bit.hh 69-82 (the forms with a constant index are in Const.v) *)
Definition bit_set (b : bit) (idx : Z) (x : bool) : outcome bit :=
  let idx := if big_endian (bmsb b) (blsb b) then idx else blsb b - idx in
  let i := u64 (idx - Z.min (blsb b) (bmsb b)) in
  match bval b with
  | HN v =>
      let! v' := native_set (hty (bsize b) (bsgn b)) v i x in
      Ok (mkBit (bmsb b) (blsb b) (bsgn b) (HN v'))
  | HB ws => Ok (mkBit (bmsb b) (blsb b) (bsgn b) (HB (bn_set (bsize b) ws i x)))
  end.

(** [set(int, bit<0>)]: bit.hh 100-114; the multi-word branch uses the unshifted index *)
Definition bit_set_bit0 (b : bit) (idx : Z) (x : bool) : outcome bit :=
  let idx := if big_endian (bmsb b) (blsb b) then idx else blsb b - idx in
  let i := u64 (idx - Z.min (blsb b) (bmsb b)) in
  match bval b with
  | HN v =>
      let! v' := native_set (hty (bsize b) (bsgn b)) v i x in
      Ok (mkBit (bmsb b) (blsb b) (bsgn b) (HN v'))
  | HB ws => Ok (mkBit (bmsb b) (blsb b) (bsgn b) (HB (bn_set (bsize b) ws (u64 idx) x)))
  end.

(** [negative], bit.hh 139-145; [big_num::negative] needs a signed type *)
Definition bit_negative (b : bit) : outcome bool :=
  match bval b with
  | HN v => Ok (v <? 0)
  | HB ws => requires (bsgn b) (Ok (bn_negative (bsize b) ws))
  end.

(** [slice_<a,b>()], bit.hh 1122-1148; [shmnt] is 2 for signed vectors, 1 otherwise *)
Definition native_slice_c (msb lsb : Z) (s : bool) (v a b : Z) : outcome Z :=
  let n := vsize msb lsb in
  let base := Z.min msb lsb in
  let mx := Z.max a b - base in
  let mn := Z.min a b - base in
  let t := hty n s in
  let tu := hty n false in
  let tsize := Z.abs (a - b) + 1 in
  if (tsize =? 1) && (n =? 1) then Ok (conv (hty tsize false) (b2z (negb (v =? 0))))
  else
    let shmnt := if s then 2 else 1 in
    let! m1 := c_shl tu (cmax tu) mn in
    let! m2 := c_shr tu (cmax tu) (u64 (szbits t - mx - shmnt)) in
    let mask := Z.land (u64 m1) (u64 m2) in
    let! r := c_shr (promote t) (c_and t t v (conv t mask)) mn in
    Ok (conv (hty tsize false) r).

(** [slice<a,b>()], bit.hh 153-179.  A 65-bit slice of a multi-word vector is classified as native
    ([native_num(abs_diff(a,b))]) and does not compile; negative bounds are no [uint64_t] arguments. *)
Definition bit_slice_c (x : bit) (a b : Z) : outcome bit :=
  requires ((Z.max a b <? bsize x) && (blsb x <=? b))
    (let d := Z.abs (a - b) in
     match bval x with
     | HN v =>
         let! r := native_slice_c (bmsb x) (blsb x) (bsgn x) v a b in
         Ok (mkBit d 0 false (HN r))
     | HB ws =>
         requires (0 <=? Z.min a b)
           (let! r := bn_slice_c (bsize x) ws a b in
            if native_num d then
              requires (d + 1 <=? 64) (Ok (mkBit d 0 false (HN (conv (hty (d + 1) false) (word r 0)))))
            else Ok (mkBit d 0 false (HB r)))
     end).

(** [slice_<target_size>(a, b)], bit.hh 1150-1175 *)
Definition native_slice_r (msb lsb : Z) (s : bool) (v tsize a b : Z) : outcome Z :=
  let n := vsize msb lsb in
  let base := Z.min msb lsb in
  let mx := Z.max a b - base in
  let mn := Z.min a b - base in
  let t := hty n s in
  let tu := hty n false in
  let! m1 := c_shl tu (cmax tu) mn in
  let! m2 := c_shr tu (cmax tu) (u64 (szbits t - mx - 1)) in
  let mask := Z.land (u64 m1) (u64 m2) in
  let! r := c_shr (promote t) (c_and t t v (conv t mask)) mn in
  Ok (conv (hty tsize false) r).

(** [slice<target_size>(int, int)], bit.hh 186-189.  A native vector with a multi-word target assigns
    an integer to a [big_num], which does not compile. *)
Definition bit_slice_r (x : bit) (tsize a b : Z) : outcome bit :=
  match bval x with
  | HN v =>
      requires (native_num tsize)
        (let! r := native_slice_r (bmsb x) (blsb x) (bsgn x) v tsize a b in
         Ok (mkBit (tsize - 1) 0 false (HN r)))
  | HB ws =>
      let! r := bn_slice_r (bsize x) ws tsize (u64 a) (u64 b) in
      if native_num tsize then
        Ok (mkBit (tsize - 1) 0 false (HN (conv (hty tsize false) (word r 0))))
      else Ok (mkBit (tsize - 1) 0 false (HB r))
  end.

(** [slice<target_size, increase>(base)], bit.hh 193-203; [base_num] is [base.to_num()] *)
Definition bit_slice_idx (x : bit) (tsize : Z) (increase : bool) (base_num : Z) : outcome bit :=
  let b := i32 base_num in
  bit_slice_r x tsize b (if increase then b + (tsize - 1) else b - (tsize - 1)).

(** [mask_off], bit.hh 326-337, [bit_mask], 1195-1199 *)
Definition native_mask_off (n : Z) (s : bool) (v : Z) : Z :=
  if 1 <? n then
    let t := hty n s in
    let tu := hty n false in
    conv t (c_and t (promote tu) v (Z.shiftr (cmax tu) (szbits t - n)))
  else v.
Definition bit_mask_off (b : bit) : bit :=
  mkBit (bmsb b) (blsb b) (bsgn b)
    match bval b with
    | HN v => HN (native_mask_off (bsize b) (bsgn b) v)
    | HB ws => HB (bn_mask_off (bsize b) ws)
    end.

(** [extend<target_size>()], bit.hh 217-267 *)
Definition bit_extend (x : bit) (m : Z) : outcome bit :=
  let n := bsize x in
  if n <? m then
    match bval x with
    | HN v =>
        if native_num m then Ok (bit_of_native (m - 1) 0 (bsgn x) v)
        else
          let r := word_set (bn_zero m) 0 (u64 v) in
          Ok (mkBit (m - 1) 0 (bsgn x)
                (HB (if bsgn x && (v <? 0) then
                       bn_mask_off m (hd 0 r :: repeat u64max (Z.to_nat (nwords m - 1)))
                     else r)))
    | HB ws =>
        let! r := bn_extend n (bsgn x) ws m in
        Ok (mkBit (m - 1) 0 (bsgn x) (HB r))
    end
  else if m =? n then bit_convert (m - 1) 0 (bsgn x) x
  else
    let! r := bit_slice_c x (m - 1) 0 in
    bit_convert (m - 1) 0 (bsgn x) r.

(** [concat(bit)], bit.hh 272-291; totals of 64 and more use a member that does not exist *)
Definition bit_concat (a b : bit) : outcome bit :=
  let fsize := bsize a + bsize b in
  if fsize <? 64 then
    match bval a, bval b with
    | HN va, HN vb =>
        let ta := hty (bsize a) (bsgn a) in
        let tb := hty (bsize b) (bsgn b) in
        let! sh := c_shl ta va (bsize b) in
        Ok (bit_of_native (fsize - 1) 0 false (c_or (promote ta) tb sh vb))
    | _, _ => IllFormed
    end
  else IllFormed.

(** [any_set], [operator bool], [r_or]: bit.hh 315, 469, 868-873 *)
Definition bit_any_set (b : bit) : bool :=
  match bval b with
  | HN v => negb (v =? 0)
  | HB ws => bn_any_set ws
  end.

(** number of ones, [std::popcount] *)
Fixpoint pos_popcount (p : positive) : Z :=
  match p with
  | xH => 1
  | xO p' => pos_popcount p'
  | xI p' => 1 + pos_popcount p'
  end.
Definition z_popcount (z : Z) : Z := match z with Zpos p => pos_popcount p | _ => 0 end.

(** [popcount], bit.hh 318-324: [std::popcount] exists for unsigned non-bool types only;
    [big_num::popcount] (big_num.hh 146-148) does not compile *)
Definition bit_popcount (b : bit) : outcome Z :=
  match bval b with
  | HN v => requires (negb (bsgn b) && (1 <? bsize b)) (Ok (z_popcount v))
  | HB _ => IllFormed
  end.

(** [mask], bit.hh 875-885 *)
Definition bit_mask_holder (n : Z) (s : bool) : holder :=
  if native_num n then
    if n =? 1 then HN 1
    else HN (conv (hty n s) (Z.shiftr (cmax (hty n s)) (szbits (hty n s) - n)))
  else HB (bn_mask n).
Definition bit_mask (msb lsb : Z) (s : bool) : bit :=
  mkBit msb lsb s (bit_mask_holder (vsize msb lsb) s).

(** [clear], bit.hh 339-345 *)
Definition bit_clear (b : bit) : bit := bit_zero (bmsb b) (blsb b) (bsgn b).

(** [operator~], bit.hh 350-358 *)
Definition bit_not (b : bit) : bit :=
  let n := bsize b in
  mkBit (n - 1) 0 false
    match bval b with
    | HN v =>
        if n =? 1 then HN (b2z (v =? 0))
        else HN (conv (hty n false) (c_not (hty n (bsgn b)) v))
    | HB ws => HB (bn_not n ws)
    end.

(** second operand acceptable to the same-size overloads, e.g. bit.hh 367-368: a [bit<size-1+l, l>] *)
Definition same_size_op (n : Z) (op : bit) : bool := (bsize op =? n) && (blsb op <=? bmsb op).

(** generic same-size binary operator: native via [f], multi-word via [g] *)
Definition bit_bin (f : ity -> ity -> Z -> Z -> outcome Z)
                   (g : Z -> list Z -> list Z -> outcome (list Z)) (a b : bit) : outcome bit :=
  let n := bsize a in
  requires (same_size_op n b)
    (let s := bsgn a && bsgn b in
     match bval a, bval b with
     | HN x, HN y =>
         let! r := f (hty n (bsgn a)) (hty n (bsgn b)) x y in
         Ok (mkBit (n - 1) 0 s (HN (conv (hty n s) r)))
     | HB x, HB y => let! r := g n x y in Ok (mkBit (n - 1) 0 s (HB r))
     | _, _ => IllFormed
     end).

(** same-size [operator&], [operator^], [operator|]: bit.hh 367-372, 400-405, 433-438 *)
Definition bit_and_same (a b : bit) : outcome bit :=
  bit_bin (fun ta tb x y => Ok (c_and ta tb x y)) (fun n x y => Ok (bn_and n x y)) a b.
Definition bit_xor_same (a b : bit) : outcome bit :=
  bit_bin (fun ta tb x y => Ok (c_xor ta tb x y)) (fun _ x y => Ok (bn_xor x y)) a b.
Definition bit_or_same (a b : bit) : outcome bit :=
  bit_bin (fun ta tb x y => Ok (c_or ta tb x y)) (fun _ x y => Ok (bn_or x y)) a b.

(** mixed sizes: extend both to the larger one, then the same-size operator: [and_], [xor_], [or_],
    [add], [minus], [multiply], [mod], [divide] *)
Definition bit_mixed (op : bit -> bit -> outcome bit) (a b : bit) : outcome bit :=
  let m := Z.max (bsize a) (bsize b) in
  let! l := bit_extend a m in
  let! r := bit_extend b m in
  op l r.

(** [operator&], [operator^], [operator|]: bit.hh 360-382, 393-415, 426-448 (mixed sizes are masked) *)
Definition bit_and (a b : bit) : outcome bit :=
  if bsize a =? bsize b then bit_and_same a b else omap bit_mask_off (bit_mixed bit_and_same a b).
Definition bit_xor (a b : bit) : outcome bit :=
  if bsize a =? bsize b then bit_xor_same a b else omap bit_mask_off (bit_mixed bit_xor_same a b).
Definition bit_or (a b : bit) : outcome bit :=
  if bsize a =? bsize b then bit_or_same a b else omap bit_mask_off (bit_mixed bit_or_same a b).

(** the return type [bit<size-1, 0, signed_result>&] must be the type of [*this] *)
Definition compound_ok (a : bit) (op_signed : bool) : bool :=
  (bmsb a =? bsize a - 1) && (blsb a =? 0) && Bool.eqb (bsgn a) (bsgn a && op_signed).

(** [operator&=], [operator^=], [operator|=]: bit.hh 384-391, 417-424, 450-457 *)
Definition bit_compound (op : bit -> bit -> outcome bit) (a b : bit) : outcome bit :=
  requires (compound_ok a (bsgn b))
    (let! r := op a b in
     let! a' := bit_assign a r in
     Ok (bit_mask_off a')).
Definition bit_and_assign := bit_compound bit_and.
Definition bit_xor_assign := bit_compound bit_xor.
Definition bit_or_assign := bit_compound bit_or.

(** [r_and], bit.hh 460-465.  The multi-word version calls [r_xor]. *)
Definition bit_r_and (b : bit) : bool :=
  match bval b with
  | HN v =>
      let t := hty (bsize b) (bsgn b) in
      c_eq t (promote t) v (Z.shiftr (cmax t) (szbits t - bsize b))
  | HB ws => bn_r_xor (bsize b) ws
  end.
(** [r_nand], [r_nor], bit.hh 467, 471 *)
Definition bit_r_nand (b : bit) : bool := negb (bit_r_and b).
Definition bit_r_nor (b : bit) : bool := negb (bit_any_set b).
(** [r_xor], bit.hh 473-481; the native version calls [get(int)], which does not exist *)
Definition bit_r_xor (b : bit) : outcome bool :=
  match bval b with
  | HN _ => IllFormed
  | HB ws => Ok (bn_r_xor (bsize b) ws)
  end.

(** [value_mask(requested_size)], bit.hh 1087-1091 *)
Definition value_mask (t : ity) (req : Z) : outcome Z :=
  let! m := c_shr TU64 u64max (u64 (64 - u64 req)) in Ok (conv t m).

(** [operator>>], bit.hh 485-505; a native value with a multi-word amount does not compile *)
Definition bit_shr (a amt : bit) : outcome bit :=
  let n := bsize a in
  let s := bsgn a && bsgn amt in
  match bval a, bval amt with
  | HN v, HN k =>
      let t := hty n (bsgn a) in
      let! x := c_shr t v (conv t k) in
      let! req := c_sub TI32 (hty (bsize amt) (bsgn amt)) n k in
      let! m := value_mask t req in
      Ok (mkBit (n - 1) 0 s (HN (conv (hty n s) (c_and (promote t) t x m))))
  | HB ws, HN k => Ok (mkBit (n - 1) 0 s (HB (bn_shr n ws (u64 k))))
  | HB ws, HB ks => Ok (mkBit (n - 1) 0 s (HB (bn_shr_big n ws ks)))
  | HN _, HB _ => IllFormed
  end.

(** [operator<<] and [ashl], bit.hh 539-560, 592-596 *)
Definition bit_shl (a amt : bit) : outcome bit :=
  let n := bsize a in
  let s := bsgn a && bsgn amt in
  match bval a, bval amt with
  | HN v, HN k =>
      let t := hty n (bsgn a) in
      let! x := c_shl t v (conv t k) in
      Ok (mkBit (n - 1) 0 s (HN (conv (hty n s) x)))
  | HB ws, HN k => Ok (mkBit (n - 1) 0 s (HB (bn_shl n ws (u64 k))))
  | HB ws, HB ks => Ok (mkBit (n - 1) 0 s (HB (bn_shl_big n ws ks)))
  | HN _, HB _ => IllFormed
  end.

(** [ashr], bit.hh 570-590 *)
Definition bit_ashr (a amt : bit) : outcome bit :=
  let n := bsize a in
  let s := bsgn a && bsgn amt in
  match bval a, bval amt with
  | HN v, HN k =>
      let t := hty n (bsgn a) in
      let! x := c_shr t v (conv t k) in
      Ok (mkBit (n - 1) 0 s (HN (conv (hty n s) x)))
  | HB ws, HN k => Ok (mkBit (n - 1) 0 s (HB (bn_ashr n (bsgn a) ws (u64 k))))
  | HB ws, HB ks => Ok (mkBit (n - 1) 0 s (HB (bn_ashr_big n (bsgn a) ws ks)))
  | HN _, HB _ => IllFormed
  end.

(** [operator>>=], [operator<<=]: bit.hh 531-537, 562-568 (no masking) *)
Definition bit_shift_assign (op : bit -> bit -> outcome bit) (a amt : bit) : outcome bit :=
  requires (compound_ok a (bsgn amt)) (let! r := op a amt in bit_assign a r).

(** [operator==], bit.hh 598-605: the other operand is cast to the own holder type *)
Definition bit_eq (a b : bit) : outcome bool :=
  match bval a, bval b with
  | HN x, HN y =>
      let t := hty (bsize a) (bsgn a) in Ok (c_eq t t x (conv t y))
  | HB x, HB y => bn_eq (bsize a) (bsgn a) x (bsize b) (bsgn b) y
  | HB x, HN y => Ok (bn_eq_native x y)
  | HN x, HB y => Ok (bn_eq_native y x)
  end.
(** [operator!=], bit.hh 607-614; between integers it is [!=], as soon as a [big_num] is involved the
    rewritten [!(a == b)] (for a [big_num] on the right only: [!(b == a)]) *)
Definition bit_ne (a b : bit) : outcome bool :=
  match bval a, bval b with
  | HN x, HN y =>
      let t := hty (bsize a) (bsgn a) in Ok (c_ne t t x (conv t y))
  | HB x, HB y => omap negb (bn_eq (bsize a) (bsgn a) x (bsize b) (bsgn b) y)
  | HB x, HN y => Ok (negb (bn_eq_native x y))
  | HN x, HB y => Ok (negb (bn_eq_native y x))
  end.

(** relational operators, bit.hh 626-695.  [cmp] is the C++ relation on integers, [big] the one on
    [big_num].  Multi-word against native does not compile; native against multi-word has no return
    statement, i.e. flows off the end of the function. *)
Definition bit_rel (cmp : Z -> Z -> bool)
    (big : Z -> bool -> list Z -> Z -> bool -> list Z -> outcome bool) (a b : bit) : outcome bool :=
  match bval a, bval b with
  | HN x, HN y =>
      if bsgn a && bsgn b then
        let t := uac (hty (bsize a) (bsgn a)) (hty (bsize b) (bsgn b)) in
        Ok (cmp (conv t x) (conv t y))
      else Ok (cmp (u64 x) (u64 y))
  | HB x, HB y => big (bsize a) (bsgn a) x (bsize b) (bsgn b) y
  | HB _, HN _ => IllFormed
  | HN _, HB _ => UB
  end.
Definition bit_gt := bit_rel Z.gtb bn_gt.
Definition bit_lt := bit_rel Z.ltb bn_lt.
Definition bit_ge := bit_rel Z.geb bn_ge.
Definition bit_le := bit_rel Z.leb bn_le.

(** unary minus, bit.hh 702-708; no constructor takes the multi-word result *)
Definition bit_neg (a : bit) : outcome bit :=
  match bval a with
  | HN v =>
      let! r := c_neg (hty (bsize a) (bsgn a)) v in
      Ok (bit_of_native (bmsb a) (blsb a) (bsgn a) r)
  | HB _ => IllFormed
  end.

(** [big_num] division and remainder through [div_mod] need the signedness, so they get their own
    dispatch; same-size [operator+ - * / %]: bit.hh 723-728, 747-752, 771-776, 795-800, 819-824 *)
Definition bit_add_same (a b : bit) : outcome bit :=
  bit_bin c_add (fun _ x y => Ok (bn_add x y)) a b.
Definition bit_sub_same (a b : bit) : outcome bit :=
  bit_bin c_sub (fun n x y => Ok (bn_sub n x y)) a b.
Definition bit_mul_same (a b : bit) : outcome bit :=
  bit_bin c_mul bn_mul a b.
Definition bit_div_same (a b : bit) : outcome bit :=
  bit_bin c_div (fun n x y => omap fst (bn_div_mod n (bsgn a) x (bsgn b) y)) a b.
Definition bit_rem_same (a b : bit) : outcome bit :=
  bit_bin c_rem (fun n x y => omap snd (bn_div_mod n (bsgn a) x (bsgn b) y)) a b.

(** [operator+ - * / %]: bit.hh 716-834 *)
Definition bit_arith (same : bit -> bit -> outcome bit) (a b : bit) : outcome bit :=
  if bsize a =? bsize b then same a b else bit_mixed same a b.
Definition bit_add := bit_arith bit_add_same.
Definition bit_sub := bit_arith bit_sub_same.
Definition bit_mul := bit_arith bit_mul_same.
Definition bit_div := bit_arith bit_div_same.
Definition bit_rem := bit_arith bit_rem_same.

(** [one_], bit.hh 1048-1052 *)
Definition bit_one : bit := mkBit 0 0 false (HN 1).

(** [operator++], [operator--]: bit.hh 507-515 *)
Definition bit_inc (a : bit) : outcome bit := let! r := bit_add a bit_one in bit_assign a r.
Definition bit_dec (a : bit) : outcome bit := let! r := bit_sub a bit_one in bit_assign a r.
(** post forms, bit.hh 518-529: (returned old value, new value) *)
Definition bit_post (step : bit -> outcome bit) (a : bit) : outcome (bit * bit) :=
  let! old := bit_convert (bsize a - 1) 0 (bsgn a) a in
  let! new := step a in
  Ok (old, new).

(** [to_signed], [to_unsigned]: bit.hh 836-863 *)
Definition bit_resign (s : bool) (a : bit) : bit :=
  let n := bsize a in
  mkBit (n - 1) 0 s
    match bval a with
    | HN v => HN (conv (hty n s) v)
    | HB ws => HB ws
    end.
Definition bit_to_signed := bit_resign true.
Definition bit_to_unsigned := bit_resign false.

(** [highest_bit], bit.hh 887-898 *)
Definition bit_highest_bit (b : bit) : Z :=
  match bval b with
  | HN v => if v =? 0 then bsize b else 64 - (63 - Z.log2 (u64 v)) - 1
  | HB ws => bn_highest_bit (bsize b) ws
  end.

(** [negate() const], bit.hh 909-918 *)
Definition bit_negate (b : bit) : outcome bit :=
  let n := bsize b in
  match bval b with
  | HN v =>
      let t := hty n (bsgn b) in
      let! r := c_add (promote t) TI32 (c_not t v) 1 in
      Ok (bit_mask_off (mkBit (n - 1) 0 false (HN (conv (hty n false) r))))
  | HB ws => Ok (mkBit (n - 1) 0 false (HB (bn_negate n ws)))
  end.

(** [update<hi, lo>(op)], bit.hh 933-949: the source is read at the destination index *)
Definition bit_update_c (x : bit) (hi lo : Z) (op : bit) : outcome bit :=
  requires ((hi <? bsize x) && (lo <? bsize x))
    (ofold (fun x i =>
        let idx := if xorb (big_endian (bmsb op) (blsb op)) (big_endian (bmsb x) (blsb x))
                   then Z.max (blsb op) (bmsb op) - i else i in
        let! v := bit_get op idx in
        bit_set_bit0 x i v)
      (zrange (Z.min hi lo) (Z.max hi lo + 1)) x).

(** [update(hi, lo, op)] and [update_], bit.hh 951-956, 1177-1193.  [idx] is [uint64_t]; the argument of
    [operator[]] is converted back to [int].  Simplified: the bounds and indices are taken to be below
    2^30, so that neither this conversion nor [max(hi, lo) + 1] leaves [int]. *)
Definition bit_update_r (x : bit) (hi lo : Z) (op : bit) : outcome bit :=
  let start := Z.min hi lo in
  ofold (fun x i =>
      let idx := if xorb (big_endian (bmsb op) (blsb op)) (big_endian (bmsb x) (blsb x))
                 then Z.max (blsb op) (bmsb op) - i else i in
      let! v := bit_get op (idx - start) in
      bit_set_bit0 x i v)
    (zrange start (Z.max hi lo + 1)) x.

(** [to_uint64], bit.hh 961-967 *)
Definition bit_to_uint64 (b : bit) : Z :=
  match bval b with
  | HN v => u64 v
  | HB ws => bn_to_uint64 ws
  end.

(** [to_num], bit.hh 969-995: the result type is the holder type, except that one bit gives an 8-bit
    integer *)
Definition bit_to_num (b : bit) : outcome Z :=
  match bval b with
  | HN v => Ok v
  | HB _ => IllFormed
  end.

(** literals [_bit], [_bit64]: bit.hh 1237-1242 *)
Definition lit_bit (v : Z) : outcome bit :=
  bit_extend (bit_of_native 31 0 true (conv TI32 v)) 32.
Definition lit_bit64 (v : Z) : outcome bit :=
  bit_extend (bit_of_native 63 0 true (conv TI64 v)) 64.
