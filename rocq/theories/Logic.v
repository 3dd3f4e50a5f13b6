(** Model of include/logic/logic.hh: [logic<msb, lsb, signed_, array>].
    [l_val] is the member [value] (a [bit<msb,lsb,signed_>]), [l_xz] the member [xz_mask]
    (a [bit<msb,lsb>]).  No proofs in this file. *)
From Coq Require Import ZArith List Bool.
From Verif Require Import Cpp BigNum Bit.
Import ListNotations.
Open Scope Z_scope.

Record logic := mkLogic { l_val : bit; l_xz : bit }.

Definition lmsb (l : logic) : Z := bmsb (l_val l).
Definition llsb (l : logic) : Z := blsb (l_val l).
Definition lsgn (l : logic) : bool := bsgn (l_val l).
Definition lsize (l : logic) : Z := bsize (l_val l).

(** typing guarantee: both members are well typed and have the declared types, logic.hh 15-19 *)
Definition logic_ok (l : logic) : bool :=
  bit_ok (l_val l) && bit_ok (l_xz l) &&
  (bmsb (l_xz l) =? lmsb l) && (blsb (l_xz l) =? llsb l) && negb (bsgn (l_xz l)).

(** default constructor, logic.hh 1007: all x *)
Definition logic_default (msb lsb : Z) (s : bool) : logic :=
  mkLogic (bit_zero msb lsb s) (bit_mask msb lsb false).

(** constants, logic.hh 1059-1078 *)
Definition bit0 (b : bool) : bit := mkBit 0 0 false (HN (b2z b)).
Definition logic_x : logic := mkLogic (bit0 false) (bit0 true).
Definition logic_one : logic := mkLogic (bit0 true) (bit0 false).
Definition logic_zero : logic := mkLogic (bit0 false) (bit0 false).
Definition logic_of_bool (b : bool) : logic := if b then logic_one else logic_zero.

(** [logic(T value)] for arithmetic [T], logic.hh 1009-1011 *)
Definition logic_of_arith (msb lsb : Z) (s : bool) (v : Z) : logic :=
  mkLogic (bit_of_arith msb lsb s v) (bit_zero msb lsb false).

(** conversion from [bit], logic.hh 1025-1028: same bounds; an unsigned [bit] cannot initialise a signed
    value *)
Definition logic_of_bit (msb lsb : Z) (s : bool) (b : bit) : outcome logic :=
  requires ((bmsb b =? msb) && (blsb b =? lsb))
    (let! v := bit_convert msb lsb s b in Ok (mkLogic v (bit_zero msb lsb false))).

(** [operator=(logic)], logic.hh 1038-1043; also the implicit conversion from a signed [logic],
    1052-1056 *)
Definition logic_assign (dst src : logic) : outcome logic :=
  let! v := bit_assign (l_val dst) (l_val src) in
  let! m := bit_assign (l_xz dst) (l_xz src) in
  Ok (mkLogic v m).

(** [operator=(T v)], logic.hh 1045-1050 *)
Definition logic_assign_arith (dst : logic) (v : Z) : outcome logic :=
  let! x := bit_assign_arith (l_val dst) v in
  let! m := bit_assign_arith (l_xz dst) 0 in
  Ok (mkLogic x m).

(** implicit conversion to [logic<msb,lsb,s>] in a [return] or initialisation: identical type, or from a signed one by the
    converting constructor logic.hh 1052-1056 *)
Definition logic_convert (msb lsb : Z) (s : bool) (src : logic) : outcome logic :=
  if (lmsb src =? msb) && (llsb src =? lsb) && Bool.eqb (lsgn src) s then Ok src
  else if lsgn src then logic_assign (logic_default msb lsb s) src
  else IllFormed.

(** [x_set(int)], [z_set(int)]: logic.hh 139, 146 ([&&] short-circuits) *)
Definition logic_x_set (l : logic) (idx : Z) : outcome bool :=
  let! m := bit_get (l_xz l) idx in
  if m then let! v := bit_get (l_val l) idx in Ok (negb v) else Ok false.
Definition logic_z_set (l : logic) (idx : Z) : outcome bool :=
  let! m := bit_get (l_xz l) idx in
  if m then bit_get (l_val l) idx else Ok false.

(** [set_x(int)], [set_z(int)]: logic.hh 153-156, 164-167 *)
Definition logic_set_x (l : logic) (idx : Z) : outcome logic :=
  let! m := bit_set (l_xz l) idx true in
  let! v := bit_set (l_val l) idx false in
  Ok (mkLogic v m).
Definition logic_set_z (l : logic) (idx : Z) : outcome logic :=
  let! m := bit_set (l_xz l) idx true in
  let! v := bit_set (l_val l) idx true in
  Ok (mkLogic v m).

(** [set(int, bool)], logic.hh 116-120, 1081 (the forms with a constant index are in Const.v) *)
Definition logic_set (l : logic) (idx : Z) (x : bool) : outcome logic :=
  let! v := bit_set (l_val l) idx x in
  let! m := bit_set (l_xz l) idx false in
  Ok (mkLogic v m).

(** the stored bool of a [bit<0>] *)
Definition bit0_bool (b : bit) : bool := match bval b with HN v => negb (v =? 0) | HB _ => false end.

(** [set(int, logic<0>)] and [set_], logic.hh 134-137, 1111-1115 *)
Definition logic_set_l (l : logic) (idx : Z) (x : logic) : outcome logic :=
  let! v := bit_set (l_val l) idx (bit0_bool (l_val x)) in
  let! m := bit_set (l_xz l) idx (bit0_bool (l_xz x)) in
  Ok (mkLogic v m).

(** [operator[](int)], logic.hh 54-70.  The one-bit result is written at position [idx] of a
    [logic<0>]. *)
Definition logic_get (l : logic) (idx : Z) : outcome logic :=
  if (idx <=? Z.max (lmsb l) (llsb l)) && (Z.min (lmsb l) (llsb l) <=? idx) then
    let r := logic_default 0 0 false in
    let! x := logic_x_set l idx in
    if x then logic_set_x r idx
    else
      let! z := logic_z_set l idx in
      if z then logic_set_z r idx
      else
        let! v := bit_get (l_val l) idx in
        Ok (mkLogic (bit0 v) (bit0 false))
  else Ok (logic_default 0 0 false).

(** [get<idx>()], logic.hh 72-83; [bit::get<idx>] exists for native vectors only *)
Definition logic_get_c (l : logic) (idx : Z) : outcome logic :=
  requires ((idx <? lsize l) && native_num (lsize l))
    (let r := logic_zero in
     let! x := logic_x_set l idx in
     if x then logic_set_x r idx
     else
       let! z := logic_z_set l idx in
       if z then logic_set_z r idx
       else let! v := bit_get (l_val l) idx in Ok (mkLogic (bit0 v) (l_xz r))).

(** [slice<a,b>()], logic.hh 178-182, 1118-1131 *)
Definition logic_slice_c (l : logic) (a b : Z) : outcome logic :=
  requires (Z.max a b <? lsize l)
    (let! v := bit_slice_c (l_val l) a b in
     let! m := bit_slice_c (l_xz l) a b in
     Ok (mkLogic v m)).

(** [slice<target_size>(a, b)], logic.hh 190-196 *)
Definition logic_slice_r (l : logic) (tsize a b : Z) : outcome logic :=
  let! v := bit_slice_r (l_val l) tsize a b in
  let! m := bit_slice_r (l_xz l) tsize a b in
  Ok (mkLogic v m).

(** [slice<target_size, increase>(base)], logic.hh 200-210 *)
Definition logic_slice_idx (l : logic) (tsize : Z) (increase : bool) (base_num : Z) : outcome logic :=
  let b := i32 base_num in
  logic_slice_r l tsize b (if increase then b + (tsize - 1) else b - (tsize - 1)).

(** [extend<target_size>()], logic.hh 227-234 *)
Definition logic_extend (l : logic) (m : Z) : outcome logic :=
  requires (lsize l <=? m)
    (let! v := bit_extend (l_val l) m in
     let! x := bit_extend (l_xz l) m in
     Ok (mkLogic v x)).

(** [concat(logic)], logic.hh 239-247: the result keeps the signedness of the left operand *)
Definition logic_concat (a b : logic) : outcome logic :=
  let fsize := lsize a + lsize b in
  let res := logic_default (fsize - 1) 0 (lsgn a) in
  let! v := bit_concat (l_val a) (l_val b) in
  let! m := bit_concat (l_xz a) (l_xz b) in
  let! v' := bit_assign (l_val res) v in
  let! m' := bit_assign (l_xz res) m in
  Ok (mkLogic v' m').

(** [concat(bit)], logic.hh 249-257: the mask is extended, not shifted *)
Definition logic_concat_bit (a : logic) (b : bit) : outcome logic :=
  let fsize := lsize a + bsize b in
  let res := logic_default (fsize - 1) 0 (lsgn a) in
  let! v := bit_concat (l_val a) b in
  let! m := bit_extend (l_xz a) fsize in
  let! v' := bit_assign (l_val res) v in
  let! m' := bit_assign (l_xz res) m in
  Ok (mkLogic v' m').

(** [unpack_], logic.hh 1091-1109: targets are filled from [base] upwards.  A target is given by its
    current value (only its type matters). *)
Fixpoint logic_unpack_ (l : logic) (base : Z) (targets : list logic) : outcome (list logic) :=
  match targets with
  | [] => Ok []
  | t :: rest =>
      requires (base <? lsize l)
        (let upper := Z.min (lsize l - 1) (lsize t + base - 1) in
         let! v := bit_slice_c (l_val l) base upper in
         let! m := bit_slice_c (l_xz l) base upper in
         let! v' := bit_assign (l_val t) v in
         let! m' := bit_assign (l_xz t) m in
         let! rest' := logic_unpack_ l (base + lsize t) rest in
         Ok (mkLogic v' m' :: rest'))
  end.
(** [unpack(args...)], logic.hh 267-276: for a descending range the targets are reversed, so that the
    last one receives the least significant bits *)
Definition logic_unpack (l : logic) (targets : list logic) : outcome (list logic) :=
  if big_endian (lmsb l) (llsb l) then
    let! r := logic_unpack_ l (llsb l) (rev targets) in Ok (rev r)
  else logic_unpack_ l (llsb l) targets.

(** [operator bool], [operator!]: logic.hh 281-288 *)
Definition logic_bool (l : logic) : bool := negb (bit_any_set (l_xz l)) && bit_any_set (l_val l).
Definition logic_lnot (l : logic) : logic :=
  if bit_any_set (l_xz l) then logic_x
  else if bit_any_set (l_val l) then logic_zero else logic_one.

(** operand accepted by the same-size overloads *)
Definition l_same_size_op (n : Z) (op : logic) : bool := same_size_op n (l_val op).

(** the "1 against x/z" mask shared by [&] and [|], logic.hh 321-322, 387-388 *)
Definition logic_mask (a b : logic) : outcome bit :=
  let! x := bit_xor (l_xz a) (l_xz b) in
  let! x1 := bit_and x (bit_not (l_xz a)) in
  let! x2 := bit_and x1 (l_val a) in
  let! y := bit_xor (l_xz b) (l_xz a) in
  let! y1 := bit_and y (bit_not (l_xz b)) in
  let! y2 := bit_and y1 (bit_not (l_val a)) in
  bit_or x2 y2.

(** [operator&] same size, logic.hh 301-327 *)
Definition logic_and_same (a b : logic) : outcome logic :=
  requires (l_same_size_op (lsize a) b)
    (let! v := bit_and (l_val a) (l_val b) in
     let! m := bit_and (l_xz a) (l_xz b) in
     let! mask := logic_mask a b in
     let! v' := bit_and_assign v (bit_not mask) in
     let! m' := bit_or_assign m mask in
     Ok (mkLogic v' m')).

(** [operator|] same size, logic.hh 360-392 *)
Definition logic_or_same (a b : logic) : outcome logic :=
  requires (l_same_size_op (lsize a) b)
    (let! v := bit_or (l_val a) (l_val b) in
     let! m := bit_or (l_xz a) (l_xz b) in
     let! v1 := bit_and_assign v (bit_not m) in
     let! mask := logic_mask a b in
     let! v2 := bit_or_assign v1 mask in
     let! m2 := bit_and_assign m (bit_not mask) in
     Ok (mkLogic v2 m2)).

(** [operator^] same size, logic.hh 425-446 *)
Definition logic_xor_same (a b : logic) : outcome logic :=
  requires (l_same_size_op (lsize a) b)
    (let! v := bit_xor (l_val a) (l_val b) in
     let! m := bit_or (l_xz a) (l_xz b) in
     let! v1 := bit_and_assign v (bit_not m) in
     Ok (mkLogic v1 m)).

(** extend both operands to the larger size, then apply [op] *)
Definition logic_mixed (op : logic -> logic -> outcome logic) (a b : logic) : outcome logic :=
  let m := Z.max (lsize a) (lsize b) in
  let! l := logic_extend a m in
  let! r := logic_extend b m in
  op l r.

(** [operator&], [operator|], [operator^]: logic.hh 294-299, 335-342, 353-358, 400-407, 418-423, 454-461.
    Mixed-size [^] ([xor_]) computes [l | r]. *)
Definition logic_and (a b : logic) : outcome logic :=
  if lsize a =? lsize b then logic_and_same a b else logic_mixed logic_and_same a b.
Definition logic_or (a b : logic) : outcome logic :=
  if lsize a =? lsize b then logic_or_same a b else logic_mixed logic_or_same a b.
Definition logic_xor (a b : logic) : outcome logic :=
  if lsize a =? lsize b then logic_xor_same a b else logic_mixed logic_or_same a b.

(** [operator~], logic.hh 472-482 *)
Definition logic_not (a : logic) : outcome logic :=
  let n := lsize a in
  let res := logic_default (n - 1) 0 false in
  let! v := bit_assign (l_val res) (bit_not (l_val a)) in
  let! m := bit_assign (l_xz res) (l_xz a) in
  let! v' := bit_and_assign v (bit_not m) in
  Ok (mkLogic v' m).

(** compound assignment operators, logic.hh 344-351, 409-416, 463-470, 574-581, 602-609 *)
Definition logic_compound (op : logic -> logic -> outcome logic) (a b : logic) : outcome logic :=
  requires (compound_ok (l_val a) (lsgn b)) (let! r := op a b in logic_assign a r).

(** reductions, logic.hh 485-529: scan from index 0 upwards *)
Fixpoint logic_r_and_scan (l : logic) (is : list Z) : outcome logic :=
  match is with
  | [] => Ok logic_one
  | i :: rest =>
      let! b := bit_get (l_val l) i in
      let! m := bit_get (l_xz l) i in
      if negb b && negb m then Ok logic_zero
      else if m then Ok logic_x
      else logic_r_and_scan l rest
  end.
Definition logic_r_and (l : logic) : outcome logic := logic_r_and_scan l (zrange 0 (lsize l)).
Fixpoint logic_r_or_scan (l : logic) (is : list Z) : outcome logic :=
  match is with
  | [] => Ok logic_zero
  | i :: rest =>
      let! b := bit_get (l_val l) i in
      let! m := bit_get (l_xz l) i in
      if b && negb m then Ok logic_one
      else if m then Ok logic_x
      else logic_r_or_scan l rest
  end.
Definition logic_r_or (l : logic) : outcome logic := logic_r_or_scan l (zrange 0 (lsize l)).
Definition logic_r_nand (l : logic) : outcome logic := omap logic_lnot (logic_r_and l).
Definition logic_r_nor (l : logic) : outcome logic := omap logic_lnot (logic_r_or l).
(** [r_xor], logic.hh 515-527; [popcount] restricts it to unsigned native vectors of 2..64 bits *)
Definition logic_r_xor (l : logic) : outcome logic :=
  let! ones := bit_popcount (l_val l) in
  if bit_any_set (l_xz l) then Ok logic_x
  else
    let zeros := u64 (lsize l - ones) in
    Ok (if negb (zeros mod 2 =? 0) then logic_one else logic_zero).
Definition logic_r_xnor (l : logic) : outcome logic := omap logic_lnot (logic_r_xor l).

(** shifts, logic.hh 555-566, 583-594, 611-635 *)
Definition logic_shift (op : bit -> bit -> outcome bit) (a amt : logic) : outcome logic :=
  let n := lsize a in
  let s := lsgn a && lsgn amt in
  if bit_any_set (l_xz amt) || bit_any_set (l_xz a) then
    (* the other branch is still compiled *)
    match op (l_val a) (l_val amt) with
    | IllFormed => IllFormed
    | _ => Ok (logic_default (n - 1) 0 s)
    end
  else
    let! v := op (l_val a) (l_val amt) in
    let! m := op (l_xz a) (l_val amt) in
    Ok (mkLogic v m).
Definition logic_shr := logic_shift bit_shr.
Definition logic_shl := logic_shift bit_shl.
Definition logic_ashr := logic_shift bit_ashr.

(** comparisons, logic.hh 645-649, 656-660, 687-724 *)
Definition logic_cmp (op : bit -> bit -> outcome bool) (a b : logic) : outcome logic :=
  if bit_any_set (l_xz a) || bit_any_set (l_xz b) then
    match op (l_val a) (l_val b) with
    | IllFormed => IllFormed
    | _ => Ok logic_x
    end
  else let! r := op (l_val a) (l_val b) in Ok (logic_of_bool r).
Definition logic_eq := logic_cmp bit_eq.
Definition logic_ne := logic_cmp bit_ne.
Definition logic_gt := logic_cmp bit_gt.
Definition logic_lt := logic_cmp bit_lt.
Definition logic_ge := logic_cmp bit_ge.
Definition logic_le := logic_cmp bit_le.

(** comparison with a [bit] operand converts it to the own type first, logic.hh 651-654, 693-696 ... *)
Definition logic_cmp_bit (op : logic -> logic -> outcome logic) (a : logic) (b : bit) : outcome logic :=
  let! b' := logic_of_bit (lmsb a) (llsb a) (lsgn a) b in op a b'.

(** [match], [nmatch]: logic.hh 667-670, 677-680 *)
Definition logic_match (a b : logic) : outcome bool :=
  let! v := bit_eq (l_val a) (l_val b) in
  if v then bit_eq (l_xz a) (l_xz b)
  else match bit_eq (l_xz a) (l_xz b) with IllFormed => IllFormed | _ => Ok false end.
Definition logic_nmatch (a b : logic) : outcome bool := omap negb (logic_match a b).

(** unary minus and plus, logic.hh 731-742 *)
Definition logic_neg (a : logic) : outcome logic :=
  if bit_any_set (l_xz a) then
    match bit_neg (l_val a) with
    | IllFormed => IllFormed
    | _ => Ok (logic_default (lmsb a) (llsb a) (lsgn a))
    end
  else
    let res := logic_of_arith (lmsb a) (llsb a) (lsgn a) 0 in
    let! v := bit_neg (l_val a) in
    let! v' := bit_assign (l_val res) v in
    Ok (mkLogic v' (l_xz res)).
Definition logic_plus (a : logic) : logic :=
  if bit_any_set (l_xz a) then logic_default (lmsb a) (llsb a) (lsgn a) else a.

(** same-size arithmetic, logic.hh 755-762, 786-793, 817-824, 848-856, 880-888 *)
Definition logic_arith_same (div : bool) (op : bit -> bit -> outcome bit) (a b : logic) : outcome logic :=
  let n := lsize a in
  let s := lsgn a && lsgn b in
  requires (l_same_size_op n b)
    (if bit_any_set (l_xz a) || bit_any_set (l_xz b) || (div && negb (bit_any_set (l_val b))) then
       match op (l_val a) (l_val b) with
       | IllFormed => IllFormed
       | _ => Ok (logic_default (n - 1) 0 s)
       end
     else
       let! r := op (l_val a) (l_val b) in
       logic_of_bit (n - 1) 0 s r).
Definition logic_arith (div : bool) (op : bit -> bit -> outcome bit) (a b : logic) : outcome logic :=
  if lsize a =? lsize b then logic_arith_same div op a b
  else logic_mixed (logic_arith_same div op) a b.
(** [operator+ - * / %]: logic.hh 748-903 *)
Definition logic_add := logic_arith false bit_add.
Definition logic_sub := logic_arith false bit_sub.
Definition logic_mul := logic_arith false bit_mul.
Definition logic_div := logic_arith true bit_div.
Definition logic_rem := logic_arith true bit_rem.

(** [operator++], [operator--]: logic.hh 531-539 *)
Definition logic_inc (a : logic) : outcome logic := let! r := logic_add a logic_one in logic_assign a r.
Definition logic_dec (a : logic) : outcome logic := let! r := logic_sub a logic_one in logic_assign a r.
(** post forms, logic.hh 542-553 *)
Definition logic_post (step : logic -> outcome logic) (a : logic) : outcome (logic * logic) :=
  let! old := logic_convert (lsize a - 1) 0 (lsgn a) a in
  let! new := step a in
  Ok (old, new).

(** [to_signed], [to_unsigned]: logic.hh 905-917 *)
Definition logic_resign (s : bool) (a : logic) : outcome logic :=
  let n := lsize a in
  let res := logic_default (n - 1) 0 s in
  let! v := bit_assign (l_val res) (bit_resign s (l_val a)) in
  let! m := bit_assign (l_xz res) (l_xz a) in
  Ok (mkLogic v m).

(** one step of [update_], logic.hh 1139-1157, 1164-1182.  [idx] is [uint64_t]; comparing it with the
    [int] bounds of the operand converts these to [uint64_t]. *)
Definition logic_update_step (start : Z) (op : logic) (x : logic) (i : Z) : outcome logic :=
  let idx0 := if xorb (big_endian (lmsb op) (llsb op)) (big_endian (lmsb x) (llsb x))
              then Z.max (llsb op) (lmsb op) - i else i in
  let idx := u64 (idx0 - start) in
  let! b :=
    (if (u64 (Z.max (llsb op) (lmsb op)) <? idx) || (idx <? u64 (Z.min (llsb op) (lmsb op)))
     then Ok logic_zero
     else logic_get op (i32 idx)) in
  logic_set_l x i b.

(** [update(hi, lo, op)] and run-time [update_], logic.hh 929-934, 1160-1183.  Simplified:
    [max(hi, lo) + 1] is taken not to leave [int] (bounds below 2^31 - 1). *)
Definition logic_update_r (x : logic) (hi lo : Z) (op : logic) : outcome logic :=
  let start := Z.min hi lo in
  ofold (logic_update_step start op) (zrange start (Z.max hi lo + 1)) x.

(** util.hh 76-78 *)
Definition match_endian (h1 l1 h2 l2 : Z) : bool :=
  ((l1 <=? h1) && (l2 <=? h2)) || ((h1 <? l1) && (h2 <? l2)).

(** [update<hi, lo>(op)], logic.hh 923-927, 1133-1158 *)
Definition logic_update_c (x : logic) (hi lo : Z) (op : logic) : outcome logic :=
  requires ((hi <? lsize x) && (lo <? lsize x) && match_endian hi lo (lmsb x) (llsb x))
    (logic_update_r x hi lo op).

(** [to_uint64], [to_num]: logic.hh 939-1001 *)
Definition logic_to_uint64 (l : logic) : Z := if bit_any_set (l_xz l) then 0 else bit_to_uint64 (l_val l).
Definition logic_to_num (l : logic) : outcome Z :=
  let! v := bit_to_num (l_val l) in Ok (if bit_any_set (l_xz l) then 0 else v).

(** relational operators of [bit] against [logic], bit.hh 640-643, 659-662, 678-681, 697-700:
    the mirrored logic comparison, unknown counting as false *)
Definition bit_rel_logic (mirror : logic -> logic -> outcome logic) (a : bit) (b : logic) : outcome bool :=
  let! r := logic_cmp_bit mirror b a in
  let! v := logic_to_num r in
  Ok (negb (v =? 0)).
Definition bit_gt_logic := bit_rel_logic logic_lt.
Definition bit_lt_logic := bit_rel_logic logic_gt.
Definition bit_ge_logic := bit_rel_logic logic_le.
Definition bit_le_logic := bit_rel_logic logic_ge.

(** literals [_logic], [_logic64]: logic.hh 1190-1195 *)
Definition lit_logic (v : Z) : outcome logic :=
  logic_extend (logic_of_arith 31 0 true (conv TI32 v)) 32.
Definition lit_logic64 (v : Z) : outcome logic :=
  logic_extend (logic_of_arith 63 0 true (conv TI64 v)) 64.
