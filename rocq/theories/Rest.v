(** Model of the remaining small members of bit.hh, logic.hh, array.hh and util.hh.  No proofs in this file. *)
From Coq Require Import ZArith List Bool.
From Verif Require Import Cpp BigNum Bit Logic Arr Util More.
Import ListNotations.
Open Scope Z_scope.

(** [negate()] in place, bit.hh 900-907.  The multi-word branch returns a value from a [void] function and does not
    compile. *)
Definition bit_negate_in (b : bit) : outcome bit :=
  match bval b with
  | HN v =>
      let t := hty (bsize b) (bsgn b) in
      let! r := c_add (promote t) TI32 (c_not t v) 1 in
      Ok (bit_mask_off (mkBit (bmsb b) (blsb b) (bsgn b) (HN (conv t r))))
  | HB _ => IllFormed
  end.

(** [bit(const big_num &)], bit.hh 1013-1015: the low word, for native vectors only *)
Definition bit_of_big (msb lsb : Z) (s : bool) (ws : list Z) : outcome bit :=
  requires (native_num (vsize msb lsb)) (Ok (bit_of_native msb lsb s (hd 0 ws))).

(** [logic::match(bit)], [logic::nmatch(bit)]: logic.hh 672-675, 682-685 *)
Definition logic_match_bit (a : logic) (b : bit) : outcome bool :=
  let! b' := logic_of_bit (lmsb a) (llsb a) (lsgn a) b in logic_match a b'.
Definition logic_nmatch_bit (a : logic) (b : bit) : outcome bool := omap negb (logic_match_bit a b).

(** the explicit constructor from a [logic] of the same size, logic.hh 1030-1035.  The members are initialised with
    [bit]'s implicit conversions ([bit_convert], bit.hh 1042-1045), and the mask is always unsigned. *)
Definition logic_rebound (msb lsb : Z) (s : bool) (l : logic) : outcome logic :=
  if (lmsb l =? msb) && (llsb l =? lsb) && Bool.eqb (lsgn l) s then Ok l
  else requires (lsize l =? vsize msb lsb)
    (let! v := bit_convert msb lsb s (l_val l) in
     let! m := bit_convert msb lsb false (l_xz l) in
     Ok (mkLogic v m)).

(** [get(bit)], logic.hh 101-114.  [fit_in_64] is no member of [bit], so only native vectors have this member; a multi-word
    index cannot be subtracted from an [int].  The difference is converted to [int]. *)
Definition logic_get_at (l : logic) (op : bit) : outcome logic :=
  requires (native_num (lsize l))
  match bval op with
  | HN v =>
      let! i := c_sub (hty (bsize op) (bsgn op)) TI32 v (Z.min (lmsb l) (llsb l)) in
      logic_get l (conv TI32 i)
  | HB _ => IllFormed
  end.

(** [util::copy], util.hh 35-40.  [i] is a 32-bit unsigned counter compared with a 64-bit difference: from [2^32 - 1] on
    the loop has no exit. *)
Definition util_copy {A} (step : A -> Z -> outcome A) (dst : A) (start end_ : Z) : outcome A :=
  let d := u64 (end_ - start) in
  if d <? 2 ^ 32 - 1 then ofold step (zrange 0 (d + 1)) dst
  else let! _ := ofold step (zrange 0 (2 ^ 32)) dst in Fuel.
Definition bit_copy (dst src : bit) (start end_ : Z) : outcome bit :=
  util_copy (fun x i => let! v := bit_get src (i32 (u64 (i + start))) in bit_set_bit0 x i v) dst start end_.
Definition logic_copy (dst src : logic) (start end_ : Z) : outcome logic :=
  util_copy (fun x i => let! v := logic_get src (i32 (u64 (i + start))) in logic_set_l x i v) dst start end_.

(** [packed_array(IT v)], [packed_array(std::string_view)] and the default constructor, array.hh 120-124, for a 4-state
    and for a 2-state element type; the storage is a vector of [array_size] positions, array.hh 12-20, 43-48 *)
Definition pa_of_arith (t : parr_ty) (v : Z) : logic := logic_of_arith (pa_size t - 1) 0 (pa_sgn t) v.
Definition pa_of_str (t : parr_ty) (v : list Z) : outcome logic := logic_of_str (pa_size t - 1) 0 (pa_sgn t) v.
Definition pa_default (t : parr_ty) : logic := logic_default (pa_size t - 1) 0 (pa_sgn t).
Definition pa_of_arith_bit (t : parr_ty) (v : Z) : bit := bit_of_arith (pa_size t - 1) 0 (pa_sgn t) v.
Definition pa_default_bit (t : parr_ty) : bit := bit_zero (pa_size t - 1) 0 (pa_sgn t).

(** [util::str_len], util.hh 51-60 ([find_first_not_of] is [npos] when every character is a digit) *)
Definition str_len (size : Z) (fmt : list Z) : outcome Z :=
  match find_first (fun c => negb (is_digit c)) fmt with
  | Some 0 => Ok size
  | Some p => omap (Z.max size) (stoul (firstn (Z.to_nat p) fmt))
  | None => omap (Z.max size) (stoul fmt)
  end.
