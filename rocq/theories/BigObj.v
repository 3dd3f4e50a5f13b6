(** Model of include/logic/big_num.hh as a public class: a [big_num<size, signed_>] object is its two
    template arguments and its word array.  Word-level functions are those of BigNum.v; this file adds
    the overload selection for operands of different sizes, the compound assignments, the remaining
    queries and conversions, and the members that do not compile.
    [r_and] is in Reduce.v.  No proofs in this file. *)
From Coq Require Import ZArith List Bool.
From Verif Require Import Cpp BigNum Util.
Import ListNotations.
Open Scope Z_scope.

(** big_num.hh 9-17: template parameters [size], [signed_] and member [values] *)
Record bnum := mkNum { n_size : Z; n_sgn : bool; n_ws : list Z }.

(** [operator[](idx)], [get<idx>()], big_num.hh 21-29, 53-62 *)
Definition num_get (x : bnum) (i : Z) : bool := bn_get (n_size x) (n_ws x) i.
(** [set(idx, value)], big_num.hh 65-75 *)
Definition num_set (x : bnum) (i : Z) (v : bool) : bnum :=
  mkNum (n_size x) (n_sgn x) (bn_set (n_size x) (n_ws x) i v).
(** [set<idx>(value)], [set<idx, value>()], big_num.hh 31-51: the index is checked at compile time *)
Definition num_set_c (x : bnum) (i : Z) (v : bool) : outcome bnum :=
  requires (i <? n_size x) (Ok (num_set x i v)).
(** [negative()], big_num.hh 77: only for signed objects *)
Definition num_negative (x : bnum) : outcome bool :=
  requires (n_sgn x) (Ok (bn_negative (n_size x) (n_ws x))).

(** [slice<a, b>()], big_num.hh 79-95 *)
Definition num_slice_c (x : bnum) (a b : Z) : outcome bnum :=
  omap (mkNum (Z.abs (a - b) + 1) false) (bn_slice_c (n_size x) (n_ws x) a b).
(** [slice<target_size>(a, b)], big_num.hh 98-108 *)
Definition num_slice_r (x : bnum) (ts a b : Z) : outcome bnum :=
  omap (mkNum ts false) (bn_slice_r (n_size x) (n_ws x) ts a b).
(** [extend<op_size>()], big_num.hh 110-126 *)
Definition num_extend (x : bnum) (m : Z) : outcome bnum :=
  omap (mkNum m (n_sgn x)) (bn_extend (n_size x) (n_sgn x) (n_ws x) m).
(** [concat], big_num.hh 128-144 *)
Definition num_concat (x y : bnum) : bnum :=
  mkNum (n_size x + n_size y) false (bn_concat (n_size x) (n_ws x) (n_size y) (n_ws y)).
(** [popcount], big_num.hh 146-148: [std::popcount] is a template name, not a function object *)
Definition num_popcount (x : bnum) : outcome Z := IllFormed.
(** [mask_off], big_num.hh 150-155 *)
Definition num_mask_off (x : bnum) : bnum := mkNum (n_size x) (n_sgn x) (bn_mask_off (n_size x) (n_ws x)).
(** [clear], [unmask], big_num.hh 157, 787 *)
Definition num_clear (x : bnum) : bnum := mkNum (n_size x) (n_sgn x) (map (fun _ => 0) (n_ws x)).
(** [mask], big_num.hh 778-785 *)
Definition num_mask (x : bnum) : bnum := mkNum (n_size x) (n_sgn x) (bn_mask (n_size x)).

(** [operator~], big_num.hh 167-177 *)
Definition num_not (x : bnum) : bnum := mkNum (n_size x) (n_sgn x) (bn_not (n_size x) (n_ws x)).

(** The shape shared by all binary operators returning a number: same size directly; different sizes
    through [and_], [xor_], [or_], [add], [minus], [multiply], [divide], [mod], which extend both
    operands to the larger size and apply the operator there.  The result is signed if both operands
    are ([util::signed_result]).  big_num.hh 185-187, 224-226, 262-264, 568-570, 598-600, 620-622,
    680-682, 701-703 (and the functions cited at [bn_widen2]).
    For [|], the unconstrained overload at 262 and the same-size one at 266 are both viable for equal
    sizes; the latter is more specialised. *)
Definition num_binop (f : Z -> list Z -> list Z -> outcome (list Z)) (x y : bnum) : outcome bnum :=
  let m := Z.max (n_size x) (n_size y) in
  let! lr := bn_widen2 (n_size x) (n_sgn x) (n_ws x) (n_size y) (n_sgn y) (n_ws y) in
  let '(l, r) := lr in
  omap (mkNum m (n_sgn x && n_sgn y)) (f m l r).

(** [operator&], [operator^], [operator|], big_num.hh 185-198, 224-236, 262-274 *)
Definition num_and := num_binop (fun m a b => Ok (bn_and m a b)).
Definition num_xor := num_binop (fun m a b => Ok (bn_xor a b)).
Definition num_or := num_binop (fun m a b => Ok (bn_or a b)).

(** [operator&=], [operator^=], big_num.hh 210-221, 248-259.  A wider operand needs
    [slice<size>()] with a single argument, which no overload accepts; the returned reference has the
    type of the result, so a signed object with an unsigned operand does not compile either. *)
Definition num_assign_op (op : bnum -> bnum -> outcome bnum) (x y : bnum) : outcome bnum :=
  requires (n_size y <=? n_size x)
    (requires (Bool.eqb (n_sgn x) (n_sgn x && n_sgn y))
       (let! v := op x y in Ok (num_mask_off (mkNum (n_size x) (n_sgn x) (n_ws v))))).
Definition num_and_assign := num_assign_op num_and.
Definition num_xor_assign := num_assign_op num_xor.
(** [operator|=], big_num.hh 286-297: a [const] member that assigns to [values] *)
Definition num_or_assign (x y : bnum) : outcome bnum := IllFormed.

(** [r_xor], big_num.hh 316-322 *)
Definition num_r_xor (x : bnum) : bool := bn_r_xor (n_size x) (n_ws x).

(** [operator>>(uint64_t)], [operator<<(uint64_t)], [ashr(uint64_t)], [ashl(uint64_t)],
    big_num.hh 324-334, 350-360, 376-401, 426-429 *)
Definition num_shr (x : bnum) (k : Z) : bnum := mkNum (n_size x) (n_sgn x) (bn_shr (n_size x) (n_ws x) k).
Definition num_shl (x : bnum) (k : Z) : bnum := mkNum (n_size x) (n_sgn x) (bn_shl (n_size x) (n_ws x) k).
Definition num_ashr (x : bnum) (k : Z) : bnum :=
  mkNum (n_size x) (n_sgn x) (bn_ashr (n_size x) (n_sgn x) (n_ws x) k).
Definition num_ashl (x : bnum) (k : Z) : bnum := num_shl x k.

(** the same with a [big_num] amount, big_num.hh 336-348, 362-374, 403-423, 431-435.  The result has
    the common signedness; the object itself converts implicitly (918-922). *)
Definition num_shr_n (x k : bnum) : bnum :=
  mkNum (n_size x) (n_sgn x && n_sgn k) (bn_shr_big (n_size x) (n_ws x) (n_ws k)).
Definition num_shl_n (x k : bnum) : bnum :=
  mkNum (n_size x) (n_sgn x && n_sgn k) (bn_shl_big (n_size x) (n_ws x) (n_ws k)).
Definition num_ashr_n (x k : bnum) : bnum :=
  mkNum (n_size x) (n_sgn x && n_sgn k) (bn_ashr_big (n_size x) (n_sgn x) (n_ws x) (n_ws k)).
Definition num_ashl_n (x k : bnum) : bnum := num_shl_n x k.

(** [operator==], big_num.hh 440-481; [!=] is the rewritten [!(x == y)] of C++20 *)
Definition num_eq (x y : bnum) : outcome bool := bn_eq (n_size x) (n_sgn x) (n_ws x) (n_size y) (n_sgn y) (n_ws y).
Definition num_ne (x y : bnum) : outcome bool := omap negb (num_eq x y).
(** [operator>], [<], [>=], [<=], big_num.hh 490-522, 532-535, 545-548, 558-561 *)
Definition num_gt (x y : bnum) : outcome bool := bn_gt (n_size x) (n_sgn x) (n_ws x) (n_size y) (n_sgn y) (n_ws y).
Definition num_lt (x y : bnum) : outcome bool := num_gt y x.
Definition num_ge (x y : bnum) : outcome bool := bn_ge (n_size x) (n_sgn x) (n_ws x) (n_size y) (n_sgn y) (n_ws y).
Definition num_le (x y : bnum) : outcome bool := num_ge y x.
(** [operator==(T)], big_num.hh 483-488: [v] is converted to [uint64_t] *)
Definition num_eq_t (x : bnum) (v : Z) : bool := bn_eq_native (n_ws x) v.
(** [operator>(T)], [operator<=(T)], [operator>=(T)], big_num.hh 524-530, 537-543, 550-556: they call
    the variable template [std::is_signed_v<T>] as a function *)
Definition num_gt_t (x : bnum) (v : Z) : outcome bool := IllFormed.
Definition num_le_t (x : bnum) (v : Z) : outcome bool := IllFormed.
Definition num_ge_t (x : bnum) (v : Z) : outcome bool := IllFormed.

(** [operator+], [-], [*], [/], [%], big_num.hh 567-585, 597-607, 619-667, 679-688, 700-709 *)
Definition num_add := num_binop (fun m a b => Ok (bn_add a b)).
Definition num_sub := num_binop (fun m a b => Ok (bn_sub m a b)).
Definition num_mul := num_binop bn_mul.
Definition num_div (x y : bnum) : outcome bnum :=
  num_binop (fun m a b => omap fst (bn_div_mod m (n_sgn x) a (n_sgn y) b)) x y.
Definition num_rem (x y : bnum) : outcome bnum :=
  num_binop (fun m a b => omap snd (bn_div_mod m (n_sgn x) a (n_sgn y) b)) x y.
(** [power], big_num.hh 721-748: divides by an [int], which no overload accepts *)
Definition num_power (x y : bnum) (ts : Z) : outcome bnum := IllFormed.
(** [negate], unary [-], big_num.hh 750-756, 764 *)
Definition num_negate (x : bnum) : bnum := mkNum (n_size x) (n_sgn x) (bn_negate (n_size x) (n_ws x)).
(** unary [+], big_num.hh 765 *)
Definition num_plus (x : bnum) : bnum := x.
(** [to_signed], big_num.hh 758-762 *)
Definition num_to_signed (x : bnum) : bnum := mkNum (n_size x) true (n_ws x).
(** implicit conversion to the other signedness, big_num.hh 918-922 *)
Definition num_convert (x : bnum) (s : bool) : bnum := mkNum (n_size x) s (n_ws x).

(** [any_set], [operator bool], [all_set], [is_one], [fit_in_64], [highest_bit], [to_uint64],
    big_num.hh 770-776, 162, 789-799, 805-812, 814-817, 882-892, 897 *)
Definition num_any_set (x : bnum) : bool := bn_any_set (n_ws x).
Definition num_bool (x : bnum) : bool := num_any_set x.
Definition num_all_set (x : bnum) : bool := bn_all_set (n_size x) (n_ws x).
Definition num_is_one (x : bnum) : bool := bn_is_one (n_ws x).
Definition num_fit_in_64 (x : bnum) : bool := bn_fit_in_64 (n_ws x).
Definition num_highest_bit (x : bnum) : Z := bn_highest_bit (n_size x) (n_ws x).
Definition num_to_uint64 (x : bnum) : Z := bn_to_uint64 (n_ws x).

(** default constructor, big_num.hh 916 *)
Definition num_zero (n : Z) (s : bool) : bnum := mkNum n s (bn_zero n).
(** [big_num(T v)], big_num.hh 902-913.  [values({v})] converts [v] to [uint64_t] (for a signed [T]
    compilers warn about narrowing); [v < 0] is decided in [T]. *)
Definition num_of_native (n : Z) (s : bool) (v : Z) : bnum :=
  let ws := bn_of_native n v in
  mkNum n s (if s && (v <? 0) then bn_mask_off n (hd 0 ws :: repeat u64max (Z.to_nat (nwords n - 1))) else ws).

(** [big_num(std::string_view)], big_num.hh 900.  Unlike the other constructors this one does not
    initialise [values]: [mem] is whatever the memory of the object held before, and
    [parse_raw_str] (util.cc 204-224) only overwrites the words the text has digits for. *)
Definition num_of_str (n : Z) (s : bool) (mem : list Z) (v : list Z) : outcome bnum :=
  let '(base, start) := get_input_base v in
  let t := substr_from v start in
  omap (mkNum n s)
    (parse_words (fun c => parse_raw_ c base) t (64 / get_stride base) (Z.to_nat (nwords n))
       (slen t) (slen t) 0 mem).
