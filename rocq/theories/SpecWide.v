(** Reference machine for vectors of any width: what every operator of [bit] computes, as one formula on the stored integers.
    Up to 64 positions it is the machine of SpecMachine.v; a wider vector stores a natural number below [2 ^ capacity].
    Nothing here refers to the loops, carries or word accesses of the model. *)
From Coq Require Import ZArith List Bool.
From Verif Require Import Cpp Bit Spec SpecExact SpecMachine.
Import ListNotations.
Open Scope Z_scope.

(** a vector of [n > 64] positions stores whole words of 64 bits *)
Definition words_in (n : Z) : Z := (n + 63) / 64.
Definition capacity (n : Z) : Z := 64 * words_in n.
(** the number [z] written into [k] words *)
Fixpoint spread (k : nat) (z : Z) : list Z :=
  match k with O => [] | S j => z mod 2 ^ 64 :: spread j (z / 2 ^ 64) end.
Definition words_of (n z : Z) : list Z := spread (Z.to_nat (words_in n)) z.

(** an object [bit<msb,lsb,s>] after [z] is written into it *)
Definition object (msb lsb : Z) (s : bool) (z : Z) : bit :=
  let n := width msb lsb in mkBit msb lsb s (if n <=? 64 then HN (store n s z) else HB (words_of n z)).
Definition vec_of (n : Z) (s : bool) (z : Z) : bit := object (n - 1) 0 s z.
Definition rewritten (b : bit) (z : Z) : bit := object (bmsb b) (blsb b) (bsgn b) z.

Definition small (a : bit) : bool := bw a <=? 64.

(** what [x] stores after widening it to [m] positions.  A signed wide vector gets ones, whatever its sign. *)
Definition widened (x : bit) (m : Z) : Z :=
  if bw x =? m then stored x
  else if small x then stored x mod 2 ^ m
  else if bsgn x then Z.lor (stored x) (2 ^ m - 2 ^ bw x)
  else stored x.

(** the shape of the binary operators when a wide vector is involved *)
Definition combined (f : Z -> Z -> outcome Z) (a b : bit) : outcome bit :=
  let n := wider a b in
  if negb (pairs_up a b) then IllFormed
  else match f (widened a n) (widened b n) with
       | Ok z => Ok (vec_of n (both_signed a b) z)
       | UB => UB | Exn => Exn | Fuel => Fuel | IllFormed => IllFormed
       end.
Definition any_sum (a b : bit) : outcome bit :=
  if small a && small b then computed Z.add false a b else combined (fun x y => Ok (x + y)) a b.
Definition any_difference (a b : bit) : outcome bit :=
  if small a && small b then computed Z.sub false a b else combined (fun x y => Ok (x - y)) a b.

(** the tests "is 0" of wide vectors look at the lower half of every word only *)
Definition blank (ws : list Z) : bool := forallb (fun w => w mod 2 ^ 32 =? 0) ws.
Definition seems_zero (n z : Z) : bool := blank (words_of n z).
Definition seems_small (n z : Z) : bool := blank (tl (words_of n z)).
(** products: of the low words if both operands seem to fit into one word; otherwise the product of two
    words is written to two words even if the upper one is 0, and writing outside the vector is undefined *)
Definition any_product (a b : bit) : outcome bit :=
  let n := wider a b in
  if small a && small b then computed Z.mul false a b
  else combined (fun x y =>
    if seems_small n x && seems_small n y then Ok ((x mod 2 ^ 64) * (y mod 2 ^ 64))
    else if (x =? 0) || (y =? 0) then Ok 0
    else if Z.log2 x / 64 + Z.log2 y / 64 + 1 <? words_in n then Ok (x * y)
    else UB) a b.

(** long division: for every shift, from the largest to 0, subtract the shifted divisor (cut to the width) if possible *)
Fixpoint long_division (n y : Z) (shifts : nat) (q r : Z) : Z * Z :=
  match shifts with
  | O => (q, r)
  | S j =>
      let k := Z.of_nat j in
      let t := (y * 2 ^ k) mod 2 ^ n in
      if t <=? r then long_division n y j (if k <? n then Z.setbit q k else q) (r - t) else long_division n y j q r
  end.
(** quotient and remainder of wide vectors; dividing by something that seems to be 0 gives 0 *)
Definition divided (n x y : Z) : outcome (Z * Z) :=
  if seems_zero n y then Ok (0, 0)
  else if seems_small n y && (y mod 2 ^ 64 =? 1) then Ok (x, 0)
  else if x =? y then Ok (1, 0)
  else if x <? y then Ok (0, x)
  else if seems_small n x && seems_small n y then
    if y mod 2 ^ 64 =? 0 then UB
    else Ok ((x mod 2 ^ 64) / (y mod 2 ^ 64), (x mod 2 ^ 64) mod (y mod 2 ^ 64))
  else Ok (long_division n y (Z.to_nat (Z.log2 x - Z.log2 y + 1)) 0 x).
Definition any_quotient (a b : bit) : outcome bit :=
  if small a && small b then computed Z.quot (stored b =? 0) a b
  else combined (fun x y => if bsgn a then IllFormed else omap fst (divided (wider a b) x y)) a b.
Definition any_remainder (a b : bit) : outcome bit :=
  if small a && small b then remainder a b
  else combined (fun x y => if bsgn a then IllFormed else omap snd (divided (wider a b) x y)) a b.

(** bitwise: & always cuts to the declared width, | and ^ only for different widths *)
Definition any_bitwise (op : Z -> Z -> Z) (cutting : bool) (a b : bit) : outcome bit :=
  if small a && small b then bitwise op a b
  else combined (fun x y => Ok (if cutting || negb (bw a =? bw b) then op x y mod 2 ^ wider a b else op x y)) a b.

(** shifts of wide vectors; the amount is never negative *)
Definition any_amount (k : bit) : Z := if small k then stored k mod 2 ^ 64 else stored k.
Definition any_shift (narrow : bit -> bit -> outcome bit) (f : Z -> Z) (a k : bit) : outcome bit :=
  if small a then (if small k then narrow a k else IllFormed)
  else Ok (vec_of (bw a) (both_signed a k) (f (any_amount k))).
Definition any_left (a k : bit) : outcome bit := any_shift shifted_left (fun z => (stored a * 2 ^ z) mod 2 ^ bw a) a k.
Definition any_right (a k : bit) : outcome bit := any_shift shifted_right (fun z => num a / 2 ^ z) a k.
(** arithmetic shift: the position the sign moves to is never written and stays 0 *)
Definition any_arith (a k : bit) : outcome bit :=
  any_shift shifted_arith (fun z =>
    if bsgn a then
      let r := (snum a / 2 ^ z) mod 2 ^ bw a in
      if z <? bw a then Z.clearbit r (bw a - 1 - z) else r
    else num a / 2 ^ z) a k.

(** comparisons.  Between wide vectors, not both signed, the words both have must be equal and the others
    must seem to be 0. *)
Definition any_equal (a b : bit) : outcome bool :=
  if small a && small b then Ok (equal_native a b)
  else if small a then Ok (stored b =? stored a mod 2 ^ 64)
  else if small b then Ok (stored a =? stored b mod 2 ^ 64)
  else if both_signed a b then
    if bw a <? bw b then Ok (widened a (bw b) =? stored b) else IllFormed
  else
    let k := Z.min (words_in (bw a)) (words_in (bw b)) in
    Ok ((stored a mod 2 ^ (64 * k) =? stored b mod 2 ^ (64 * k)) &&
        blank (skipn (Z.to_nat k) (words_of (bw a) (stored a))) && blank (skipn (Z.to_nat k) (words_of (bw b) (stored b)))).
(** a > b of wide vectors: two negative numbers are negated first, which the smallest signed number is not
    changed by; two of these are compared forever *)
Definition smallest (a : bit) : bool := num a =? 2 ^ (bw a - 1).
Definition wide_greater (a b : bit) : outcome bool :=
  if both_signed a b then
    if (snum a <? 0) && (snum b <? 0) then
      if smallest a then (if smallest b then Fuel else Ok true)
      else if smallest b then Ok false
      else Ok ((- stored a) mod 2 ^ capacity (bw a) <? (- stored b) mod 2 ^ capacity (bw b))
    else if snum a <? 0 then Ok false
    else if snum b <? 0 then Ok true
    else Ok (stored b <? stored a)
  else Ok (stored b <? stored a).
(** a >= b is a > b or a == b *)
Definition wide_greater_equal (a b : bit) : outcome bool :=
  match any_equal a b with
  | Ok e => match wide_greater a b with Ok g => Ok (g || e) | x => x end
  | x => x
  end.
(** a wide vector cannot be compared with a narrow one; the other way round nothing is returned *)
Definition any_order (cmp : Z -> Z -> bool) (wide : bit -> bit -> outcome bool) (a b : bit) : outcome bool :=
  if small a then (if small b then Ok (ordered cmp a b) else UB)
  else if small b then IllFormed else wide a b.
Definition any_less : bit -> bit -> outcome bool := any_order Z.ltb (fun a b => wide_greater b a).
Definition any_less_equal : bit -> bit -> outcome bool := any_order Z.leb (fun a b => wide_greater_equal b a).
Definition any_greater : bit -> bit -> outcome bool := any_order Z.gtb wide_greater.
Definition any_greater_equal : bit -> bit -> outcome bool := any_order Z.geb wide_greater_equal.

(** unary operators; unary minus of a wide vector does not compile *)
Definition any_minus (a : bit) : outcome bit := if small a then negated a else IllFormed.
Definition any_two_complement (a : bit) : outcome bit :=
  if small a then two_complement a else Ok (vec_of (bw a) false (- stored a)).
Definition any_inverse (a : bit) : bit := if small a then inverse a else vec_of (bw a) false (- stored a - 1).
Definition any_step (d : Z) (a : bit) : outcome bit :=
  if small a then stepped d a
  else if bsgn a || ((blsb a =? 0) && (0 <=? bmsb a)) then Ok (rewritten a (stored a + d)) else IllFormed.

(** assignment: a wide vector takes wide vectors of its own width only *)
Definition any_assign (d a : bit) : outcome bit :=
  if (small d && small a) || (negb (small d) && (bw a =? bw d)) then Ok (rewritten d (stored a)) else IllFormed.
Definition any_assign_number (d : bit) (v : Z) : outcome bit := if small d then Ok (rewritten d v) else IllFormed.

(** single positions.  A wide vector has no undefined index, indices are taken modulo 2^64; [set] with a
    one-bit vector as value ignores the lower bound. *)
Definition any_position (a : bit) (i : Z) : outcome bool :=
  if small a then position a i
  else let j := slot a i mod 2 ^ 64 in Ok ((j <? bw a) && Z.testbit (stored a) j).
Definition placed (a : bit) (j : Z) (x : bool) : bit :=
  rewritten a (if j <? bw a then (if x then Z.setbit (stored a) j else Z.clearbit (stored a) j) else stored a).
Definition any_with_position (a : bit) (i : Z) (x : bool) : outcome bit :=
  if small a then with_position a i x else Ok (placed a ((slot a i - Z.min (blsb a) (bmsb a)) mod 2 ^ 64) x).
Definition any_with_position_bit (a : bit) (i : Z) (x : bool) : outcome bit :=
  if small a then with_position a i x else Ok (placed a (slot a i mod 2 ^ 64) x).

(** slices of a wide vector count from 0; exactly 65 positions do not compile *)
Definition any_slice (a : bit) (i j : Z) : outcome bit :=
  if small a then slice_fixed a i j
  else
    let m := Z.abs (i - j) + 1 in
    if negb ((Z.max i j <? bw a) && (blsb a <=? j) && (0 <=? Z.min i j)) || (m =? 65) then IllFormed
    else Ok (vec_of m false ((stored a / 2 ^ Z.min i j) mod 2 ^ m)).
Definition any_slice_dynamic (a : bit) (m i j : Z) : outcome bit :=
  if small a then slice_dynamic a m i j
  else
    let lo := Z.min (i mod 2 ^ 64) (j mod 2 ^ 64) in
    let hi := Z.max (i mod 2 ^ 64) (j mod 2 ^ 64) in
    if hi =? 2 ^ 64 - 1 then Fuel
    else Ok (vec_of m false ((num a / 2 ^ lo) mod 2 ^ Z.min m (hi - lo + 1))).

(** change of width *)
Definition any_resize (a : bit) (m : Z) : outcome bit :=
  if small a && (m <=? 64) then resized a m
  else if bw a <? m then Ok (vec_of m (bsgn a) (widened a m))
  else if m =? bw a then
    if bsgn a || ((blsb a =? 0) && (0 <=? bmsb a)) then Ok (vec_of m (bsgn a) (stored a)) else IllFormed
  else match any_slice a (m - 1) 0 with Ok r => if bsgn a then IllFormed else Ok r | e => e end.

(** queries.  The & reduction of a wide vector is the parity of its positions. *)
Fixpoint odd_ones (k : nat) (z : Z) : bool :=
  match k with O => false | S j => xorb (odd_ones j z) (Z.testbit z (Z.of_nat j)) end.
Definition any_true (a : bit) : bool := if small a then negb (stored a =? 0) else negb (seems_zero (bw a) (stored a)).
Definition any_all_ones (a : bit) : bool := if small a then all_ones a else odd_ones (Z.to_nat (bw a)) (stored a).
Definition any_top_one (a : bit) : Z :=
  if small a then top_one a else if stored a =? 0 then words_in (bw a) else Z.log2 (stored a).

(** compound assignment *)
Definition any_assigned (cutting : bool) (a b : bit) (r : outcome bit) : outcome bit :=
  if negb (updatable a b) then IllFormed
  else match r with
       | Ok r => match any_assign a r with
                 | Ok x => Ok (if cutting then rewritten a (stored x mod 2 ^ bw a) else x)
                 | e => e
                 end
       | e => e
       end.
