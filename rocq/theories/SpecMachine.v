(** Reference machine for vectors of at most 64 positions: what every operator of [bit] computes, as one
    formula on the integers the vectors store, for every pair of widths, bounds and signednesses and for
    every stored number (also those with something above the declared width).  Nothing here refers to
    the conversions, promotions, masks or loops of the model. *)
From Coq Require Import ZArith Bool.
From Verif Require Import Cpp Bit Spec SpecExact.
Open Scope Z_scope.

(** [z] reduced to [w] bits, signed or not *)
Definition wrap (s : bool) (w z : Z) : Z :=
  if s then (z + 2 ^ (w - 1)) mod 2 ^ w - 2 ^ (w - 1) else z mod 2 ^ w.
(** what a vector of [n] positions holds after [z] is written into it: one position remembers whether [z]
    is 0, the others keep 8, 16, 32 or 64 bits *)
Definition store (n : Z) (s : bool) (z : Z) : Z :=
  if n =? 1 then (if z =? 0 then 0 else 1) else wrap s (storage n) z.
Definition fitting (w z : Z) : bool := (- 2 ^ (w - 1) <=? z) && (z <? 2 ^ (w - 1)).

(** an object [bit<n-1,0,s>] holding [z] *)
Definition vector (n : Z) (s : bool) (z : Z) : bit := mkBit (n - 1) 0 s (HN (store n s z)).
(** the object [b] after [z] is written into it *)
Definition written (b : bit) (z : Z) : bit := mkBit (bmsb b) (blsb b) (bsgn b) (HN (store (bw b) (bsgn b) z)).

(** operands of [n] positions are computed with signed integers (where overflow is undefined) *)
Definition with_sign (n : Z) (sa sb : bool) : bool := (n <=? 16) || (sa && sb).
(** the operand as C++ sees it *)
Definition operand (n : Z) (sa sb : bool) (x : Z) : Z :=
  if with_sign n sa sb then x else x mod 2 ^ computing n.

(** the binary operators accept the pair: for equal widths the right bounds must not ascend, for
    different widths the wider operand must be signed or declared [n-1:0] *)
Definition pairs_up (a b : bit) : bool :=
  if bw a =? bw b then blsb b <=? bmsb b
  else let w := if bw a <? bw b then b else a in bsgn w || ((blsb w =? 0) && (0 <=? bmsb w)).

Definition wider (a b : bit) : Z := Z.max (bw a) (bw b).
Definition both_signed (a b : bit) : bool := bsgn a && bsgn b.

(** + - * and, with [undefined] set for a zero divisor, the quotient *)
Definition computed (op : Z -> Z -> Z) (undefined : bool) (a b : bit) : outcome bit :=
  let n := wider a b in
  let z := op (operand n (bsgn a) (bsgn b) (stored a)) (operand n (bsgn a) (bsgn b) (stored b)) in
  if negb (pairs_up a b) then IllFormed
  else if undefined || (with_sign n (bsgn a) (bsgn b) && negb (fitting (computing n) z)) then UB
  else Ok (vector n (both_signed a b) z).
(** the remainder is undefined when the quotient is *)
Definition remainder (a b : bit) : outcome bit :=
  let n := wider a b in
  let x := operand n (bsgn a) (bsgn b) (stored a) in
  let y := operand n (bsgn a) (bsgn b) (stored b) in
  if negb (pairs_up a b) then IllFormed
  else if (stored b =? 0) || (with_sign n (bsgn a) (bsgn b) && negb (fitting (computing n) (Z.quot x y))) then UB
  else Ok (vector n (both_signed a b) (Z.rem x y)).
(** bit by bit on two's complement; only different widths cut the result to the declared width *)
Definition bitwise (op : Z -> Z -> Z) (a b : bit) : outcome bit :=
  let n := wider a b in
  let z := op (stored a) (stored b) in
  if negb (pairs_up a b) then IllFormed
  else Ok (vector n (both_signed a b) (if bw a =? bw b then z else z mod 2 ^ n)).

(** shifts: [amount] is the shift amount converted to the type of the shifted vector *)
Definition amount (a k : bit) : Z := store (bw a) (bsgn a) (stored k).
Definition shiftable (a k : bit) : bool := (0 <=? amount a k) && (amount a k <? computing (bw a)).
Definition shifted_left (a k : bit) : outcome bit :=
  if shiftable a k then Ok (vector (bw a) (both_signed a k) (stored a * 2 ^ amount a k)) else UB.
Definition shifted_arith (a k : bit) : outcome bit :=
  if shiftable a k then Ok (vector (bw a) (both_signed a k) (stored a / 2 ^ amount a k)) else UB.
(** the logical shift needs an amount smaller than the width; a single bit can be shifted by 0 and
    additionally by every amount [k] with [1 - k], as C++ computes it, between 1 and 64 *)
Definition one_minus (k : bit) : Z :=
  if with_sign (bw k) true (bsgn k) then 1 - stored k else (1 - stored k) mod 2 ^ computing (bw k).
Definition shifted_right (a k : bit) : outcome bit :=
  let n := bw a in
  if n =? 1 then
    if (1 <=? one_minus k) && (one_minus k <=? 64) then
      Ok (vector n (both_signed a k) (if stored k =? 0 then stored a else 0))
    else UB
  else if (0 <=? stored k) && (stored k <? n) then
    Ok (vector n (both_signed a k) ((stored a / 2 ^ stored k) mod 2 ^ (n - stored k)))
  else UB.

(** == compares the stored number with the other one converted to the own type; the order compares the
    stored numbers if both are signed and their 64-bit patterns otherwise *)
Definition equal_native (a b : bit) : bool := stored a =? store (bw a) (bsgn a) (stored b).
Definition ordered (cmp : Z -> Z -> bool) (a b : bit) : bool :=
  if both_signed a b then cmp (stored a) (stored b) else cmp (stored a mod 2 ^ 64) (stored b mod 2 ^ 64).

(** unary operators *)
Definition negated (a : bit) : outcome bit :=
  if (16 <? bw a) && bsgn a && negb (fitting (computing (bw a)) (- stored a)) then UB
  else Ok (written a (- stored a)).
Definition two_complement (a : bit) : outcome bit :=
  if (16 <? bw a) && bsgn a && negb (fitting (computing (bw a)) (- stored a)) then UB
  else Ok (vector (bw a) false (- stored a mod 2 ^ bw a)).
Definition inverse (a : bit) : bit :=
  vector (bw a) false (if bw a =? 1 then 1 - stored a else - stored a - 1).

(** ++ and --: the vector is added to a one-bit vector holding 1 and the result converted back *)
Definition stepped (d : Z) (a : bit) : outcome bit :=
  let n := bw a in
  if negb ((n =? 1) || bsgn a || ((blsb a =? 0) && (0 <=? bmsb a))) then IllFormed
  else Ok (written a (stored a + d)).

(** access to single positions: [slot] is where the library looks for index [i] *)
Definition slot (a : bit) (i : Z) : Z := if blsb a <=? bmsb a then i else blsb a - i.
Definition position (a : bit) (i : Z) : outcome bool :=
  let j := slot a i in
  if (0 <=? j) && (j <? computing (bw a)) then Ok (Z.testbit (stored a) j) else UB.
Definition with_position (a : bit) (i : Z) (x : bool) : outcome bit :=
  let j := slot a i - Z.min (blsb a) (bmsb a) in
  if (0 <=? j) && (j <? 64) then
    Ok (written a (if x then Z.setbit (stored a) j else Z.clearbit (stored a) j))
  else UB.

(** compile-time slice: [extra] is 1 for a signed vector, whose slices take one position too many *)
Definition slot_of (a : bit) (i : Z) : Z := i - Z.min (bmsb a) (blsb a).
(** positions [lo] to [hi] of a stored number held in [w] bits; when the range reaches the sign of a signed
    number nothing is cut off above it *)
Definition cut (s : bool) (w v lo hi : Z) : Z :=
  if s && (hi =? w - 1) then v / 2 ^ lo else (v / 2 ^ lo) mod 2 ^ (hi - lo + 1).
Definition slice_fixed (a : bit) (i j : Z) : outcome bit :=
  let n := bw a in
  let m := Z.abs (i - j) + 1 in
  let lo := slot_of a (Z.min i j) in
  let hi := slot_of a (Z.max i j) + (if bsgn a then 1 else 0) in
  if negb ((Z.max i j <? n) && (blsb a <=? j)) then IllFormed
  else if (n =? 1) && (m =? 1) then Ok (vector m false (stored a))
  else if negb ((0 <=? lo) && (hi <? (if n =? 1 then 8 else storage n))) then UB
  else Ok (vector m false (if n =? 1 then (if (lo =? 0) && (hi =? 7) then stored a else 0)
                           else cut (bsgn a) (storage n) (stored a) lo hi)).
(** run-time slice of [m] positions *)
Definition slice_dynamic (a : bit) (m i j : Z) : outcome bit :=
  let n := bw a in
  let lo := slot_of a (Z.min i j) in
  let hi := slot_of a (Z.max i j) in
  if 64 <? m then IllFormed
  else if negb ((0 <=? lo) && (hi <? (if n =? 1 then 8 else storage n))) then UB
  else Ok (vector m false (if n =? 1 then (if (lo =? 0) && (hi =? 7) then stored a else 0)
                           else cut (bsgn a) (storage n) (stored a) lo hi)).

(** change of width; a signed vector cannot be narrowed *)
Definition resized (a : bit) (m : Z) : outcome bit :=
  if bw a <? m then Ok (vector m (bsgn a) (stored a))
  else if m =? bw a then
    if bsgn a || ((blsb a =? 0) && (0 <=? bmsb a)) then Ok (vector m (bsgn a) (stored a)) else IllFormed
  else match slice_fixed a (m - 1) 0 with Ok r => if bsgn a then IllFormed else Ok r | e => e end.

(** concatenation: the left operand is shifted by the declared width of the right one, but everything the
    right one stores is or-ed in; both are first brought to the common type of C++ *)
Definition joined (a b : bit) : outcome bit :=
  let n := bw a + bw b in
  let c := Z.max (computing (bw a)) (computing (bw b)) in
  let plain_int x := (bw x <=? 16) || (computing (bw x) <? c) || bsgn x in
  let s := plain_int a && plain_int b in
  let shifted := wrap ((bw a <=? 16) || bsgn a) (computing (bw a)) (stored a * 2 ^ bw b) in
  if 64 <=? n then IllFormed
  else if computing (bw a) <=? bw b then UB
  else Ok (vector n false (Z.lor (wrap s c shifted) (wrap s c (stored b)))).

(** reductions and counts *)
Definition all_ones (a : bit) : bool :=
  stored a =? (if bw a =? 1 then 0 else if bsgn a then 2 ^ (bw a - 1) - 1 else 2 ^ bw a - 1).
(** position of the highest one; the width if there is none *)
Definition top_one (a : bit) : Z := if stored a =? 0 then bw a else Z.log2 (stored a mod 2 ^ 64).

(** &= |= ^= (cut to the width) and <<= >>= (not cut): [r] is the result of the operator *)
Definition updatable (a b : bit) : bool :=
  (blsb a =? 0) && (0 <=? bmsb a) && (negb (bsgn a) || bsgn b).
Definition assigned (cutting : bool) (a b : bit) (r : outcome bit) : outcome bit :=
  if negb (updatable a b) then IllFormed
  else match r with
       | Ok r => let z := store (bw a) (bsgn a) (stored r) in Ok (written a (if cutting then z mod 2 ^ bw a else z))
       | e => e
       end.
