(** Small specification used by the theorems that say exactly when a property holds. *)
From Coq Require Import ZArith List Bool.
From Verif Require Import Cpp Bit Logic Spec SpecExact.
Import ListNotations.
Open Scope Z_scope.

(** IEEE 1800 11.4.9: a reduction applies the operator to all symbols *)
Definition reduce (op : sym -> sym -> sym) (init : sym) (l : logic) (n : Z) : sym := fold_right (fun p acc => op (sym_at l p) acc) init (zrange 0 n).
(** the symbol in position [p] of a vector of [n] positions, zero-extended *)
Definition padded (l : logic) (n p : Z) : sym := if p <? n then sym_at l p else S0.
(** The library tells whether a vector holds an x or z by a test that, in a mask widened to [n > 64] positions, looks at the lower half of
    every word only. *)
Definition noticed_at (n : Z) (l : logic) : Prop := exists p, 0 <= p < lw l /\ unknown (sym_at l p) = true /\ (n <= 64 \/ p mod 64 < 32).
Definition noticed (l : logic) : Prop := noticed_at (lw l) l.
(** a number that the test takes for 0 *)
Definition zero_at (n z : Z) : Prop := forall p, 0 <= p -> (n <= 64 \/ p mod 64 < 32) -> Z.testbit z p = false.
(** The pairs of symbols on which the library's bitwise operators differ from IEEE 1800. *)
Definition bad_and (s t : sym) : Prop := (s = SX /\ t = S0) \/ (s = SZ /\ (t = S1 \/ t = SZ)).
Definition bad_or (s t : sym) : Prop := (s = SX /\ t = S0) \/ (s = SZ /\ t = S1).
Definition bad_xor (s t : sym) : Prop := (s = S1 /\ t <> S0) \/ (s = SX /\ (t = S0 \/ t = S1)).
(** + - * / %; the first component tells whether a zero right operand gives x *)
Definition arith4 : list (bool * (logic -> logic -> outcome logic)) :=
  [(false, logic_add); (false, logic_sub); (false, logic_mul); (true, logic_div); (true, logic_rem)].
(** << >> >>> and == != < <= > >= *)
Definition shifts4 : list (logic -> logic -> outcome logic) := [logic_shl; logic_shr; logic_ashr].
Definition compares4 : list (logic -> logic -> outcome logic) := [logic_eq; logic_ne; logic_lt; logic_le; logic_gt; logic_ge].
(** signed arithmetic of exactly 32 or 64 positions leaves the range of int or int64_t *)
Definition overflows (op : Z -> Z -> Z) (a b : bit) (n : Z) : Prop := bsgn a && bsgn b = true /\ (n = 32 \/ n = 64) /\ ~ signed_fits n (op (value a) (value b)).
(** all ones lie in upper halves of words of 64 positions: the library's tests take such a number for 0 *)
Definition hollow (z : Z) : Prop := forall p, 0 <= p -> p mod 64 < 32 -> Z.testbit z p = false.
(** Different unsigned numbers that == takes for equal: the right one is first reduced to the storage of the left one; of wide vectors the
    words that only one of them has are only tested for 0. *)
Definition common (a b : bit) : Z := 64 * Z.min ((bw a + 63) / 64) ((bw b + 63) / 64).
Definition confused (a b : bit) : Prop :=
  (bw a = 1 /\ bw b <= 64 /\ num a = 1 /\ 2 <= num b) \/
  (2 <= bw a <= 64 /\ bw b <= 64 /\ num b mod 2 ^ storage (bw a) = num a) \/
  (65 <= bw a /\ 65 <= bw b /\ num a mod 2 ^ common a b = num b mod 2 ^ common a b /\ hollow (num a / 2 ^ common a b) /\ hollow (num b / 2 ^ common a b)).
(** what > of wide signed vectors compares for a negative number: its magnitude plus the number of patterns above the declared width *)
Definition magnitude (b : bit) : Z := 2 ^ (64 * ((bw b + 63) / 64)) - 2 ^ bw b - snum b.
Definition least (b : bit) : Prop := snum b = - 2 ^ (bw b - 1).
(** Division of unsigned numbers at [n > 64] positions.  A hollow divisor is taken for 0; a divisor whose upper words are hollow and whose
    lowest word is 1 is taken for 1; and if the upper words of both are hollow only the lowest words are divided. *)
Definition divides_right (n x y : Z) : Prop :=
  y <> 0 /\ (65 <= n -> x <> 0 ->
    ~ hollow y /\ (hollow (y / 2 ^ 64) -> y mod 2 ^ 64 = 1 -> y = 1) /\
    (y < x -> hollow (x / 2 ^ 64) -> hollow (y / 2 ^ 64) -> y mod 2 ^ 64 <> 1 -> x / 2 ^ 64 = (x mod 2 ^ 64) / (y mod 2 ^ 64) * (y / 2 ^ 64))).
(** Multiplication of unsigned numbers at [n > 64] positions: if the upper words of both are hollow only the lowest words are multiplied;
    otherwise the product of the two highest words is written to two words, which must exist. *)
Definition multiplies_right (n x y : Z) : Prop :=
  (hollow (x / 2 ^ 64) /\ hollow (y / 2 ^ 64) /\ ((x mod 2 ^ 64) * (y mod 2 ^ 64)) mod 2 ^ n = (x * y) mod 2 ^ n) \/
  (~ (hollow (x / 2 ^ 64) /\ hollow (y / 2 ^ 64)) /\ (x = 0 \/ y = 0 \/ Z.log2 x / 64 + Z.log2 y / 64 + 1 < (n + 63) / 64)).
