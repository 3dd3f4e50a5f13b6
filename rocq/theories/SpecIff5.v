(** Conditions used by the theorems about writing ranges that say exactly when the property holds. *)
From Coq Require Import ZArith List Bool.
From Verif Require Import Cpp Bit Spec SpecExact SpecMachine.
Import ListNotations.
Open Scope Z_scope.

(** declared [n-1:0] or [0:n-1] *)
Definition from_zero (b : bit) : Prop := Z.min (bmsb b) (blsb b) = 0.
Definition descending (b : bit) : bool := blsb b <=? bmsb b.
(** reading the position [q] of a vector, also outside the declared positions: defined or not, and what is read *)
Definition readable (b : bit) (q : Z) : Prop := 65 <= bw b \/ 0 <= q < computing (bw b).
Definition reads (b : bit) (q : Z) : bool :=
  if (0 <=? q) && (q <? bw b) then bit_at b q else (2 <=? bw b) && (bw b <=? 64) && (value b <? 0).
(** the position of [op] that ends up at the declared index [i] of [x]; [c] is subtracted from the index *)
Definition source (x op : bit) (c i : Z) : Z :=
  place (bmsb op) (blsb op) ((if Bool.eqb (descending op) (descending x) then i else Z.max (bmsb op) (blsb op) - i) - c).
(** position of the declared index [i] of [x] within the range from [lo] to [hi], counted from its least significant one *)
Definition within (x : bit) (lo hi i : Z) : Z := if descending x then i - lo else hi - i.
(** [r] is [x] with the declared indices [lo] to [hi] holding the low positions of [op] *)
Definition range_written (x op : bit) (lo hi : Z) (r : bit) : Prop :=
  vec r /\ bmsb r = bmsb x /\ blsb r = blsb x /\ bsgn r = bsgn x /\
  forall i, in_range (bmsb x) (blsb x) i ->
    bit_at r (place (bmsb x) (blsb x) i) = if (lo <=? i) && (i <=? hi) then bit_at op (within x lo hi i) else bit_at x (place (bmsb x) (blsb x) i).

(** the six comparisons of [a] and [b], and the swapped ones, are those of the numbers [x] and [y], and == compares all [n] positions *)
Definition ranked (a b : bit) (n x y : Z) : Prop :=
  exists lt eq gt, bit_lt a b = Ok lt /\ bit_eq a b = Ok eq /\ bit_gt a b = Ok gt /\
    (lt, eq, gt) = (match x ?= y with Lt => (true, false, false) | Eq => (false, true, false) | Gt => (false, false, true) end) /\
    bit_le a b = Ok (lt || eq) /\ bit_ge a b = Ok (gt || eq) /\ bit_ne a b = Ok (negb eq) /\
    bit_gt b a = Ok lt /\ bit_lt b a = Ok gt /\ bit_eq b a = Ok eq /\
    (eq = true <-> forall i, 0 <= i < n -> bit_at a i = bit_at b i).
