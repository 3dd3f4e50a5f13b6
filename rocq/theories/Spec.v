(** The small independent specification the property theorems are stated against.
    It depends only on the data types of the model (what a vector is), never on the operations. *)
From Coq Require Import ZArith List Bool.
From Verif Require Import Cpp BigNum Bit Logic.
Import ListNotations.
Open Scope Z_scope.

(** * 2-state vectors as numbers *)

(** the number a word array denotes, least significant word first *)
Fixpoint words_num (ws : list Z) : Z :=
  match ws with
  | [] => 0
  | w :: r => w + 2 ^ 64 * words_num r
  end.

(** the number physically stored, including whatever lies above the declared width *)
Definition stored (b : bit) : Z := match bval b with HN v => v | HB ws => words_num ws end.

(** the number of declared positions of a vector [msb:lsb] *)
Definition width (msb lsb : Z) : Z := Z.abs (msb - lsb) + 1.
Definition bw (b : bit) : Z := width (bmsb b) (blsb b).

(** unsigned and two's-complement reading of the declared positions *)
Definition num (b : bit) : Z := stored b mod 2 ^ bw b.
Definition twos (n z : Z) : Z := if Z.testbit z (n - 1) then z - 2 ^ n else z.
Definition snum (b : bit) : Z := twos (bw b) (num b).
(** the value of a vector under its declared signedness *)
Definition value (b : bit) : Z := if bsgn b then snum b else num b.

(** content of the position of significance [p] (0 = least significant) *)
Definition bit_at (b : bit) (p : Z) : bool := Z.testbit (num b) p.

(** significance of the declared index [i] of a range [msb:lsb] (IEEE 1800 7.4.1) *)
Definition place (msb lsb i : Z) : Z := if lsb <=? msb then i - lsb else lsb - i.
Definition in_range (msb lsb i : Z) : Prop := Z.min msb lsb <= i <= Z.max msb lsb.

(** nothing stored outside the declared positions (a signed native vector stores its sign extension) *)
Definition tidy (b : bit) : Prop :=
  match bval b with
  | HN v => if bsgn b && (1 <? bw b) then - 2 ^ (bw b - 1) <= v < 2 ^ (bw b - 1)
            else 0 <= v < 2 ^ bw b
  | HB ws => 0 <= words_num ws < 2 ^ bw b
  end.

(** a C++ object of type [bit<msb,lsb,signed>]: the stored value belongs to the holder type and the
    template arguments and the size are [int]s *)
Definition int_ok (z : Z) : Prop := - 2 ^ 31 <= z < 2 ^ 31.
Definition vec (b : bit) : Prop :=
  bit_ok b = true /\ int_ok (bmsb b) /\ int_ok (blsb b) /\ bw b < 2 ^ 31.
(** declared [n-1:0] *)
Definition plain (b : bit) (n : Z) : Prop := bmsb b = n - 1 /\ blsb b = 0.
(** a vector of type [bit<n-1,0,s>] *)
Definition typed (b : bit) (n : Z) (s : bool) : Prop := vec b /\ plain b n /\ bsgn b = s.

(** a vector the library can widen: tidy and, if signed, with a native holder of at least two bits
    (the cases in which [extend] is right, C08 and C09) *)
Definition extendable (b : bit) : Prop := tidy b /\ (bsgn b = true -> 2 <= bw b <= 64).

(** Several multi-word queries of the library look only at the low half of every 64-bit group.
    A number is [visible] if that is enough to tell it from 0. *)
Definition low_halves_zero (z : Z) : Prop := forall k, 0 <= k -> (z / 2 ^ (64 * k)) mod 2 ^ 32 = 0.
Definition visible (z : Z) : Prop := low_halves_zero z -> z = 0.

(** number of ones among the [n] low positions of [z] *)
Definition ones (n z : Z) : Z :=
  Z.of_nat (length (filter (fun k => Z.testbit z (Z.of_nat k)) (seq 0 (Z.to_nat n)))).

(** * 4-state vectors as strings of symbols *)
Inductive sym := S0 | S1 | SX | SZ.

Definition sym_of (value mask : bool) : sym :=
  match mask, value with
  | false, false => S0
  | false, true => S1
  | true, false => SX
  | true, true => SZ
  end.
Definition sym_at (l : logic) (p : Z) : sym := sym_of (bit_at (l_val l) p) (bit_at (l_xz l) p).
Definition lw (l : logic) : Z := bw (l_val l).

(** what the C++ types guarantee about a [logic] object: both members are vectors of the declared range,
    the mask is unsigned *)
Definition lvec (l : logic) : Prop :=
  vec (l_val l) /\ vec (l_xz l) /\ bmsb (l_xz l) = bmsb (l_val l) /\ blsb (l_xz l) = blsb (l_val l) /\
  bsgn (l_xz l) = false.
(** a vector of type [logic<n-1,0,s>] *)
Definition ltyped (l : logic) (n : Z) (s : bool) : Prop := typed (l_val l) n s /\ typed (l_xz l) n false.

Definition unknown (s : sym) : bool := match s with SX | SZ => true | _ => false end.
Definition known (l : logic) : Prop := forall p, 0 <= p < lw l -> unknown (sym_at l p) = false.
Definition all_x (l : logic) : Prop := forall p, 0 <= p < lw l -> sym_at l p = SX.
(** the library can tell whether the vector holds an x or z (see [visible]) *)
Definition seen (l : logic) : Prop := lw l <= 64 \/ visible (num (l_xz l)).
(** the same after extension to [m] positions *)
Definition seen_at (l : logic) (m : Z) : Prop := m <= 64 \/ visible (num (l_xz l)).
Definition ltidy (l : logic) : Prop := tidy (l_val l) /\ tidy (l_xz l).

(** IEEE 1800-2017 tables 11-11, 11-12, 11-13, 11-15 *)
Definition and4 (a b : sym) : sym :=
  match a, b with
  | S0, _ | _, S0 => S0
  | S1, S1 => S1
  | _, _ => SX
  end.
Definition or4 (a b : sym) : sym :=
  match a, b with
  | S1, _ | _, S1 => S1
  | S0, S0 => S0
  | _, _ => SX
  end.
Definition xor4 (a b : sym) : sym :=
  match a, b with
  | S0, S0 | S1, S1 => S0
  | S0, S1 | S1, S0 => S1
  | _, _ => SX
  end.
Definition not4 (a : sym) : sym :=
  match a with S0 => S1 | S1 => S0 | _ => SX end.

(** one-bit 4-state results *)
Definition sym_of_bool (b : bool) : sym := if b then S1 else S0.

(** total number of positions of a list of vectors of the given widths *)
Definition total (ws : list Z) : Z := fold_right Z.add 0 ws.
