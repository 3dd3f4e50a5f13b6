(** Conditions on client programs used by the theorems that say exactly when a property holds. *)
From Coq Require Import ZArith List Bool.
From Verif Require Import Cpp Bit Logic Spec Client More Program BigObj SpecBig SpecIff.
Import ListNotations.
Open Scope Z_scope.

(** a write inside [n] positions, of any well-formed source *)
Definition in_place (n : Z) (w : write4) : Prop :=
  match w with
  | Set4 i _ => 0 <= i < n
  | Range4 a b src => 0 <= a < n /\ 0 <= b < n /\ 1 <= lw src /\ ltyped src (lw src) (lsgn src)
  end.
(** the source has an x or z at a position from 64 on that the write would copy *)
Definition lost4 (w : write4) : Prop :=
  match w with
  | Set4 _ _ => False
  | Range4 a b src => exists q, 64 <= q < lw src /\ q <= Z.abs (a - b) /\ unknown (sym_at src q) = true
  end.
(** a write to one of the fields [fs], of a vector of the width of the field *)
Definition field_value (fs : list field) (w : field * logic) : Prop :=
  In (fst w) fs /\ ltyped (snd w) (f_width (fst w)) false /\ ltidy (snd w).
(** the value has an x or z at a position from 64 on *)
Definition lost (v : logic) (w : Z) : Prop := exists q, 64 <= q < w /\ unknown (sym_at v q) = true.

(** [big_num] objects.  Different numbers that == takes for equal: the words that only one of them has are only tested for 0. *)
Definition num_confused (x y : bnum) : Prop :=
  let k := 64 * Z.min ((n_size x + 63) / 64) ((n_size y + 63) / 64) in
  magn x mod 2 ^ k = magn y mod 2 ^ k /\ hollow (magn x / 2 ^ k) /\ hollow (magn y / 2 ^ k).
(** what > of signed objects compares for a negative number: its magnitude plus the number of patterns above the declared positions *)
Definition num_magnitude (x : bnum) : Z := 2 ^ (64 * ((n_size x + 63) / 64)) - 2 ^ n_size x - ival x.
Definition num_least (x : bnum) : Prop := ival x = - 2 ^ (n_size x - 1).
(** Division.  A hollow divisor is taken for 0; a divisor whose upper words are hollow and whose lowest word is 1 is taken for 1; and if the
    upper words of both are hollow only the lowest words are divided. *)
Definition num_divides (x y : Z) : Prop :=
  y <> 0 /\ (x <> 0 ->
    ~ hollow y /\ (hollow (y / 2 ^ 64) -> y mod 2 ^ 64 = 1 -> y = 1) /\
    (y < x -> hollow (x / 2 ^ 64) -> hollow (y / 2 ^ 64) -> y mod 2 ^ 64 <> 1 -> x / 2 ^ 64 = (x mod 2 ^ 64) / (y mod 2 ^ 64) * (y / 2 ^ 64))).
