(** Conditions used by the theorems about conversions, positions outside the range, mixed comparisons and split vectors that say
    exactly when a property holds. *)
From Coq Require Import ZArith List Bool.
From Verif Require Import Cpp Bit Logic Spec SpecExact.
Import ListNotations.
Open Scope Z_scope.

(** a vector of [n] positions can be stored in one of [m] positions *)
Definition same_kind (n m : Z) : Prop := (n <= 64 /\ m <= 64) \/ (65 <= n /\ n = m).
(** an object is accepted where a vector [msb:lsb] of signedness [s] is expected *)
Definition acceptable (msb lsb : Z) (s : bool) (msb' lsb' : Z) (s' : bool) : Prop :=
  (msb' = msb /\ lsb' = lsb /\ s' = s) \/ (s' = true /\ same_kind (width msb' lsb') (width msb lsb)).
(** the number a vector stands for in another type: a single position is 0 or 1 even if signed *)
Definition amount (a : bit) : Z := if bw a =? 1 then num a else value a.
(** the number an unsigned vector of the same width receives from a signed one, storage above the declared positions included *)
Definition received (b : bit) : Z :=
  if (2 <=? bw b) && (bw b <=? 64) && (value b <? 0) then num b + (2 ^ storage (bw b) - 2 ^ bw b) else num b.
(** conversion loses nothing and adds nothing *)
Definition clean_copy (b : bit) : Prop := bw b = 1 \/ 65 <= bw b \/ storage (bw b) = bw b \/ 0 <= value b.
(** the comparisons of 4-state vectors and of numbers *)
Definition comparisons : list ((logic -> logic -> outcome logic) * (Z -> Z -> bool)) :=
  [(logic_eq, Z.eqb); (logic_ne, fun x y => negb (x =? y)); (logic_lt, Z.ltb); (logic_gt, Z.gtb); (logic_le, Z.leb); (logic_ge, Z.geb)].
(** Joining the vectors [w0], [w1], ... (widths, most significant first) of the symbols of [l] step by step: a step of a prefix of at most 32
    positions must add at most 31 positions and give nothing but 0 above position 31. *)
Definition steps_fit (l : logic) (n w0 : Z) (ws : list Z) : Prop :=
  forall pre w post, ws = pre ++ w :: post ->
    n < 64 /\ (33 <= w0 + total pre \/ (w <= 31 /\ forall p, total post + 32 <= p < n -> sym_at l p = S0)).
