(** More small specifications used by the theorems that say exactly when a property holds. *)
From Coq Require Import ZArith List Bool.
From Verif Require Import Cpp Bit Logic Spec.
Import ListNotations.
Open Scope Z_scope.

(** widths whose storage has no spare bit *)
Definition fills (n : Z) : Prop := n = 8 \/ n = 16 \/ n = 32 \/ n = 64 \/ (65 <= n /\ n mod 64 = 0).
(** Widening a signed vector to [m] positions goes wrong: one position holding 1 (-1) is filled with zeros, a non-negative wide vector with ones. *)
Definition misread (x : bit) (m : Z) : Prop := bw x < m /\ bsgn x = true /\ ((bw x = 1 /\ num x = 1) \/ (65 <= bw x /\ 0 <= snum x)).
