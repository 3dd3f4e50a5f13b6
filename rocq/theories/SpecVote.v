(** Vocabulary for voting and choosing. *)
From Coq Require Import ZArith.
From Verif Require Import Bit Logic Spec.
Open Scope Z_scope.

(** at least two of the three are [v] *)
Definition agreed {A} (x y z v : A) : Prop := (x = v /\ y = v) \/ (y = v /\ z = v) \/ (x = v /\ z = v).
(** a vector of [n] positions declared with descending bounds, unsigned if it is 4-state *)
Definition copy2 (n : Z) (b : bit) : Prop := vec b /\ bw b = n /\ blsb b <= bmsb b.
Definition copy4 (n : Z) (l : logic) : Prop := lvec l /\ lw l = n /\ llsb l <= lmsb l /\ lsgn l = false.
