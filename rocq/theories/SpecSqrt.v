(** The masks of the integer square root: one position each, from the highest down to position 0. *)
From Coq Require Import ZArith List.
From Verif Require Import Bit Spec.
Import ListNotations.
Open Scope Z_scope.

Definition root_masks (n : Z) (ms : list bit) : Prop :=
  forall i m, nth_error ms i = Some m -> typed m n false /\ tidy m /\ num m = 2 ^ (Z.of_nat (length ms) - 1 - Z.of_nat i).
