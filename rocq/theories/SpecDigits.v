(** Digits of a number in some base: the lowest digit comes first, the highest is not 0. *)
From Coq Require Import ZArith List.
From Verif Require Import Bit Spec.
Import ListNotations.
Open Scope Z_scope.

Fixpoint digits_num (base : Z) (ds : list bit) : Z := match ds with [] => 0 | d :: ds' => num d + base * digits_num base ds' end.
Definition digits_of (n base z : Z) (ds : list bit) : Prop :=
  digits_num base ds = z /\ (forall d, In d ds -> typed d n false /\ tidy d /\ num d < base) /\ forall l d, ds = l ++ [d] -> num d <> 0.
