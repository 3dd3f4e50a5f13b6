(** The highest and the lowest of the positions below [n] that have a property; -1 if there is none. *)
From Coq Require Import ZArith.
Open Scope Z_scope.

Definition highest (P : Z -> Prop) (n r : Z) : Prop :=
  (r = -1 /\ forall p, 0 <= p < n -> ~ P p) \/ (0 <= r < n /\ P r /\ forall p, r < p < n -> ~ P p).
Definition lowest (P : Z -> Prop) (n r : Z) : Prop :=
  (r = -1 /\ forall p, 0 <= p < n -> ~ P p) \/ (0 <= r < n /\ P r /\ forall p, 0 <= p < r -> ~ P p).
