(** Replacing x and z by known values. *)
From Coq Require Import ZArith List Bool.
From Verif Require Import Cpp BigNum Bit Logic Spec.
Open Scope Z_scope.

(** [s'] is [s], or a known value in place of x or z *)
Definition settled (s' s : sym) : Prop := s' = s \/ (unknown s = true /\ unknown s' = false).
(** the result of [op a b] at position [p], if it is known, stays whatever known values replace the x and z of the operands *)
Definition stable (op : logic -> logic -> outcome logic) (n : Z) (a b : logic) (p : Z) : Prop :=
  forall a' b', ltyped a' n false -> ltyped b' n false -> (forall q, 0 <= q < n -> settled (sym_at a' q) (sym_at a q)) -> (forall q, 0 <= q < n -> settled (sym_at b' q) (sym_at b q)) ->
  forall r r', op a b = Ok r -> op a' b' = Ok r' -> unknown (sym_at r p) = false -> sym_at r' p = sym_at r p.
