(** A register that sums up what it is given.  [None] stands for a register that holds x everywhere. *)
From Coq Require Import ZArith List Bool.
From Verif Require Import Cpp Bit Logic Spec.
Import ListNotations.
Open Scope Z_scope.

(** what one clock edge is given: reset, enable and the summand ([None]: the summand holds an x or z).  A reset or enable that is x or z counts as 0. *)
Definition edge : Type := (sym * sym * option Z)%type.
Definition next (n : Z) (st : option Z) (e : edge) : option Z :=
  match e with
  | (S1, _, _) => Some 0
  | (_, S1, d) => match st, d with Some x, Some y => Some ((x + y) mod 2 ^ n) | _, _ => None end
  | _ => st
  end.
(** a vector holds a state *)
Definition holds_state (n : Z) (r : logic) (st : option Z) : Prop :=
  match st with None => all_x r | Some z => known r /\ num (l_val r) = z end.
(** what a summand stands for *)
Definition stands_for (d : logic) (v : option Z) : Prop := match v with None => ~ known d | Some z => known d /\ num (l_val d) = z end.
(** the vectors of one clock edge *)
Definition given (n : Z) (i : logic * logic * logic) (e : edge) : Prop :=
  let '(rst, en, d) := i in let '(sr, se, v) := e in
  ltyped rst 1 false /\ sym_at rst 0 = sr /\ ltyped en 1 false /\ sym_at en 0 = se /\ ltyped d n false /\ ltidy d /\ stands_for d v.
