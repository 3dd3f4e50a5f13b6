(** Client code: a clocked register with reset and enable.  Only calls of the model's API are chained. *)
From Coq Require Import ZArith List Bool.
From Verif Require Import Cpp Bit Logic.
Import ListNotations.
Open Scope Z_scope.

(** [for (auto const &[rst, en, d] : inputs) { if (rst) r = zero; else if (en) r = r + d; }]: logic.hh 281-284, 748-763; all vectors but rst and en, which have one position, have one type *)
Definition accum_step (zero r : logic) (i : logic * logic * logic) : outcome logic :=
  let '(rst, en, d) := i in
  if logic_bool rst then Ok zero else if logic_bool en then logic_add r d else Ok r.
Definition accum (zero : logic) (is : list (logic * logic * logic)) (r : logic) : outcome logic := ofold (accum_step zero) is r.
