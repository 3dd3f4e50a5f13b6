(** Client program: evaluating a polynomial. *)
From Coq Require Import ZArith List Bool.
From Verif Require Import Cpp Bit.
Import ListNotations.
Open Scope Z_scope.

(** [auto r = zero; for (i = cs.size(); i-- > 0;) r = r * d + cs[i];]: the operators of bit.hh 723-728 and 771-776.
    All vectors have one type, so the assignment copies the sum. *)
Fixpoint horner (zero d : bit) (cs : list bit) : outcome bit :=
  match cs with
  | [] => Ok zero
  | c :: cs' =>
      let! r := horner zero d cs' in
      let! p := bit_mul r d in
      bit_add p c
  end.
