(** Small specification used by the exact-behaviour theorems about 4-state vectors. *)
From Coq Require Import ZArith Bool.
From Verif Require Import Logic Spec.
Open Scope Z_scope.

(** what widening puts above a vector of [n] positions: zeros for unsigned and one-bit vectors, the value bit of the top position for
    native signed vectors, ones for multi-word signed vectors.  The x/z mask is always widened with zeros. *)
Definition fill (s : bool) (n : Z) (top : sym) : sym :=
  if s && (if n =? 1 then false else if n <=? 64 then match top with S1 | SZ => true | _ => false end else true) then S1 else S0.
Definition widened (l : logic) (n : Z) (s : bool) (p : Z) : sym := if p <? n then sym_at l p else fill s n (sym_at l (n - 1)).

(** the truth tables the library implements: IEEE 1800 but for three entries of & and two of | *)
Definition lib_and (a b : sym) : sym := match a, b with SX, S0 => SX | SZ, S1 => S1 | SZ, SZ => SZ | _, _ => and4 a b end.
Definition lib_or (a b : sym) : sym := match a, b with SX, S0 => S1 | SZ, S1 => SX | _, _ => or4 a b end.
