(** Client code: a shift register.  Only calls of the model's API are chained. *)
From Coq Require Import ZArith List Bool.
From Verif Require Import Cpp Bit Logic.
Import ListNotations.
Open Scope Z_scope.

(** [for (auto const &x : inputs) r = r.slice<n - 2, 0>().concat(x);] where the inputs are one position wide: bit.hh 150-175, 272-291; logic.hh 178-182, 239-247.
    The concatenation has the type of r, the assignment copies it. *)
Definition shift_in (n : Z) (r x : bit) : outcome bit := let! s := bit_slice_c r (n - 2) 0 in bit_concat s x.
Definition shift_all (n : Z) (r : bit) (xs : list bit) : outcome bit := ofold (shift_in n) xs r.
Definition shift_in4 (n : Z) (r x : logic) : outcome logic := let! s := logic_slice_c r (n - 2) 0 in logic_concat s x.
Definition shift_all4 (n : Z) (r : logic) (xs : list logic) : outcome logic := ofold (shift_in4 n) xs r.
