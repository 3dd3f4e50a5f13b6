(** What a shift register holds: the last inputs, the latest at position 0, then what it held before. *)
From Coq Require Import ZArith List.
Import ListNotations.
Open Scope Z_scope.

Definition held {A} (old : Z -> A) (inputs : list A) (p : Z) : A :=
  if p <? Z.of_nat (length inputs) then nth (Z.to_nat p) (rev inputs) (old p) else old (p - Z.of_nat (length inputs)).
