(** Small specification used by the theorems on positions that are given as template constants. *)
From Coq Require Import ZArith Bool.
From Verif Require Import Cpp Bit Logic Spec SpecExact SpecMachine SpecWide SpecFour.
Open Scope Z_scope.
(** a value of type int *)
Definition int_fits (z : Z) : bool := (- 2 ^ 31 <=? z) && (z <? 2 ^ 31).
(** writing position [i] of a 2-state vector *)
Definition const_written (b : bit) (i : Z) (x : bool) : outcome bit :=
  let j := slot b i - Z.min (blsb b) (bmsb b) in
  if negb (int_fits (slot b i) && int_fits j) then IllFormed
  else if small b then with_position b i x
  else if (0 <=? j) && (j <? bw b) then Ok (placed b j x) else IllFormed.
(** writing a symbol: an unknown symbol is written to the mask first; a known one is not written at a negative index *)
Definition const_written4 (l : logic) (i : Z) (s : sym) : outcome logic :=
  if unknown s then let! m := const_written (l_xz l) i true in let! v := const_written (l_val l) i (high s) in Ok (mkLogic v m)
  else if i <? 0 then IllFormed
  else let! v := const_written (l_val l) i (high s) in let! m := const_written (l_xz l) i false in Ok (mkLogic v m).
(** reading position [i]: there is no such member for more than 64 positions and for an index above them *)
Definition const_read {A} (n i : Z) (r : outcome A) : outcome A := if (i <? n) && (n <=? 64) then r else IllFormed.
