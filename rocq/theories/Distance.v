(** Client programs: the Hamming distance of two vectors. *)
From Coq Require Import ZArith List Bool.
From Verif Require Import Cpp Bit Trick.
Import ListNotations.
Open Scope Z_scope.

(** [int c = 0; for (int i = 0; i < n; i++) if (a[i] != b[i]) c++;]: operator[] of bit.hh 47-52 *)
Definition distance (n : Z) (a b : bit) : outcome Z :=
  ofold (fun c i => let! x := bit_get a i in let! y := bit_get b i in Ok (if xorb x y then c + 1 else c)) (zrange 0 n) 0.
(** counting the ones of [a ^ b] (bit.hh 400-405) by clearing them, see [Trick.v] *)
Definition distance_cleared (fuel : nat) (one a b : bit) : outcome Z := let! x := bit_xor a b in count_ones fuel one x 0.
