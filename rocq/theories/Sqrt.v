(** Client code: the integer square root.  Only calls of the model's API are chained. *)
From Coq Require Import ZArith List Bool.
From Verif Require Import Cpp Bit.
Import ListNotations.
Open Scope Z_scope.

(** [auto r = zero; for (auto const &m : masks) { auto t = r + m; if (a >= t * t) r = t; }]: the operators of bit.hh 626-695, 723-728 and 771-776 *)
Definition isqrt (masks : list bit) (zero a : bit) : outcome bit :=
  ofold (fun r m => let! t := bit_add r m in let! q := bit_mul t t in let! c := bit_ge a q in Ok (if c then t else r)) masks zero.
