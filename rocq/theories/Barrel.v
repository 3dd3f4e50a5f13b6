(** Client programs: barrel shifters. *)
From Coq Require Import ZArith List Bool.
From Verif Require Import Cpp Bit.
Import ListNotations.
Open Scope Z_scope.

(** [for (int i = 0; i < m; i++) if (k[i]) a = a << s[i];]: operator[] of bit.hh 47-52, operator<< of bit.hh 539-560.
    [a] is unsigned and declared from n-1 down to 0, so the shifted vector has its type and the assignment copies it; [s] are the amounts of the stages. *)
Definition barrel_left (m : Z) (s : Z -> bit) (k a : bit) : outcome bit :=
  ofold (fun a i => let! c := bit_get k i in if c then bit_shl a (s i) else Ok a) (zrange 0 m) a.
(** the same with >>: bit.hh 485-505 *)
Definition barrel_right (m : Z) (s : Z -> bit) (k a : bit) : outcome bit :=
  ofold (fun a i => let! c := bit_get k i in if c then bit_shr a (s i) else Ok a) (zrange 0 m) a.
