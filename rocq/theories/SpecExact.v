(** Small specification used by the exact-behaviour theorems: how wide a native vector of [n] positions
    is stored, and in how many bits C++ computes with it. *)
From Coq Require Import ZArith Bool.
Open Scope Z_scope.

(** vectors of 2 to 64 positions are stored in 8, 16, 32 or 64 bits *)
Definition storage (n : Z) : Z := if n <=? 8 then 8 else if n <=? 16 then 16 else if n <=? 32 then 32 else 64.
(** integer arithmetic of C++ is done in at least 32 bits *)
Definition computing (n : Z) : Z := if n <=? 32 then 32 else 64.
(** [z] is representable as a signed number of [w] bits *)
Definition signed_fits (w z : Z) : Prop := - 2 ^ (w - 1) <= z < 2 ^ (w - 1).
