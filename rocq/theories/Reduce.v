(** Model of one more member of include/logic/big_num.hh.  No proofs in this file. *)
From Coq Require Import ZArith List Bool.
From Verif Require Import Cpp BigNum BigObj.
Import ListNotations.
Open Scope Z_scope.

(** [r_and], big_num.hh 299-314.  The condition of its [if constexpr] calls [values.size()] through [this]; compilers that follow C++23
    (P2280) accept that, [constant_this]; older ones reject the member when it is used.  The first test leaves out the last word
    ([values.begin() + s - 1]); the loop runs from the number of words less one to the number of words less one. *)
Definition num_r_and (constant_this : bool) (x : bnum) : outcome bool :=
  requires constant_this
    (let s := nwords (n_size x) in
     let b := forallb (fun v => v =? 2 ^ 64 - 1) (firstn (Z.to_nat (s - 1)) (n_ws x)) in
     if s * 8 =? n_size x then Ok b
     else if b then Ok false
     else Ok (forallb (fun i => bn_get (n_size x) (n_ws x) i) (zrange (s - 1) s))).
