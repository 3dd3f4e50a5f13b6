(** Client code: an adder made of single positions, rotations made of shifts, Gray codes.
    Only calls of the model's API are chained. *)
From Coq Require Import ZArith List Bool.
From Verif Require Import Cpp BigNum Bit Logic Spec.
Import ListNotations.
Open Scope Z_scope.

(** [bool c = false; for (int i = 0; i < n; i++) { bool x = a[i], y = b[i]; r.set(i, x ^ y ^ c); c = (x && y) || (c && (x ^ y)); }] *)
Definition ripple_step (a b : bit) (st : bit * bool) (i : Z) : outcome (bit * bool) :=
  let (r, c) := st in
  let! x := bit_get a i in
  let! y := bit_get b i in
  let! r' := bit_set r i (xorb (xorb x y) c) in
  Ok (r', (x && y) || (c && xorb x y)).
Definition ripple (n : Z) (a b r : bit) : outcome (bit * bool) := ofold (ripple_step a b) (zrange 0 n) (r, false).

(** [logic<0> c(0); for (int i = 0; i < n; i++) { auto x = a[i], y = b[i]; r.set(i, x ^ y ^ c); c = (x & y) | (c & (x ^ y)); }] *)
Definition ripple4_step (a b : logic) (st : logic * logic) (i : Z) : outcome (logic * logic) :=
  let (r, c) := st in
  let! x := logic_get a i in
  let! y := logic_get b i in
  let! s := logic_xor x y in
  let! s' := logic_xor s c in
  let! r' := logic_set_l r i s' in
  let! g := logic_and x y in
  let! p := logic_and c s in
  let! c' := logic_or g p in
  Ok (r', c').
Definition ripple4 (n : Z) (a b r : logic) : outcome (logic * logic) := ofold (ripple4_step a b) (zrange 0 n) (r, logic_of_arith 0 0 false 0).

(** [(a << k) | (a >> l)] *)
Definition rotate (a k l : bit) : outcome bit :=
  let! x := bit_shl a k in let! y := bit_shr a l in bit_or x y.

(** [a ^ (a >> one)] *)
Definition gray (a one : bit) : outcome bit := let! x := bit_shr a one in bit_xor a x.
(** [for (auto const &k : ks) a = a ^ (a >> k)] *)
Definition ungray (ks : list bit) (a : bit) : outcome bit := ofold (fun x k => let! y := bit_shr x k in bit_xor x y) ks a.
