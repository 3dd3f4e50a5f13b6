(** Client code: moving the positions of a vector.  Only calls of the model's API are chained. *)
From Coq Require Import ZArith List Bool.
From Verif Require Import Cpp Bit Logic.
Import ListNotations.
Open Scope Z_scope.

(** [for (int i = 0; i < n; i++) r.set(i, a[f(i)]);]: operator[] and set of bit.hh 47-52, 69-82 *)
Definition gather (f : Z -> Z) (n : Z) (a r : bit) : outcome bit :=
  ofold (fun r i => let! x := bit_get a (f i) in bit_set r i x) (zrange 0 n) r.
(** [for (int i = 0; i < n; i++) r.set(f(i), a[i]);] *)
Definition scatter (f : Z -> Z) (n : Z) (a r : bit) : outcome bit :=
  ofold (fun r i => let! x := bit_get a i in bit_set r (f i) x) (zrange 0 n) r.
(** [for (int i = 0; i < n / 2; i++) { bool t = a[i], u = a[n - 1 - i]; a.set(i, u); a.set(n - 1 - i, t); }] *)
Definition reverse (n : Z) (a : bit) : outcome bit :=
  ofold (fun a i => let! t := bit_get a i in let! u := bit_get a (n - 1 - i) in let! a' := bit_set a i u in bit_set a' (n - 1 - i) t) (zrange 0 (n / 2)) a.

(** the same over logic: logic.hh 54-70, 134-137, 1111-1115; [auto t = a[i]] is a logic<0> *)
Definition gather4 (f : Z -> Z) (n : Z) (a r : logic) : outcome logic :=
  ofold (fun r i => let! x := logic_get a (f i) in logic_set_l r i x) (zrange 0 n) r.
Definition scatter4 (f : Z -> Z) (n : Z) (a r : logic) : outcome logic :=
  ofold (fun r i => let! x := logic_get a i in logic_set_l r (f i) x) (zrange 0 n) r.
Definition reverse4 (n : Z) (a : logic) : outcome logic :=
  ofold (fun a i => let! t := logic_get a i in let! u := logic_get a (n - 1 - i) in let! a' := logic_set_l a i u in logic_set_l a' (n - 1 - i) t) (zrange 0 (n / 2)) a.
