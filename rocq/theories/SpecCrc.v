(** Polynomials over the integers modulo 2, as numbers: bit k of the number is the coefficient of X^k, addition is exclusive or. *)
From Coq Require Import ZArith List Bool.
Import ListNotations.
Open Scope Z_scope.

(** the product: the sum of the multiples of [b] by the powers of X in [a] *)
Fixpoint times_pos (a : positive) (b : Z) : Z :=
  match a with
  | xH => b
  | xO a => 2 * times_pos a b
  | xI a => Z.lxor b (2 * times_pos a b)
  end.
Definition times (a b : Z) : Z := match a with Zpos a => times_pos a b | _ => 0 end.

(** [r] is the remainder of [a] by [d], a polynomial of degree [n] *)
Definition remainder (n a d r : Z) : Prop := 0 <= r < 2 ^ n /\ exists q, 0 <= q /\ a = Z.lxor (times q d) r.

(** the message as a polynomial, the first bit being the highest coefficient *)
Definition poly_of (message : list bool) : Z := fold_left (fun m b => 2 * m + Z.b2z b) message 0.
(** the [n] lowest bits of [v], the highest first *)
Definition bits_of (n v : Z) : list bool := map (fun i => Z.testbit v (n - 1 - Z.of_nat i)) (seq 0 (Z.to_nat n)).
