(** Property theorems: case equality of unsigned vectors of any two widths and bounds; stepping vectors of any width and bounds. *)
From Coq Require Import ZArith List Bool.
From Verif Require Import Cpp BigNum Bit Logic Spec SpecIff SpecMono MatchProofs MonoProofs.
Import ListNotations.
Open Scope Z_scope.

(** C36: match() of vectors of different types, the shorter one continued by 0: it is true if all symbols agree, and false otherwise exactly
    when == does not confuse the values or does not confuse the masks (see C30) *)
Theorem C36_types_exact : forall a b, lvec a -> lvec b -> ltidy a -> ltidy b -> lsgn a = false -> lsgn b = false ->
  exists c, logic_match a b = Ok c /\ ((forall p, 0 <= p -> sym_at a p = sym_at b p) -> c = true) /\
    ((c = true <-> forall p, 0 <= p -> sym_at a p = sym_at b p) <->
     (forall p, 0 <= p -> sym_at a p = sym_at b p) \/ ~ ((num (l_val a) = num (l_val b) \/ confused (l_val a) (l_val b)) /\ (num (l_xz a) = num (l_xz b) \/ confused (l_xz a) (l_xz b)))).
Proof. exact match_types. Qed.
Print Assumptions C36_types_exact.
Definition four (n v m : Z) : logic := mkLogic (bit_of_arith (n - 1) 0 false v) (bit_of_arith (n - 1) 0 false m).
(** the 12 symbols 0001_0000_00x1 match the 8 symbols 0000_00x1 only if the longer vector is on the right *)
Example C36_types_ex : lvec (four 8 1 2) /\ lvec (four 12 257 2) /\ ltidy (four 8 1 2) /\ ltidy (four 12 257 2) /\ logic_match (four 8 1 2) (four 12 257 2) = Ok true /\ logic_match (four 12 257 2) (four 8 1 2) = Ok false /\
  logic_match (four 8 1 2) (four 70 1 2) = Ok true /\ lvec (four 70 1 2) /\ ltidy (four 70 1 2) /\ sym_at (four 12 257 2) 8 = S1 /\ sym_at (four 8 1 2) 8 = S0.
Proof. repeat match goal with |- _ /\ _ => split end; vm_compute; try congruence; repeat split; congruence. Qed.

(** C44: ++ and -- of vectors of any width and bounds: exactly when they give the neighbouring number modulo 2^n *)
Theorem C44_exact : forall a, vec a ->
  ((exists r, bit_inc a = Ok r /\ num r = (num a + 1) mod 2 ^ bw a) <-> bw a = 1 /\ num a = 0 \/ 2 <= bw a /\ (bsgn a = true \/ blsb a = 0 /\ 0 <= bmsb a)) /\
  ((exists r, bit_dec a = Ok r /\ num r = (num a - 1) mod 2 ^ bw a) <-> bw a = 1 \/ 2 <= bw a /\ (bsgn a = true \/ blsb a = 0 /\ 0 <= bmsb a)).
Proof. intros a V. exact (conj (inc_iff a V) (dec_iff a V)). Qed.
Print Assumptions C44_exact.
(** 200 in bit<7,0> and in bit<0,7>, which has no ++; 1 in bit<0,0>, where ++ stays at 1 *)
Example C44_exact_ex : let a := bit_of_arith 7 0 false 200 in let b := bit_of_arith 0 7 false 200 in let c := bit_of_arith 0 0 false 1 in let d := bit_of_arith 0 99 true 5 in
  vec a /\ vec b /\ vec c /\ vec d /\ omap num (bit_inc a) = Ok 201 /\ bit_inc b = IllFormed /\ omap num (bit_inc c) = Ok 1 /\ omap num (bit_dec d) = Ok 4.
Proof. repeat match goal with |- _ /\ _ => split end; vm_compute; try congruence; repeat split; congruence. Qed.

(** C82: where known results of & | ^ stay when x and z are replaced by known values: everywhere but at z & 1 and x | 0 *)
Theorem C82_exact : forall a b n p, 2 <= n -> ltyped a n false -> ltyped b n false -> 0 <= p < n ->
  (stable logic_and n a b p <-> ~ (sym_at a p = SZ /\ sym_at b p = S1)) /\ (stable logic_or n a b p <-> ~ (sym_at a p = SX /\ sym_at b p = S0)) /\ stable logic_xor n a b p.
Proof. intros a b n p N A B P. exact (conj (and_stable a b n p N A B P) (conj (or_stable a b n p N A B P) (xor_stable a b n p N A B P))). Qed.
Print Assumptions C82_exact.
(** 0000_00zx and 0000_0010: z & 1 is 1, x | 0 is 1 *)
Example C82_exact_ex : ltyped (four 8 2 3) 8 false /\ ltyped (four 8 2 0) 8 false /\ sym_at (four 8 2 3) 1 = SZ /\ sym_at (four 8 2 3) 0 = SX /\ sym_at (four 8 2 0) 1 = S1 /\
  omap (fun r => sym_at r 1) (logic_and (four 8 2 3) (four 8 2 0)) = Ok S1 /\ omap (fun r => sym_at r 0) (logic_or (four 8 2 3) (four 8 2 0)) = Ok S1 /\ ltyped (four 100 2 3) 100 false.
Proof. repeat match goal with |- _ /\ _ => split end; vm_compute; try congruence; repeat split; congruence. Qed.
