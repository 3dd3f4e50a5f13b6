(** Client code: the mean of two vectors; addition and subtraction of numbers kept in several vectors.  Only calls of the model's API are chained. *)
From Coq Require Import ZArith List Bool.
From Verif Require Import Cpp Bit.
Import ListNotations.
Open Scope Z_scope.

(** [(a & b) + ((a ^ b) >> one)]: the operators of bit.hh 360-382, 393-415, 485-506, 723-728 *)
Definition mean (one a b : bit) : outcome bit :=
  let! x := bit_and a b in let! y := bit_xor a b in let! z := bit_shr y one in bit_add x z.
(** [(a + b) >> one] *)
Definition plain_mean (one a b : bit) : outcome bit := let! s := bit_add a b in bit_shr s one.

(** [for (size_t i = 0; i < a.size(); i++) { auto s = a[i] + b[i]; auto t = s; if (c) t = s + one; c = s < a[i] || t < s; r.push_back(t); }]
    over two std::vectors of one length; [c] is a bool, the operands of || are evaluated from the left (bit.hh 626-695) *)
Fixpoint long_add (one : bit) (ps : list (bit * bit)) (c : bool) : outcome (list bit * bool) :=
  match ps with
  | [] => Ok ([], c)
  | (a, b) :: ps' =>
      let! s := bit_add a b in
      let! t := if c then bit_add s one else Ok s in
      let! d := bit_lt s a in
      let! e := if d then Ok true else bit_lt t s in
      let! r := long_add one ps' e in
      Ok (t :: fst r, snd r)
  end.
(** [for (size_t i = 0; i < a.size(); i++) { auto s = a[i] - b[i]; auto t = s; if (c) t = s - one; c = a[i] < b[i] || s < t; r.push_back(t); }] *)
Fixpoint long_sub (one : bit) (ps : list (bit * bit)) (c : bool) : outcome (list bit * bool) :=
  match ps with
  | [] => Ok ([], c)
  | (a, b) :: ps' =>
      let! s := bit_sub a b in
      let! t := if c then bit_sub s one else Ok s in
      let! d := bit_lt a b in
      let! e := if d then Ok true else bit_lt s t in
      let! r := long_sub one ps' e in
      Ok (t :: fst r, snd r)
  end.
