(** Client code: taking a number apart into digits.  Only calls of the model's API are chained. *)
From Coq Require Import ZArith List Bool.
From Verif Require Import Cpp Bit.
Import ListNotations.
Open Scope Z_scope.

(** [while (zero < a) { r.push_back(a % d); a = a / d; }]: bit.hh 646-658, 787-833; the fuel bounds the number of turns, too little gives [Fuel].
    All vectors have one type, so the assignment copies the quotient. *)
Fixpoint digits (fuel : nat) (zero d a : bit) : outcome (list bit) :=
  match fuel with
  | O => Fuel
  | S f =>
      let! c := bit_lt zero a in
      if c then
        let! r := bit_rem a d in
        let! q := bit_div a d in
        let! ds := digits f zero d q in
        Ok (r :: ds)
      else Ok []
  end.
