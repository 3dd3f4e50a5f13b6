(** Client code: comparing numbers kept in several vectors; sorting vectors.  Only calls of the model's API are chained. *)
From Coq Require Import ZArith List Bool.
From Verif Require Import Cpp Bit Logic.
Import ListNotations.
Open Scope Z_scope.

(** [for (size_t i = 0; i < a.size(); i++) { if (a[i] < b[i]) c = true; else if (b[i] < a[i]) c = false; }] over two std::vectors of one length (bit.hh 646-658) *)
Fixpoint long_less (ps : list (bit * bit)) (c : bool) : outcome bool :=
  match ps with
  | [] => Ok c
  | (a, b) :: ps' =>
      let! l := bit_lt a b in
      let! d := if l then Ok true else let! g := bit_lt b a in Ok (if g then false else c) in
      long_less ps' d
  end.

(** [for (j = i; j > 0 && a[j] < a[j - 1]; j--) std::swap(a[j], a[j - 1]);]: [x] is a[j], the list holds a[j - 1], a[j - 2], ...;
    [less] is what the condition evaluates to (bit.hh 646-658; logic.hh 281-284, 699-702) *)
Fixpoint sink {A} (less : A -> A -> outcome bool) (x : A) (l : list A) : outcome (list A) :=
  match l with
  | [] => Ok [x]
  | y :: l' => let! c := less x y in if c then let! r := sink less x l' in Ok (y :: r) else Ok (x :: l)
  end.
(** [for (size_t i = 0; i < a.size(); i++)] around it; the result is a[0], a[1], ... *)
Definition sort {A} (less : A -> A -> outcome bool) (l : list A) : outcome (list A) := omap (@rev A) (ofold (fun r x => sink less x r) l []).
Definition sort2 : list bit -> outcome (list bit) := sort bit_lt.
(** the condition is converted by operator bool of logic *)
Definition sort4 : list logic -> outcome (list logic) := sort (fun a b => let! r := logic_lt a b in Ok (logic_bool r)).
