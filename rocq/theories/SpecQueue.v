(** What a first-in first-out queue returns.  Nothing here refers to arrays, indices or addresses. *)
From Coq Require Import ZArith List Bool.
From Verif Require Import Cpp Bit Logic Spec.
Import ListNotations.
Open Scope Z_scope.

Inductive call := Push (v : logic) | Pop.
(** The values that the pops return, if no pop finds the queue [l] empty and no push makes it longer than [cap]. *)
Fixpoint fifo (cap : Z) (cs : list call) (l : list logic) : option (list logic) :=
  match cs with
  | [] => Some []
  | Push v :: r => if Z.of_nat (length l) <? cap then fifo cap r (l ++ [v]) else None
  | Pop :: r => match l with [] => None | x :: l' => option_map (cons x) (fifo cap r l') end
  end.
(** The same with the one thing the library does wrong.  A queue of capacity [n] has its slots numbered from 0 to [n - 1] and the next
    push goes to slot [i].  The push that fills the queue clears the lowest position of the oldest value, unless it goes to the last
    slot.  A value is marked [true] once its lowest position is cleared. *)
Definition clear_oldest (l : list (logic * bool)) : list (logic * bool) := match l with [] => [] | (x, _) :: r => (x, true) :: r end.
Fixpoint damaged (n i : Z) (cs : list call) (l : list (logic * bool)) : option (list (logic * bool)) :=
  match cs with
  | [] => Some []
  | Push v :: r =>
      if Z.of_nat (length l) <? n then
        let l' := l ++ [(v, false)] in
        damaged n ((i + 1) mod n) r (if (Z.of_nat (length l') =? n) && negb (i =? n - 1) then clear_oldest l' else l')
      else None
  | Pop :: r => match l with [] => None | x :: l' => option_map (cons x) (damaged n i r l') end
  end.
(** [r] shows the [w] positions of the value, with or without the lowest one *)
Definition shows (w : Z) (r : logic) (x : logic * bool) : Prop :=
  forall p, 0 <= p < w -> sym_at r p = if snd x && (p =? 0) then S0 else sym_at (fst x) p.
(** the values pushed have the width [w] and no x or z at position 64 or above *)
Definition accepted (w : Z) (c : call) : Prop :=
  match c with Push v => ltyped v w (lsgn v) /\ forall q, 64 <= q < w -> unknown (sym_at v q) = false | Pop => True end.
