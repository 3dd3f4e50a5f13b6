(** A client program: a first-in first-out queue kept in a 4-state packed array, read and written with run-time indices. *)
From Coq Require Import ZArith List Bool.
From Verif Require Import Cpp BigNum Bit Logic Arr SpecArr SpecQueue.
Import ListNotations.
Open Scope Z_scope.

(** the array, [int] indices of the oldest element and of the next free one *)
Record queue := mkQueue { q_arr : logic; q_head : Z; q_tail : Z }.
(** [logic<31, 0>(i)], the constructor from an [int], logic.hh 1009-1011 *)
Definition q_index (i : Z) : logic := logic_of_arith 31 0 false i.
(** [a.update(logic<31, 0>(tail), v); tail = (tail + 1) % n]: array.hh 100-117.  The client keeps [0 <= tail < n], so the [int]
    arithmetic does not overflow. *)
Definition q_push (t : parr_ty) (q : queue) (v : logic) : outcome queue :=
  let! a := pa_update t (q_arr q) (q_index (q_tail q)) v in
  Ok (mkQueue a (q_head q) ((q_tail q + 1) mod elems t)).
(** [auto r = a[logic<31, 0>(head)]; head = (head + 1) % n]: array.hh 79-98 *)
Definition q_pop (t : parr_ty) (q : queue) : outcome (logic * queue) :=
  let! r := pa_get t (q_arr q) (q_index (q_head q)) in
  Ok (r, mkQueue (q_arr q) ((q_head q + 1) mod elems t) (q_tail q)).
(** a sequence of calls: what the pops return, in order *)
Fixpoint q_run (t : parr_ty) (cs : list call) (q : queue) : outcome (list logic) :=
  match cs with
  | [] => Ok []
  | Push v :: r => let! q' := q_push t q v in q_run t r q'
  | Pop :: r => let! p := q_pop t q in let! o := q_run t r (snd p) in Ok (fst p :: o)
  end.
