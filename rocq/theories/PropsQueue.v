(** C164: a queue kept in a packed array. *)
From Coq Require Import ZArith List Bool Lia.
From Verif Require Import Cpp BigNum Bit Logic Arr Spec SpecArr SpecExact SpecArrRef SpecQueue Queue ArrProofs QueueProofs.
Import ListNotations.
Open Scope Z_scope.

(** C164 is false for the full capacity: five slots of 16 positions, five values pushed, the first one comes back without
    its lowest position *)
Theorem C164_refuted : exists t a cs outs rs r v, arr4 t a /\ Z.min (pa_msb t) (pa_lsb t) = 0 /\ 65 <= bits t /\ Forall (accepted (pa_base t)) cs /\
  fifo (elems t) cs [] = Some outs /\ q_run t cs (mkQueue a 1 1) = Ok rs /\ nth_error outs 0 = Some v /\ nth_error rs 0 = Some r /\ sym_at v 0 = S1 /\ sym_at r 0 = S0.
Proof. exact queue_counter. Qed.
Print Assumptions C164_refuted.
(** It holds for a queue that never gets full, for all sequences of calls, contents of the array and values with x and z.  Missing: the
    full queue (false, see [C164_exact]); arrays of at most 64 bits with elements of one bit or without a spare position of storage (undefined
    or mixed, [C51_exact]); values with an x or z at position 64 or above (undefined, [C148_sequence_exact]). *)
Theorem C164_partial : forall t a h cs outs, arr4 t a -> Z.min (pa_msb t) (pa_lsb t) = 0 -> (bits t <= 64 -> 2 <= pa_base t /\ bits t < storage (bits t)) ->
  0 <= h < elems t -> Forall (accepted (pa_base t)) cs -> fifo (elems t - 1) cs [] = Some outs ->
  exists rs, q_run t cs (mkQueue a h h) = Ok rs /\ Forall2 (fun r v => forall p, 0 <= p < pa_base t -> sym_at r p = sym_at v p) rs outs.
Proof. exact queue_fifo. Qed.
Print Assumptions C164_partial.
(** the full capacity: exactly which values come back without their lowest position *)
Theorem C164_exact : forall t a h cs outs, arr4 t a -> Z.min (pa_msb t) (pa_lsb t) = 0 -> (bits t <= 64 -> 2 <= pa_base t /\ bits t < storage (bits t)) ->
  0 <= h < elems t -> Forall (accepted (pa_base t)) cs -> damaged (elems t) h cs [] = Some outs ->
  exists rs, q_run t cs (mkQueue a h h) = Ok rs /\ Forall2 (shows (pa_base t)) rs outs.
Proof. exact queue_all. Qed.
Print Assumptions C164_exact.
Example C164_ex : let t := mkParrTy 16 false 4 0 in let cs := [Push (k4 16 7); Push (k4 16 9); Pop; Push (k4 16 5); Push (k4 16 3); Push (k4 16 1); Pop; Pop; Pop; Push (k4 16 8); Pop; Pop] in
  arr4 t (k80 5 9) /\ Z.min (pa_msb t) (pa_lsb t) = 0 /\ (bits t <= 64 -> 2 <= pa_base t /\ bits t < storage (bits t)) /\ 0 <= 3 < elems t /\ Forall (accepted (pa_base t)) cs /\
  fifo (elems t - 1) cs [] = Some [k4 16 7; k4 16 9; k4 16 5; k4 16 3; k4 16 1; k4 16 8] /\
  damaged (elems t) 1 (map (fun v => Push (k4 16 v)) [7; 9; 5; 3; 1] ++ [Pop; Pop]) [] = Some [(k4 16 7, true); (k4 16 9, false)] /\
  (let t := mkParrTy 5 true 2 0 in bits t <= 64 /\ 2 <= pa_base t /\ bits t < storage (bits t)).
Proof. exact queue_ex. Qed.
