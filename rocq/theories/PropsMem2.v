(** C148: what any sequence of element writes to a packed array leaves, and exactly when it is undefined (see SpecMem.v). *)
From Coq Require Import ZArith List Bool Lia.
From Verif Require Import Cpp BigNum Bit Logic Arr Spec SpecArr SpecExact SpecMachine SpecWide SpecFour SpecArrRef SpecIff3 BitMain LogicMain ArrProofs CounterProofs.
From Verif Require Import SpecMem MemProofs2.
Import ListNotations.
Open Scope Z_scope.

(** C148, constant indices: undefined exactly if some value has an x or z at position 64 or above; otherwise every element holds what was
    written to it last *)
Theorem C148_constant_exact : forall t ws, Forall (fun w => element t (fst w) /\ ltyped (snd w) (pa_base t) (lsgn (snd w))) ws -> forall a, arr4 t a ->
  (write_each t ws a = UB <-> Exists (fun w => lost (snd w) (pa_base t)) ws) /\
  (~ Exists (fun w => lost (snd w) (pa_base t)) ws -> exists r, write_each t ws a = Ok r /\ arr4 t r /\
     forall i p, element t i -> 0 <= p < pa_base t -> sym_at r (start t i + p) = match latest ws i with Some v => sym_at v p | None => sym_at a (start t i + p) end).
Proof. exact constant_writes. Qed.
Print Assumptions C148_constant_exact.
(** run-time indices, in any order: exactly when the sequence is undefined, and otherwise what every position of every element holds *)
Theorem C148_sequence_exact : forall t ws a,
  Forall (fun w => index (fst (snd w)) (fst w) /\ (lw (fst (snd w)) = 1 -> lsgn (fst (snd w)) = false) /\ element t (fst w) /\ ltyped (snd (snd w)) (pa_base t) (lsgn (snd (snd w)))) ws -> arr4 t a ->
  (write_at t (map snd ws) a = UB <-> Exists (fun w => reached t (fst w) = true /\ undefined_write4 t (snd (snd w)) (fst w)) ws) /\
  (~ Exists (fun w => reached t (fst w) = true /\ undefined_write4 t (snd (snd w)) (fst w)) ws -> exists r, write_at t (map snd ws) a = Ok r /\ arr4 t r /\
     forall j p, element t j -> 0 <= p < pa_base t -> sym_at r (start t j + p) = after4 t ws j p (sym_at a (start t j + p))).
Proof. exact writes4. Qed.
Print Assumptions C148_sequence_exact.
Theorem C148_bit_sequence_exact : forall t ws a,
  Forall (fun w => index (fst (snd w)) (fst w) /\ (lw (fst (snd w)) = 1 -> lsgn (fst (snd w)) = false) /\ element t (fst w) /\ typed (snd (snd w)) (pa_base t) (bsgn (snd (snd w))) /\ tidy (snd (snd w))) ws -> arr2 t a ->
  (write_at_bit t (map snd ws) a = UB <-> Exists (fun w => reached t (fst w) = true /\ undefined_write2 t (fst w)) ws) /\
  (~ Exists (fun w => reached t (fst w) = true /\ undefined_write2 t (fst w)) ws -> exists r, write_at_bit t (map snd ws) a = Ok r /\ arr2 t r /\
     forall j p, element t j -> 0 <= p < pa_base t -> bit_at r (start t j + p) = after2 t ws j p (bit_at a (start t j + p))).
Proof. exact writes2. Qed.
Print Assumptions C148_bit_sequence_exact.
Example C148_sequence_ex : let t := mkParrTy 4 false 2 0 in let ws := [(1, (k4 8 1, k4 4 5)); (0, (k4 8 0, k4 4 9)); (2, (k4 8 2, k4 4 6))] in
  Forall (fun w => index (fst (snd w)) (fst w) /\ (lw (fst (snd w)) = 1 -> lsgn (fst (snd w)) = false) /\ element t (fst w) /\ ltyped (snd (snd w)) (pa_base t) (lsgn (snd (snd w)))) ws /\
  arr4 t (k4 12 7) /\ write_at t (map snd ws) (k4 12 7) = Ok (k4 12 (6 * 256 + 4 * 16 + 9)) /\ after4 t ws 1 0 S1 = S0 /\ after4 t ws 1 2 S0 = S1.
Proof.
  cbv zeta. split; [|split; [conc|]; split; [vm_compute; reflexivity|]; split; vm_compute; reflexivity].
  repeat (apply Forall_cons; [cbn [fst snd]; split; [idx|]; split; [discriminate|]; split; conc|]). apply Forall_nil.
Qed.
