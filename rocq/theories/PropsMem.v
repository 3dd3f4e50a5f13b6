(** Property theorems about sequences of array writes (see SpecMem.v) and the [and] reduction of [big_num]. *)
From Coq Require Import ZArith List Bool.
From Verif Require Import Cpp BigNum Bit Logic Arr BigObj Reduce Spec SpecArr SpecBig SpecMem BitMain LogicMain ArrProofs CounterProofs BigObjProofs MemProofs ReduceProofs.
Import ListNotations.
Open Scope Z_scope.

(** C148: writing element 1 and then element 0 with a run-time index damages element 1 *)
Theorem C148_refuted : let t := mkParrTy 4 false 2 0 in exists a r, arr4 t a /\ index (k4 8 1) 1 /\ index (k4 8 0) 0 /\ element t 1 /\ element t 0 /\
  write_at t [(k4 8 1, k4 4 5); (k4 8 0, k4 4 5)] a = Ok r /\ sym_at (k4 4 5) 0 = S1 /\ sym_at r (start t 1) = S0.
Proof. exact downwards_counter. Qed.
Print Assumptions C148_refuted.
(** with constant indices every element holds what was written to it last.  Missing: values with x or z at position 64 or above (C53). *)
Theorem C148_constant_partial : forall t ws,
  Forall (fun w => element t (fst w) /\ ltyped (snd w) (pa_base t) (lsgn (snd w)) /\ forall q, 64 <= q < pa_base t -> unknown (sym_at (snd w) q) = false) ws ->
  forall a, arr4 t a -> exists r, write_each t ws a = Ok r /\ arr4 t r /\
    forall i p, element t i -> 0 <= p < pa_base t -> sym_at r (start t i + p) = match latest ws i with Some v => sym_at v p | None => sym_at a (start t i + p) end.
Proof. exact each_latest. Qed.
Print Assumptions C148_constant_partial.
(** with run-time indices: filling upwards is right.  Missing: other orders (false), see C52 for the conditions. *)
Theorem C148_fill_partial : forall t ws, 2 <= pa_base t * elems t -> (forall q w, In w ws -> 64 <= q < pa_base t -> unknown (sym_at (snd w) q) = false) ->
  (forall w, In w ws -> ltyped (snd w) (pa_base t) (lsgn (snd w))) ->
  forall i a, arr4 t a -> ascending i ws -> 0 <= i -> (forall j, i <= j < i + Z.of_nat (length ws) -> element t j /\ j < pa_base t * elems t /\ (start t j + pa_base t = 64 -> pa_base t * elems t <> 64)) ->
  exists r, write_at t ws a = Ok r /\ arr4 t r /\
    (forall k w, nth_error ws k = Some w -> forall p, 0 <= p < pa_base t -> sym_at r (start t (i + Z.of_nat k) + p) = sym_at (snd w) p) /\
    forall q, 0 <= q < pa_base t * elems t -> ~ start t i <= q <= start t (i + Z.of_nat (length ws)) -> sym_at r q = sym_at a q.
Proof. exact fill_latest. Qed.
Print Assumptions C148_fill_partial.
Theorem C148_bit_fill_partial : forall t ws, 2 <= pa_base t * elems t -> pa_base t <> 32 -> pa_base t <> 64 ->
  (forall w, In w ws -> typed (snd w) (pa_base t) false /\ tidy (snd w)) ->
  forall i a, arr2 t a -> ascending i ws -> 0 <= i -> (forall j, i <= j < i + Z.of_nat (length ws) -> element t j /\ j < pa_base t * elems t /\ (start t j + pa_base t = 64 -> pa_base t * elems t <> 64)) ->
  exists r, write_at_bit t ws a = Ok r /\ arr2 t r /\
    (forall k w, nth_error ws k = Some w -> forall p, 0 <= p < pa_base t -> bit_at r (start t (i + Z.of_nat k) + p) = bit_at (snd w) p) /\
    forall q, 0 <= q < pa_base t * elems t -> ~ start t i <= q <= start t (i + Z.of_nat (length ws)) -> bit_at r q = bit_at a q.
Proof. exact fill_latest_bit. Qed.
Print Assumptions C148_bit_fill_partial.
(** and the elements read back with the same indices are the values.  Missing: one-bit elements and native arrays filled to the end of their storage (C51). *)
Theorem C148_fill_read_partial : forall t ws, 2 <= pa_base t -> 2 <= pa_base t * elems t -> (forall q w, In w ws -> 64 <= q < pa_base t -> unknown (sym_at (snd w) q) = false) ->
  (forall w, In w ws -> ltyped (snd w) (pa_base t) (lsgn (snd w))) ->
  forall i a, arr4 t a -> ascending i ws -> 0 <= i -> (forall j, i <= j < i + Z.of_nat (length ws) -> element t j /\ j < pa_base t * elems t) ->
  (pa_base t * elems t <= 64 -> start t (i + Z.of_nat (length ws)) < iwidth (hty (pa_base t * elems t) (pa_sgn t))) ->
  exists r, write_at t ws a = Ok r /\ forall k w, nth_error ws k = Some w -> exists e, pa_get t r (fst w) = Ok e /\ forall p, 0 <= p < pa_base t -> sym_at e p = sym_at (snd w) p.
Proof. exact fill_read. Qed.
Print Assumptions C148_fill_read_partial.
Example C148_ex : let t := mkParrTy 4 false 2 0 in let ws := [(k4 8 0, k4 4 5); (k4 8 1, mkLogic (bit_of_native 3 0 false 9) (bit_of_native 3 0 false 3)); (k4 8 2, k4 4 12)] in
  arr4 t (k4 12 7) /\ ascending 0 ws /\ (forall w, In w ws -> ltyped (snd w) 4 (lsgn (snd w))) /\ element t 2 /\ start t 3 < iwidth (hty 12 false) /\
  (let! r := write_at t ws (k4 12 7) in pa_get t r (k4 8 1)) = Ok (mkLogic (bit_of_native 3 0 false 9) (bit_of_native 3 0 false 3)) /\
  write_each t [(1, k4 4 5); (0, k4 4 3); (1, k4 4 6)] (k4 12 7) = Ok (k4 12 99).
Proof.
  cbv zeta. split; [conc|]. split; [cbn [ascending]; split; [idx|]; split; [idx|]; split; [idx|exact I]|]. split; [intros w [<- | [<- | [<- | []]]]; conc|]. split; [conc|]. split; [vm_compute; reflexivity|]. split; vm_compute; reflexivity.
Qed.

(** C149: writes to unpacked arrays, any sequence of constant indices: the writes with an index below the number of elements are carried
    out, the others ignored; exactly when one of the former is outside the declared range the behaviour is undefined *)
Theorem C149_sequence_exact : forall (T V : Type) (assign : T -> V -> outcome T) (f : V -> T) (dflt : T) msb lsb, int_ok msb /\ int_ok lsb /\ width msb lsb < 2 ^ 31 ->
  forall ws, Forall (fun w => int_ok (fst w) /\ int_ok (fst w - Z.min msb lsb) /\ forall x, assign x (snd w) = Ok (f (snd w))) ws ->
  forall a, Z.of_nat (length a) = width msb lsb ->
    ((forall w, In w (heeded msb lsb ws) -> in_range msb lsb (fst w)) -> exists r, write_unpacked assign dflt msb lsb ws a = Ok r /\ length r = length a /\
       forall i, int_ok i -> ua_get dflt msb lsb r i = match latest (heeded msb lsb ws) i with Some v => Ok (f v) | None => ua_get dflt msb lsb a i end) /\
    (write_unpacked assign dflt msb lsb ws a = UB <-> exists w, In w (heeded msb lsb ws) /\ ~ in_range msb lsb (fst w)).
Proof. exact @unpacked_exact. Qed.
Print Assumptions C149_sequence_exact.
(** Missing: declared ranges that do not start at 0, for indices not smaller than the number of elements (ignored, C54_refuted). *)
Theorem C149_latest_partial : forall (T V : Type) (assign : T -> V -> outcome T) (f : V -> T) (dflt : T) msb lsb, int_ok msb /\ int_ok lsb /\ width msb lsb < 2 ^ 31 ->
  forall ws, Forall (fun w => in_range msb lsb (fst w) /\ 0 <= fst w < width msb lsb /\ forall x, assign x (snd w) = Ok (f (snd w))) ws ->
  forall a, Z.of_nat (length a) = width msb lsb -> exists r, write_unpacked assign dflt msb lsb ws a = Ok r /\ length r = length a /\
    forall i, int_ok i -> ua_get dflt msb lsb r i = match latest ws i with Some v => Ok (f v) | None => ua_get dflt msb lsb a i end.
Proof. exact @latest_unpacked. Qed.
Print Assumptions C149_latest_partial.
Theorem C149_refuted : let ws := [(4, bit_of_native 7 0 false 9)] in let a := four 1 2 3 4 in
  in_range 5 2 4 /\ write_unpacked bit_assign (bit_zero 7 0 false) 5 2 ws a = Ok a /\ latest ws 4 = Some (bit_of_native 7 0 false 9) /\ ua_get (bit_zero 7 0 false) 5 2 a 4 = Ok (bit_of_native 7 0 false 3).
Proof. cbv zeta. split; [conc|]. split; [vm_compute; reflexivity|]. split; vm_compute; reflexivity. Qed.
Print Assumptions C149_refuted.
Example C149_ex : int_ok 3 /\ int_ok 0 /\ Z.of_nat (length (four 1 2 3 4)) = width 3 0 /\
  write_unpacked (fun _ v => Ok v) 0 3 0 [(1, 7); (2, 8); (9, 5); (1, 6)] [1; 2; 3; 4] = Ok [1; 6; 8; 4] /\ latest (heeded 3 0 [(1, 7); (2, 8); (9, 5); (1, 6)]) 1 = Some 6.
Proof. conc. Qed.

(** C150: all ones in 128 positions reduce to 0, the number 2 to 1; an 8-bit zero to 1 (compilers that accept the member) *)
Theorem C150_refuted : (exists x, is_num x 128 false /\ inwidth x /\ magn x = 2 ^ 128 - 1 /\ num_r_and true x = Ok false) /\
  (exists x, is_num x 128 false /\ inwidth x /\ magn x = 2 /\ num_r_and true x = Ok true) /\ (exists x, is_num x 8 false /\ inwidth x /\ magn x = 0 /\ num_r_and true x = Ok true).
Proof. exact r_and_counter. Qed.
Print Assumptions C150_refuted.
(** what the reduction gives *)
Theorem C150_value : forall x n s, is_num x n s -> exists b, num_r_and true x = Ok b /\ (b = true <-> n = 8 \/ (magn x mod 2 ^ lower n <> 2 ^ lower n - 1 /\ pos x ((n - 1) / 64) = true)).
Proof. exact r_and_num. Qed.
Print Assumptions C150_value.
(** it is right exactly for the 8-bit number 255 and for numbers that are not all ones and have ones in all lower words or a 0 in one certain position *)
Theorem C150_exact : forall x n s, is_num x n s ->
  (exists b, num_r_and true x = Ok b /\ (b = true <-> magn x = 2 ^ n - 1)) <->
  if n =? 8 then magn x = 255 else magn x <> 2 ^ n - 1 /\ (magn x mod 2 ^ lower n = 2 ^ lower n - 1 \/ pos x ((n - 1) / 64) = false).
Proof. exact r_and_exact. Qed.
Print Assumptions C150_exact.
Example C150_ex : is_num (mkNum 128 false [5; 7]) 128 false /\ magn (mkNum 128 false [5; 7]) <> 2 ^ 128 - 1 /\ pos (mkNum 128 false [5; 7]) ((128 - 1) / 64) = false /\ num_r_and true (mkNum 128 false [5; 7]) = Ok false.
Proof. cnum. Qed.
