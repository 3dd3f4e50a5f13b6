(** Property theorems: an adder made of single positions, rotations made of shifts, Gray codes.
    The client code is in Circuit.v, [carry4], [sum4] and [amount_of] in SpecCircuit.v. *)
From Coq Require Import ZArith List Bool Lia.
From Verif Require Import Cpp BigNum Bit Logic Spec SpecExact4 BitMain3 Circuit SpecCircuit CircuitProofs CircuitExact.
Import ListNotations.
Open Scope Z_scope.

(** C155: 2-state, any width and signedness: the sum modulo 2^n, and its carry *)
Theorem C155_two_state : forall n a b r sa sb s, 1 <= n -> typed a n sa -> typed b n sb -> typed r n s ->
  exists r' c, ripple n a b r = Ok (r', c) /\ typed r' n s /\ num r' = (num a + num b) mod 2 ^ n /\ c = Z.testbit (num a + num b) n.
Proof. exact ripple_adds. Qed.
Print Assumptions C155_two_state.
(** what + gives *)
Theorem C155_plus : forall n a b r sa sb s, 2 <= n -> typed a n sa -> typed b n sb -> sa && sb = false -> typed r n s ->
  exists r' c x, ripple n a b r = Ok (r', c) /\ bit_add a b = Ok x /\ num r' = num x.
Proof. exact ripple_plus. Qed.
Print Assumptions C155_plus.
(** 4-state without x and z *)
Theorem C155_four_state_partial : forall n a b r sa sb s, 1 <= n -> ltyped a n sa -> ltyped b n sb -> ltyped r n s -> known a -> known b ->
  exists r' c, ripple4 n a b r = Ok (r', c) /\ ltyped r' n s /\ known r' /\ num (l_val r') = (num (l_val a) + num (l_val b)) mod 2 ^ n /\
    sym_at c 0 = sym_of_bool (Z.testbit (num (l_val a) + num (l_val b)) n).
Proof. exact ripple4_adds. Qed.
Print Assumptions C155_four_state_partial.
(** every symbol, also with x and z in the first 64 positions *)
Theorem C155_symbols : forall n a b r sa sb s, 1 <= n -> ltyped a n sa -> ltyped b n sb -> ltyped r n s ->
  (forall p, 64 <= p < n -> unknown (sym_at a p) = false /\ unknown (sym_at b p) = false) ->
  exists r' c, ripple4 n a b r = Ok (r', c) /\ ltyped r' n s /\ ltyped c 1 false /\
    (forall p, 0 <= p < n -> sym_at r' p = sum4 (sym_at a) (sym_at b) p) /\ sym_at c 0 = carry4 (sym_at a) (sym_at b) (Z.to_nat n).
Proof. exact ripple4_symbols. Qed.
Print Assumptions C155_symbols.
(** undefined exactly if an operand has an x or z from position 64 on (C03) *)
Theorem C155_exact : forall n a b r sa sb s, 1 <= n -> ltyped a n sa -> ltyped b n sb -> ltyped r n s ->
  (ripple4 n a b r = UB <-> exists p, 64 <= p < n /\ (unknown (sym_at a p) = true \/ unknown (sym_at b p) = true)) /\
  (ripple4 n a b r <> UB -> exists r' c, ripple4 n a b r = Ok (r', c) /\ ltyped r' n s /\ ltyped c 1 false /\
    (forall p, 0 <= p < n -> sym_at r' p = sum4 (sym_at a) (sym_at b) p) /\ sym_at c 0 = carry4 (sym_at a) (sym_at b) (Z.to_nat n)).
Proof. exact ripple4_exact. Qed.
Print Assumptions C155_exact.
Definition x2 : logic := mkLogic (bit_of_arith 1 0 false 0) (bit_of_arith 1 0 false 1).
Definition z2 : logic := logic_of_arith 1 0 false 0.
(** 0x + 00: position 1 of the sum is given as 1, but it is 0 for either value of the x *)
Theorem C155_unknown_refuted : exists a b r c, ltyped a 2 false /\ ltyped b 2 false /\ sym_at a 0 = SX /\ sym_at a 1 = S0 /\ known b /\ num (l_val b) = 0 /\
  ripple4 2 a b b = Ok (r, c) /\ sym_at r 1 = S1 /\ forall v, v = 0 \/ v = 1 -> Z.testbit (v + 0) 1 = false.
Proof.
  set (o := ripple4 2 x2 z2 z2). vm_compute in o. match goal with o := Ok (?r, ?c) |- _ => exists x2, z2, r, c end. clear o.
  split; [repeat split; vm_compute; congruence|]. split; [repeat split; vm_compute; congruence|].
  split; [vm_compute; reflexivity|]. split; [vm_compute; reflexivity|].
  split. { intros p Hp. assert (Q : p = 0 \/ p = 1) by (change (lw z2) with 2 in Hp; lia). destruct Q as [-> | ->]; vm_compute; reflexivity. }
  split; [vm_compute; reflexivity|]. split; [vm_compute; reflexivity|]. split; [vm_compute; reflexivity|].
  intros v [-> | ->]; reflexivity.
Qed.
Print Assumptions C155_unknown_refuted.
Definition a12 : bit := bit_of_arith 11 0 false 3000.
Definition b12 : bit := bit_of_arith 11 0 true (-1096).
Definition a70 : logic := logic_of_arith 69 0 false (2 ^ 64 - 5).
Definition b70 : logic := logic_of_arith 69 0 false 9.
(** position 66 is x *)
Example C155_exact_ex : let a := mkLogic (bit_of_arith 69 0 false 5) (bit_of_arith 69 0 false 0) in omap (fun m => ripple4 70 (mkLogic (l_val a) m) b70 b70) (bit_set (l_xz a) 66 true) = Ok UB.
Proof. vm_compute. reflexivity. Qed.
Example C155_ex : typed a12 12 false /\ typed b12 12 true /\ omap (fun r => (num (fst r), snd r)) (ripple 12 a12 b12 a12) = Ok (1904, true) /\
  ltyped a70 70 false /\ ltyped b70 70 false /\ omap (fun r => num (l_val (fst r))) (ripple4 70 a70 b70 a70) = Ok (2 ^ 64 + 4).
Proof. repeat split; vm_compute; congruence. Qed.

(** C156: [(a << k) | (a >> l)] with k + l = n rotates; and back again *)
Theorem C156_rotates_partial : forall n a k l s j, 2 <= n -> typed a n s -> amount_of n k -> amount_of n l -> 1 <= j < n -> value k = j -> value l = n - j ->
  exists r, rotate a k l = Ok r /\ typed r n (s && (bsgn k && bsgn l)) /\ forall p, 0 <= p < n -> bit_at r p = bit_at a ((p - j) mod n).
Proof. exact rotate_rotates. Qed.
Print Assumptions C156_rotates_partial.
Theorem C156_back_partial : forall n a k l s j, 2 <= n -> typed a n s -> amount_of n k -> amount_of n l -> 1 <= j < n -> value k = j -> value l = n - j ->
  exists r b, rotate a k l = Ok r /\ rotate r l k = Ok b /\ num b = num a.
Proof. exact rotate_back. Qed.
Print Assumptions C156_back_partial.
(** all amounts from 0 to n: undefined exactly when a native vector is shifted right by its width, or left by its width of 32 or 64 *)
Theorem C156_exact : forall n a k l s j, 2 <= n -> typed a n s -> amount_of n k -> amount_of n l -> 0 <= j <= n -> value k = j -> value l = n - j ->
  if (n <=? 64) && ((j =? 0) || (j =? n) && ((n =? 32) || (n =? 64))) then rotate a k l = UB
  else exists r, rotate a k l = Ok r /\ typed r n (s && (bsgn k && bsgn l)) /\ forall p, 0 <= p < n -> bit_at r p = bit_at a ((p - j) mod n).
Proof. exact rotate_exact. Qed.
Print Assumptions C156_exact.
(** by 0 positions: a >> 8 is undefined *)
Theorem C156_zero_refuted : exists a k l, typed a 8 false /\ amount_of 8 k /\ amount_of 8 l /\ value k = 0 /\ value l = 8 /\ rotate a k l = UB.
Proof. exists (bit_of_arith 7 0 false 129), (bit_of_arith 3 0 false 0), (bit_of_arith 3 0 false 8). repeat split; vm_compute; congruence. Qed.
Print Assumptions C156_zero_refuted.
Example C156_ex : typed a12 12 false /\ amount_of 12 (bit_of_arith 3 0 false 5) /\ amount_of 12 (bit_of_arith 3 0 false 7) /\ value (bit_of_arith 3 0 false 5) = 5 /\ value (bit_of_arith 3 0 false 7) = 7 /\
  omap num (rotate a12 (bit_of_arith 3 0 false 5) (bit_of_arith 3 0 false 7)) = Ok 1815 /\
  typed (l_val a70) 70 false /\ amount_of 70 (bit_of_arith 6 0 false 0) /\ amount_of 70 (bit_of_arith 6 0 false 70) /\
  omap num (rotate (l_val a70) (bit_of_arith 6 0 false 0) (bit_of_arith 6 0 false 70)) = Ok (2 ^ 64 - 5).
Proof. repeat split; vm_compute; congruence. Qed.

(** C157: [a ^ (a >> 1)] *)
Theorem C157_code : forall n a one s, 2 <= n -> typed a n s -> amount_of n one -> value one = 1 ->
  exists g, gray a one = Ok g /\ typed g n (s && bsgn one) /\ forall p, 0 <= p < n -> bit_at g p = xorb (bit_at a p) (bit_at a (p + 1)).
Proof. exact gray_code. Qed.
Print Assumptions C157_code.
(** the codes of a number and its successor differ in exactly one position *)
Theorem C157_adjacent : forall n a b one s t, 2 <= n -> typed a n s -> typed b n t -> amount_of n one -> value one = 1 -> num b = (num a + 1) mod 2 ^ n ->
  exists g h q, gray a one = Ok g /\ gray b one = Ok h /\ 0 <= q < n /\ forall p, 0 <= p < n -> (bit_at g p <> bit_at h p <-> p = q).
Proof. exact gray_adjacent. Qed.
Print Assumptions C157_adjacent.
(** xoring with itself shifted by 1, 2, 4, ... gives the number back *)
Theorem C157_decoded : forall n a one s ks, 2 <= n -> typed a n s -> amount_of n one -> value one = 1 ->
  (forall m d, (m < length ks)%nat -> amount_of n (nth m ks d) /\ value (nth m ks d) = 2 ^ Z.of_nat m /\ 2 ^ Z.of_nat m < n) -> n <= 2 ^ Z.of_nat (length ks) ->
  exists g r, gray a one = Ok g /\ ungray ks g = Ok r /\ num r = num a.
Proof. exact gray_decoded. Qed.
Print Assumptions C157_decoded.
Definition shifts4 : list bit := map (bit_of_arith 3 0 false) [1; 2; 4; 8].
Example C157_ex : typed a12 12 false /\ amount_of 12 (bit_of_arith 3 0 false 1) /\
  (forall m d, (m < length shifts4)%nat -> amount_of 12 (nth m shifts4 d) /\ value (nth m shifts4 d) = 2 ^ Z.of_nat m /\ 2 ^ Z.of_nat m < 12) /\ 12 <= 2 ^ Z.of_nat (length shifts4) /\
  omap num (gray a12 (bit_of_arith 3 0 false 1)) = Ok 3684 /\ omap num (bind (gray a12 (bit_of_arith 3 0 false 1)) (ungray shifts4)) = Ok 3000.
Proof.
  split; [repeat split; vm_compute; congruence|]. split; [repeat split; vm_compute; congruence|].
  split. { intros m d M. do 4 (destruct m as [|m]; [repeat split; vm_compute; congruence|]). exfalso. unfold shifts4 in M. cbn in M. do 4 apply PeanoNat.Nat.succ_lt_mono in M. inversion M. }
  repeat split; vm_compute; congruence.
Qed.
