(** Property theorems: cyclic redundancy checks and delay lines.  The client code is in Crc.v, polynomials are in SpecCrc.v. *)
From Coq Require Import ZArith List Bool.
From Verif Require Import Cpp BigNum Bit Logic Arr Spec SpecCircuit Crc SpecCrc CrcProofs DelayProofs.
Import ListNotations.
Open Scope Z_scope.

(** C158: the register ends with the remainder of (start * X^length + message * X^n) by X^n + poly *)
Theorem C158_remainder : forall n poly one sp c s message, 2 <= n -> typed poly n sp -> amount_of n one -> value one = 1 -> typed c n s ->
  exists r, crc n poly one message c = Ok r /\ remainder n (Z.lxor (num c * 2 ^ Z.of_nat (length message)) (poly_of message * 2 ^ n)) (2 ^ n + num poly) (num r).
Proof. exact crc_remainder. Qed.
Print Assumptions C158_remainder.
(** there is only one remainder *)
Theorem C158_unique : forall n a p r r', 0 <= n -> 0 <= p < 2 ^ n -> remainder n a (2 ^ n + p) r -> remainder n a (2 ^ n + p) r' -> r = r'.
Proof. exact remainder_unique. Qed.
Print Assumptions C158_unique.
(** a message followed by its check gives 0 *)
Theorem C158_checked : forall n poly one sp c s message, 2 <= n -> typed poly n sp -> amount_of n one -> value one = 1 -> typed c n s ->
  exists r f, crc n poly one message c = Ok r /\ crc n poly one (message ++ bits_of n (num r)) c = Ok f /\ num f = 0.
Proof. exact crc_checked. Qed.
Print Assumptions C158_checked.
(** CRC-16/CCITT of the bits of "A" from 0xffff is 0xb915; a check of two words *)
Definition ccitt : bit := bit_of_arith 15 0 false 4129.
Definition wide_poly : bit := bit_of_arith 81 0 false 5023.
Example C158_ex : typed ccitt 16 false /\ amount_of 16 (bit_of_arith 0 0 false 1) /\ value (bit_of_arith 0 0 false 1) = 1 /\ typed (bit_of_arith 15 0 false 65535) 16 false /\
  omap num (crc 16 ccitt (bit_of_arith 0 0 false 1) (bits_of 8 65) (bit_of_arith 15 0 false 65535)) = Ok 47381 /\
  typed wide_poly 82 false /\ amount_of 82 (bit_of_arith 0 0 false 1) /\ omap num (crc 82 wide_poly (bit_of_arith 0 0 false 1) (bits_of 70 (2 ^ 69 + 1)) (bit_of_arith 81 0 false 0)) = Ok (Z.lxor (5023 * 2 ^ 69) 5023).
Proof. repeat split; vm_compute; congruence. Qed.

(** C159: element i of a delay line holds what was pushed i pushes ago, or the initial content moved up *)
Theorem C159_bits : forall n s msb lsb, 1 <= n -> int_ok msb /\ int_ok lsb /\ width msb lsb < 2 ^ 31 -> Z.min msb lsb = 0 ->
  forall dflt a vs, Z.of_nat (length a) = width msb lsb -> Forall (fun x => typed x n s) a -> Forall (fun x => typed x n s) vs ->
  exists r, ofold (delay_push bit_assign dflt msb lsb (width msb lsb)) vs a = Ok r /\ length r = length a /\ forall i, 0 <= i < width msb lsb -> ua_get dflt msb lsb r i = Ok (nth (Z.to_nat i) (rev vs ++ a) dflt).
Proof. exact delay_line_bits. Qed.
Print Assumptions C159_bits.
Theorem C159_logic : forall n s msb lsb, 1 <= n -> int_ok msb /\ int_ok lsb /\ width msb lsb < 2 ^ 31 -> Z.min msb lsb = 0 ->
  forall dflt a vs, Z.of_nat (length a) = width msb lsb -> Forall (fun x => ltyped x n s) a -> Forall (fun x => ltyped x n s) vs ->
  exists r, ofold (delay_push logic_assign dflt msb lsb (width msb lsb)) vs a = Ok r /\ length r = length a /\ forall i, 0 <= i < width msb lsb -> ua_get dflt msb lsb r i = Ok (nth (Z.to_nat i) (rev vs ++ a) dflt).
Proof. exact delay_line_logic. Qed.
Print Assumptions C159_logic.
Definition k8 (z : Z) : bit := bit_of_arith 7 0 false z.
Definition x8 : logic := logic_default 7 0 false.
Example C159_ex : int_ok 0 /\ int_ok 3 /\ width 0 3 < 2 ^ 31 /\ Forall (fun x => typed x 8 false) (map k8 [1; 2; 3; 4]) /\ Forall (fun x => ltyped x 8 false) [x8; x8; x8; x8] /\
  ofold (delay_push bit_assign (k8 0) 0 3 4) (map k8 [7; 8]) (map k8 [1; 2; 3; 4]) = Ok (map k8 [8; 7; 1; 2]) /\
  ofold (delay_push logic_assign x8 0 3 4) [logic_of_arith 7 0 false 9] [x8; x8; x8; x8] = Ok [logic_of_arith 7 0 false 9; x8; x8; x8].
Proof. repeat match goal with |- _ /\ _ => split end; try (repeat constructor; vm_compute; congruence). Qed.
