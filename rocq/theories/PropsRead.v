(** Exact behaviour of the constructors from text, on every text.  [SpecRead.v] gives a reference reader: how a text is split, what each
    character is worth at its place, which texts are undefined, how a wide vector cuts a text into words.  The theorems say that the library
    reads every text as the reader does; from it follows exactly which literals are read right. *)
From Coq Require Import ZArith List Bool Lia String.
From Verif Require Import Cpp BigNum Bit Logic Util Spec SpecText SpecMachine SpecWide SpecRead BitMain Reach ReadProofs ReadExact.
Import ListNotations.
Open Scope Z_scope.

(** C141: every text has one base and one body *)
Theorem C141_parts : forall t, exists base body, parts t base body /\ forall base' body', parts t base' body' -> base' = base /\ body' = body.
Proof. exact parts_one. Qed.
Print Assumptions C141_parts.
Theorem C141_bit : forall msb lsb sg t base body, width msb lsb < 2 ^ 31 -> parts t base body -> bit_of_str msb lsb sg t = bit_read msb lsb sg base body.
Proof. exact bit_of_str_exact. Qed.
Print Assumptions C141_bit.
Theorem C141_logic : forall msb lsb sg t base body, width msb lsb < 2 ^ 31 -> parts t base body -> logic_of_str msb lsb sg t = logic_read msb lsb sg base body.
Proof. exact logic_of_str_exact. Qed.
Print Assumptions C141_logic.
(** no text is undefined for a 2-state vector of more than 64 positions *)
Theorem C141_wide_defined : forall msb lsb sg t, 65 <= width msb lsb < 2 ^ 31 -> exists b, bit_of_str msb lsb sg t = Ok b.
Proof. exact wide_defined. Qed.
Print Assumptions C141_wide_defined.
(** a text of at most 16 characters is never undefined for a 2-state vector *)
Theorem C141_short_defined : forall msb lsb sg t, width msb lsb < 2 ^ 31 -> len t <= 16 -> exists b, bit_of_str msb lsb sg t = Ok b.
Proof. exact short_defined. Qed.
Print Assumptions C141_short_defined.
Example C141_ex :
  parts (chars "12'habcXz_4") 104 (chars "abcXz_4") /\
  bit_of_str 31 0 false (chars "12'habcXz_4") = Ok (object 31 0 false (number 104 (chars "abcXz_4"))) /\ number 104 (chars "abcXz_4") = 73972 /\
  mask 104 (chars "abcXz_4") = 4080 /\
  parts (chars "abc") 115 (chars "abc") /\ bit_of_str 31 0 false (chars "abc") = Ok (object 31 0 false (97 * 65536 + 98 * 256 + 99)) /\
  parts (chars "1'01") 98 (chars "1'01") /\ bit_of_str 7 0 false (chars "1'01") = Ok (object 7 0 false 9) /\
  readable 111 (chars "00000000000000000000005") = false /\ bit_of_str 31 0 false (chars "'o00000000000000000000005") = UB /\
  logic_of_str 99 0 false (chars "'bx00000000000000000000000000000000") = UB.
Proof.
  split. { apply (Based (chars "12") [] 104 (chars "abcXz_4")); [split; [vm_compute; intros [E|[E|[]]]; discriminate|constructor]|]. vm_compute. intuition discriminate. }
  split; [vm_compute; reflexivity|]. split; [vm_compute; reflexivity|]. split; [vm_compute; reflexivity|].
  split. { apply Plain. vm_compute. intuition discriminate. }
  split; [vm_compute; reflexivity|].
  split. { apply (Unbased (chars "1") (chars "01")). split; [vm_compute; intuition discriminate|]. apply Forall_forall; intros c H; repeat (destruct H as [<- | H]; [vm_compute; tauto|]); destruct H. }
  repeat (split; [vm_compute; reflexivity|]). vm_compute; reflexivity.
Qed.

(** C55: a binary literal of up to 64 digits is read right iff no x or z is at place 32 or above and no upper-case X or Z is below the width *)
Theorem C55_exact : forall n sg pre size base s, 2 <= n <= 64 -> prefix_ok pre size -> among "bB" base -> Forall (among "01xXzZ_") s -> len (clean s) <= 64 ->
  (exists l, logic_of_str (n - 1) 0 sg (literal pre size base s) = Ok l /\ forall p, 0 <= p < n -> sym_at l p = text_sym 1 s p) <->
  (forall i c, nth_error (places s) i = Some c -> (among "xz" c -> Z.of_nat i < 32) /\ (among "XZ" c -> n <= Z.of_nat i)).
Proof. exact bin_exact. Qed.
Print Assumptions C55_exact.
Example C55_exact_ex : Forall (among "01xXzZ_") (chars "Z_1x0z") /\ len (clean (chars "Z_1x0z")) = 5 /\ nth_error (places (chars "Z_1x0z")) 4 = Some 90 /\
  (exists l, logic_of_str 3 0 false (chars "'bZ_1x0z") = Ok l /\ sym_at l 0 = SZ /\ sym_at l 2 = SX) /\ (exists l, logic_of_str 4 0 false (chars "'bZ_1x0z") = Ok l /\ sym_at l 4 = S0).
Proof.
  split; [apply Forall_forall; intros c H; repeat (destruct H as [<- | H]; [vm_compute; tauto|]); destruct H|]. split; [vm_compute; reflexivity|]. split; [vm_compute; reflexivity|].
  split; eexists; (split; [vm_compute; reflexivity|]); vm_compute; try split; reflexivity.
Qed.

(** C56: a hexadecimal literal is read right iff it is short enough and every lower-case digit is above the width (its lowest position
    is always right) *)
Theorem C56_exact : forall n sg pre size base s, 2 <= n <= 64 -> prefix_ok pre size -> among "hH" base -> Forall (among "0123456789ABCDEFabcdef_") s ->
  (exists b, bit_of_str (n - 1) 0 sg (literal pre size base s) = Ok b /\ num b = numeral_value 16 s mod 2 ^ n) <->
  short 4 s = true /\ (forall i c, nth_error (places s) i = Some c -> among "abcdef" c -> n <= 4 * Z.of_nat i + 1).
Proof. exact hex_exact. Qed.
Print Assumptions C56_exact.
Example C56_exact_ex : short 4 (chars "bE_EF") = true /\ nth_error (places (chars "bE_EF")) 3 = Some 98 /\ among "abcdef" 98 /\
  bit_of_str 12 0 false (chars "'hbE_EF") = Ok (object 12 0 false (2 ^ 12 + 3823)) /\ numeral_value 16 (chars "bE_EF") mod 2 ^ 13 = 2 ^ 12 + 3823.
Proof. split; [vm_compute; reflexivity|]. split; [vm_compute; reflexivity|]. split; [vm_compute; tauto|]. vm_compute. split; reflexivity. Qed.

(** C57: an octal literal is read right iff it is short enough; otherwise reading it is undefined *)
Theorem C57_exact : forall n sg pre size base s, 2 <= n <= 64 -> prefix_ok pre size -> among "oO" base -> Forall (among "01234567_") s ->
  (exists b, bit_of_str (n - 1) 0 sg (literal pre size base s) = Ok b /\ num b = numeral_value 8 s mod 2 ^ n) <-> short 3 s = true.
Proof. exact oct_exact. Qed.
Print Assumptions C57_exact.
Example C57_exact_ex : short 3 (chars "17_5") = true /\ short 3 (chars "0000000000000000000000000") = false.
Proof. vm_compute. split; reflexivity. Qed.
