(** Exactly when x and z are printed as promised and fields are filled up as promised (compare [PropsIff.v]). *)
From Coq Require Import ZArith String Ascii List Bool Lia.
From Verif Require Import Cpp BigNum Bit Logic Util Spec SpecText SpecPrint SpecIff6 BitExt BitMain TextProofs TextMain FmtDec FmtMain Iff26 Iff27.
Import ListNotations.
Open Scope Z_scope.

(** C63: binary, octal and hexadecimal: every character is right exactly when the incomplete top digit, if there is one, is not all x
    and not all z and, for several full words, the top word holds only 0.  Octals of more than one word are left out ([C62_octal_exact]). *)
Theorem C63_digits_exact : forall l base k, lvec l -> pow2_fmt base k -> lw l <= 64 \/ k <> 3 -> ends_clear l k ->
  right_digits l base k <->
  (lw l mod k <> 0 -> ~ every l (k * (lw l / k)) (lw l) SX /\ ~ every l (k * (lw l / k)) (lw l) SZ) /\ (65 <= lw l -> lw l mod 64 = 0 -> every l (lw l - 64) (lw l) S0).
Proof. exact digits_exact. Qed.
Print Assumptions C63_digits_exact.
(** decimals of a vector with x or z: the one character is right exactly when the value is not negative, the vector has not 128 bits,
    a vector of 65 to 127 bits is not all x and not all z, and in a wider one the lower 128 positions have the same character as all. *)
Theorem C63_decimal_exact : forall l base, lvec l -> ltidy l -> ~ known l -> among "dD" base ->
  logic_str l [48; base] = Ok [group_char (map (sym_at l) (zrange 0 (lw l)))] <->
  ~ (lsgn l = true /\ 2 <= lw l /\ bit_at (l_val l) (lw l - 1) = true) /\ lw l <> 128 /\
  (65 <= lw l < 128 -> ~ every l 0 (lw l) SX /\ ~ every l 0 (lw l) SZ) /\
  (128 < lw l -> group_char (map (sym_at l) (zrange 0 128)) = group_char (map (sym_at l) (zrange 0 (lw l)))).
Proof. exact decimal_exact. Qed.
Print Assumptions C63_decimal_exact.
(** a top digit that is all x is printed X *)
Example C63_exact_ex : lvec (v4 7 40 12) /\ ltidy (v4 7 40 12) /\ ~ known (v4 7 40 12) /\ ends_clear (v4 7 40 12) 4 /\
  logic_str (v4 7 40 12) (chars "x") = Ok (chars "2X") /\ logic_str (v4 7 40 12) (chars "0d") = Ok (chars "X") /\
  ends_clear (v4 6 0 48) 4 /\ every (v4 6 0 48) 4 6 SX /\ logic_str (v4 6 0 48) (chars "x") = Ok (chars "X0").
Proof.
  assert (E : forall l k, stored (l_val l) >= 0 -> stored (l_xz l) >= 0 -> stored (l_val l) < 2 ^ lw l -> stored (l_xz l) < 2 ^ lw l -> ends_clear l k).
  { intros l k A B C D p Hp _. pose proof (FmtMain.lw_pos l). split; apply (ZBits.testbit_small _ (lw l)); lia. }
  split; [conc|]. split; [conc|]. split; [apply (not_known _ 2); conc|]. split; [apply E; vm_compute; congruence|]. split; [vm_compute; reflexivity|]. split; [vm_compute; reflexivity|].
  split; [apply E; vm_compute; congruence|]. split; [|vm_compute; reflexivity]. intros p Hp. assert (C : p = 4 \/ p = 5) by lia. destruct C as [-> | ->]; vm_compute; reflexivity.
Qed.

(** C65: the field of a 4-state vector is the text without a width filled up on the left to the usual or larger requested number of
    characters exactly when the width fits; likewise for 2-state vectors of one word and 2-state decimals *)
Theorem C65_logic_exact : forall l fmt req base w core, lvec l -> asks fmt req base -> natural base (lw l) = Ok w -> logic_str l [48; base] = Ok core ->
  (exists s, logic_str l fmt = Ok s /\ SpecText.padded (columns req w + minus base core) (pad_char base) core s) <-> req <> Bad.
Proof. exact logic_width_exact. Qed.
Print Assumptions C65_logic_exact.
Theorem C65_bit_exact : forall b fmt req base w core, vec b -> bw b <= 64 \/ among "dD" base -> asks fmt req base -> natural base (bw b) = Ok w -> bit_str b [48; base] = Ok core ->
  (exists s, bit_str b fmt = Ok s /\ SpecText.padded (columns req w + minus base core) (pad_char base) core s) <-> req <> Bad.
Proof. exact bit_width_exact. Qed.
Print Assumptions C65_bit_exact.
Example C65_exact_ex : lvec (v4 7 42 12) /\ asks (chars "12x") (Columns 12) 120 /\ natural 120 7 = Ok 2 /\ logic_str (v4 7 42 12) (chars "0x") = Ok (chars "2X") /\ logic_str (v4 7 42 12) (chars "12x") = Ok (chars "00000000002X") /\
  asks (chars "99999999999999999999x") Bad 120 /\ logic_str (v4 7 42 12) (chars "99999999999999999999x") = Exn.
Proof.
  assert (N : ~ among "0123456789" 120) by (intros A; vm_compute in A; intuition discriminate).
  split; [conc|]. split; [replace (Columns 12) with (asked_for (chars "12")) by (vm_compute; reflexivity); exact (Sized (chars "12") 120 [] ltac:(discriminate) ltac:(all_among) N)|]. split; [vm_compute; reflexivity|]. split; [vm_compute; reflexivity|]. split; [vm_compute; reflexivity|].
  split; [replace Bad with (asked_for (chars "99999999999999999999")) by (vm_compute; reflexivity); exact (Sized (chars "99999999999999999999") 120 [] ltac:(discriminate) ltac:(all_among) N)|]. vm_compute. reflexivity.
Qed.
