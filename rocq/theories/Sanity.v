(** The project's own unit tests (/repo/tests) replayed on the model: evidence that the transcription is
    faithful.  These are tests, not properties. *)
From Coq Require Import ZArith List Bool String.
From Verif Require Import Cpp BigNum Bit Logic Arr Util.
Import ListNotations.
Open Scope Z_scope.

Fixpoint srep (n : nat) (s : string) : string :=
  match n with O => EmptyString | S k => append s (srep k s) end.
Definition L (msb : Z) (s : string) : outcome logic := logic_of_str msb 0 false (chars s).
Definition LS (msb : Z) (s : string) : outcome logic := logic_of_str msb 0 true (chars s).
Definition N (msb v : Z) : outcome logic := Ok (logic_of_arith msb 0 false v).
Definition NS (msb v : Z) : outcome logic := Ok (logic_of_arith msb 0 true v).
Definition ap1 {A B} (f : A -> outcome B) (a : outcome A) := let! x := a in f x.
Definition ap2 {A B C} (f : A -> B -> outcome C) (a : outcome A) (b : outcome B) :=
  let! x := a in let! y := b in f x y.
Definition strf (f : string) (a : outcome logic) := let! x := a in logic_str x (chars f).
Definition str := strf "b".
Definition is (a : outcome (list Z)) (s : string) : Prop := a = Ok (chars s).
Ltac t := vm_compute; reflexivity.

(* test_logic.cc: init *)
Example t_init1 : is (str (Ok (logic_default 3 0 false))) "xxxx". Proof. t. Qed.
Example t_init2 : is (str (Ok (logic_default 14 0 false))) (srep 15 "x"). Proof. t. Qed.
Example t_init3 : is (str (N 29 42)) "000000000000000000000000101010". Proof. t. Qed.
Example t_init4 : is (str (N 63 u64max)) (srep 64 "1"). Proof. t. Qed.
Example t_init5 : is (str (L 39 "'bxx1010")) (append (srep 34 "0") "xx1010"). Proof. t. Qed.
Example t_init6 : is (str (L 127 "'bxx1010")) (append (srep 122 "0") "xx1010").
Proof. t. Qed.
(* slice *)
Example t_slice1 : is (str (ap1 (fun l => logic_slice_c l 3 2) (N 39 42))) "10". Proof. t. Qed.
Example t_slice2 : is (str (ap1 (fun l => logic_slice_c l 103 100) (L 120 (append "'b1011" (srep 100 "0"))))) "1011".
Proof. t. Qed.
Example t_slice3 : is (str (ap1 (fun l => logic_slice_c l 103 42) (L 119 (append "'b1011" (srep 100 "1")))))
  (append "1011" (srep 58 "1")). Proof. t. Qed.
Example t_slice4 : ap1 logic_to_num (ap1 (fun l => logic_slice_idx l 4 true 2) (N 31 65535)) = Ok 15. Proof. t. Qed.
Example t_slice5 : ap1 logic_to_num (ap1 (fun l => logic_slice_idx l 3 false 4) (N 31 65535)) = Ok 7. Proof. t. Qed.
Example t_slice6 :
  (let! a := lit_bit 65535 in
   let! e := bit_slice_idx (bit_to_signed a) 8 true 3 in
   let! e := bit_extend e 32 in bit_to_num e) = Ok 255. Proof. t. Qed.
(* concat, unpack *)
Example t_concat : is (str (ap2 logic_concat (ap2 logic_concat (N 3 1) (N 3 2)) (N 3 3))) "000100100011". Proof. t. Qed.
Example t_unpack1 :
  (let! d := L 11 "'b000100100011" in
   let a := logic_default 3 0 false in
   let! r := logic_unpack d [a; a; a] in
   ofold (fun acc l => let! s := logic_str l (chars "b") in Ok (acc ++ [s])) r [])
  = Ok [chars "0001"; chars "0010"; chars "0011"]. Proof. t. Qed.
Example t_unpack2 :
  (let! c := N 6 42 in
   let! r := logic_unpack c [logic_default 0 0 false; logic_default 5 0 false] in
   ofold (fun acc l => let! s := logic_str l (chars "b") in Ok (acc ++ [s])) r [])
  = Ok [chars "0"; chars "101010"]. Proof. t. Qed.
(* bool *)
Example t_bool1 : omap logic_bool (L 3 "'b010x") = Ok false. Proof. t. Qed.
Example t_bool2 : omap logic_bool (L 3 "'b0100") = Ok true. Proof. t. Qed.
(* and, or, xor, not *)
Definition one_bit (s : string) := L 0 s.
Example t_and1 : is (str (ap2 logic_and (L 0 "'b0") (L 0 "'b1"))) "0". Proof. t. Qed.
Example t_and2 : is (str (ap2 logic_and (L 0 "'b0") (L 0 "'bx"))) "0". Proof. t. Qed.
Example t_and3 : is (str (ap2 logic_and (L 0 "'bz") (L 0 "'bx"))) "x". Proof. t. Qed.
Example t_and4 : is (str (ap2 logic_and (L 0 "'b1") (L 0 "'bx"))) "x". Proof. t. Qed.
Example t_and5 : is (str (ap2 logic_and (L 0 "'b1") (L 0 "'bz"))) "x". Proof. t. Qed.
Example t_and6 : is (str (ap2 logic_and (L 119 (append "'b" (srep 120 "1"))) (L 139 "'b1010101010")))
  (append (srep 130 "0") "1010101010"). Proof. t. Qed.
Example t_and7 : is (str (ap2 logic_and (L 39 "'b1010101010") (L 119 (append "'b" (srep 120 "1")))))
  (append (srep 110 "0") "1010101010"). Proof. t. Qed.
Example t_or1 : is (str (ap2 logic_or (L 0 "'b0") (L 0 "'b1"))) "1". Proof. t. Qed.
Example t_or2 : is (str (ap2 logic_or (L 0 "'b0") (L 0 "'b0"))) "0". Proof. t. Qed.
Example t_or3 : is (str (ap2 logic_or (L 0 "'b0") (L 0 "'bx"))) "x". Proof. t. Qed.
Example t_or4 : is (str (ap2 logic_or (L 0 "'b1") (L 0 "'bx"))) "1". Proof. t. Qed.
Example t_or5 : is (str (ap2 logic_or (L 0 "'bz") (L 0 "'bx"))) "x". Proof. t. Qed.
Example t_or6 : is (str (ap2 logic_or (L 139 "'b1010101010") (L 119 (append "'b" (srep 120 "0")))))
  (append (srep 130 "0") "1010101010"). Proof. t. Qed.
Example t_xor1 : is (str (ap2 logic_xor (L 0 "'b0") (L 0 "'b1"))) "1". Proof. t. Qed.
Example t_xor3 : is (str (ap2 logic_xor (L 0 "'b0") (L 0 "'bx"))) "x". Proof. t. Qed.
Example t_xor5 : is (str (ap2 logic_xor (L 0 "'bz") (L 0 "'bx"))) "x". Proof. t. Qed.
Example t_not1 : is (str (ap1 logic_not (L 0 "'b0"))) "1". Proof. t. Qed.
Example t_not2 : is (str (ap1 logic_not (L 0 "'b1"))) "0". Proof. t. Qed.
Example t_not3 : is (str (ap1 logic_not (L 0 "'bx"))) "x". Proof. t. Qed.
Example t_not4 : is (str (ap1 logic_not (L 0 "'bz"))) "x". Proof. t. Qed.
(* reductions *)
Example t_rand1 : is (str (ap1 logic_r_and (L 3 "'b1001"))) "0". Proof. t. Qed.
Example t_rand2 : is (str (ap1 logic_r_and (L 3 "'b1111"))) "1". Proof. t. Qed.
Example t_rand3 : is (str (ap1 logic_r_and (L 3 "'bx111"))) "x". Proof. t. Qed.
Example t_rand4 : is (str (ap1 logic_r_and (L 3 "'bxz11"))) "x". Proof. t. Qed.
Example t_rnand1 : is (str (ap1 logic_r_nand (L 3 "'b1001"))) "1". Proof. t. Qed.
Example t_rnand2 : is (str (ap1 logic_r_nand (L 3 "'bx001"))) "1". Proof. t. Qed.
Example t_rnand4 : is (str (ap1 logic_r_nand (L 3 "'bxz11"))) "x". Proof. t. Qed.
Example t_ror1 : is (str (ap1 logic_r_or (L 3 "'b1001"))) "1". Proof. t. Qed.
Example t_ror2 : is (str (ap1 logic_r_or (L 3 "'bz000"))) "x". Proof. t. Qed.
Example t_rnor3 : is (str (ap1 logic_r_nor (L 3 "'bx001"))) "0". Proof. t. Qed.
Example t_rxor1 : is (str (ap1 logic_r_xor (L 3 "'b1001"))) "0". Proof. t. Qed.
Example t_rxor2 : is (str (ap1 logic_r_xor (L 3 "'bz001"))) "x". Proof. t. Qed.
Example t_rxnor1 : is (str (ap1 logic_r_xnor (L 3 "'b1001"))) "1". Proof. t. Qed.
(* shifts *)
Example t_shl1 : is (str (ap2 logic_shl (L 119 (append "'b" (srep 120 "1"))) (L 99 "'b1111111111111111")))
  (srep 120 "0"). Proof. t. Qed.
Example t_shl2 : is (str (ap2 logic_shl (L 119 (append "'b" (srep 120 "1"))) (L 99 "'b111")))
  (append (srep 113 "1") (srep 7 "0")). Proof. t. Qed.
Example t_shl3 : str (ap2 logic_shl (NS 31 (-120)) (N 1 2)) = str (NS 31 (-480)). Proof. t. Qed.
Example t_shr2 : is (str (ap2 logic_shr (L 119 (append "'b" (srep 120 "1"))) (L 99 "'b111")))
  (append (srep 7 "0") (srep 113 "1")). Proof. t. Qed.
Example t_shr3 : str (ap2 logic_shr (NS 31 (-120)) (N 2 2)) = str (N 31 (Z.shiftr (2 ^ 32 - 120) 2)). Proof. t. Qed.
Example t_ashr3 : str (ap2 logic_ashr (NS 31 (-120)) (N 1 2)) = str (NS 31 (-30)). Proof. t. Qed.
Example t_ashr4 : is (str (ap2 logic_ashr (LS 419 (append "'b1" (srep 419 "0"))) (N 119 42)))
  (append (srep 42 "1") (srep 378 "0")). Proof. t. Qed.
(* equality *)
Example t_eq1 : is (str (ap2 logic_eq (N 0 1) (N 10 1))) "1". Proof. t. Qed.
Example t_eq2 : is (str (ap2 logic_eq (N 119 (u64max - 1)) (N 419 u64max))) "0". Proof. t. Qed.
Example t_eq3 : is (str (ap2 logic_eq (L 1023 "'bx") (N 19 12))) "x". Proof. t. Qed.
(* add, minus, multiply, divide, mod *)
Example t_add1 : is (str (ap2 logic_add (L 119 (append "'b" (srep 120 "1"))) (L 99 (append "'b" (srep 100 "1")))))
  (append (srep 20 "0") (append (srep 99 "1") "0")). Proof. t. Qed.
Example t_add2 : is (str (ap2 logic_add (L 39 (append "'b" (srep 40 "1"))) (L 119 (append "'b" (srep 120 "1")))))
  (append (srep 80 "0") (append (srep 39 "1") "0")).
Proof. t. Qed.
Example t_sub1 : is (str (ap2 logic_sub (L 99 (append "'b" (srep 100 "1"))) (L 119 (append "'b" (srep 120 "1")))))
  (append (srep 19 "0") (append "1" (srep 100 "0"))). Proof. t. Qed.
Example t_sub2 :
  (let! l20 := lit_logic 20 in
   let! e := ap1 (fun l => logic_extend l 100) (NS 30 (-42)) in
   let! c := logic_shl e l20 in
   str (ap2 logic_sub (N 99 0) (Ok c))) = str (N 99 (42 * 2 ^ 20)). Proof. t. Qed.
Example t_mul1 :
  (let! a := ap1 logic_neg (lit_logic 2) in
   let! b := lit_logic 42 in
   let! d := ap1 logic_neg (lit_logic 84) in
   let! c := logic_mul a b in omap logic_bool (logic_eq c d)) = Ok true. Proof. t. Qed.
Example t_mul2 : is (str (ap2 logic_mul
   (L 299 "'b10001010101111111000101100010101111111111111111111111111111111111111111111111111111100000000000000000")
   (L 299 "'b10000001111100011001101011111111111111111111111111111111111111111111111111010101010010110101010100101")))
   (append "00000000000000000000000000000000000000000000000000000000000000000000000000000000"
   (append "00000000000000000001000110011011010111011101101001111111101110110001010001111111"
   (append "11111111111110100011010010100010001100111010100100100011100000100101110000000000"
           "000000000000000010101010110100101010101101100000000000000000"))). Proof. t. Qed.
(* the last multiply test of the project (a negative 100-bit number times 42) writes [temp.values[2]] of a two-word
   array; it passes in practice but is undefined *)
Example t_mul3 : ap2 logic_mul (LS 99 (append "'b" (srep 100 "1"))) (N 19 42) = UB. Proof. t. Qed.
Example t_div1 : is (str (ap2 logic_div (ap1 logic_not (N 299 0)) (L 100 (append "'b" (srep 18 "10")))))
   (append "00000000000000000000000000000000000110000000000000000000000000000000000110000000"
   (append "00000000000000000000000000011000000000000000000000000000000000011000000000000000"
   (append "00000000000000000001100000000000000000000000000000000001100000000000000000000000"
           "000000000001100000000000000000000000000000000001100000000000"))). Proof. t. Qed.
Example t_div2 : is (str (ap2 logic_div (ap1 logic_not (N 299 0)) (lit_logic 42)))
   (append "00000110000110000110000110000110000110000110000110000110000110000110000110000110"
   (append "00011000011000011000011000011000011000011000011000011000011000011000011000011000"
   (append "01100001100001100001100001100001100001100001100001100001100001100001100001100001"
           "100001100001100001100001100001100001100001100001100001100001"))). Proof. t. Qed.
Example t_div3 : str (ap2 logic_div (lit_logic 100) (lit_logic 42)) = str (lit_logic 2). Proof. t. Qed.
Example t_mod1 : is (str (ap2 logic_rem (ap1 logic_not (N 299 0)) (L 100 (append "'b" (srep 18 "10")))))
   (append (srep 288 "0") (srep 12 "1")). Proof. t. Qed.
Example t_mod2 : is (str (ap2 logic_rem (ap1 logic_not (N 299 0)) (lit_logic 42)))
   (append (srep 295 "0") "10101"). Proof. t. Qed.
(* gt *)
Definition minus1 : outcome logic := ap1 (logic_resign true) (ap1 logic_not (NS 100 0)).
Definition minus11 : outcome logic := ap1 (logic_resign true) (ap1 logic_not (NS 100 10)).
Example t_gt1 : omap logic_bool (ap2 logic_gt minus1 (N 100 10)) = Ok true. Proof. t. Qed.
Example t_gt2 : omap logic_bool (ap2 logic_gt minus1 minus11) = Ok true. Proof. t. Qed.
Example t_gt3 : omap logic_bool (ap2 logic_gt minus1 (NS 100 10)) = Ok false. Proof. t. Qed.
Example t_gt4 : omap logic_bool (ap2 logic_gt (lit_logic 3) (ap1 logic_neg (lit_logic 2))) = Ok true. Proof. t. Qed.
Example t_gt5 : omap logic_bool (ap2 logic_gt (ap1 logic_neg (lit_logic 2)) (N 31 1)) = Ok true. Proof. t. Qed.
(* update *)
Example t_upd1 : is (str (ap1 (fun b => logic_update_c (logic_default 15 0 false) 3 0 b) (L 3 "'b1010"))) "xxxxxxxxxxxx1010".
Proof. t. Qed.
Example t_upd2 : is (str (ap1 (fun b => logic_update_c (logic_default 15 0 false) 1 0 b) (L 3 "'b1010"))) "xxxxxxxxxxxxxx10".
Proof. t. Qed.
Example t_upd3 : is (str (ap1 (fun b => logic_update_c (logic_default 15 0 false) 9 0 b) (L 3 "'b1010"))) "xxxxxx0000001010".
Proof. t. Qed.
Example t_upd4 : is (str (ap1 (fun b => logic_update_c (logic_default 99 0 false) 3 0 b) (L 3 "'b1010")))
  (append (srep 96 "x") "1010"). Proof. t. Qed.
Example t_upd5 : is (str (ap1 (fun b => logic_update_c (logic_default 0 99 false) 0 3 b) (logic_of_str 0 3 false (chars "'b1110"))))
  (append "1110" (srep 96 "x")). Proof. t. Qed.
Example t_upd6 : is (str (ap1 (fun b => logic_update_c (logic_default 0 99 false) 0 3 b) (L 3 "'b1110")))
  (append "1110" (srep 96 "x")). Proof. t. Qed.
(* string_init *)
Example t_si1 : omap logic_to_uint64 (L 31 "16'hFFFF") = Ok 65535. Proof. t. Qed.
Example t_si2 : omap logic_to_uint64 (L 127 "128'd123456") = Ok 123456. Proof. t. Qed.
Example t_si3 : omap logic_to_uint64 (L 9 "32'h42") = Ok 66. Proof. t. Qed.
Example t_si4 : omap logic_to_uint64 (L 31 "100'o12") = Ok 10. Proof. t. Qed.
Example t_si5 : omap logic_to_uint64 (L 31 "20'b001_0101") = Ok 21. Proof. t. Qed.
(* format *)
Example t_f1 : is (strf "0d" (L 19 "'b1010_1001")) "169". Proof. t. Qed.
Example t_f2 : is (strf "d" (L 19 "'b1010_1001")) "    169". Proof. t. Qed.
Example t_f3 : is (strf "0d" (ap1 logic_neg (LS 19 "'d42"))) "-42". Proof. t. Qed.
Example t_f4 : is (strf "10d" (ap1 logic_neg (LS 19 "'d42"))) "        -42". Proof. t. Qed.
Example t_f5 : is (strf "d" (ap1 logic_neg (LS 19 "'d42"))) "     -42". Proof. t. Qed.
Example t_f6 : is (strf "x" (L 19 "'d42")) "0002a". Proof. t. Qed.
Example t_f7 : is (strf "o" (L 119 "'hFFFFFFFFFFFF")) "0000000000000000000000007777777777777777". Proof. t. Qed.
Example t_f8 : is (strf "X" (L 119 "'hFFFFFFFFFFFF")) "000000000000000000ffffffffffff". Proof. t. Qed.
Example t_f9 : is (strf "s" (L 119 "ABCDEFGHIJKLMNOPQRST")) "FGHIJKLMNOPQRST". Proof. t. Qed.
Example t_f10 : is (strf "0d" (ap1 (logic_assign (logic_default 3 0 false)) (N 31 0))) "0". Proof. t. Qed.
(* match, increments, conversions *)
Example t_m1 : logic_match (logic_default 31 0 false) (logic_default 31 0 false) = Ok true. Proof. t. Qed.
Example t_m2 : ap1 (logic_match (logic_default 31 0 false)) (L 31 "'b1xxxx") = Ok false. Proof. t. Qed.
Example t_inc : omap logic_to_uint64 (ap1 logic_inc (N 42 42)) = Ok 43. Proof. t. Qed.
Example t_dec : omap logic_to_uint64 (ap1 logic_dec (N 42 43)) = Ok 42. Proof. t. Qed.
Example t_c1 : omap logic_to_uint64 (ap1 (logic_resign false) (ap1 (fun l => logic_slice_c l 0 0) (NS 0 1))) = Ok 1. Proof. t. Qed.
Example t_c2 : omap logic_to_uint64 (ap1 (logic_resign false) (ap1 (fun l => logic_slice_c l 0 0) (lit_logic 1))) = Ok 1.
Proof. t. Qed.
Example t_c3 : ap1 logic_to_num (ap2 (fun a b => logic_update_c a 3 3 b) (lit_logic 32) (L 0 "1'bx")) = Ok 0. Proof. t. Qed.
(* slice_ref: bit.hh 1200-1233 forwards to update *)
Example t_sr1 : ap1 logic_to_num (ap2 (fun a b => logic_update_c a 3 0 b) (N 15 65535) (N 3 0)) = Ok 65520. Proof. t. Qed.
Example t_sr3 : ap1 logic_to_num (ap2 (fun a b => logic_update_r a 4 7 b) (N 15 65535) (N 3 0)) = Ok 65295. Proof. t. Qed.
Example t_sr4 : ap1 bit_to_num (bit_update_c (bit_of_native 15 0 false 65535) 3 0 (bit_of_native 3 0 false 0)) = Ok 65520.
Proof. t. Qed.
Example t_sr6 : ap1 bit_to_num (bit_update_r (bit_of_native 15 0 false 65535) 4 7 (bit_of_native 3 0 false 0)) = Ok 65295.
Proof. t. Qed.
(* test_util.cc *)
Example t_u1 : parse_raw_str (chars "4'b10z0") = Ok 10 /\ parse_xz_raw_str (chars "4'b10z0") = Ok 2 /\
  parse_raw_str (chars "4'b10x0") = Ok 8. Proof. repeat split; t. Qed.
Example t_u2 : parse_raw_str (chars "100'd42") = Ok 42 /\ parse_raw_str (chars "100'oz2") = Ok 58 /\
  parse_xz_raw_str (chars "100'oz2") = Ok 56. Proof. repeat split; t. Qed.
Example t_u3 : parse_raw_str (chars "100'hFZFF") = Ok 65535 /\ parse_raw_str (chars "100'hFXFF") = Ok 61695 /\
  parse_xz_raw_str (chars "100'hFZFF") = Ok 3840. Proof. repeat split; t. Qed.
Example t_u4 : parse_raw_str_big (chars (append "'b" (srep 50 "10"))) 128 = Ok [12297829382473034410; 45812984490].
Proof. t. Qed.
Example t_u5 : parse_raw_str_big (chars (append "'h" (srep 20 "1X"))) 192
  = Ok [1157442765409226768; 1157442765409226768; 269488144]. Proof. t. Qed.
Example t_u6 : parse_xz_raw_str_big (chars (append "'h" (srep 20 "1X"))) 192
  = Ok [1085102592571150095; 1085102592571150095; 252645135]. Proof. t. Qed.
Example t_u7 : parse_raw_str_big (chars "ABCDEFGHIJKLMNOP") 128 = Ok [0x494a4b4c4d4e4f50; 0x4142434445464748].
Proof. t. Qed.
(* test_array.cc *)
Definition pt := mkParrTy 16 false 9 0.
Example t_a1 : is (str (ap1 (fun a => pa_slice_array pt a 4 0) (L 159 (append "'b" (srep 160 "1"))))) (srep 80 "1"). Proof. t. Qed.
Example t_a2 : is (str (ap1 (fun a => pa_slice_array pt a 2 0) (L 159 (append "'b" (srep 160 "1"))))) (srep 48 "1"). Proof. t. Qed.
Example t_a3 : is (str (ap1 (fun v => pa_update_c pt (logic_default 159 0 false) 1 0 v) (lit_logic 0)))
  (append (srep 128 "x") (srep 32 "0")). Proof. t. Qed.
Example t_a4 : is (str (ap1 (fun i => pa_get pt (logic_default 159 0 false) i) (lit_logic 2))) (srep 16 "x"). Proof. t. Qed.
Example t_a5 :
  is (str (let! i := lit_logic 2 in let! v := lit_logic 42 in
           let! a := pa_update pt (logic_default 159 0 false) i v in pa_get pt a i)) "0000000000101010". Proof. t. Qed.
(* test_conversion.cc *)
Example t_b1 : ap1 (bit_lt_logic (bit_of_native 31 0 false 0)) (N 31 10) = Ok true. Proof. t. Qed.
Example t_b2 : ap1 (bit_gt_logic (bit_of_native 31 0 false 0)) (N 31 10) = Ok false. Proof. t. Qed.
(* test_struct.cc, test_union.cc: fields are slices and updates of one vector *)
Example t_s1 : ap1 logic_to_num (ap1 (fun v => logic_slice_c v 4 0) (N 9 42)) = Ok 10. Proof. t. Qed.
Example t_n1 : is (str (ap1 (fun b => ap1 (fun v => logic_slice_c v 7 0) (logic_update_c (logic_default 15 0 false) 15 0 b))
                        (L 15 "'b1111111111111111"))) "11111111". Proof. t. Qed.
