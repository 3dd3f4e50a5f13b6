(** Property theorems about positions given as template constants, the sign query, the negated reductions, the arithmetic left shift and
    the remaining constructors. *)
From Coq Require Import ZArith List Bool String.
From Verif Require Import Cpp BigNum Bit Logic Arr Util More Rest Const Spec SpecArr SpecText SpecExact SpecMachine SpecWide SpecFour SpecIff SpecConst BitExt BitMain TextMain FourProg ConstProofs ConstProofs2.
Import ListNotations.
Open Scope Z_scope.

(** C146: get<i>() and set<i>() of a 2-state vector whose range starts at 0; [place] is the declared position of an index *)
Theorem C146_bit : forall b i x, vec b -> Z.min (bmsb b) (blsb b) = 0 -> in_range (bmsb b) (blsb b) i ->
  (bw b <= 64 -> bit_get_const b i = Ok (bit_at b (place (bmsb b) (blsb b) i))) /\
  (65 <= bw b -> bit_get_const b i = IllFormed) /\
  exists b', bit_set_const b i x = Ok b' /\ vec b' /\ bmsb b' = bmsb b /\ blsb b' = blsb b /\ bsgn b' = bsgn b /\
    forall p, 0 <= p < bw b -> bit_at b' p = if p =? place (bmsb b) (blsb b) i then x else bit_at b p.
Proof. exact const_bit. Qed.
Print Assumptions C146_bit.
(** set<i>(), set_x<i>(), set_z<i>() of a 4-state vector write the symbol of the declared position and no other *)
Theorem C146_logic : forall l i s, lvec l -> Z.min (lmsb l) (llsb l) = 0 -> in_range (lmsb l) (llsb l) i ->
  exists l', (match s with S0 => logic_set_const l i false | S1 => logic_set_const l i true | SX => logic_set_x_const l i | SZ => logic_set_z_const l i end) = Ok l' /\
    lvec l' /\ lmsb l' = lmsb l /\ llsb l' = llsb l /\ lsgn l' = lsgn l /\
    forall p, 0 <= p < lw l -> sym_at l' p = if p =? place (lmsb l) (llsb l) i then s else sym_at l p.
Proof. exact const_logic. Qed.
Print Assumptions C146_logic.
(** get<i>(), x_set<i>(), z_set<i>(): right up to 64 positions; of wider vectors they do not compile *)
Theorem C146_read : forall l i, lvec l -> Z.min (lmsb l) (llsb l) = 0 -> in_range (lmsb l) (llsb l) i ->
  let s := sym_at l (place (lmsb l) (llsb l) i) in
  (lw l <= 64 -> (exists r, logic_get_c l i = Ok r /\ ltyped r 1 false /\ sym_at r 0 = s) /\
     logic_x_set_const l i = Ok (match s with SX => true | _ => false end) /\ logic_z_set_const l i = Ok (match s with SZ => true | _ => false end)) /\
  (65 <= lw l -> logic_get_c l i = IllFormed /\ logic_x_set_const l i = IllFormed /\ logic_z_set_const l i = IllFormed).
Proof. exact const_logic_read. Qed.
Print Assumptions C146_read.
(** positions outside the range of a vector of more than 64 positions are rejected by the compiler *)
Theorem C146_outside_bit : forall b i x, vec b -> 65 <= bw b -> Z.min (bmsb b) (blsb b) = 0 -> ~ in_range (bmsb b) (blsb b) i -> bit_set_const b i x = IllFormed.
Proof. exact const_outside. Qed.
Print Assumptions C146_outside_bit.
Theorem C146_outside_logic : forall l i, lvec l -> 65 <= lw l -> Z.min (lmsb l) (llsb l) = 0 -> ~ in_range (lmsb l) (llsb l) i ->
  (forall x, logic_set_const l i x = IllFormed) /\ logic_set_x_const l i = IllFormed /\ logic_set_z_const l i = IllFormed.
Proof. exact const_outside_logic. Qed.
Print Assumptions C146_outside_logic.
(** any range and any constant ([slot], [with_position], [placed]: the reference machine of C126 and C132) *)
Theorem C146_exact : forall b i x, vec b -> int_ok i -> bit_set_const b i x =
  if negb (int_fits (slot b i) && int_fits (slot b i - Z.min (blsb b) (bmsb b))) then IllFormed
  else if small b then with_position b i x
  else let j := slot b i - Z.min (blsb b) (bmsb b) in if (0 <=? j) && (j <? bw b) then Ok (placed b j x) else IllFormed.
Proof. exact set_const_exact. Qed.
Print Assumptions C146_exact.
(** the same for the symbols of a 4-state vector, and the reading members *)
Theorem C146_logic_exact : forall l i, lvec l -> int_ok i ->
  (forall s, (match s with S0 => logic_set_const l i false | S1 => logic_set_const l i true | SX => logic_set_x_const l i | SZ => logic_set_z_const l i end) = const_written4 l i s) /\
  bit_get_const (l_val l) i = const_read (lw l) i (position (l_val l) i) /\
  logic_x_set_const l i = const_read (lw l) i (let! m := position (l_xz l) i in if m then let! v := position (l_val l) i in Ok (negb v) else Ok false) /\
  logic_z_set_const l i = const_read (lw l) i (let! m := position (l_xz l) i in if m then position (l_val l) i else Ok false).
Proof. exact const_logic_exact. Qed.
Print Assumptions C146_logic_exact.
Example C146_logic_exact_ex : let l := mkLogic (mkBit 3 (-2) false (HN 5)) (mkBit 3 (-2) false (HN 0)) in
  lvec l /\ int_ok (-1) /\ const_written4 l (-1) S1 = IllFormed /\ omap (fun r => negb (num (l_xz r) =? 0)) (const_written4 l (-1) SX) = Ok true /\ const_read (lw l) 6 (Ok true) = IllFormed.
Proof. conc. Qed.
Definition a70 := mkBit 0 69 false (HB [5; 3]).
Example C146_ex : vec a70 /\ Z.min (bmsb a70) (blsb a70) = 0 /\ in_range (bmsb a70) (blsb a70) 4 /\ place (bmsb a70) (blsb a70) 4 = 65 /\ bit_at a70 65 = true /\
  bit_set_const a70 4 false = Ok (mkBit 0 69 false (HB [5; 1])) /\ bit_set_const a70 70 false = IllFormed /\ bit_get_const a70 4 = IllFormed /\
  lvec (mkLogic a70 a70) /\ (exists l, logic_set_x_const (mkLogic a70 a70) 4 = Ok l /\ sym_at l 65 = SX /\ sym_at l 64 = SZ) /\
  bit_set_const (mkBit 5 2 false (HN 0)) 66 true = UB /\ int_fits (slot a70 (-2 ^ 31)) = false /\
  (exists r, logic_get_c (mkLogic (bit_of_native 7 0 false 200) (bit_of_native 7 0 false 192)) 7 = Ok r /\ sym_at r 0 = SZ).
Proof.
  repeat (split; [conc|]). split; [eexists; split; [vm_compute; reflexivity|conc]|]. split; [conc|]. split; [conc|].
  eexists. split; [vm_compute; reflexivity|conc].
Qed.

(** C147: negative() *)
Theorem C147_refuted : exists b, typed b 1 true /\ tidy b /\ value b = -1 /\ bit_negative b = Ok false.
Proof. exists (mkBit 0 0 true (HN 1)). split; [conc|]. split; [conc|]. split; vm_compute; reflexivity. Qed.
Print Assumptions C147_refuted.
(** It tells whether the value is negative, except for a signed vector of one position that holds 1 (that is, -1); unsigned vectors of more
    than 64 positions do not have it. *)
Theorem C147_exact : forall b, vec b -> tidy b ->
  (bit_negative b = IllFormed <-> 65 <= bw b /\ bsgn b = false) /\
  (bit_negative b = Ok (value b <? 0) <-> ~ (65 <= bw b /\ bsgn b = false) /\ ~ (bw b = 1 /\ bsgn b = true /\ num b = 1)).
Proof. exact negative_iff. Qed.
Print Assumptions C147_exact.
Example C147_ex : vec (bit_of_native 7 0 true (-3)) /\ tidy (bit_of_native 7 0 true (-3)) /\ value (bit_of_native 7 0 true (-3)) = -3 /\ bit_negative (bit_of_native 7 0 true (-3)) = Ok true /\
  vec (mkBit 69 0 true (HB [5; 63])) /\ tidy (mkBit 69 0 true (HB [5; 63])) /\ bit_negative (mkBit 69 0 true (HB [5; 63])) = Ok true.
Proof. conc. Qed.

(** C24: the negated reductions, exactly as the reductions themselves *)
Theorem C24_nand_exact : forall b n s, 1 <= n -> typed b n s -> tidy b ->
  (bit_r_nand b = true <-> exists p, 0 <= p < n /\ bit_at b p = false) <->
  (2 <= n <= 64 /\ (s = true -> num b <> 2 ^ n - 1 /\ num b <> 2 ^ (n - 1) - 1)) \/ (65 <= n /\ Z.odd (ones n (num b)) = (num b =? 2 ^ n - 1)).
Proof. exact nand_iff. Qed.
Print Assumptions C24_nand_exact.
Theorem C24_nor_exact : forall b, vec b -> tidy b ->
  (bit_r_nor b = true <-> forall p, 0 <= p < bw b -> (bw b <= 64 \/ p mod 64 < 32) -> bit_at b p = false).
Proof. exact nor_iff. Qed.
Print Assumptions C24_nor_exact.
Example C24_nand_ex : typed (bit_of_native 7 0 false 254) 8 false /\ tidy (bit_of_native 7 0 false 254) /\ bit_r_nand (bit_of_native 7 0 false 254) = true /\ bit_at (bit_of_native 7 0 false 254) 0 = false /\
  bit_r_nor (bit_of_native 7 0 false 254) = false /\ bit_r_nor (mkBit 69 0 false (HB [2 ^ 40; 0])) = true.
Proof. conc. Qed.

(** C136: ashl of a 4-state vector is its left shift; a 2-state amount must have the same bounds *)
Theorem C136_ashl : forall a k, lvec a -> lvec k -> logic_ashl a k = four_shift any_left a k.
Proof. exact ashl_four. Qed.
Print Assumptions C136_ashl.
Theorem C136_ashl_bit : forall a b, lvec a -> vec b ->
  logic_ashl_bit a b = let! k := four_of_bit (lmsb a) (llsb a) (lsgn a) b in four_shift any_left a k.
Proof. exact ashl_bit_four. Qed.
Print Assumptions C136_ashl_bit.
Example C136_ashl_ex : logic_ashl_bit (vec4 8 false 5 0) (vec_of 8 false 2) = Ok (vec4 8 false 20 0) /\ logic_ashl_bit (vec4 8 false 5 0) (vec_of 4 false 2) = IllFormed /\
  logic_ashl (vec4 8 false 5 0) (vec4 4 false 2 0) = Ok (vec4 8 false 20 0).
Proof. conc. Qed.

(** C88: a 2-state packed structure or union starts with zeros *)
Theorem C88_default_2state : forall n, 1 <= n < 2 ^ 31 -> typed (packed_default2 n) n false /\ num (packed_default2 n) = 0 /\ tidy (packed_default2 n).
Proof. exact default2_zero. Qed.
Print Assumptions C88_default_2state.

(** C55: the elements of a packed array built from a text.  Missing: as in [C55_logic_partial], arrays of more than 64 positions. *)
Theorem C55_array_partial : forall t pre size base k s, 1 <= pa_base t -> pa_base t * elems t <= 64 -> prefix_ok pre size -> pow2_base base k -> digits_ok k s -> fits k s ->
  narrow_ok (pa_base t * elems t) k s -> (k = 1 -> forall p, 32 <= p -> unknown (text_sym 1 s p) = false) ->
  exists a, pa_of_str t (literal pre size base s) = Ok a /\ arr4 t a /\
    forall i p, element t i -> 0 <= p < pa_base t -> sym_at a (start t i + p) = text_sym k s (start t i + p).
Proof. exact array_text. Qed.
Print Assumptions C55_array_partial.
Example C55_array_ex : 1 <= pa_base (mkParrTy 4 false 3 0) /\ pa_base (mkParrTy 4 false 3 0) * elems (mkParrTy 4 false 3 0) <= 64 /\ element (mkParrTy 4 false 3 0) 2 /\
  (exists a, pa_of_str (mkParrTy 4 false 3 0) (literal [] [] 104 (chars "A05F")) = Ok a /\ sym_at a (start (mkParrTy 4 false 3 0) 3 + 1) = S1 /\ sym_at a (start (mkParrTy 4 false 3 0) 2) = S0).
Proof. repeat (split; [conc|]). eexists. split; [vm_compute; reflexivity|conc]. Qed.
