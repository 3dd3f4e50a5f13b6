(** Property theorems about 4-state vectors.  Same conventions as PropsBit.v: [ltyped l n s] says that [l] is a
    logic<n-1, 0, s>, [sym_at l p] is the symbol (S0, S1, SX, SZ) in position [p]. *)
From Coq Require Import ZArith List Bool.
From Verif Require Import Cpp BigNum Bit Logic Spec BitMain LogicProofs LogicOps LogicRed LogicArith LogicArith2 LogicConv LogicConv2 LogicMain CounterProofs.
Import ListNotations.
Open Scope Z_scope.

(** [vec4 n v m]: the [n]-bit unsigned logic with value bits [v] and x/z mask [m] *)
Definition vec4 (n v m : Z) : logic := mkLogic (bit_of_native (n - 1) 0 false v) (bit_of_native (n - 1) 0 false m).
Definition vec4s (n v m : Z) : logic := mkLogic (bit_of_native (n - 1) 0 true v) (bit_of_native (n - 1) 0 false m).
(** 8 bits 10zx_0110 and 0x11_z100 *)
Definition e1 := vec4 8 166 48.
Definition e2 := vec4 8 56 72.
(** 8 bits without x or z *)
Definition k1 := vec4 8 166 0.
Definition k2 := vec4 8 13 0.
(** 70 bits, x in position 3, 1 in position 69 *)
Definition w70 := mkLogic (mkBit 69 0 false (HB [0; 32])) (mkBit 69 0 false (HB [8; 0])).

(** C03: reading back an x written at position 69 of a 70-bit vector is undefined behaviour *)
Theorem C03_refuted : exists l l', ltyped l 70 false /\ logic_set_x l 69 = Ok l' /\ logic_get l' 69 = UB.
Proof. exact access4_counter. Qed.
Print Assumptions C03_refuted.
(** Missing: reading an x or z at an index of 64 or more (false); ranges that do not start at 0 (see C02). *)
Theorem C03_partial : forall l i s, lvec l -> Z.min (lmsb l) (llsb l) = 0 -> in_range (lmsb l) (llsb l) i -> (unknown s = true -> i < 64) ->
  exists l', (match s with S0 => logic_set l i false | S1 => logic_set l i true | SX => logic_set_x l i | SZ => logic_set_z l i end) = Ok l' /\
    (forall x, ltyped x 1 false -> sym_at x 0 = s -> logic_set_l l i x = Ok l') /\
    lvec l' /\ lmsb l' = lmsb l /\ llsb l' = llsb l /\ lsgn l' = lsgn l /\
    (exists r, logic_get l' i = Ok r /\ ltyped r 1 false /\ sym_at r 0 = s) /\
    (forall j, in_range (lmsb l) (llsb l) j -> j <> i -> logic_get l' j = logic_get l j) /\
    (forall j, ~ in_range (lmsb l) (llsb l) j -> exists r, logic_get l' j = Ok r /\ sym_at r 0 = SX).
Proof. exact access4. Qed.
Print Assumptions C03_partial.
(** every position can be read *)
Theorem C03_read_partial : forall l j, lvec l -> Z.min (lmsb l) (llsb l) = 0 -> in_range (lmsb l) (llsb l) j ->
  (unknown (sym_at l (place (lmsb l) (llsb l) j)) = true -> j < 64) ->
  exists r, logic_get l j = Ok r /\ ltyped r 1 false /\ sym_at r 0 = sym_at l (place (lmsb l) (llsb l) j).
Proof. exact read4. Qed.
Print Assumptions C03_read_partial.
Example C03_ex : lvec w70 /\ Z.min (lmsb w70) (llsb w70) = 0 /\ in_range (lmsb w70) (llsb w70) 63 /\ sym_at w70 3 = SX /\ sym_at w70 69 = S1 /\ sym_at w70 4 = S0.
Proof. conc. Qed.

(** C04, 4-state half *)
Theorem C04_default_logic : forall msb lsb s, int_ok msb -> int_ok lsb -> width msb lsb < 2 ^ 31 ->
  let l := logic_default msb lsb s in
  lvec l /\ lmsb l = msb /\ llsb l = lsb /\ lsgn l = s /\ all_x l /\ ltidy l.
Proof. exact default_x. Qed.
Print Assumptions C04_default_logic.
Example C04_logic_ex : int_ok 2 /\ int_ok 99 /\ width 2 99 < 2 ^ 31.
Proof. conc. Qed.

(** C05, C06, C07, 4-state half *)
Theorem C05_logic_slice : forall x n a b, 1 <= n -> ltyped x n false -> 0 <= a < n -> 0 <= b < n -> (n <= 64 \/ Z.abs (a - b) + 1 <> 65) ->
  exists r, logic_slice_c x a b = Ok r /\ ltyped r (Z.abs (a - b) + 1) false /\ ltidy r /\
    forall p, 0 <= p < Z.abs (a - b) + 1 -> sym_at r p = sym_at x (Z.min a b + p).
Proof. exact lslice_c. Qed.
Print Assumptions C05_logic_slice.
Theorem C06_logic_partial : forall x n a b, ltyped x n true -> 0 <= a < n -> 0 <= b < n ->
  (2 <= n <= 64 /\ a <> b /\ Z.max a b + 2 <= iwidth (hty n true)) \/ (65 <= n /\ Z.abs (a - b) + 1 <> 65) ->
  exists r, logic_slice_c x a b = Ok r /\ ltyped r (Z.abs (a - b) + 1) false /\
    forall p, 0 <= p < Z.abs (a - b) + 1 -> sym_at r p = sym_at x (Z.min a b + p).
Proof. exact lslice_c_signed. Qed.
Print Assumptions C06_logic_partial.
Theorem C07_logic_partial : forall x n s a b, 2 <= n -> ltyped x n s -> 0 <= a < n -> 0 <= b < n ->
  exists r, logic_slice_r x (Z.abs (a - b) + 1) a b = Ok r /\ ltyped r (Z.abs (a - b) + 1) false /\
    forall p, 0 <= p < Z.abs (a - b) + 1 -> sym_at r p = sym_at x (Z.min a b + p).
Proof. exact lslice_r. Qed.
Print Assumptions C07_logic_partial.
Theorem C07_logic_indexed_partial : forall x n s k (up : bool) base, 2 <= n -> ltyped x n s -> 1 <= k -> 0 <= base < n ->
  (if up then base + k <= n else k <= base + 1) ->
  exists r, logic_slice_idx x k up base = Ok r /\ ltyped r k false /\
    forall p, 0 <= p < k -> sym_at r p = sym_at x ((if up then base else base - k + 1) + p).
Proof. exact lslice_idx. Qed.
Print Assumptions C07_logic_indexed_partial.
Example C05_logic_ex : ltyped e1 8 false /\ ltyped w70 70 false /\ ltyped (vec4s 8 (-90) 48) 8 true /\ 6 + 2 <= iwidth (hty 8 true) /\ sym_at e1 5 = SZ /\ sym_at e1 4 = SX.
Proof. conc. Qed.

(** C08, 4-state half *)
Theorem C08_logic_partial : forall l n m, 1 <= n <= m -> m < 2 ^ 31 -> ltyped l n false -> ltidy l ->
  exists r, logic_extend l m = Ok r /\ ltyped r m false /\ ltidy r /\ forall p, 0 <= p -> sym_at r p = if p <? n then sym_at l p else S0.
Proof. exact logic_extend_u. Qed.
Print Assumptions C08_logic_partial.
Example C08_logic_ex : ltyped e1 8 false /\ ltidy e1 /\ ltyped w70 70 false /\ ltidy w70.
Proof. conc. Qed.

(** C10, 4-state half *)
Theorem C10_logic_partial : forall a b na nb, 1 <= na -> 1 <= nb -> na + nb < 64 -> (na + nb <= 32 \/ 33 <= na) ->
  ltyped a na false -> ltyped b nb false -> ltidy a -> ltidy b ->
  exists r, logic_concat a b = Ok r /\ ltyped r (na + nb) false /\ ltidy r /\
    forall p, 0 <= p < na + nb -> sym_at r p = if p <? nb then sym_at b p else sym_at a (p - nb).
Proof. exact lconcat. Qed.
Print Assumptions C10_logic_partial.
Example C10_logic_ex : ltyped e1 8 false /\ ltidy e1 /\ ltyped e2 8 false /\ ltidy e2.
Proof. conc. Qed.

(** C11: {x, 1} of a one-bit logic and a one-bit bit is 0z *)
Theorem C11_refuted : exists a b r, ltyped a 1 false /\ ltidy a /\ typed b 1 false /\ tidy b /\ sym_at a 0 = SX /\ bit_at b 0 = true /\
  logic_concat_bit a b = Ok r /\ sym_at r 0 = SZ /\ sym_at r 1 = S0.
Proof. exact concat_bit_counter. Qed.
Print Assumptions C11_refuted.
(** Missing: a left operand with x or z (false); widths beyond those of C10. *)
Theorem C11_partial : forall a b na nb, 1 <= na -> 1 <= nb -> na + nb < 64 -> (na + nb <= 32 \/ 33 <= na) ->
  ltyped a na false -> typed b nb false -> ltidy a -> tidy b -> known a ->
  exists r, logic_concat_bit a b = Ok r /\ ltyped r (na + nb) false /\
    forall p, 0 <= p < na + nb -> sym_at r p = if p <? nb then sym_of_bool (bit_at b p) else sym_at a (p - nb).
Proof. exact lconcat_bit_known. Qed.
Print Assumptions C11_partial.
(** what happens to x and z: the value bits move up, the x/z mask stays *)
Theorem C11_mask_not_moved : forall a b na nb, 1 <= na -> 1 <= nb -> na + nb < 64 -> (na + nb <= 32 \/ 33 <= na) ->
  ltyped a na false -> typed b nb false -> ltidy a -> tidy b ->
  exists r, logic_concat_bit a b = Ok r /\ ltyped r (na + nb) false /\
    forall p, 0 <= p < na + nb -> sym_at r p = sym_of (if p <? nb then bit_at b p else bit_at (l_val a) (p - nb)) (bit_at (l_xz a) p).
Proof. exact lconcat_bit. Qed.
Print Assumptions C11_mask_not_moved.
Example C11_ex : ltyped k1 8 false /\ ltidy k1 /\ known k1 /\ ltyped e1 8 false /\ ltidy e1 /\ typed (l_val k2) 8 false /\ tidy (l_val k2).
Proof. split; [conc|]. split; [conc|]. split; [apply known_of_num0; reflexivity|]. conc. Qed.

(** C12: each variable receives its slice, the last one the least significant bits *)
Theorem C12_unpack : forall l n ts, 1 <= n -> ltyped l n false -> Forall (fun t => ltyped t (lw t) (lsgn t)) ts ->
  (n <= 64 \/ Forall (fun t => lw t <> 65) ts) -> total (map lw ts) <= n ->
  exists rs, logic_unpack l ts = Ok rs /\ length rs = length ts /\
    forall pre t post, ts = pre ++ t :: post -> exists r, nth_error rs (length pre) = Some r /\ ltyped r (lw t) (lsgn t) /\ (lsgn t = false -> ltidy r) /\
      forall p, 0 <= p < lw t -> sym_at r p = sym_at l (total (map lw post) + p).
Proof. exact lunpack. Qed.
Print Assumptions C12_unpack.
(** 64 ones, unpacked into two halves, cannot be concatenated back; 33 ones, unpacked into 31 and 2, lose the top position *)
Theorem C12_refuted : 
  (exists r s, logic_unpack (all1 64) [all1 32; all1 32] = Ok [r; s] /\ logic_concat r s = IllFormed) /\
  (exists r s c, ltyped (all1 33) 33 false /\ ltidy (all1 33) /\ logic_unpack (all1 33) [all1 31; all1 2] = Ok [r; s] /\ logic_concat r s = Ok c /\
     sym_at (all1 33) 32 = S1 /\ sym_at c 32 = S0).
Proof. exact unpack_counter. Qed.
Print Assumptions C12_refuted.
(** concatenating the variables back (a.concat(b).concat(c)...), for the widths C10 covers *)
Theorem C12_concat_back_partial : forall l n t ts, ltyped l n false -> Forall (fun t => ltyped t (lw t) false) (t :: ts) ->
  total (map lw (t :: ts)) = n -> n < 64 -> (n <= 32 \/ 33 <= lw t) ->
  exists r rs c, logic_unpack l (t :: ts) = Ok (r :: rs) /\ ofold logic_concat rs r = Ok c /\ ltyped c n false /\
    forall p, 0 <= p < n -> sym_at c p = sym_at l p.
Proof. exact unpack_concat. Qed.
Print Assumptions C12_concat_back_partial.
Example C12_ex : ltyped e1 8 false /\ Forall (fun t => ltyped t (lw t) false) [vec4 3 0 7; vec4 1 0 1; vec4 4 0 15] /\
  total (map lw [vec4 3 0 7; vec4 1 0 1; vec4 4 0 15]) = 8.
Proof. split; [conc|]. split; [repeat constructor; conc|reflexivity]. Qed.

(** C15: x & 0 is x and z & 1 is 1 *)
Theorem C15_refuted : exists a b r, ltyped a 2 false /\ ltyped b 2 false /\ ltidy a /\ ltidy b /\ logic_and a b = Ok r /\
  sym_at a 0 = SX /\ sym_at b 0 = S0 /\ sym_at r 0 = SX /\ sym_at a 1 = SZ /\ sym_at b 1 = S1 /\ sym_at r 1 = S1.
Proof. exact and_counter. Qed.
Print Assumptions C15_refuted.
(** Every entry of the table but three: x & 0, z & 1, z & z.  Missing: these three (false). *)
Theorem C15_partial : forall a b n, lvec a -> lvec b -> lw a = n -> lw b = n -> llsb a <= lmsb a -> llsb b <= lmsb b -> lsgn a && lsgn b = false ->
  exists r, logic_and a b = Ok r /\ ltyped r n false /\ ltidy r /\ forall p, 0 <= p < n ->
    sym_at r p = match sym_at a p, sym_at b p with SX, S0 => SX | SZ, S1 => S1 | SZ, SZ => SZ | s, t => and4 s t end.
Proof. exact and4_main. Qed.
Print Assumptions C15_partial.
(** operands of different width: the same with the narrower one extended by zeros *)
Theorem C15_mixed_partial : forall a b na nb, 1 <= na -> 1 <= nb -> na <> nb -> ltyped a na false -> ltyped b nb false -> ltidy a -> ltidy b ->
  exists r, logic_and a b = Ok r /\ ltyped r (Z.max na nb) false /\ ltidy r /\ forall p, 0 <= p < Z.max na nb ->
    sym_at r p = match (if p <? na then sym_at a p else S0), (if p <? nb then sym_at b p else S0) with
                 | SX, S0 => SX | SZ, S1 => S1 | SZ, SZ => SZ | s, t => and4 s t end.
Proof. exact and_mixed_main. Qed.
Print Assumptions C15_mixed_partial.
Example C15_ex : ltyped e1 8 false /\ ltyped e2 8 false /\ ltyped w70 70 false /\ ltidy e1 /\ ltidy e2 /\ ltidy w70.
Proof. conc. Qed.

(** C16: x | 0 is 1 and z | 1 is x *)
Theorem C16_refuted : exists a b r, ltyped a 2 false /\ ltyped b 2 false /\ ltidy a /\ ltidy b /\ logic_or a b = Ok r /\
  sym_at a 0 = SX /\ sym_at b 0 = S0 /\ sym_at r 0 = S1 /\ sym_at a 1 = SZ /\ sym_at b 1 = S1 /\ sym_at r 1 = SX.
Proof. exact or_counter. Qed.
Print Assumptions C16_refuted.
(** Every entry of the table but two: x | 0, z | 1.  Missing: these two (false). *)
Theorem C16_partial : forall a b n, lvec a -> lvec b -> lw a = n -> lw b = n -> llsb a <= lmsb a -> llsb b <= lmsb b -> lsgn a && lsgn b = false ->
  exists r, logic_or a b = Ok r /\ ltyped r n false /\ ltidy r /\ forall p, 0 <= p < n ->
    sym_at r p = match sym_at a p, sym_at b p with SX, S0 => S1 | SZ, S1 => SX | s, t => or4 s t end.
Proof. exact or4_main. Qed.
Print Assumptions C16_partial.
Theorem C16_mixed_partial : forall a b na nb, 1 <= na -> 1 <= nb -> na <> nb -> ltyped a na false -> ltyped b nb false -> ltidy a -> ltidy b ->
  exists r, logic_or a b = Ok r /\ ltyped r (Z.max na nb) false /\ ltidy r /\ forall p, 0 <= p < Z.max na nb ->
    sym_at r p = match (if p <? na then sym_at a p else S0), (if p <? nb then sym_at b p else S0) with
                 | SX, S0 => S1 | SZ, S1 => SX | s, t => or4 s t end.
Proof. exact or_mixed_main. Qed.
Print Assumptions C16_mixed_partial.

(** C17 *)
Theorem C17_xor : forall a b n, lvec a -> lvec b -> lw a = n -> lw b = n -> llsb a <= lmsb a -> llsb b <= lmsb b -> lsgn a && lsgn b = false ->
  exists r, logic_xor a b = Ok r /\ ltyped r n false /\ (tidy (l_xz a) -> tidy (l_xz b) -> ltidy r) /\ forall p, 0 <= p < n -> sym_at r p = xor4 (sym_at a p) (sym_at b p).
Proof. exact xor4_main. Qed.
Print Assumptions C17_xor.
(** two signed operands: none of the three operators compiles *)
Theorem C17_signed_rejected : forall a b n, lvec a -> lvec b -> lw a = n -> lw b = n -> llsb a <= lmsb a -> llsb b <= lmsb b ->
  lsgn a = true -> lsgn b = true -> logic_and a b = IllFormed /\ logic_or a b = IllFormed /\ logic_xor a b = IllFormed.
Proof. exact bitwise_signed_rejected. Qed.
Print Assumptions C17_signed_rejected.
Example C17_ex : lvec e1 /\ lvec (vec4s 8 (-90) 48) /\ lw e1 = 8 /\ lw (vec4s 8 (-90) 48) = 8 /\ llsb e1 <= lmsb e1 /\
  lsgn e1 && lsgn (vec4s 8 (-90) 48) = false.
Proof. conc. Qed.

(** C18: different widths compute | instead of ^ *)
Theorem C18_refuted : exists a b r, ltyped a 2 false /\ ltyped b 1 false /\ ltidy a /\ ltidy b /\ logic_xor a b = Ok r /\
  sym_at a 0 = S1 /\ sym_at b 0 = S1 /\ sym_at r 0 = S1.
Proof. exact xor_mixed_counter. Qed.
Print Assumptions C18_refuted.
(** Missing: positions holding 1^1, 1^x, 1^z, x^0, x^1 (false); signed operands. *)
Theorem C18_partial : forall a b na nb, 1 <= na -> 1 <= nb -> na <> nb -> ltyped a na false -> ltyped b nb false -> ltidy a -> ltidy b ->
  (forall p, 0 <= p < Z.max na nb ->
     match (if p <? na then sym_at a p else S0), (if p <? nb then sym_at b p else S0) with
     | S1, S1 | S1, SX | S1, SZ | SX, S0 | SX, S1 => False | _, _ => True end) ->
  exists r, logic_xor a b = Ok r /\ ltyped r (Z.max na nb) false /\ ltidy r /\ forall p, 0 <= p < Z.max na nb ->
    sym_at r p = xor4 (if p <? na then sym_at a p else S0) (if p <? nb then sym_at b p else S0).
Proof. exact xor_mixed. Qed.
Print Assumptions C18_partial.
Example C18_ex : ltyped (vec4 4 9 0) 4 false /\ ltyped (vec4 2 2 0) 2 false /\ ltidy (vec4 4 9 0) /\ ltidy (vec4 2 2 0) /\
  (forall p, 0 <= p < 4 ->
     match (if p <? 4 then sym_at (vec4 4 9 0) p else S0), (if p <? 2 then sym_at (vec4 2 2 0) p else S0) with
     | S1, S1 | S1, SX | S1, SZ | SX, S0 | SX, S1 => False | _, _ => True end).
Proof. exact mixed_xor_ex. Qed.

(** C19 *)
Theorem C19_not : forall a n, lvec a -> lw a = n ->
  exists r, logic_not a = Ok r /\ ltyped r n false /\ (tidy (l_xz a) -> ltidy r) /\ forall p, 0 <= p < n -> sym_at r p = not4 (sym_at a p).
Proof. exact not4_main. Qed.
Print Assumptions C19_not.
Example C19_ex : lvec e1 /\ lw e1 = 8 /\ sym_at e1 5 = SZ /\ not4 SZ = SX /\ not4 SX = SX /\ not4 S0 = S1 /\ not4 S1 = S0.
Proof. conc. Qed.

(** C20 *)
Theorem C20_known_bitwise : forall a b n, lvec a -> lvec b -> lw a = n -> lw b = n -> llsb a <= lmsb a -> llsb b <= lmsb b -> lsgn a && lsgn b = false ->
  known a -> known b ->
  (exists r r' v, logic_and a b = Ok r /\ logic_and b a = Ok r' /\ bit_and (l_val a) (l_val b) = Ok v /\ known r /\
     forall p, 0 <= p < n -> sym_at r p = sym_of_bool (bit_at (l_val a) p && bit_at (l_val b) p) /\ sym_at r' p = sym_at r p /\ bit_at v p = bit_at (l_val r) p) /\
  (exists r r' v, logic_or a b = Ok r /\ logic_or b a = Ok r' /\ bit_or (l_val a) (l_val b) = Ok v /\ known r /\
     forall p, 0 <= p < n -> sym_at r p = sym_of_bool (bit_at (l_val a) p || bit_at (l_val b) p) /\ sym_at r' p = sym_at r p /\ bit_at v p = bit_at (l_val r) p).
Proof. exact known_bitwise. Qed.
Print Assumptions C20_known_bitwise.
Example C20_ex : lvec k1 /\ lvec k2 /\ lw k1 = 8 /\ lw k2 = 8 /\ known k1 /\ known k2.
Proof. do 4 (split; [conc|]). split; apply known_of_num0; reflexivity. Qed.

(** C21: r_and of 0x is x *)
Theorem C21_refuted : exists a r, ltyped a 2 false /\ ltidy a /\ sym_at a 0 = SX /\ sym_at a 1 = S0 /\ logic_r_and a = Ok r /\ sym_at r 0 = SX.
Proof. exact r_and_counter. Qed.
Print Assumptions C21_refuted.
(** Missing: a 0 above an x or z (false). *)
Theorem C21_partial : forall l n s, 1 <= n -> ltyped l n s -> (forall p q, 0 <= p < q -> q < n -> unknown (sym_at l p) = true -> sym_at l q <> S0) ->
  exists r, logic_r_and l = Ok r /\ ltyped r 1 false /\
    ((exists p, 0 <= p < n /\ sym_at l p = S0) -> sym_at r 0 = S0) /\
    ((forall p, 0 <= p < n -> sym_at l p <> S0) -> ~ known l -> sym_at r 0 = SX) /\
    ((forall p, 0 <= p < n -> sym_at l p = S1) -> sym_at r 0 = S1).
Proof. exact red_and. Qed.
Print Assumptions C21_partial.
(** what r_and and r_or compute: the lowest symbol that is not 1 (not 0) decides *)
Theorem C21_lowest_decides : forall l n s, 1 <= n -> ltyped l n s ->
  exists ra ro, logic_r_and l = Ok ra /\ logic_r_or l = Ok ro /\ ltyped ra 1 false /\ ltyped ro 1 false /\
   ((forall p, 0 <= p < n -> sym_at l p = S1) -> sym_at ra 0 = S1) /\
   (forall p, 0 <= p < n -> (forall q, 0 <= q < p -> sym_at l q = S1) -> sym_at l p <> S1 ->
      sym_at ra 0 = if unknown (sym_at l p) then SX else S0) /\
   ((forall p, 0 <= p < n -> sym_at l p = S0) -> sym_at ro 0 = S0) /\
   (forall p, 0 <= p < n -> (forall q, 0 <= q < p -> sym_at l q = S0) -> sym_at l p <> S0 ->
      sym_at ro 0 = if unknown (sym_at l p) then SX else S1).
Proof. exact red_scan. Qed.
Print Assumptions C21_lowest_decides.
(** r_nand and r_nor *)
Theorem C21_complements : forall l n s, 1 <= n -> ltyped l n s ->
  (exists r r', logic_r_and l = Ok r /\ logic_r_nand l = Ok r' /\ sym_at r' 0 = not4 (sym_at r 0)) /\
  (exists r r', logic_r_or l = Ok r /\ logic_r_nor l = Ok r' /\ sym_at r' 0 = not4 (sym_at r 0)).
Proof. exact red_compl. Qed.
Print Assumptions C21_complements.
Example C21_ex : ltyped (vec4 4 7 8) 4 false /\ ltyped w70 70 false /\
  (forall p q, 0 <= p < q -> q < 4 -> unknown (sym_at (vec4 4 7 8) p) = true -> sym_at (vec4 4 7 8) q <> S0) /\
  (exists p, 0 <= p < 4 /\ unknown (sym_at (vec4 4 7 8) p) = true).
Proof. exact red_and_ex. Qed.

(** C22: r_or of 1x is x *)
Theorem C22_refuted : exists a r, ltyped a 2 false /\ ltidy a /\ sym_at a 0 = SX /\ sym_at a 1 = S1 /\ logic_r_or a = Ok r /\ sym_at r 0 = SX.
Proof. exact r_or_counter. Qed.
Print Assumptions C22_refuted.
(** Missing: a 1 above an x or z (false). *)
Theorem C22_partial : forall l n s, 1 <= n -> ltyped l n s -> (forall p q, 0 <= p < q -> q < n -> unknown (sym_at l p) = true -> sym_at l q <> S1) ->
  exists r, logic_r_or l = Ok r /\ ltyped r 1 false /\
    ((exists p, 0 <= p < n /\ sym_at l p = S1) -> sym_at r 0 = S1) /\
    ((forall p, 0 <= p < n -> sym_at l p <> S1) -> ~ known l -> sym_at r 0 = SX) /\
    ((forall p, 0 <= p < n -> sym_at l p = S0) -> sym_at r 0 = S0).
Proof. exact red_or. Qed.
Print Assumptions C22_partial.
Example C22_ex : ltyped (vec4 4 4 2) 4 false /\ ltyped (vec4 4 2 8) 4 false /\
  (forall p q, 0 <= p < q -> q < 4 -> unknown (sym_at (vec4 4 2 8) p) = true -> sym_at (vec4 4 2 8) q <> S1).
Proof. exact red_or_ex. Qed.

(** C23: r_xor of 000 is 1 *)
Theorem C23_refuted : exists a r, ltyped a 3 false /\ ltidy a /\ known a /\ num (l_val a) = 0 /\ logic_r_xor a = Ok r /\ sym_at r 0 = S1.
Proof. exact r_xor_counter. Qed.
Print Assumptions C23_refuted.
(** Missing: odd widths (false). *)
Theorem C23_partial : forall l n, 2 <= n <= 64 -> Z.even n = true -> ltyped l n false -> ltidy l ->
  exists r r', logic_r_xor l = Ok r /\ logic_r_xnor l = Ok r' /\ ltyped r 1 false /\ ltyped r' 1 false /\
    sym_at r' 0 = not4 (sym_at r 0) /\ (~ known l -> sym_at r 0 = SX) /\
    (known l -> sym_at r 0 = sym_of_bool (Z.odd (ones n (num (l_val l))))).
Proof. exact r_xor_even. Qed.
Print Assumptions C23_partial.
(** what it computes at any width: the parity of the zeros *)
Theorem C23_parity_of_zeros : forall l n, 2 <= n <= 64 -> ltyped l n false -> ltidy l ->
  exists r r', logic_r_xor l = Ok r /\ logic_r_xnor l = Ok r' /\ ltyped r 1 false /\ ltyped r' 1 false /\
    sym_at r' 0 = not4 (sym_at r 0) /\ (~ known l -> sym_at r 0 = SX) /\
    (known l -> sym_at r 0 = sym_of_bool (Z.odd (n - ones n (num (l_val l))))).
Proof. exact red_xor. Qed.
Print Assumptions C23_parity_of_zeros.
(** the other instantiations do not compile *)
Theorem C23_rejected : forall l, lvec l -> lw l = 1 \/ 65 <= lw l \/ lsgn l = true -> logic_r_xor l = IllFormed /\ logic_r_xnor l = IllFormed.
Proof. exact red_xor_rejected. Qed.
Print Assumptions C23_rejected.
Example C23_ex : ltyped k1 8 false /\ ltidy k1 /\ ltyped e1 8 false /\ ltidy e1 /\ known k1 /\ Z.odd (ones 8 (num (l_val k1))) = false /\ Z.odd (ones 8 (num (l_val k2))) = true.
Proof. do 4 (split; [conc|]). split; [apply known_of_num0; reflexivity|conc]. Qed.

(** C25: a 128-bit vector with only bit 32 set converts to false *)
Theorem C25_refuted : exists l, ltyped l 128 false /\ ltidy l /\ known l /\ sym_at l 32 = S1 /\ logic_bool l = false.
Proof. exact truth_counter. Qed.
Print Assumptions C25_refuted.
(** Missing: multi-word vectors whose ones (or x/z) all lie in upper halves of 64-bit groups (false). *)
Theorem C25_partial : forall l, lvec l -> ltidy l -> seen l -> (lw l <= 64 \/ visible (num (l_val l))) ->
  (logic_bool l = true <-> known l /\ exists p, 0 <= p < lw l /\ sym_at l p = S1) /\
  exists r, logic_lnot l = r /\ ltyped r 1 false /\
    (~ known l -> sym_at r 0 = SX) /\
    (known l -> sym_at r 0 = sym_of_bool (negb (logic_bool l))).
Proof. exact truth_value. Qed.
Print Assumptions C25_partial.
Example C25_ex : lvec e1 /\ ltidy e1 /\ lw e1 <= 64 /\ lvec one128 /\ ltidy one128 /\ seen one128 /\ visible (num (l_val one128)).
Proof. exact truth_ex. Qed.

(** C29: the library misses an x in position 32 of a 128-bit vector *)
Theorem C29_refuted : exists a amt r, ltyped a 128 false /\ ltyped amt 128 false /\ ltidy a /\ ltidy amt /\ sym_at a 32 = SX /\
  logic_shr a amt = Ok r /\ sym_at r 0 = S0.
Proof. exact shift_counter. Qed.
Print Assumptions C29_refuted.
(** Missing: multi-word vectors whose x/z all lie in upper halves of 64-bit groups (false). *)
Theorem C29_unknown_partial : forall lop bop, In (lop, bop) [(logic_shr, bit_shr); (logic_shl, bit_shl); (logic_ashr, bit_ashr)] ->
  forall a amt, lvec a -> lvec amt -> tidy (l_xz a) -> tidy (l_xz amt) -> seen a -> seen amt -> (lw a <= 64 -> lw amt <= 64) ->
  ~ known a \/ ~ known amt -> exists r, lop a amt = Ok r /\ ltyped r (lw a) (lsgn a && lsgn amt) /\ all_x r /\ ltidy r.
Proof. exact lops_unknown. Qed.
Print Assumptions C29_unknown_partial.
(** known operands: C26, C27, C28 at 4 states *)
Theorem C29_shr_partial : forall a amt, lvec a -> lvec amt -> tidy (l_xz a) -> ltidy amt -> seen a -> seen amt -> known a -> known amt ->
  0 <= value (l_val amt) -> (lw a <= 64 -> lw amt <= 64 /\ value (l_val amt) < lw a) ->
  exists r, logic_shr a amt = Ok r /\ ltyped r (lw a) (lsgn a && lsgn amt) /\ known r /\
    num (l_val r) = num (l_val a) / 2 ^ value (l_val amt).
Proof. exact lshift_right. Qed.
Print Assumptions C29_shr_partial.
Theorem C29_shl_partial : forall a amt, lvec a -> lvec amt -> tidy (l_xz a) -> ltidy amt -> seen a -> seen amt -> known a -> known amt ->
  0 <= value (l_val amt) ->
  (lw a <= 64 -> lw amt <= 64 /\ (value (l_val amt) = 0 \/ 2 <= lw a /\ value (l_val amt) < (if lw a <=? 32 then 32 else 64))) ->
  exists r, logic_shl a amt = Ok r /\ ltyped r (lw a) (lsgn a && lsgn amt) /\ known r /\
    num (l_val r) = (num (l_val a) * 2 ^ value (l_val amt)) mod 2 ^ lw a.
Proof. exact lshift_left. Qed.
Print Assumptions C29_shl_partial.
Theorem C29_ashr_partial : forall a amt, lvec a -> lvec amt -> ltidy a -> ltidy amt -> seen a -> seen amt -> known a -> known amt ->
  0 <= value (l_val amt) ->
  (2 <= lw a <= 64 /\ lw amt <= 64 /\ value (l_val amt) < (if lw a <=? 32 then 32 else 64)) \/
  (65 <= lw a /\ (0 <= value (l_val a) \/ lw a <= value (l_val amt))) ->
  exists r, logic_ashr a amt = Ok r /\ ltyped r (lw a) (lsgn a && lsgn amt) /\ known r /\
    num (l_val r) = (value (l_val a) / 2 ^ value (l_val amt)) mod 2 ^ lw a.
Proof. exact lshift_arith. Qed.
Print Assumptions C29_ashr_partial.
Example C29_ex : lvec e1 /\ lvec (vec4 3 5 0) /\ tidy (l_xz e1) /\ ltidy (vec4 3 5 0) /\ seen e1 /\ seen (vec4 3 5 0) /\ ~ known e1 /\ known (vec4 3 5 0) /\ known k1 /\
  lvec w70 /\ tidy (l_xz w70) /\ seen w70 /\ ~ known w70 /\ value (l_val (vec4 3 5 0)) = 5.
Proof. exact shift_ex. Qed.

(** C31, 4-state half *)
Theorem C31_logic_ne : forall a b r, logic_eq a b = Ok r -> exists r', logic_ne a b = Ok r' /\ sym_at r' 0 = not4 (sym_at r 0).
Proof. exact logic_inequality. Qed.
Print Assumptions C31_logic_ne.
Theorem C31_logic_ne_undefined : forall a b, (forall r, logic_eq a b <> Ok r) -> logic_ne a b = logic_eq a b.
Proof. exact logic_inequality_err. Qed.
Print Assumptions C31_logic_ne_undefined.
Example C31_logic_ex : exists r r', logic_eq k1 k2 = Ok r /\ logic_eq e1 k2 = Ok r'.
Proof. eexists. eexists. split; vm_compute; reflexivity. Qed.

(** C35: the library misses an x in position 32 of a 128-bit vector *)
Theorem C35_refuted : exists a r, ltyped a 128 false /\ ltidy a /\ sym_at a 32 = SX /\ logic_eq a a = Ok r /\ sym_at r 0 = S1.
Proof. exact cmp_counter. Qed.
Print Assumptions C35_refuted.
(** Missing: multi-word vectors whose x/z all lie in upper halves of 64-bit groups (false). *)
Theorem C35_partial : forall lop bop, In (lop, bop) [(logic_eq, bit_eq); (logic_ne, bit_ne); (logic_lt, bit_lt); (logic_gt, bit_gt); (logic_le, bit_le); (logic_ge, bit_ge)] ->
  forall a b, lvec a -> lvec b -> tidy (l_xz a) -> tidy (l_xz b) -> seen a -> seen b ->
  (~ known a \/ ~ known b -> bop (l_val a) (l_val b) <> IllFormed -> exists r, lop a b = Ok r /\ ltyped r 1 false /\ sym_at r 0 = SX) /\
  (known a -> known b -> forall c, bop (l_val a) (l_val b) = Ok c -> exists r, lop a b = Ok r /\ ltyped r 1 false /\ sym_at r 0 = sym_of_bool c).
Proof. exact lcmp_unknown. Qed.
Print Assumptions C35_partial.
(** a bit against a logic *)
Theorem C35_bit_logic_partial : forall rop bop, In (rop, bop) [(bit_gt_logic, bit_lt); (bit_lt_logic, bit_gt); (bit_ge_logic, bit_le); (bit_le_logic, bit_ge)] ->
  forall a l, vec a -> lvec l -> tidy (l_xz l) -> seen l -> bmsb a = lmsb l -> blsb a = llsb l -> bsgn a = lsgn l ->
  (~ known l -> bop (l_val l) a <> IllFormed -> rop a l = Ok false) /\
  (known l -> forall c, bop (l_val l) a = Ok c -> rop a l = Ok c).
Proof. exact brel_unknown. Qed.
Print Assumptions C35_bit_logic_partial.
Example C35_ex : lvec e1 /\ lvec k2 /\ tidy (l_xz e1) /\ seen e1 /\ ~ known e1 /\ known k2 /\ bit_lt (l_val e1) (l_val k2) = Ok false /\ bit_gt (l_val k1) (l_val k2) = Ok true.
Proof. exact cmp_ex. Qed.

(** C36: 4-bit 8+8 reads 0000 but does not match 0000 (the carry is kept above the width) *)
Theorem C36_refuted : exists a b r, ltyped a 4 false /\ ltidy a /\ ltyped b 4 false /\ ltidy b /\ logic_add a a = Ok r /\ ltyped r 4 false /\
  (forall p, 0 <= p < 4 -> sym_at r p = sym_at b p) /\ logic_match r b = Ok false.
Proof. exact match_counter. Qed.
Print Assumptions C36_refuted.
(** Missing: operands with content above their width (false); operands of different type. *)
Theorem C36_partial : forall a b n s, 1 <= n -> ltyped a n s -> ltyped b n s -> ltidy a -> ltidy b -> (s = true -> 2 <= n <= 64) ->
  exists c, logic_match a b = Ok c /\ (c = true <-> forall p, 0 <= p < n -> sym_at a p = sym_at b p) /\
    logic_match b a = Ok c /\ logic_match a a = Ok true /\ logic_nmatch a b = Ok (negb c).
Proof. exact lmatch_laws. Qed.
Print Assumptions C36_partial.
Example C36_ex : ltyped e1 8 false /\ ltyped e2 8 false /\ ltidy e1 /\ ltidy e2 /\ logic_match e1 e2 = Ok false /\ logic_match e1 e1 = Ok true /\
  ltyped (vec4s 8 (-90) 48) 8 true /\ ltidy (vec4s 8 (-90) 48).
Proof. conc. Qed.

(** C41: 1 / 2^32 at 128 bits is x *)
Theorem C41_refuted : exists a b r, ltyped a 128 false /\ ltyped b 128 false /\ ltidy a /\ ltidy b /\ known a /\ known b /\ num (l_val b) = 2 ^ 32 /\
  logic_div a b = Ok r /\ sym_at r 0 = SX.
Proof. exact div_x_counter. Qed.
Print Assumptions C41_refuted.
(** Missing: multi-word divisors whose ones all lie in upper halves of 64-bit groups (false);
    signed multi-word dividends (do not compile). *)
Theorem C41_partial : forall lop bop, In (lop, bop) [(logic_div, bit_div); (logic_rem, bit_rem)] ->
  forall a b na nb sa sb, 1 <= na -> 1 <= nb -> ltyped a na sa -> ltyped b nb sb -> tidy (l_xz a) -> ltidy b ->
  (na < nb -> extendable (l_val a)) -> (nb < na -> extendable (l_val b)) ->
  seen_at a (Z.max na nb) -> seen_at b (Z.max na nb) -> (sa = false \/ Z.max na nb <= 64) ->
  (num (l_val b) = 0 -> exists r, lop a b = Ok r /\ ltyped r (Z.max na nb) (sa && sb) /\ all_x r) /\
  (forall v, known a -> known b -> num (l_val b) <> 0 -> (sb = false /\ visible (num (l_val b)) \/ Z.max na nb <= 64) ->
     bop (l_val a) (l_val b) = Ok v -> typed v (Z.max na nb) (sa && sb) ->
     exists r, lop a b = Ok r /\ ltyped r (Z.max na nb) (sa && sb) /\ known r /\ l_val r = v).
Proof. exact arith_zero. Qed.
Print Assumptions C41_partial.

(** C42: the library misses an x in position 32 of a 128-bit vector *)
Theorem C42_refuted : exists a b r, ltyped a 128 false /\ ltyped b 128 false /\ ltidy a /\ ltidy b /\ sym_at a 32 = SX /\
  logic_add a b = Ok r /\ sym_at r 0 = S1.
Proof. exact arith_counter. Qed.
Print Assumptions C42_refuted.
(** Missing: multi-word vectors whose x/z all lie in upper halves of 64-bit groups (false). *)
Theorem C42_unknown_partial : forall d lop bop,
  In (d, lop, bop) [(false, logic_add, bit_add); (false, logic_sub, bit_sub); (false, logic_mul, bit_mul); (true, logic_div, bit_div); (true, logic_rem, bit_rem)] ->
  forall a b na nb sa sb, 1 <= na -> 1 <= nb -> ltyped a na sa -> ltyped b nb sb -> tidy (l_xz a) -> tidy (l_xz b) ->
  (na < nb -> extendable (l_val a)) -> (nb < na -> extendable (l_val b)) ->
  seen_at a (Z.max na nb) -> seen_at b (Z.max na nb) -> (sa = false \/ d = false \/ Z.max na nb <= 64) ->
  (~ known a \/ ~ known b) -> exists r, lop a b = Ok r /\ ltyped r (Z.max na nb) (sa && sb) /\ all_x r /\ ltidy r.
Proof. exact arith_unknown. Qed.
Print Assumptions C42_unknown_partial.
(** known operands: the 2-state result (division: C41_partial) *)
Theorem C42_known_partial : forall lop bop, In (lop, bop) [(logic_add, bit_add); (logic_sub, bit_sub); (logic_mul, bit_mul)] ->
  forall a b na nb sa sb v, 1 <= na -> 1 <= nb -> ltyped a na sa -> ltyped b nb sb -> tidy (l_xz a) -> tidy (l_xz b) ->
  (na < nb -> extendable (l_val a)) -> (nb < na -> extendable (l_val b)) ->
  seen_at a (Z.max na nb) -> seen_at b (Z.max na nb) -> known a -> known b ->
  bop (l_val a) (l_val b) = Ok v -> typed v (Z.max na nb) (sa && sb) ->
  exists r, lop a b = Ok r /\ ltyped r (Z.max na nb) (sa && sb) /\ known r /\ l_val r = v.
Proof. exact arith_defined. Qed.
Print Assumptions C42_known_partial.
(** unary minus and plus *)
Theorem C42_neg_partial : forall a n s, 1 <= n <= 64 -> ltyped a n s -> tidy (l_xz a) ->
  (~ known a -> exists r, logic_neg a = Ok r /\ ltyped r n s /\ all_x r) /\
  (known a -> (s = true -> 17 <= n -> tidy (l_val a) /\ (n = 32 \/ n = 64 -> snum (l_val a) <> - 2 ^ (n - 1))) ->
     exists r, logic_neg a = Ok r /\ ltyped r n s /\ known r /\ num (l_val r) = (- num (l_val a)) mod 2 ^ n).
Proof. exact lneg. Qed.
Print Assumptions C42_neg_partial.
Theorem C42_neg_rejected : forall a, lvec a -> 65 <= lw a -> logic_neg a = IllFormed.
Proof. exact lneg_rejected. Qed.
Print Assumptions C42_neg_rejected.
Theorem C42_plus_partial : forall a, lvec a -> tidy (l_xz a) -> seen a ->
  (known a -> logic_plus a = a) /\
  (~ known a -> let r := logic_plus a in lvec r /\ lmsb r = lmsb a /\ llsb r = llsb a /\ lsgn r = lsgn a /\ all_x r).
Proof. exact lplus. Qed.
Print Assumptions C42_plus_partial.
Example C42_ex : ltyped e1 8 false /\ ltyped w70 70 false /\ ltidy e1 /\ ltidy w70 /\ extendable (l_val e1) /\ seen_at e1 70 /\ seen_at w70 70 /\ ~ known e1 /\
  (exists v, bit_rem (l_val k1) (l_val k2) = Ok v /\ typed v 8 false) /\ num (l_val k2) <> 0.
Proof. exact arith_ex. Qed.

(** C44, 4-state half *)
Theorem C44_logic_partial : forall step (d : Z), In (step, d) [(logic_inc, 1); (logic_dec, -1)] ->
  forall a n s, 2 <= n -> ltyped a n s -> tidy (l_xz a) -> seen a ->
  exists r, step a = Ok r /\ ltyped r n s /\ tidy (l_xz r) /\ logic_post step a = Ok (a, r) /\ (~ known a -> all_x r) /\
    (known a -> known r /\ num (l_val r) = (num (l_val a) + d) mod 2 ^ n).
Proof. exact lstep_main. Qed.
Print Assumptions C44_logic_partial.
Example C44_logic_ex : ltyped k1 8 false /\ tidy (l_xz k1) /\ seen k1 /\ known k1 /\ ltyped w70 70 false /\ tidy (l_xz w70) /\ seen w70.
Proof. exact step_ex. Qed.

(** C45, 4-state half *)
Theorem C45_logic_resign : forall a n s0 s, 1 <= n -> ltyped a n s0 ->
  exists r, logic_resign s a = Ok r /\ ltyped r n s /\ forall p, 0 <= p < n -> sym_at r p = sym_at a p.
Proof. exact lresign. Qed.
Print Assumptions C45_logic_resign.

(** C47, 4-state half.  Missing: vectors that carry garbage above their width, multi-word vectors whose x and z are not
    noticed (C42_refuted). *)
Theorem C47_logic_partial : forall l, lvec l -> tidy (l_xz l) -> seen l -> extendable (l_val l) ->
  (~ known l -> logic_to_uint64 l = 0 /\ (lw l <= 64 -> logic_to_num l = Ok 0)) /\
  (known l -> logic_to_uint64 l = value (l_val l) mod 2 ^ 64 /\ (lw l <= 64 -> logic_to_num l = Ok (value (l_val l)))) /\
  (65 <= lw l -> logic_to_num l = IllFormed).
Proof. exact lto_num. Qed.
Print Assumptions C47_logic_partial.
Example C47_logic_ex : lvec e1 /\ tidy (l_xz e1) /\ seen e1 /\ extendable (l_val e1) /\ extendable (l_val w70) /\ lvec w70.
Proof. exact num_ex. Qed.

(** C48, 4-state half *)
Theorem C48_logic_partial : forall dst src n m s s2, 1 <= m -> ltyped dst n s -> ltyped src m s2 ->
  (2 <= n <= 64 -> m <= 64 -> (m < n -> s2 = false /\ ltidy src) ->
     exists r, logic_assign dst src = Ok r /\ ltyped r n s /\
       forall p, 0 <= p < n -> sym_at r p = if p <? m then sym_at src p else S0) /\
  (65 <= n -> m = n -> exists r, logic_assign dst src = Ok r /\ ltyped r n s /\ forall p, 0 <= p < n -> sym_at r p = sym_at src p) /\
  (1 <= n -> m <> n -> 65 <= n \/ 65 <= m -> logic_assign dst src = IllFormed).
Proof. exact lassign_widths. Qed.
Print Assumptions C48_logic_partial.
Example C48_logic_ex : ltyped (vec4 4 0 15) 4 false /\ ltyped e1 8 false /\ ltidy (vec4 4 0 15) /\ ltyped w70 70 false.
Proof. conc. Qed.

(** C49: updating a 70-bit range from a source with an x in position 69 is undefined behaviour *)
Theorem C49_refuted : exists x op, ltyped x 70 false /\ ltidy x /\ ltyped op 70 false /\ ltidy op /\ logic_update_r x 69 0 op = UB.
Proof. exact update_counter. Qed.
Print Assumptions C49_refuted.
(** Missing: sources with an x or z at position 64 or above (false). *)
Theorem C49_runtime_partial : forall x n s op k so a b, 1 <= n -> 1 <= k -> ltyped x n s -> ltyped op k so -> 0 <= a < n -> 0 <= b < n ->
  (forall q, 64 <= q < k -> q <= Z.abs (a - b) -> unknown (sym_at op q) = false) ->
  exists r, logic_update_r x a b op = Ok r /\ ltyped r n s /\ (s = false -> ltidy x -> ltidy r) /\
    forall p, 0 <= p < n -> sym_at r p =
      if (Z.min a b <=? p) && (p <=? Z.max a b) then (if p - Z.min a b <? k then sym_at op (p - Z.min a b) else S0) else sym_at x p.
Proof. exact lupdate. Qed.
Print Assumptions C49_runtime_partial.
(** the constant form, and assignment through a slice reference, are the run-time form *)
Theorem C49_constant_partial : forall x n s hi lo op, 1 <= n -> ltyped x n s -> 0 <= lo <= hi -> hi < n ->
  logic_update_c x hi lo op = logic_update_r x hi lo op.
Proof. exact lupdate_c. Qed.
Print Assumptions C49_constant_partial.
Example C49_ex : ltyped w70 70 false /\ ltyped e1 8 false /\ (forall q, 64 <= q < 8 -> q <= Z.abs (69 - 60) -> unknown (sym_at e1 q) = false).
Proof. split; [conc|]. split; [conc|]. intros q H. exfalso. Lia.lia. Qed.

(** C69, 4-state half *)
Theorem C69_logic_literals : forall v, (exists r, lit_logic v = Ok r /\ ltyped r 32 true /\ known r /\ num (l_val r) = v mod 2 ^ 32) /\
  (exists r, lit_logic64 v = Ok r /\ ltyped r 64 true /\ known r /\ num (l_val r) = v mod 2 ^ 64).
Proof. exact lliterals. Qed.
Print Assumptions C69_logic_literals.
