(** Property theorems: members outside [Reach.v] give well-formed vectors, operators give vectors a program can make, packed arrays keep their type. *)
From Coq Require Import ZArith List Bool.
From Verif Require Import Cpp BigNum Bit Logic Util Arr More Rest Const Spec Reach MemberProofs MaskProofs.
Import ListNotations.
Open Scope Z_scope.

(** C118: positions given at compile time, references to ranges, concatenation of many, copying, packed arrays of bits *)
Theorem C118_members : forall a, vec a ->
  (forall i x r, bit_set_const a i x = Ok r -> vec r) /\
  (forall i j v r, bit_slice_ref_c a i j v = Ok r -> vec r) /\ (forall i j v r, bit_slice_ref_r a i j v = Ok r -> vec r) /\ (forall k inc i v r, bit_slice_ref_idx a k inc i v = Ok r -> vec r) /\
  (forall args r, Forall vec args -> bit_concat_all a args = Ok r -> vec r) /\
  (forall src i j r, bit_copy a src i j = Ok r -> vec r) /\
  (forall t i j r, pa_slice_array_bit t a i j = Ok r -> vec r) /\
  (forall t op r, 1 <= pa_base t < 2 ^ 31 -> pa_get_bit t a op = Ok r -> vec r) /\
  (forall t op v r, pa_update_bit t a op v = Ok r -> vec r).
Proof. exact members2. Qed.
Print Assumptions C118_members.
(** every operator of two vectors a program made gives one it can make, listed one by one *)
Theorem C118_closed : forall a b r, made2 a -> made2 b ->
  bit_not a = r \/ bit_neg a = Ok r \/ bit_negate a = Ok r \/ bit_negate_in a = Ok r \/ bit_inc a = Ok r \/ bit_dec a = Ok r \/ bit_mask_off a = r \/ bit_to_signed a = r \/ bit_to_unsigned a = r \/ bit_clear a = r \/
  bit_and a b = Ok r \/ bit_or a b = Ok r \/ bit_xor a b = Ok r \/ bit_add a b = Ok r \/ bit_sub a b = Ok r \/ bit_mul a b = Ok r \/ bit_div a b = Ok r \/ bit_rem a b = Ok r \/
  bit_shl a b = Ok r \/ bit_shr a b = Ok r \/ bit_ashr a b = Ok r \/ bit_concat a b = Ok r \/ bit_assign a b = Ok r \/
  bit_and_assign a b = Ok r \/ bit_or_assign a b = Ok r \/ bit_xor_assign a b = Ok r \/ bit_shift_assign bit_shr a b = Ok r \/ bit_shift_assign bit_shl a b = Ok r -> made2 r.
Proof. exact closed2. Qed.
Print Assumptions C118_closed.
Example C118_members_ex : vec (bit_of_arith 7 0 false 200) /\ (exists r, bit_set_const (bit_of_arith 7 0 false 200) 2 true = Ok r) /\
  (exists r, bit_concat_all (bit_of_arith 7 0 false 200) [bit_of_arith 3 0 true 1; bit_of_arith 19 0 false 3] = Ok r) /\ (exists r, bit_slice_ref_c (bit_of_arith 7 0 false 200) 5 2 (bit_of_arith 3 0 false 9) = Ok r).
Proof. repeat match goal with |- _ /\ _ => split end; [vm_compute; repeat split; congruence|eexists; vm_compute; reflexivity..]. Qed.
(** C119: the same for 4-state vectors, and unpack of a bit vector, mixed shifts, conversion between ranges, packed structures *)
Theorem C119_members : forall a, lvec a ->
  (forall i x r, logic_set_const a i x = Ok r -> lvec r) /\ (forall i r, logic_set_x_const a i = Ok r -> lvec r) /\ (forall i r, logic_set_z_const a i = Ok r -> lvec r) /\
  (forall i j v r, logic_slice_ref_c a i j v = Ok r -> lvec r) /\ (forall i j v r, logic_slice_ref_r a i j v = Ok r -> lvec r) /\ (forall k inc i v r, logic_slice_ref_idx a k inc i v = Ok r -> lvec r) /\
  (forall args r, Forall lvec args -> logic_concat_all a args = Ok r -> lvec r) /\
  (forall b rs ts, vec b -> Forall lvec ts -> bit_unpack b ts = Ok rs -> Forall lvec rs) /\
  (forall b r, lvec b -> logic_ashl a b = Ok r -> lvec r) /\ (forall b r, vec b -> logic_ashl_bit a b = Ok r -> lvec r) /\
  (forall msb lsb s r, declarable msb lsb -> logic_rebound msb lsb s a = Ok r -> lvec r) /\
  (forall op r, logic_get_at a op = Ok r -> lvec r) /\
  (forall src i j r, logic_copy a src i j = Ok r -> lvec r) /\
  (forall i j r, field_read a i j = Ok r -> lvec r) /\ (forall i j v r, field_write a i j v = Ok r -> lvec r) /\
  (forall t i j r, pa_slice_array t a i j = Ok r -> lvec r) /\
  (forall t op r, 1 <= pa_base t < 2 ^ 31 -> pa_get t a op = Ok r -> lvec r).
Proof. exact members4. Qed.
Print Assumptions C119_members.
(** every operator of two vectors a program made gives one it can make, listed one by one *)
Theorem C119_closed : forall a b r, made4 a -> made4 b ->
  logic_not a = Ok r \/ logic_neg a = Ok r \/ logic_plus a = r \/ logic_lnot a = r \/ logic_inc a = Ok r \/ logic_dec a = Ok r \/ logic_resign true a = Ok r \/ logic_resign false a = Ok r \/
  logic_r_and a = Ok r \/ logic_r_or a = Ok r \/ logic_r_xor a = Ok r \/ logic_r_nand a = Ok r \/ logic_r_nor a = Ok r \/ logic_r_xnor a = Ok r \/
  logic_and a b = Ok r \/ logic_or a b = Ok r \/ logic_xor a b = Ok r \/ logic_add a b = Ok r \/ logic_sub a b = Ok r \/ logic_mul a b = Ok r \/ logic_div a b = Ok r \/ logic_rem a b = Ok r \/
  logic_shl a b = Ok r \/ logic_shr a b = Ok r \/ logic_ashr a b = Ok r \/ logic_concat a b = Ok r \/ logic_assign a b = Ok r \/
  logic_eq a b = Ok r \/ logic_ne a b = Ok r \/ logic_lt a b = Ok r \/ logic_gt a b = Ok r \/ logic_le a b = Ok r \/ logic_ge a b = Ok r \/
  logic_compound logic_and a b = Ok r \/ logic_compound logic_or a b = Ok r \/ logic_compound logic_xor a b = Ok r \/ logic_compound logic_shr a b = Ok r \/ logic_compound logic_shl a b = Ok r -> made4 r.
Proof. exact closed4. Qed.
Print Assumptions C119_closed.
Example C119_members_ex : made4 (logic_default 7 0 false) /\ made4 (logic_of_arith 7 0 true 200) /\ (exists r, logic_resign true (logic_of_arith 7 0 false 200) = Ok r /\ lsgn r = true) /\
  (exists rs, bit_unpack (bit_of_arith 7 0 false 200) [logic_default 3 0 false; logic_default 3 0 true] = Ok rs).
Proof.
  repeat match goal with |- _ /\ _ => split end; [apply M4_default|apply M4_number|eexists; split; vm_compute; reflexivity|eexists; vm_compute; reflexivity]; vm_compute; repeat split; congruence.
Qed.
(** C119, the converse is false: no sequence of calls gives this vector of 65 positions, whose mask is clear but for the very last bit of its two words *)
Theorem C119_unreachable_refuted : exists l, lvec l /\ lw l = 65 /\ ~ made4 l.
Proof. exists lonely. split; [exact lonely_lvec|]. split; [reflexivity|exact lonely_unmade]. Qed.
Print Assumptions C119_unreachable_refuted.
(** C163: the check of a packed array's storage accepts exactly the vectors of the array's type, [base * count - 1 : 0] with the sign of the elements; default construction, construction from a number
    or from text give such a vector, and assignment to elements, whatever the index, keeps it *)
Theorem C163_type : forall t a, 1 <= pa_base t -> pa_base t * width (pa_msb t) (pa_lsb t) < 2 ^ 31 ->
  (pa_ok t a = true <-> ltyped a (pa_base t * width (pa_msb t) (pa_lsb t)) (pa_sgn t)).
Proof. exact arrays_type. Qed.
Print Assumptions C163_type.
Theorem C163_made : forall t, 1 <= pa_base t -> pa_base t * width (pa_msb t) (pa_lsb t) < 2 ^ 31 ->
  pa_ok t (pa_default t) = true /\ (forall v, pa_ok t (pa_of_arith t v) = true) /\ (forall text r, pa_of_str t text = Ok r -> pa_ok t r = true).
Proof. exact arrays_made. Qed.
Print Assumptions C163_made.
Theorem C163_kept : forall t a, 1 <= pa_base t -> pa_base t * width (pa_msb t) (pa_lsb t) < 2 ^ 31 -> pa_ok t a = true ->
  (forall op v r, pa_update t a op v = Ok r -> pa_ok t r = true) /\ (forall i j v r, pa_update_c t a i j v = Ok r -> pa_ok t r = true).
Proof. exact arrays_kept. Qed.
Print Assumptions C163_kept.
Definition bytes4 : parr_ty := mkParrTy 8 true 3 0.
Example C163_ex : pa_ok bytes4 (pa_of_arith bytes4 77) = true /\
  omap (pa_ok bytes4) (pa_update bytes4 (pa_of_arith bytes4 77) (logic_of_arith 3 0 false 2) (logic_of_arith 7 0 true 5)) = Ok true /\
  omap (pa_ok bytes4) (pa_update_c bytes4 (pa_of_arith bytes4 77) 2 1 (logic_of_arith 15 0 true 5)) = Ok true /\
  pa_ok bytes4 (mkLogic (bit_of_arith 31 (-1) true 0) (bit_of_arith 31 (-1) false 0)) = false.
Proof. split; [|split; [|split]]; vm_compute; reflexivity. Qed.
