(** Programs over 2-state and 4-state vectors of any widths, bounds and signednesses, executed twice: with the library (the model's
    API) and with the reference machines of SpecWide.v and SpecFour.v. *)
From Coq Require Import ZArith List Bool.
From Verif Require Import Cpp Bit Logic Spec SpecExact SpecMachine SpecWide SpecFour MachineProg WideProg.
From Verif Require SpecExact4.
Import ListNotations.
Open Scope Z_scope.

(** - + ~ ! to_signed to_unsigned extend slices [i] and the reductions *)
Inductive un4 := UMinus | UPlus | UInv | UNot | USigned | UUnsigned | UWiden (m : Z) | USlice (i j : Z) | USliceN (m i j : Z) | UAt (i : Z)
  | UAnd | UOr | UXor | UNand | UNor | UXnor.
Inductive bin4 := BPlus | BLess | BTimes | BQuot | BRem | BAnd | BOr | BXor | BShl | BShr | BAshr | BEq | BNe | BLt | BLe | BGt | BGe | BJoin.
(** [New4]: from an integer; [Unknown4]: default constructed; [Of2]: from a 2-state vector; [Join2]: a 2-state vector joined on the right *)
Inductive ex4 := Var4 (k : nat) | New4 (msb lsb : Z) (s : bool) (z : Z) | Unknown4 (msb lsb : Z) (s : bool) | Of2 (msb lsb : Z) (s : bool) (e : ex)
  | Un4 (o : un4) (e : ex4) | Bin4 (o : bin4) (e f : ex4) | Join2 (e : ex4) (f : ex).
(** conversion to bool, [match], [nmatch], a test of 2-state vectors *)
Inductive test4 := Truth4 (e : ex4) | Match4 (e f : ex4) | Mismatch4 (e f : ex4) | Test2 (t : test).
(** [k = e], [k o= e] for & | ^ << >>, [++k], [--k], [k.set(i, c)], [k.set(i, e)] for a [logic<0>], a statement on 2-state variables *)
Inductive stmt4 :=
| Skip4 | Put4 (k : nat) (e : ex4) | PutOp4 (k : nat) (o : bin4) (e : ex4) | Inc4 (k : nat) | Dec4 (k : nat) | Mark4 (k : nat) (i : Z) (c : sym) | PutAt4 (k : nat) (i : Z) (e : ex4)
| Two (c : stmt) | Seq4 (c d : stmt4) | If4 (t : test4) (c d : stmt4) | While4 (t : test4) (c : stmt4).

(** the 2-state and the 4-state variables *)
Record state4 := mkState4 { two : state; four : nat -> logic }.
Definition upd4 (st : state4) (k : nat) (x : logic) : state4 := mkState4 (two st) (fun j => if Nat.eqb j k then x else four st j).
Definition one_bit (a : logic) : bool := (lmsb a =? 0) && (llsb a =? 0) && negb (lsgn a).

(** * with the library *)
Definition lib4_un (o : un4) (a : logic) : outcome logic :=
  match o with
  | UMinus => logic_neg a
  | UPlus => Ok (logic_plus a)
  | UInv => logic_not a
  | UNot => Ok (logic_lnot a)
  | USigned => logic_resign true a
  | UUnsigned => logic_resign false a
  | UWiden m => logic_extend a m
  | USlice i j => logic_slice_c a i j
  | USliceN m i j => logic_slice_r a m i j
  | UAt i => logic_get a i
  | UAnd => logic_r_and a
  | UOr => logic_r_or a
  | UXor => logic_r_xor a
  | UNand => logic_r_nand a
  | UNor => logic_r_nor a
  | UXnor => logic_r_xnor a
  end.
Definition lib4_bin (o : bin4) (a b : logic) : outcome logic :=
  match o with
  | BPlus => logic_add a b
  | BLess => logic_sub a b
  | BTimes => logic_mul a b
  | BQuot => logic_div a b
  | BRem => logic_rem a b
  | BAnd => logic_and a b
  | BOr => logic_or a b
  | BXor => logic_xor a b
  | BShl => logic_shl a b
  | BShr => logic_shr a b
  | BAshr => logic_ashr a b
  | BEq => logic_eq a b
  | BNe => logic_ne a b
  | BLt => logic_lt a b
  | BLe => logic_le a b
  | BGt => logic_gt a b
  | BGe => logic_ge a b
  | BJoin => logic_concat a b
  end.
Definition lib4_put (o : bin4) (a b : logic) : outcome logic :=
  match o with
  | BAnd => logic_compound logic_and a b
  | BOr => logic_compound logic_or a b
  | BXor => logic_compound logic_xor a b
  | BShl => logic_compound logic_shl a b
  | BShr => logic_compound logic_shr a b
  | _ => IllFormed
  end.
Fixpoint lib4_ex (st : state4) (e : ex4) : outcome logic :=
  match e with
  | Var4 k => Ok (four st k)
  | New4 msb lsb s z => Ok (logic_of_arith msb lsb s z)
  | Unknown4 msb lsb s => Ok (logic_default msb lsb s)
  | Of2 msb lsb s e => let! b := lib_ex (two st) e in logic_of_bit msb lsb s b
  | Un4 o e => let! a := lib4_ex st e in lib4_un o a
  | Bin4 o e f => let! a := lib4_ex st e in let! b := lib4_ex st f in lib4_bin o a b
  | Join2 e f => let! a := lib4_ex st e in let! b := lib_ex (two st) f in logic_concat_bit a b
  end.
Definition lib4_test (st : state4) (t : test4) : outcome bool :=
  match t with
  | Truth4 e => let! a := lib4_ex st e in Ok (logic_bool a)
  | Match4 e f => let! a := lib4_ex st e in let! b := lib4_ex st f in logic_match a b
  | Mismatch4 e f => let! a := lib4_ex st e in let! b := lib4_ex st f in logic_nmatch a b
  | Test2 t => lib_test (two st) t
  end.
Definition lib4_mark (a : logic) (i : Z) (c : sym) : outcome logic :=
  match c with S0 => logic_set a i false | S1 => logic_set a i true | SX => logic_set_x a i | SZ => logic_set_z a i end.
Fixpoint lib4_run (fuel : nat) (st : state4) (c : stmt4) : outcome state4 :=
  match fuel with
  | O => Fuel
  | S fuel =>
      match c with
      | Skip4 => Ok st
      | Put4 k e => let! a := lib4_ex st e in let! x := logic_assign (four st k) a in Ok (upd4 st k x)
      | PutOp4 k o e => let! a := lib4_ex st e in let! x := lib4_put o (four st k) a in Ok (upd4 st k x)
      | Inc4 k => let! x := logic_inc (four st k) in Ok (upd4 st k x)
      | Dec4 k => let! x := logic_dec (four st k) in Ok (upd4 st k x)
      | Mark4 k i s => let! x := lib4_mark (four st k) i s in Ok (upd4 st k x)
      | PutAt4 k i e => let! a := lib4_ex st e in
          if one_bit a then let! x := logic_set_l (four st k) i a in Ok (upd4 st k x) else IllFormed
      | Two c => let! t := lib_run fuel (two st) c in Ok (mkState4 t (four st))
      | Seq4 c d => let! st' := lib4_run fuel st c in lib4_run fuel st' d
      | If4 t c d => let! b := lib4_test st t in lib4_run fuel st (if b : bool then c else d)
      | While4 t c => let! b := lib4_test st t in
          if b : bool then let! st' := lib4_run fuel st c in lib4_run fuel st' (While4 t c) else Ok st
      end
  end.

(** * with the reference machines *)
Definition four_un (o : un4) (a : logic) : outcome logic :=
  match o with
  | UMinus => four_minus a
  | UPlus => Ok (four_plus a)
  | UInv => Ok (four_not a)
  | UNot => Ok (four_false a)
  | USigned => Ok (four_sign true a)
  | UUnsigned => Ok (four_sign false a)
  | UWiden m => four_widen a m
  | USlice i j => four_slice a i j
  | USliceN m i j => four_slice_dynamic a m i j
  | UAt i => four_at a i
  | UAnd => four_all a
  | UOr => four_some a
  | UXor => four_parity a
  | UNand => inverted (four_all a)
  | UNor => inverted (four_some a)
  | UXnor => inverted (four_parity a)
  end.
Definition four_bin (o : bin4) (a b : logic) : outcome logic :=
  match o with
  | BPlus => four_arith false any_sum a b
  | BLess => four_arith false any_difference a b
  | BTimes => four_arith false any_product a b
  | BQuot => four_arith true any_quotient a b
  | BRem => four_arith true any_remainder a b
  | BAnd => four_table SpecExact4.lib_and a b
  | BOr => four_table SpecExact4.lib_or a b
  | BXor => four_xor a b
  | BShl => four_shift any_left a b
  | BShr => four_shift any_right a b
  | BAshr => four_shift any_arith a b
  | BEq => four_compare any_equal a b
  | BNe => four_compare (fun x y => omap negb (any_equal x y)) a b
  | BLt => four_compare any_less a b
  | BLe => four_compare any_less_equal a b
  | BGt => four_compare any_greater a b
  | BGe => four_compare any_greater_equal a b
  | BJoin => four_join a b
  end.
Definition four_put (o : bin4) (a b : logic) : outcome logic :=
  match o with BAnd | BOr | BXor | BShl | BShr => four_assigned a b (four_bin o a b) | _ => IllFormed end.
(** a 2-state vector becomes a 4-state vector with the same bounds; an unsigned one does not become signed *)
Definition four_of_bit (msb lsb : Z) (s : bool) (b : bit) : outcome logic :=
  if (bmsb b =? msb) && (blsb b =? lsb) && (bsgn b || negb s) then Ok (object4 msb lsb s (stored b) 0) else IllFormed.
Fixpoint four_ex (st : state4) (e : ex4) : outcome logic :=
  match e with
  | Var4 k => Ok (four st k)
  | New4 msb lsb s z => Ok (certain (any_new msb lsb s z))
  | Unknown4 msb lsb s => Ok (object4 msb lsb s 0 (2 ^ width msb lsb - 1))
  | Of2 msb lsb s e => let! b := any_ex (two st) e in four_of_bit msb lsb s b
  | Un4 o e => let! a := four_ex st e in four_un o a
  | Bin4 o e f => let! a := four_ex st e in let! b := four_ex st f in four_bin o a b
  | Join2 e f => let! a := four_ex st e in let! b := any_ex (two st) f in four_join_bit a b
  end.
Definition four_test (st : state4) (t : test4) : outcome bool :=
  match t with
  | Truth4 e => let! a := four_ex st e in Ok (four_true a)
  | Match4 e f => let! a := four_ex st e in let! b := four_ex st f in four_match a b
  | Mismatch4 e f => let! a := four_ex st e in let! b := four_ex st f in omap negb (four_match a b)
  | Test2 t => any_test (two st) t
  end.
Definition symbol (a : logic) : sym := sym_of (negb (stored (l_val a) =? 0)) (negb (stored (l_xz a) =? 0)).
Fixpoint four_run (fuel : nat) (st : state4) (c : stmt4) : outcome state4 :=
  match fuel with
  | O => Fuel
  | S fuel =>
      match c with
      | Skip4 => Ok st
      | Put4 k e => let! a := four_ex st e in let! x := four_assign (four st k) a in Ok (upd4 st k x)
      | PutOp4 k o e => let! a := four_ex st e in let! x := four_put o (four st k) a in Ok (upd4 st k x)
      | Inc4 k => let! x := four_step 1 (four st k) in Ok (upd4 st k x)
      | Dec4 k => let! x := four_step (-1) (four st k) in Ok (upd4 st k x)
      | Mark4 k i s => let! x := four_put_at (four st k) i s in Ok (upd4 st k x)
      | PutAt4 k i e => let! a := four_ex st e in
          if one_bit a then let! x := four_put_at (four st k) i (symbol a) in Ok (upd4 st k x) else IllFormed
      | Two c => let! t := any_run fuel (two st) c in Ok (mkState4 t (four st))
      | Seq4 c d => let! st' := four_run fuel st c in four_run fuel st' d
      | If4 t c d => let! b := four_test st t in four_run fuel st (if b : bool then c else d)
      | While4 t c => let! b := four_test st t in
          if b : bool then let! st' := four_run fuel st c in four_run fuel st' (While4 t c) else Ok st
      end
  end.

(** what a program may say: widths below 2^31, [int] indices and bounds, 64-bit integers *)
Definition declared (msb lsb : Z) : Prop := int_ok msb /\ int_ok lsb /\ width msb lsb < 2 ^ 31.
Definition un4_ok (o : un4) : Prop :=
  match o with
  | UWiden m => 1 <= m < 2 ^ 31
  | USlice i j => int_ok i /\ int_ok j
  | USliceN m i j => 1 <= m < 2 ^ 31 /\ int_ok i /\ int_ok j
  | UAt i => int_ok i
  | _ => True
  end.
Fixpoint ex4_ok (e : ex4) : Prop :=
  match e with
  | Var4 _ => True
  | New4 msb lsb _ z => declared msb lsb /\ - 2 ^ 63 <= z < 2 ^ 64
  | Unknown4 msb lsb _ => declared msb lsb
  | Of2 msb lsb _ e => declared msb lsb /\ wide_ex_ok e
  | Un4 o e => un4_ok o /\ ex4_ok e
  | Bin4 _ e f => ex4_ok e /\ ex4_ok f
  | Join2 e f => ex4_ok e /\ wide_ex_ok f
  end.
Definition test4_ok (t : test4) : Prop :=
  match t with Truth4 e => ex4_ok e | Match4 e f | Mismatch4 e f => ex4_ok e /\ ex4_ok f | Test2 t => wide_test_ok t end.
Fixpoint stmt4_ok (c : stmt4) : Prop :=
  match c with
  | Put4 _ e | PutOp4 _ _ e => ex4_ok e
  | Mark4 _ i _ => int_ok i
  | PutAt4 _ i e => int_ok i /\ ex4_ok e
  | Two c => wide_stmt_ok c
  | Seq4 c d => stmt4_ok c /\ stmt4_ok d
  | If4 t c d => test4_ok t /\ stmt4_ok c /\ stmt4_ok d
  | While4 t c => test4_ok t /\ stmt4_ok c
  | _ => True
  end.
Definition state4_ok (st : state4) : Prop := (forall k, vec (two st k)) /\ forall k, lvec (four st k).
