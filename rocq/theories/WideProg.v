(** The programs of MachineProg.v on vectors of any widths, executed with the reference machine of SpecWide.v. *)
From Coq Require Import ZArith List Bool.
From Verif Require Import Cpp Bit Spec SpecExact SpecMachine SpecWide MachineProg.
Import ListNotations.
Open Scope Z_scope.

(** construction from an integer: a wide unsigned vector takes 64 bits of a negative number *)
Definition any_new (msb lsb : Z) (s : bool) (z : Z) : bit :=
  let n := width msb lsb in
  object msb lsb s (if n <=? 64 then z else if s && (z <? 0) then z mod 2 ^ n else z mod 2 ^ 64).
Definition any_un (o : un) (a : bit) : outcome bit :=
  match o with
  | Minus => any_minus a
  | Inv => Ok (any_inverse a)
  | TwoC => any_two_complement a
  | Mask => Ok (rewritten a (stored a mod 2 ^ bw a))
  | Signed => Ok (vec_of (bw a) true (stored a))
  | Unsigned => Ok (vec_of (bw a) false (stored a))
  | Resize m => any_resize a m
  | Slice i j => any_slice a i j
  | SliceN m i j => any_slice_dynamic a m i j
  end.
Definition any_bin (o : bin) (a b : bit) : outcome bit :=
  match o with
  | Plus => any_sum a b
  | Less => any_difference a b
  | Times => any_product a b
  | Quot => any_quotient a b
  | Rem => any_remainder a b
  | And => any_bitwise Z.land true a b
  | Or => any_bitwise Z.lor false a b
  | Xor => any_bitwise Z.lxor false a b
  | Shl => any_left a b
  | Shr => any_right a b
  | Ashr => any_arith a b
  | Join => joined a b
  end.
Definition any_put (o : bin) (a b : bit) : outcome bit :=
  match o with
  | And | Or | Xor => any_assigned true a b (any_bin o a b)
  | Shl | Shr => any_assigned false a b (any_bin o a b)
  | _ => IllFormed
  end.
Definition any_rel (r : rel) (a b : bit) : outcome bool :=
  match r with
  | REq => any_equal a b
  | RNe => omap negb (any_equal a b)
  | RLt => any_less a b
  | RLe => any_less_equal a b
  | RGt => any_greater a b
  | RGe => any_greater_equal a b
  end.
Fixpoint any_ex (st : state) (e : ex) : outcome bit :=
  match e with
  | Var k => Ok (st k)
  | New msb lsb s z => Ok (any_new msb lsb s z)
  | Un o e => let! a := any_ex st e in any_un o a
  | Bin o e f => let! a := any_ex st e in let! b := any_ex st f in any_bin o a b
  end.
Definition any_test (st : state) (t : test) : outcome bool :=
  match t with
  | Rel r e f => let! a := any_ex st e in let! b := any_ex st f in any_rel r a b
  | Truth e => let! a := any_ex st e in Ok (any_true a)
  | At e i => let! a := any_ex st e in any_position a i
  | AllOnes e => let! a := any_ex st e in Ok (any_all_ones a)
  end.
Fixpoint any_run (fuel : nat) (st : state) (c : stmt) : outcome state :=
  match fuel with
  | O => Fuel
  | S fuel =>
      match c with
      | Skip => Ok st
      | Put k e => let! a := any_ex st e in let! x := any_assign (st k) a in Ok (upd st k x)
      | PutOp k o e => let! a := any_ex st e in let! x := any_put o (st k) a in Ok (upd st k x)
      | Inc k => let! x := any_step 1 (st k) in Ok (upd st k x)
      | Dec k => let! x := any_step (-1) (st k) in Ok (upd st k x)
      | PutAt k i b => let! x := any_with_position (st k) i b in Ok (upd st k x)
      | Seq c d => let! st' := any_run fuel st c in any_run fuel st' d
      | If t c d => let! b := any_test st t in any_run fuel st (if b : bool then c else d)
      | While t c => let! b := any_test st t in
          if b : bool then let! st' := any_run fuel st c in any_run fuel st' (While t c) else Ok st
      end
  end.

(** what a program may say: widths below 2^31, [int] indices, 64-bit integers *)
Definition wide_un_ok (o : un) : Prop :=
  match o with
  | Resize m => 1 <= m < 2 ^ 31
  | Slice i j => int_ok i /\ int_ok j
  | SliceN m i j => 1 <= m < 2 ^ 31 /\ int_ok i /\ int_ok j
  | _ => True
  end.
Fixpoint wide_ex_ok (e : ex) : Prop :=
  match e with
  | Var _ => True
  | New msb lsb _ z => int_ok msb /\ int_ok lsb /\ width msb lsb < 2 ^ 31 /\ - 2 ^ 63 <= z < 2 ^ 64
  | Un o e => wide_un_ok o /\ wide_ex_ok e
  | Bin _ e f => wide_ex_ok e /\ wide_ex_ok f
  end.
Definition wide_test_ok (t : test) : Prop :=
  match t with Rel _ e f => wide_ex_ok e /\ wide_ex_ok f | Truth e | At e _ | AllOnes e => wide_ex_ok e end.
Fixpoint wide_stmt_ok (c : stmt) : Prop :=
  match c with
  | Put _ e | PutOp _ _ e => wide_ex_ok e
  | PutAt _ i _ => int_ok i
  | Seq c d => wide_stmt_ok c /\ wide_stmt_ok d
  | If t c d => wide_test_ok t /\ wide_stmt_ok c /\ wide_stmt_ok d
  | While t c => wide_test_ok t /\ wide_stmt_ok c
  | _ => True
  end.
