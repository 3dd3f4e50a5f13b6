(** Programs over native 2-state vectors of any widths, bounds and signednesses, executed twice: with the
    library (the model's API) and with the reference machine of SpecMachine.v. *)
From Coq Require Import ZArith List Bool.
From Verif Require Import Cpp Bit Spec SpecExact SpecMachine.
Import ListNotations.
Open Scope Z_scope.

Inductive un := Minus | Inv | TwoC | Mask | Signed | Unsigned | Resize (m : Z) | Slice (i j : Z) | SliceN (m i j : Z).
Inductive bin := Plus | Less | Times | Quot | Rem | And | Or | Xor | Shl | Shr | Ashr | Join.
Inductive ex := Var (k : nat) | New (msb lsb : Z) (s : bool) (z : Z) | Un (o : un) (e : ex) | Bin (o : bin) (e f : ex).
Inductive rel := REq | RNe | RLt | RLe | RGt | RGe.
Inductive test := Rel (r : rel) (e f : ex) | Truth (e : ex) | At (e : ex) (i : Z) | AllOnes (e : ex).
(** [k = e], [k o= e] for & | ^ << >>, [++k], [--k], [k.set(i, b)] *)
Inductive stmt :=
| Skip | Put (k : nat) (e : ex) | PutOp (k : nat) (o : bin) (e : ex) | Inc (k : nat) | Dec (k : nat) | PutAt (k : nat) (i : Z) (b : bool)
| Seq (c d : stmt) | If (t : test) (c d : stmt) | While (t : test) (c : stmt).

Definition state := nat -> bit.
Definition upd (st : state) (k : nat) (x : bit) : state := fun j => if Nat.eqb j k then x else st j.

(** * with the library *)
Definition lib_un (o : un) (a : bit) : outcome bit :=
  match o with
  | Minus => bit_neg a
  | Inv => Ok (bit_not a)
  | TwoC => bit_negate a
  | Mask => Ok (bit_mask_off a)
  | Signed => Ok (bit_to_signed a)
  | Unsigned => Ok (bit_to_unsigned a)
  | Resize m => bit_extend a m
  | Slice i j => bit_slice_c a i j
  | SliceN m i j => bit_slice_r a m i j
  end.
Definition lib_bin (o : bin) (a b : bit) : outcome bit :=
  match o with
  | Plus => bit_add a b
  | Less => bit_sub a b
  | Times => bit_mul a b
  | Quot => bit_div a b
  | Rem => bit_rem a b
  | And => bit_and a b
  | Or => bit_or a b
  | Xor => bit_xor a b
  | Shl => bit_shl a b
  | Shr => bit_shr a b
  | Ashr => bit_ashr a b
  | Join => bit_concat a b
  end.
Definition lib_put (o : bin) (a b : bit) : outcome bit :=
  match o with
  | And => bit_and_assign a b
  | Or => bit_or_assign a b
  | Xor => bit_xor_assign a b
  | Shl => bit_shift_assign bit_shl a b
  | Shr => bit_shift_assign bit_shr a b
  | _ => IllFormed
  end.
Definition lib_rel (r : rel) (a b : bit) : outcome bool :=
  match r with
  | REq => bit_eq a b
  | RNe => bit_ne a b
  | RLt => bit_lt a b
  | RLe => bit_le a b
  | RGt => bit_gt a b
  | RGe => bit_ge a b
  end.
Fixpoint lib_ex (st : state) (e : ex) : outcome bit :=
  match e with
  | Var k => Ok (st k)
  | New msb lsb s z => Ok (bit_of_arith msb lsb s z)
  | Un o e => let! a := lib_ex st e in lib_un o a
  | Bin o e f => let! a := lib_ex st e in let! b := lib_ex st f in lib_bin o a b
  end.
Definition lib_test (st : state) (t : test) : outcome bool :=
  match t with
  | Rel r e f => let! a := lib_ex st e in let! b := lib_ex st f in lib_rel r a b
  | Truth e => let! a := lib_ex st e in Ok (bit_any_set a)
  | At e i => let! a := lib_ex st e in bit_get a i
  | AllOnes e => let! a := lib_ex st e in Ok (bit_r_and a)
  end.
Fixpoint lib_run (fuel : nat) (st : state) (c : stmt) : outcome state :=
  match fuel with
  | O => Fuel
  | S fuel =>
      match c with
      | Skip => Ok st
      | Put k e => let! a := lib_ex st e in let! x := bit_assign (st k) a in Ok (upd st k x)
      | PutOp k o e => let! a := lib_ex st e in let! x := lib_put o (st k) a in Ok (upd st k x)
      | Inc k => let! x := bit_inc (st k) in Ok (upd st k x)
      | Dec k => let! x := bit_dec (st k) in Ok (upd st k x)
      | PutAt k i b => let! x := bit_set (st k) i b in Ok (upd st k x)
      | Seq c d => let! st' := lib_run fuel st c in lib_run fuel st' d
      | If t c d => let! b := lib_test st t in lib_run fuel st (if b : bool then c else d)
      | While t c => let! b := lib_test st t in
          if b : bool then let! st' := lib_run fuel st c in lib_run fuel st' (While t c) else Ok st
      end
  end.

(** * with the reference machine *)
Definition ref_un (o : un) (a : bit) : outcome bit :=
  match o with
  | Minus => negated a
  | Inv => Ok (inverse a)
  | TwoC => two_complement a
  | Mask => Ok (written a (stored a mod 2 ^ bw a))
  | Signed => Ok (vector (bw a) true (stored a))
  | Unsigned => Ok (vector (bw a) false (stored a))
  | Resize m => resized a m
  | Slice i j => slice_fixed a i j
  | SliceN m i j => slice_dynamic a m i j
  end.
Definition ref_bin (o : bin) (a b : bit) : outcome bit :=
  match o with
  | Plus => computed Z.add false a b
  | Less => computed Z.sub false a b
  | Times => computed Z.mul false a b
  | Quot => computed Z.quot (stored b =? 0) a b
  | Rem => remainder a b
  | And => bitwise Z.land a b
  | Or => bitwise Z.lor a b
  | Xor => bitwise Z.lxor a b
  | Shl => shifted_left a b
  | Shr => shifted_right a b
  | Ashr => shifted_arith a b
  | Join => joined a b
  end.
Definition ref_put (o : bin) (a b : bit) : outcome bit :=
  match o with
  | And | Or | Xor => assigned true a b (ref_bin o a b)
  | Shl | Shr => assigned false a b (ref_bin o a b)
  | _ => IllFormed
  end.
Definition ref_rel (r : rel) (a b : bit) : bool :=
  match r with
  | REq => equal_native a b
  | RNe => negb (equal_native a b)
  | RLt => ordered Z.ltb a b
  | RLe => ordered Z.leb a b
  | RGt => ordered Z.gtb a b
  | RGe => ordered Z.geb a b
  end.
Fixpoint ref_ex (st : state) (e : ex) : outcome bit :=
  match e with
  | Var k => Ok (st k)
  | New msb lsb s z => Ok (mkBit msb lsb s (HN (store (width msb lsb) s z)))
  | Un o e => let! a := ref_ex st e in ref_un o a
  | Bin o e f => let! a := ref_ex st e in let! b := ref_ex st f in ref_bin o a b
  end.
Definition ref_test (st : state) (t : test) : outcome bool :=
  match t with
  | Rel r e f => let! a := ref_ex st e in let! b := ref_ex st f in Ok (ref_rel r a b)
  | Truth e => let! a := ref_ex st e in Ok (negb (stored a =? 0))
  | At e i => let! a := ref_ex st e in position a i
  | AllOnes e => let! a := ref_ex st e in Ok (all_ones a)
  end.
Fixpoint ref_run (fuel : nat) (st : state) (c : stmt) : outcome state :=
  match fuel with
  | O => Fuel
  | S fuel =>
      match c with
      | Skip => Ok st
      | Put k e => let! a := ref_ex st e in Ok (upd st k (written (st k) (stored a)))
      | PutOp k o e => let! a := ref_ex st e in let! x := ref_put o (st k) a in Ok (upd st k x)
      | Inc k => let! x := stepped 1 (st k) in Ok (upd st k x)
      | Dec k => let! x := stepped (-1) (st k) in Ok (upd st k x)
      | PutAt k i b => let! x := with_position (st k) i b in Ok (upd st k x)
      | Seq c d => let! st' := ref_run fuel st c in ref_run fuel st' d
      | If t c d => let! b := ref_test st t in ref_run fuel st (if b : bool then c else d)
      | While t c => let! b := ref_test st t in
          if b : bool then let! st' := ref_run fuel st c in ref_run fuel st' (While t c) else Ok st
      end
  end.

(** * what a program may say: vectors of at most 64 positions and [int] indices *)
Definition native (b : bit) : Prop := vec b /\ bw b <= 64.
Definition un_ok (o : un) : Prop :=
  match o with
  | Resize m => 1 <= m <= 64
  | Slice i j => int_ok i /\ int_ok j
  | SliceN m i j => 1 <= m /\ int_ok i /\ int_ok j
  | _ => True
  end.
Fixpoint ex_ok (e : ex) : Prop :=
  match e with
  | Var _ => True
  | New msb lsb _ _ => int_ok msb /\ int_ok lsb /\ width msb lsb <= 64
  | Un o e => un_ok o /\ ex_ok e
  | Bin _ e f => ex_ok e /\ ex_ok f
  end.
Definition test_ok (t : test) : Prop :=
  match t with Rel _ e f => ex_ok e /\ ex_ok f | Truth e | At e _ | AllOnes e => ex_ok e end.
Fixpoint stmt_ok (c : stmt) : Prop :=
  match c with
  | Put _ e | PutOp _ _ e => ex_ok e
  | PutAt _ i _ => int_ok i
  | Seq c d => stmt_ok c /\ stmt_ok d
  | If t c d => test_ok t /\ stmt_ok c /\ stmt_ok d
  | While t c => test_ok t /\ stmt_ok c
  | _ => True
  end.
