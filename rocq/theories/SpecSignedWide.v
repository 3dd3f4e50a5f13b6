(** Programs over signed vectors of one width [n] of more than 64 positions: what they do, on the integers the vectors show.
    [around] (SpecSigned.v) is the integer of [n] positions with the same lowest [n] bits. *)
From Coq Require Import ZArith List Bool.
From Verif Require Import Cpp Bit Spec SpecExact SpecMachine MachineProg SpecSigned.
Import ListNotations.
Open Scope Z_scope.

(** * the programs.  A signed ~e and -e have to be written with to_signed().  Shifts and comparisons only if the vectors fill their words;
    of the comparisons only < and > (the others do not compile between two signed vectors of the same width). *)
Definition whole_words (n : Z) : Prop := n mod 64 = 0.
Fixpoint wsigned_ex (n : Z) (e : ex) : Prop :=
  match e with
  | Var _ => True
  | New msb lsb s z => msb = n - 1 /\ lsb = 0 /\ s = true /\ - 2 ^ 63 <= z < 2 ^ 64
  | Un Signed (Un o e) => (o = Inv \/ o = TwoC) /\ wsigned_ex n e
  | Bin o e f => match o with Plus | Less | And | Or | Xor => True | Shl | Shr => whole_words n | _ => False end /\ wsigned_ex n e /\ wsigned_ex n f
  | _ => False
  end.
Definition wsigned_test (n : Z) (t : test) : Prop :=
  match t with Rel r e f => (r = RLt \/ r = RGt) /\ whole_words n /\ wsigned_ex n e /\ wsigned_ex n f | _ => False end.
Fixpoint wsigned_stmt (n : Z) (c : stmt) : Prop :=
  match c with
  | Skip | Inc _ | Dec _ => True
  | Put _ e => wsigned_ex n e
  | Seq c d => wsigned_stmt n c /\ wsigned_stmt n d
  | If t c d => wsigned_test n t /\ wsigned_stmt n c /\ wsigned_stmt n d
  | While t c => wsigned_test n t /\ wsigned_stmt n c
  | _ => False
  end.

(** * what they do: everything wraps around at [n] positions *)
Definition wsigned_bin (n : Z) (o : bin) (x y : Z) : Z :=
  match o with
  | Plus => around n (x + y)
  | Less => around n (x - y)
  | And => Z.land x y
  | Or => Z.lor x y
  | Xor => Z.lxor x y
  | Shl => if y <? 0 then 0 else around n (x * 2 ^ y)
  | Shr => if y <? 0 then 0 else around n ((x mod 2 ^ n) / 2 ^ y)
  | _ => 0
  end.
Fixpoint wsigned_value (n : Z) (st : nat -> Z) (e : ex) : Z :=
  match e with
  | Var k => st k
  | New _ _ _ z => z
  | Un _ (Un Inv e) => - wsigned_value n st e - 1
  | Un _ (Un _ e) => around n (- wsigned_value n st e)
  | Bin o e f => wsigned_bin n o (wsigned_value n st e) (wsigned_value n st f)
  | _ => 0
  end.
(** x > y: the smallest number counts as the largest of the negative ones, and comparing it with itself never ends *)
Definition wide_above (n x y : Z) : outcome bool :=
  if (x <? 0) && (y <? 0) then
    if x =? - 2 ^ (n - 1) then (if y =? - 2 ^ (n - 1) then Fuel else Ok true)
    else if y =? - 2 ^ (n - 1) then Ok false else Ok (y <? x)
  else Ok (y <? x).
Definition wsigned_holds (n : Z) (st : nat -> Z) (t : test) : outcome bool :=
  match t with
  | Rel RLt e f => wide_above n (wsigned_value n st f) (wsigned_value n st e)
  | Rel RGt e f => wide_above n (wsigned_value n st e) (wsigned_value n st f)
  | _ => IllFormed
  end.
Fixpoint wsigned_run (n : Z) (fuel : nat) (st : nat -> Z) (c : stmt) : outcome (nat -> Z) :=
  match fuel with
  | O => Fuel
  | S fuel =>
      match c with
      | Skip => Ok st
      | Put k e => Ok (put st k (wsigned_value n st e))
      | Inc k => Ok (put st k (around n (st k + 1)))
      | Dec k => Ok (put st k (around n (st k - 1)))
      | Seq c d => let! st' := wsigned_run n fuel st c in wsigned_run n fuel st' d
      | If t c d => let! b := wsigned_holds n st t in wsigned_run n fuel st (if b : bool then c else d)
      | While t c => let! b := wsigned_holds n st t in
          if b : bool then let! st' := wsigned_run n fuel st c in wsigned_run n fuel st' (While t c) else Ok st
      | _ => IllFormed
      end
  end.
(** the same outcome, ending in vectors that show the integers of the second state *)
Definition same_shown (n : Z) (r : outcome state) (s : outcome (nat -> Z)) : Prop :=
  match r, s with
  | Ok env, Ok st => showing n env st
  | UB, UB | Fuel, Fuel | Exn, Exn | IllFormed, IllFormed => True
  | _, _ => False
  end.

(** * what they should do: compute with the integers strictly between -2^(n-1) and 2^(n-1); anything else is an error *)
Definition inside (n z : Z) : outcome Z := if (- 2 ^ (n - 1) <? z) && (z <? 2 ^ (n - 1)) then Ok z else Exn.
Definition plain_bin (n : Z) (o : bin) (x y : Z) : outcome Z :=
  match o with
  | Plus => inside n (x + y)
  | Less => inside n (x - y)
  | And => inside n (Z.land x y)
  | Or => inside n (Z.lor x y)
  | Xor => inside n (Z.lxor x y)
  | Shl => if y <? 0 then Exn else inside n (x * 2 ^ y)
  | Shr => if (x <? 0) || (y <? 0) then Exn else Ok (x / 2 ^ y)
  | _ => Exn
  end.
Fixpoint plain_value (n : Z) (st : nat -> Z) (e : ex) : outcome Z :=
  match e with
  | Var k => Ok (st k)
  | New _ _ _ z => Ok z
  | Un _ (Un Inv e) => let! x := plain_value n st e in inside n (- x - 1)
  | Un _ (Un _ e) => let! x := plain_value n st e in Ok (- x)
  | Bin o e f => let! x := plain_value n st e in let! y := plain_value n st f in plain_bin n o x y
  | _ => Exn
  end.
Definition plain_run (n : Z) := over_run (plain_value n) (inside n).
