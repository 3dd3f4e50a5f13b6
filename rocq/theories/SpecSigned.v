(** Programs over signed vectors of one width [n], 2 to 64 positions: what they do, on the integers the vectors store, and what they should do.
    The objects are held in 8, 16, 32 or 64 bits. *)
From Coq Require Import ZArith List Bool.
From Verif Require Import Cpp Bit Spec SpecExact SpecMachine MachineProg.
Import ListNotations.
Open Scope Z_scope.

(** * the programs: every operator that has a signed result of the same width for operands of that type *)
Fixpoint signed_ex (n : Z) (e : ex) : Prop :=
  match e with
  | Var _ => True
  | New msb lsb s z => msb = n - 1 /\ lsb = 0 /\ s = true /\ - 2 ^ 63 <= z < 2 ^ 64
  | Un o e => o = Minus /\ signed_ex n e
  | Bin o e f => o <> Join /\ signed_ex n e /\ signed_ex n f
  end.
Definition signed_test (n : Z) (t : test) : Prop :=
  match t with Rel _ e f => signed_ex n e /\ signed_ex n f | Truth e => signed_ex n e | _ => False end.
Fixpoint signed_stmt (n : Z) (c : stmt) : Prop :=
  match c with
  | Skip | Inc _ | Dec _ => True
  | Put _ e => signed_ex n e
  | Seq c d => signed_stmt n c /\ signed_stmt n d
  | If t c d => signed_test n t /\ signed_stmt n c /\ signed_stmt n d
  | While t c => signed_test n t /\ signed_stmt n c
  | _ => False
  end.

Definition within (w z : Z) : bool := (- 2 ^ (w - 1) <=? z) && (z <? 2 ^ (w - 1)).
(** the integer of [w] bits with the lowest [w] bits of [z] *)
Definition around (w z : Z) : Z := (z + 2 ^ (w - 1)) mod 2 ^ w - 2 ^ (w - 1).

(** * what a program does: a result that does not fit wraps around in 8 or 16 bits, and is undefined behaviour in 32 or 64 bits *)
Definition settle (n z : Z) : outcome Z :=
  if within (storage n) z then Ok z else if n <=? 16 then Ok (around (storage n) z) else UB.
Definition signed_bin (n : Z) (o : bin) (x y : Z) : outcome Z :=
  match o with
  | Plus => settle n (x + y)
  | Less => settle n (x - y)
  | Times => settle n (x * y)
  | Quot => if y =? 0 then UB else settle n (Z.quot x y)
  | Rem => if (y =? 0) || ((16 <? n) && negb (within (storage n) (Z.quot x y))) then UB else Ok (Z.rem x y)
  | And => Ok (Z.land x y)
  | Or => Ok (Z.lor x y)
  | Xor => Ok (Z.lxor x y)
  | Shl => if (0 <=? y) && (y <? computing n) then Ok (around (storage n) (x * 2 ^ y)) else UB
  | Shr => if (0 <=? y) && (y <? n) then Ok (around (storage n) ((x / 2 ^ y) mod 2 ^ (n - y))) else UB
  | Ashr => if (0 <=? y) && (y <? computing n) then Ok (x / 2 ^ y) else UB
  | Join => IllFormed
  end.
Definition holds (r : rel) (x y : Z) : bool :=
  match r with REq => x =? y | RNe => negb (x =? y) | RLt => x <? y | RLe => x <=? y | RGt => y <? x | RGe => y <=? x end.
Fixpoint signed_value (n : Z) (st : nat -> Z) (e : ex) : outcome Z :=
  match e with
  | Var k => Ok (st k)
  | New _ _ _ z => Ok (around (storage n) z)
  | Un _ e => let! x := signed_value n st e in settle n (- x)
  | Bin o e f => let! x := signed_value n st e in let! y := signed_value n st f in signed_bin n o x y
  end.

(** * what a program should do: compute with integers of [n] positions; everything that is not such an integer is an error *)
Definition checked (n z : Z) : outcome Z := if within n z then Ok z else Exn.
Definition integer_bin (n : Z) (o : bin) (x y : Z) : outcome Z :=
  match o with
  | Plus => checked n (x + y)
  | Less => checked n (x - y)
  | Times => checked n (x * y)
  | Quot => if y =? 0 then Exn else checked n (Z.quot x y)
  | Rem => if y =? 0 then Exn else let! _ := checked n (Z.quot x y) in Ok (Z.rem x y)
  | And => Ok (Z.land x y)
  | Or => Ok (Z.lor x y)
  | Xor => Ok (Z.lxor x y)
  | Shl => if (0 <=? y) && (y <? n) then checked n (x * 2 ^ y) else Exn
  | Shr => if (0 <=? y) && (y <? n) then checked n ((x mod 2 ^ n) / 2 ^ y) else Exn
  | Ashr => if (0 <=? y) && (y <? n) then Ok (x / 2 ^ y) else Exn
  | Join => Exn
  end.
Fixpoint integer_value (n : Z) (st : nat -> Z) (e : ex) : outcome Z :=
  match e with
  | Var k => Ok (st k)
  | New _ _ _ z => checked n z
  | Un _ e => let! x := integer_value n st e in checked n (- x)
  | Bin o e f => let! x := integer_value n st e in let! y := integer_value n st f in integer_bin n o x y
  end.

(** * runs over integers, for either meaning of the expressions and of ++ and -- *)
Section Runs.
Variable eval : (nat -> Z) -> ex -> outcome Z.
Variable step : Z -> outcome Z.
Definition put (st : nat -> Z) (k : nat) (x : Z) : nat -> Z := fun j => if Nat.eqb j k then x else st j.
Definition over_test (st : nat -> Z) (t : test) : outcome bool :=
  match t with
  | Rel r e f => let! x := eval st e in let! y := eval st f in Ok (holds r x y)
  | Truth e => let! x := eval st e in Ok (negb (x =? 0))
  | _ => IllFormed
  end.
Fixpoint over_run (fuel : nat) (st : nat -> Z) (c : stmt) : outcome (nat -> Z) :=
  match fuel with
  | O => Fuel
  | S fuel =>
      match c with
      | Skip => Ok st
      | Put k e => let! x := eval st e in Ok (put st k x)
      | Inc k => let! x := step (st k + 1) in Ok (put st k x)
      | Dec k => let! x := step (st k - 1) in Ok (put st k x)
      | Seq c d => let! st' := over_run fuel st c in over_run fuel st' d
      | If t c d => let! b := over_test st t in over_run fuel st (if b : bool then c else d)
      | While t c => let! b := over_test st t in
          if b : bool then let! st' := over_run fuel st c in over_run fuel st' (While t c) else Ok st
      | _ => IllFormed
      end
  end.
End Runs.
(** ++ and -- always wrap around *)
Definition signed_run (n : Z) := over_run (signed_value n) (fun z => Ok (around (storage n) z)).
Definition integer_run (n : Z) := over_run (integer_value n) (checked n).

(** the vectors hold the integers of the state *)
Definition holding (n : Z) (env : state) (st : nat -> Z) : Prop := forall k, typed (env k) n true /\ stored (env k) = st k.
(** the same outcome, ending in vectors that hold the integers of the second state *)
Definition same_run (n : Z) (r : outcome state) (s : outcome (nat -> Z)) : Prop :=
  match r, s with
  | Ok env, Ok st => holding n env st
  | UB, UB | Fuel, Fuel | Exn, Exn | IllFormed, IllFormed => True
  | _, _ => False
  end.
(** visible contents: the declared positions read as a two's complement number *)
Definition showing (n : Z) (env : state) (st : nat -> Z) : Prop := forall k, typed (env k) n true /\ value (env k) = st k.
