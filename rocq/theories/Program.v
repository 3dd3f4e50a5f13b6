(** Programs over packed structs, and a small imperative language over bit vectors with its meaning over the integers.
    Execution only chains calls of the model's API. *)
From Coq Require Import ZArith List Bool.
From Verif Require Import Cpp BigNum Bit Logic Spec More Client.
Import ListNotations.
Open Scope Z_scope.

(** no x or z in the positions from 64 on (sources with such positions cannot be copied, C49) *)
Definition clean (v : logic) (w : Z) : Prop := forall q, 64 <= q < w -> unknown (sym_at v q) = false.

(** * packed structs: a field is the range [hi:lo] of the vector *)
Record field := mkField { f_hi : Z; f_lo : Z }.
Definition f_width (f : field) : Z := f_hi f - f_lo f + 1.
(** a field inside [n] positions; 65-bit slices do not compile (C05) *)
Definition field_ok (n : Z) (f : field) : Prop := 0 <= f_lo f <= f_hi f /\ f_hi f < n /\ f_width f <> 65.
Definition apart (f g : field) : Prop := f_hi f < f_lo g \/ f_hi g < f_lo f.
(** a write to one of the fields [fs], of a vector of the width of the field *)
Definition write_ok (fs : list field) (w : field * logic) : Prop :=
  In (fst w) fs /\ ltyped (snd w) (f_width (fst w)) false /\ ltidy (snd w) /\ clean (snd w) (f_width (fst w)).
(** the setters are called in the order of the list *)
Definition run_fields (s : logic) (ws : list (field * logic)) : outcome logic :=
  ofold (fun s w => field_write s (f_hi (fst w)) (f_lo (fst w)) (snd w)) ws s.
(** the same with 2-state structs *)
Definition field_write2 (v : bit) (hi lo : Z) (k : bit) : outcome bit := bit_update_c v hi lo k.
Definition field_read2 (v : bit) (hi lo : Z) : outcome bit := bit_slice_c v hi lo.

(** * imperative programs over variables of type bit<n-1, 0> *)
Inductive cond := CEq (e f : expr) | CLt (e f : expr) | CGe (e f : expr).
Inductive cmd :=
| Skip | Assign (k : nat) (e : expr) | Seq (c d : cmd) | If (b : cond) (c d : cmd) | While (b : cond) (c : cmd).

Definition upd {A} (env : nat -> A) (k : nat) (x : A) (j : nat) : A := if Nat.eqb j k then x else env j.

Definition test (env : nat -> bit) (b : cond) : outcome bool :=
  match b with
  | CEq e f => let! x := eval env e in let! y := eval env f in bit_eq x y
  | CLt e f => let! x := eval env e in let! y := eval env f in bit_lt x y
  | CGe e f => let! x := eval env e in let! y := eval env f in bit_ge x y
  end.
(** a run with the library; [Fuel] when [fuel] loop iterations are not enough *)
Fixpoint exec (fuel : nat) (env : nat -> bit) (c : cmd) : outcome (nat -> bit) :=
  match fuel with
  | O => Fuel
  | S fuel' =>
      match c with
      | Skip => Ok env
      | Assign k e => let! x := eval env e in Ok (upd env k x)
      | Seq c d => let! env' := exec fuel' env c in exec fuel' env' d
      | If b c d => let! t := test env b in exec fuel' env (if t : bool then c else d)
      | While b c => let! t := test env b in
          if t : bool then let! env' := exec fuel' env c in exec fuel' env' (While b c) else Ok env
      end
  end.

(** * the same program over the integers modulo 2^n; dividing by zero is the only error *)
Fixpoint value_of (n : Z) (st : nat -> Z) (e : expr) : outcome Z :=
  match e with
  | Var k => Ok (st k)
  | Not e => let! x := value_of n st e in Ok (2 ^ n - 1 - x)
  | Neg e => let! x := value_of n st e in Ok ((- x) mod 2 ^ n)
  | And e f => let! x := value_of n st e in let! y := value_of n st f in Ok (Z.land x y)
  | Or e f => let! x := value_of n st e in let! y := value_of n st f in Ok (Z.lor x y)
  | Xor e f => let! x := value_of n st e in let! y := value_of n st f in Ok (Z.lxor x y)
  | Add e f => let! x := value_of n st e in let! y := value_of n st f in Ok ((x + y) mod 2 ^ n)
  | Sub e f => let! x := value_of n st e in let! y := value_of n st f in Ok ((x - y) mod 2 ^ n)
  | Mul e f => let! x := value_of n st e in let! y := value_of n st f in Ok ((x * y) mod 2 ^ n)
  | Div e f => let! x := value_of n st e in let! y := value_of n st f in if y =? 0 then UB else Ok (x / y)
  | Rem e f => let! x := value_of n st e in let! y := value_of n st f in if y =? 0 then UB else Ok (x mod y)
  | Shl e amt => let! x := value_of n st e in Ok ((x * 2 ^ value amt) mod 2 ^ n)
  | Shr e amt => let! x := value_of n st e in Ok (x / 2 ^ value amt)
  end.
Definition test_of (n : Z) (st : nat -> Z) (b : cond) : outcome bool :=
  match b with
  | CEq e f => let! x := value_of n st e in let! y := value_of n st f in Ok (x =? y)
  | CLt e f => let! x := value_of n st e in let! y := value_of n st f in Ok (x <? y)
  | CGe e f => let! x := value_of n st e in let! y := value_of n st f in Ok (y <=? x)
  end.
Fixpoint exec_of (n : Z) (fuel : nat) (st : nat -> Z) (c : cmd) : outcome (nat -> Z) :=
  match fuel with
  | O => Fuel
  | S fuel' =>
      match c with
      | Skip => Ok st
      | Assign k e => let! x := value_of n st e in Ok (upd st k x)
      | Seq c d => let! st' := exec_of n fuel' st c in exec_of n fuel' st' d
      | If b c d => let! t := test_of n st b in exec_of n fuel' st (if t : bool then c else d)
      | While b c => let! t := test_of n st b in
          if t : bool then let! st' := exec_of n fuel' st c in exec_of n fuel' st' (While b c) else Ok st
      end
  end.

(** what the program may use (the others do not compile or go wrong, C37 to C40): [-], [*], [/], [%] not on multi-word
    variables, [*] not at 16 bits; shift amounts below the width *)
Fixpoint usable (n : Z) (e : expr) : Prop :=
  match e with
  | Var _ => True
  | Not e => usable n e
  | Neg e => usable n e /\ n <= 64
  | And e f | Or e f | Xor e f | Add e f | Sub e f => usable n e /\ usable n f
  | Mul e f => usable n e /\ usable n f /\ n <= 64 /\ n <> 16
  | Div e f | Rem e f => usable n e /\ usable n f /\ n <= 64
  | Shl e amt | Shr e amt => usable n e /\ amount n amt
  end.
Definition usable_cond (n : Z) (b : cond) : Prop :=
  match b with CEq e f | CLt e f | CGe e f => usable n e /\ usable n f end.
Fixpoint usable_cmd (n : Z) (c : cmd) : Prop :=
  match c with
  | Skip => True
  | Assign _ e => usable n e
  | Seq c d => usable_cmd n c /\ usable_cmd n d
  | If b c d => usable_cond n b /\ usable_cmd n c /\ usable_cmd n d
  | While b c => usable_cond n b /\ usable_cmd n c
  end.
(** the library's outcome and the integer outcome are the same: both finish with corresponding states, both hit
    undefined behaviour, or both need more fuel *)
Definition same_outcome (n : Z) (r : outcome (nat -> bit)) (s : outcome (nat -> Z)) : Prop :=
  match r, s with
  | Ok env, Ok st => good n env /\ forall k, num (env k) = st k
  | UB, UB | Fuel, Fuel => True
  | _, _ => False
  end.

(** Euclid's algorithm: variables 0 and 1 hold the arguments, variable 2 a temporary, variable 3 the constant 0 *)
Definition euclid : cmd :=
  While (CLt (Var 3) (Var 1)) (Seq (Assign 2 (Rem (Var 0) (Var 1))) (Seq (Assign 0 (Var 1)) (Assign 1 (Var 2)))).
