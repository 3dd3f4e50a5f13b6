(** Imperative programs over 4-state variables: execution by the library, and the IEEE 1800 meaning.
    Execution only chains calls of the model's API. *)
From Coq Require Import ZArith List Bool.
From Verif Require Import Cpp BigNum Bit Logic Spec SpecExact4 Client Client4 Program.
Import ListNotations.
Open Scope Z_scope.

(** conditions: comparisons, case equality ([match]) and the truth value of a vector *)
Inductive cond4 := Eq4 (e f : expr4) | Lt4 (e f : expr4) | Ge4 (e f : expr4) | Match4 (e f : expr4) | True4 (e : expr4).
Inductive cmd4 :=
| Skip4 | Assign4 (k : nat) (e : expr4) | Seq4 (c d : cmd4) | If4 (b : cond4) (c d : cmd4) | While4 (b : cond4) (c : cmd4).

(** [if (e == f)] converts the one-bit result to bool: logic.hh 281-283 *)
Definition test4 (env : nat -> logic) (b : cond4) : outcome bool :=
  match b with
  | Eq4 e f => let! x := eval4 env e in let! y := eval4 env f in let! c := logic_eq x y in Ok (logic_bool c)
  | Lt4 e f => let! x := eval4 env e in let! y := eval4 env f in let! c := logic_lt x y in Ok (logic_bool c)
  | Ge4 e f => let! x := eval4 env e in let! y := eval4 env f in let! c := logic_ge x y in Ok (logic_bool c)
  | Match4 e f => let! x := eval4 env e in let! y := eval4 env f in logic_match x y
  | True4 e => let! x := eval4 env e in Ok (logic_bool x)
  end.
Fixpoint exec4 (fuel : nat) (env : nat -> logic) (c : cmd4) : outcome (nat -> logic) :=
  match fuel with
  | O => Fuel
  | S fuel' =>
      match c with
      | Skip4 => Ok env
      | Assign4 k e => let! x := eval4 env e in Ok (upd env k x)
      | Seq4 c d => let! env' := exec4 fuel' env c in exec4 fuel' env' d
      | If4 b c d => let! t := test4 env b in exec4 fuel' env (if t : bool then c else d)
      | While4 b c => let! t := test4 env b in
          if t : bool then let! env' := exec4 fuel' env c in exec4 fuel' env' (While4 b c) else Ok env
      end
  end.

(** * the meaning: states assign symbol strings to variables; nothing can go wrong.
    [tand] and [tor] are the truth tables of & and |. *)
Section Meaning.
Variables (tand tor : sym -> sym -> sym) (n : Z).
Fixpoint value4 (st : nat -> vec4) (e : expr4) : vec4 :=
  match e with
  | Var k => st k
  | Not e => fun p => not4 (value4 st e p)
  | Neg e => strict1 n (value4 st e) (fun x => (- x) mod 2 ^ n)
  | And e f => fun p => tand (value4 st e p) (value4 st f p)
  | Or e f => fun p => tor (value4 st e p) (value4 st f p)
  | Xor e f => fun p => xor4 (value4 st e p) (value4 st f p)
  | Add e f => strict2 n (value4 st e) (value4 st f) (fun x y => (x + y) mod 2 ^ n)
  | Sub e f => strict2 n (value4 st e) (value4 st f) (fun x y => (x - y) mod 2 ^ n)
  | Mul e f => strict2 n (value4 st e) (value4 st f) (fun x y => (x * y) mod 2 ^ n)
  | Div e f => strict_div n (value4 st e) (value4 st f) Z.div
  | Rem e f => strict_div n (value4 st e) (value4 st f) Z.modulo
  | Shl e amt => if all_known (lw amt) (sym_at amt) then strict1 n (value4 st e) (fun x => (x * 2 ^ number (lw amt) (sym_at amt)) mod 2 ^ n) else all_unknown
  | Shr e amt => if all_known (lw amt) (sym_at amt) then strict1 n (value4 st e) (fun x => x / 2 ^ number (lw amt) (sym_at amt)) else all_unknown
  end.
(** a comparison with an x or z operand is x, and x is not true (11.4.4, 12.4); [match] compares the symbols (11.4.5) *)
Definition both_known (f g : vec4) : bool := all_known n f && all_known n g.
Definition sym_eqb (s t : sym) : bool := match s, t with S0, S0 | S1, S1 | SX, SX | SZ, SZ => true | _, _ => false end.
Definition holds4 (st : nat -> vec4) (b : cond4) : bool :=
  match b with
  | Eq4 e f => both_known (value4 st e) (value4 st f) && (number n (value4 st e) =? number n (value4 st f))
  | Lt4 e f => both_known (value4 st e) (value4 st f) && (number n (value4 st e) <? number n (value4 st f))
  | Ge4 e f => both_known (value4 st e) (value4 st f) && (number n (value4 st f) <=? number n (value4 st e))
  | Match4 e f => forallb (fun p => sym_eqb (value4 st e p) (value4 st f p)) (zrange 0 n)
  | True4 e => all_known n (value4 st e) && negb (number n (value4 st e) =? 0)
  end.
Fixpoint exec4_of (fuel : nat) (st : nat -> vec4) (c : cmd4) : outcome (nat -> vec4) :=
  match fuel with
  | O => Fuel
  | S fuel' =>
      match c with
      | Skip4 => Ok st
      | Assign4 k e => Ok (upd st k (value4 st e))
      | Seq4 c d => let! st' := exec4_of fuel' st c in exec4_of fuel' st' d
      | If4 b c d => exec4_of fuel' st (if holds4 st b then c else d)
      | While4 b c => if holds4 st b then let! st' := exec4_of fuel' st c in exec4_of fuel' st' (While4 b c) else Ok st
      end
  end.
End Meaning.

(** what a program may use: [*] not at 16 bits; shift amounts, if known, below the width *)
Fixpoint usable4 (n : Z) (e : expr4) : Prop :=
  match e with
  | Var _ => True
  | Not e | Neg e => usable4 n e
  | And e f | Or e f | Xor e f | Add e f | Sub e f | Div e f | Rem e f => usable4 n e /\ usable4 n f
  | Mul e f => usable4 n e /\ usable4 n f /\ n <> 16
  | Shl e amt | Shr e amt => usable4 n e /\ amount4 n amt
  end.
Definition usable_cond4 (n : Z) (b : cond4) : Prop :=
  match b with Eq4 e f | Lt4 e f | Ge4 e f | Match4 e f => usable4 n e /\ usable4 n f | True4 e => usable4 n e end.
Fixpoint usable_cmd4 (n : Z) (c : cmd4) : Prop :=
  match c with
  | Skip4 => True
  | Assign4 _ e => usable4 n e
  | Seq4 c d => usable_cmd4 n c /\ usable_cmd4 n d
  | If4 b c d => usable_cond4 n b /\ usable_cmd4 n c /\ usable_cmd4 n d
  | While4 b c => usable_cond4 n b /\ usable_cmd4 n c
  end.
(** the program contains no & and no | *)
Fixpoint no_tables (e : expr4) : Prop :=
  match e with
  | Var _ => True
  | And _ _ | Or _ _ => False
  | Not e | Neg e => no_tables e
  | Xor e f | Add e f | Sub e f | Mul e f | Div e f | Rem e f => no_tables e /\ no_tables f
  | Shl e _ | Shr e _ => no_tables e
  end.
Definition no_tables_cond (b : cond4) : Prop :=
  match b with Eq4 e f | Lt4 e f | Ge4 e f | Match4 e f => no_tables e /\ no_tables f | True4 e => no_tables e end.
Fixpoint no_tables_cmd (c : cmd4) : Prop :=
  match c with
  | Skip4 => True
  | Assign4 _ e => no_tables e
  | Seq4 c d => no_tables_cmd c /\ no_tables_cmd d
  | If4 b c d => no_tables_cond b /\ no_tables_cmd c /\ no_tables_cmd d
  | While4 b c => no_tables_cond b /\ no_tables_cmd c
  end.

(** both runs finish, in states with the same symbols, or both need more fuel *)
Definition same_outcome4 (n : Z) (r : outcome (nat -> logic)) (s : outcome (nat -> vec4)) : Prop :=
  match r, s with
  | Ok env, Ok st => good4 n env /\ forall k p, 0 <= p < n -> sym_at (env k) p = st k p
  | Fuel, Fuel => True
  | _, _ => False
  end.

(** the same program over 2-state variables, for conditions both can express *)
Definition to2_cond (b : cond4) : option cond :=
  match b with
  | Eq4 e f | Match4 e f => Some (CEq (to2 e) (to2 f))
  | Lt4 e f => Some (CLt (to2 e) (to2 f))
  | Ge4 e f => Some (CGe (to2 e) (to2 f))
  | True4 _ => None
  end.
Fixpoint to2_cmd (c : cmd4) : option cmd :=
  match c with
  | Skip4 => Some Skip
  | Assign4 k e => Some (Assign k (to2 e))
  | Seq4 c d => match to2_cmd c, to2_cmd d with Some c, Some d => Some (Seq c d) | _, _ => None end
  | If4 b c d => match to2_cond b, to2_cmd c, to2_cmd d with Some b, Some c, Some d => Some (If b c d) | _, _, _ => None end
  | While4 b c => match to2_cond b, to2_cmd c with Some b, Some c => Some (While b c) | _, _ => None end
  end.
Definition known_amounts_cond (b : cond4) : Prop :=
  match b with Eq4 e f | Lt4 e f | Ge4 e f | Match4 e f => known_amounts e /\ known_amounts f | True4 e => known_amounts e end.
Fixpoint known_amounts_cmd (c : cmd4) : Prop :=
  match c with
  | Skip4 => True
  | Assign4 _ e => known_amounts e
  | Seq4 c d => known_amounts_cmd c /\ known_amounts_cmd d
  | If4 b c d => known_amounts_cond b /\ known_amounts_cmd c /\ known_amounts_cmd d
  | While4 b c => known_amounts_cond b /\ known_amounts_cmd c
  end.
