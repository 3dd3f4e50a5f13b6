(** Programs over the pairs of numbers that unsigned 4-state vectors of one width store, the values and the x/z mask: every operator
    as a formula on natural numbers below [2 ^ room n], for every width [n] of at least 2 (compare SpecProg.v). *)
From Coq Require Import ZArith Bool.
From Verif Require Import Cpp Bit Logic Spec SpecExact4 SpecMachine SpecWide SpecFour Client Client4 Program Program4 SpecProg.
Open Scope Z_scope.

Definition cell : Type := Z * Z.
Definition symbol (c : cell) (p : Z) : sym := sym_of (Z.testbit (fst c) p) (Z.testbit (snd c) p).
(** the library takes the number for different from 0: in a vector of more than 64 positions it sees the lower half of every word only *)
Definition noticed (n z : Z) : bool := if n <=? 64 then negb (z =? 0) else negb (seems_zero n z).
Definition only_x (n : Z) : cell := (0, 2 ^ n - 1).
Definition of_symbols (n : Z) (g : Z -> sym) : cell := (gather (Z.to_nat n) (fun p => high (g p)), gather (Z.to_nat n) (fun p => unknown (g p))).
Definition strict (n : Z) (doubt : bool) (r : outcome Z) : outcome cell := if doubt then Ok (only_x n) else omap (fun z => (z, 0)) r.
(** [shift] moves values and mask by the number of the amount *)
Definition shifted (n : Z) (shift : Z -> bit -> outcome Z) (a : cell) (k : logic) : outcome cell :=
  unless (noticed n (snd a) || doubtful k) (only_x n) (let! v := shift (fst a) (l_val k) in let! m := shift (snd a) (l_val k) in Ok (v, m)).

Fixpoint kept4 (n : Z) (st : nat -> cell) (e : expr4) : outcome cell :=
  match e with
  | Var k => Ok (st k)
  | Not e => let! a := kept4 n st e in Ok (Z.ldiff (2 ^ n - 1) (Z.lor (fst a) (snd a)), snd a)
  | Neg e => let! a := kept4 n st e in if n <=? 64 then strict n (noticed n (snd a)) (Ok ((- fst a) mod 2 ^ room n)) else IllFormed
  | And e f => let! a := kept4 n st e in let! b := kept4 n st f in Ok (of_symbols n (fun p => lib_and (symbol a p) (symbol b p)))
  | Or e f => let! a := kept4 n st e in let! b := kept4 n st f in Ok (of_symbols n (fun p => lib_or (symbol a p) (symbol b p)))
  | Xor e f => let! a := kept4 n st e in let! b := kept4 n st f in
      Ok (Z.ldiff (Z.lxor (fst a) (fst b) mod 2 ^ n) (Z.lor (snd a) (snd b)), Z.lor (snd a) (snd b))
  | Add e f => let! a := kept4 n st e in let! b := kept4 n st f in strict n (noticed n (snd a) || noticed n (snd b)) (Ok ((fst a + fst b) mod 2 ^ room n))
  | Sub e f => let! a := kept4 n st e in let! b := kept4 n st f in strict n (noticed n (snd a) || noticed n (snd b)) (Ok ((fst a - fst b) mod 2 ^ room n))
  | Mul e f => let! a := kept4 n st e in let! b := kept4 n st f in strict n (noticed n (snd a) || noticed n (snd b)) (kept_product n (fst a) (fst b))
  | Div e f => let! a := kept4 n st e in let! b := kept4 n st f in
      strict n (noticed n (snd a) || noticed n (snd b) || negb (noticed n (fst b))) (omap fst (kept_division n (fst a) (fst b)))
  | Rem e f => let! a := kept4 n st e in let! b := kept4 n st f in
      strict n (noticed n (snd a) || noticed n (snd b) || negb (noticed n (fst b))) (omap snd (kept_division n (fst a) (fst b)))
  | Shl e k => let! a := kept4 n st e in shifted n (kept_left n) a k
  | Shr e k => let! a := kept4 n st e in shifted n (kept_right n) a k
  end.
(** a comparison with a noticed x or z is not true *)
Definition kept4_test (n : Z) (st : nat -> cell) (b : cond4) : outcome bool :=
  let sure (a b : cell) := negb (noticed n (snd a) || noticed n (snd b)) in
  match b with
  | Eq4 e f => let! a := kept4 n st e in let! b := kept4 n st f in Ok (sure a b && (fst a =? fst b))
  | Lt4 e f => let! a := kept4 n st e in let! b := kept4 n st f in Ok (sure a b && (fst a <? fst b))
  | Ge4 e f => let! a := kept4 n st e in let! b := kept4 n st f in Ok (sure a b && (fst b <=? fst a))
  | Match4 e f => let! a := kept4 n st e in let! b := kept4 n st f in Ok ((fst a =? fst b) && (snd a =? snd b))
  | True4 e => let! a := kept4 n st e in Ok (negb (noticed n (snd a)) && noticed n (fst a))
  end.
Fixpoint kept4_exec (n : Z) (fuel : nat) (st : nat -> cell) (c : cmd4) : outcome (nat -> cell) :=
  match fuel with
  | O => Fuel
  | S fuel' =>
      match c with
      | Skip4 => Ok st
      | Assign4 k e => let! x := kept4 n st e in Ok (upd st k x)
      | Seq4 c d => let! st' := kept4_exec n fuel' st c in kept4_exec n fuel' st' d
      | If4 b c d => let! t := kept4_test n st b in kept4_exec n fuel' st (if t : bool then c else d)
      | While4 b c => let! t := kept4_test n st b in
          if t : bool then let! st' := kept4_exec n fuel' st c in kept4_exec n fuel' st' (While4 b c) else Ok st
      end
  end.

(** the shift amounts of a program satisfy [P] *)
Fixpoint amounts4 (P : logic -> Prop) (e : expr4) : Prop :=
  match e with
  | Var _ => True
  | Not e | Neg e => amounts4 P e
  | And e f | Or e f | Xor e f | Add e f | Sub e f | Mul e f | Div e f | Rem e f => amounts4 P e /\ amounts4 P f
  | Shl e k | Shr e k => amounts4 P e /\ P k
  end.
Definition amounts4_cond (P : logic -> Prop) (b : cond4) : Prop :=
  match b with Eq4 e f | Lt4 e f | Ge4 e f | Match4 e f => amounts4 P e /\ amounts4 P f | True4 e => amounts4 P e end.
Fixpoint amounts4_cmd (P : logic -> Prop) (c : cmd4) : Prop :=
  match c with
  | Skip4 => True
  | Assign4 _ e => amounts4 P e
  | Seq4 c d => amounts4_cmd P c /\ amounts4_cmd P d
  | If4 b c d => amounts4_cond P b /\ amounts4_cmd P c /\ amounts4_cmd P d
  | While4 b c => amounts4_cond P b /\ amounts4_cmd P c
  end.
(** both numbers in range *)
Definition cell_ok (n : Z) (c : cell) : Prop := 0 <= fst c < 2 ^ room n /\ 0 <= snd c < 2 ^ room n.
Definition holding (n : Z) (c : cell) : logic := mkLogic (vec_of n false (fst c)) (vec_of n false (snd c)).
(** the same outcome, ending in vectors that store the numbers of the second state *)
Definition same_kept4 (n : Z) (r : outcome (nat -> logic)) (s : outcome (nat -> cell)) : Prop :=
  match r, s with
  | Ok env, Ok st => forall k, env k = holding n (st k)
  | UB, UB | Fuel, Fuel | Exn, Exn | IllFormed, IllFormed => True
  | _, _ => False
  end.
