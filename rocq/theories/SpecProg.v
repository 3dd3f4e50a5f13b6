(** Programs over the numbers that unsigned vectors of one width store: every operator as a formula on natural numbers below
    [2 ^ room n], for every width [n] of at least 2.  Dividing by zero, large 16-bit products and large shift amounts are undefined behaviour,
    a multi-word minus does not compile; nothing else can go wrong. *)
From Coq Require Import ZArith Bool.
From Verif Require Import Cpp Bit Spec SpecExact SpecMachine SpecWide Client Program.
Open Scope Z_scope.

(** the bits an object of [n] positions has: 8, 16, 32, 64 or a multiple of 64 *)
Definition room (n : Z) : Z := if n <=? 64 then storage n else capacity n.
Definition kept_product (n x y : Z) : outcome Z :=
  if n <=? 64 then if (n <=? 16) && (2 ^ 31 <=? x * y) then UB else Ok ((x * y) mod 2 ^ room n)
  else if seems_small n x && seems_small n y then Ok (((x mod 2 ^ 64) * (y mod 2 ^ 64)) mod 2 ^ room n)
  else if (x =? 0) || (y =? 0) then Ok 0
  else if Z.log2 x / 64 + Z.log2 y / 64 + 1 <? words_in n then Ok ((x * y) mod 2 ^ room n)
  else UB.
Definition kept_division (n x y : Z) : outcome (Z * Z) :=
  if n <=? 64 then if y =? 0 then UB else Ok (x / y, x mod y)
  else omap (fun p => (fst p mod 2 ^ room n, snd p mod 2 ^ room n)) (divided n x y).
Definition kept_left (n x : Z) (k : bit) : outcome Z :=
  if n <=? 64 then
    if negb (small k) then IllFormed
    else if stored k mod 2 ^ room n <? computing n then Ok ((x * 2 ^ (stored k mod 2 ^ room n)) mod 2 ^ room n) else UB
  else Ok ((x * 2 ^ any_amount k) mod 2 ^ n).
Definition kept_right (n x : Z) (k : bit) : outcome Z :=
  if n <=? 64 then
    if negb (small k) then IllFormed
    else if (0 <=? stored k) && (stored k <? n) then Ok ((x / 2 ^ stored k) mod 2 ^ (n - stored k)) else UB
  else Ok ((x mod 2 ^ n) / 2 ^ any_amount k).

Fixpoint kept (n : Z) (st : nat -> Z) (e : expr) : outcome Z :=
  match e with
  | Var k => Ok (st k)
  | Not e => let! x := kept n st e in Ok (2 ^ room n - 1 - x)
  | Neg e => let! x := kept n st e in if n <=? 64 then Ok ((- x) mod 2 ^ room n) else IllFormed
  | And e f => let! x := kept n st e in let! y := kept n st f in Ok (if n <=? 64 then Z.land x y else Z.land x y mod 2 ^ n)
  | Or e f => let! x := kept n st e in let! y := kept n st f in Ok (Z.lor x y)
  | Xor e f => let! x := kept n st e in let! y := kept n st f in Ok (Z.lxor x y)
  | Add e f => let! x := kept n st e in let! y := kept n st f in Ok ((x + y) mod 2 ^ room n)
  | Sub e f => let! x := kept n st e in let! y := kept n st f in Ok ((x - y) mod 2 ^ room n)
  | Mul e f => let! x := kept n st e in let! y := kept n st f in kept_product n x y
  | Div e f => let! x := kept n st e in let! y := kept n st f in omap fst (kept_division n x y)
  | Rem e f => let! x := kept n st e in let! y := kept n st f in omap snd (kept_division n x y)
  | Shl e k => let! x := kept n st e in kept_left n x k
  | Shr e k => let! x := kept n st e in kept_right n x k
  end.
Definition kept_test (n : Z) (st : nat -> Z) (b : cond) : outcome bool :=
  match b with
  | CEq e f => let! x := kept n st e in let! y := kept n st f in Ok (x =? y)
  | CLt e f => let! x := kept n st e in let! y := kept n st f in Ok (x <? y)
  | CGe e f => let! x := kept n st e in let! y := kept n st f in Ok (y <=? x)
  end.
Fixpoint kept_exec (n : Z) (fuel : nat) (st : nat -> Z) (c : cmd) : outcome (nat -> Z) :=
  match fuel with
  | O => Fuel
  | S fuel' =>
      match c with
      | Skip => Ok st
      | Assign k e => let! x := kept n st e in Ok (upd st k x)
      | Seq c d => let! st' := kept_exec n fuel' st c in kept_exec n fuel' st' d
      | If b c d => let! t := kept_test n st b in kept_exec n fuel' st (if t : bool then c else d)
      | While b c => let! t := kept_test n st b in
          if t : bool then let! st' := kept_exec n fuel' st c in kept_exec n fuel' st' (While b c) else Ok st
      end
  end.

(** the shift amounts of a program satisfy [P] *)
Fixpoint amounts (P : bit -> Prop) (e : expr) : Prop :=
  match e with
  | Var _ => True
  | Not e | Neg e => amounts P e
  | And e f | Or e f | Xor e f | Add e f | Sub e f | Mul e f | Div e f | Rem e f => amounts P e /\ amounts P f
  | Shl e k | Shr e k => amounts P e /\ P k
  end.
Definition amounts_cond (P : bit -> Prop) (b : cond) : Prop := match b with CEq e f | CLt e f | CGe e f => amounts P e /\ amounts P f end.
Fixpoint amounts_cmd (P : bit -> Prop) (c : cmd) : Prop :=
  match c with
  | Skip => True
  | Assign _ e => amounts P e
  | Seq c d => amounts_cmd P c /\ amounts_cmd P d
  | If b c d => amounts_cond P b /\ amounts_cmd P c /\ amounts_cmd P d
  | While b c => amounts_cond P b /\ amounts_cmd P c
  end.
(** the same outcome, ending in vectors that store the numbers of the second state *)
Definition same_kept (n : Z) (r : outcome (nat -> bit)) (s : outcome (nat -> Z)) : Prop :=
  match r, s with
  | Ok env, Ok st => forall k, env k = vec_of n false (st k)
  | UB, UB | Fuel, Fuel | Exn, Exn | IllFormed, IllFormed => True
  | _, _ => False
  end.
(** a shift amount of at most 64 positions whose number is not negative and fits into [n] positions *)
Definition narrow_amount (n : Z) (k : bit) : Prop := vec k /\ bw k <= 64 /\ 0 <= stored k < 2 ^ n /\ value k = stored k.
