(** Client programs: finite sequences of API calls and expression trees, and what they should compute.
    Running a program only chains calls of the model's API; the meaning is given independently of it.
    Used to state properties that quantify over all executions, not over single calls. *)
From Coq Require Import ZArith List Bool.
From Verif Require Import Cpp BigNum Bit Logic Spec.
Import ListNotations.
Open Scope Z_scope.

(** * Sequences of writes *)
(** 2-state: [v.set(i, x)], [v.update(a, b, src)] *)
Inductive write2 := Set2 (i : Z) (x : bool) | Range2 (a b : Z) (src : bit).
Definition run2 (b : bit) (w : write2) : outcome bit :=
  match w with Set2 i x => bit_set b i x | Range2 hi lo src => bit_update_r b hi lo src end.
(** the positions a write covers and what it puts there *)
Definition covers2 (w : write2) (p : Z) : Prop :=
  match w with Set2 i _ => p = i | Range2 a b _ => Z.min a b <= p <= Z.max a b end.
Definition puts2 (w : write2) (p : Z) : bool :=
  match w with Set2 _ x => x | Range2 a b src => bit_at src (p - Z.min a b) end.
(** a write inside [n] positions, from a vector that is wide enough *)
Definition valid2 (n : Z) (w : write2) : Prop :=
  match w with
  | Set2 i _ => 0 <= i < n
  | Range2 a b src => 0 <= a < n /\ 0 <= b < n /\ Z.abs (a - b) + 1 <= bw src /\ typed src (bw src) (bsgn src)
  end.

(** 4-state: [v.set(i, 0)], [v.set(i, 1)], [v.set_x(i)], [v.set_z(i)], [v.update(a, b, src)] *)
Inductive write4 := Set4 (i : Z) (s : sym) | Range4 (a b : Z) (src : logic).
Definition run4 (l : logic) (w : write4) : outcome logic :=
  match w with
  | Set4 i S0 => logic_set l i false
  | Set4 i S1 => logic_set l i true
  | Set4 i SX => logic_set_x l i
  | Set4 i SZ => logic_set_z l i
  | Range4 hi lo src => logic_update_r l hi lo src
  end.
Definition covers4 (w : write4) (p : Z) : Prop :=
  match w with Set4 i _ => p = i | Range4 a b _ => Z.min a b <= p <= Z.max a b end.
(** positions beyond the source are filled with 0 *)
Definition puts4 (w : write4) (p : Z) : sym :=
  match w with Set4 _ s => s | Range4 a b src => if p - Z.min a b <? lw src then sym_at src (p - Z.min a b) else S0 end.
(** x and z are copied from the first 64 positions only *)
Definition valid4 (n : Z) (w : write4) : Prop :=
  match w with
  | Set4 i _ => 0 <= i < n
  | Range4 a b src => 0 <= a < n /\ 0 <= b < n /\ 1 <= lw src /\ ltyped src (lw src) (lsgn src) /\
      forall q, 64 <= q < lw src -> q <= Z.abs (a - b) -> unknown (sym_at src q) = false
  end.

(** [m] holds what the last write covering [p] put there, [old] if there is none *)
Definition last_write {W A} (covers : W -> Z -> Prop) (puts : W -> Z -> A) (ws : list W) (p : Z) (old m : A) : Prop :=
  (forall pre w post, ws = pre ++ w :: post -> covers w p -> (forall w', In w' post -> ~ covers w' p) -> m = puts w p) /\
  ((forall w, In w ws -> ~ covers w p) -> m = old).

(** * Expression trees
    over variables of one type; shift amounts are constants of type [A] (2-state or 4-state vectors) *)
Inductive gexpr {A : Type} :=
| Var (k : nat)
| Not (e : gexpr) | Neg (e : gexpr)
| And (e f : gexpr) | Or (e f : gexpr) | Xor (e f : gexpr)
| Add (e f : gexpr) | Sub (e f : gexpr) | Mul (e f : gexpr) | Div (e f : gexpr) | Rem (e f : gexpr)
| Shl (e : gexpr) (amt : A) | Shr (e : gexpr) (amt : A).
Arguments gexpr A : clear implicits.
Notation expr := (gexpr bit).

(** [~e], [-e], [e & f], ... as calls of the library; an evaluation error stops the evaluation *)
Fixpoint eval (env : nat -> bit) (e : expr) : outcome bit :=
  match e with
  | Var k => Ok (env k)
  | Not e => omap bit_not (eval env e)
  | Neg e => let! x := eval env e in bit_neg x
  | And e f => let! x := eval env e in let! y := eval env f in bit_and x y
  | Or e f => let! x := eval env e in let! y := eval env f in bit_or x y
  | Xor e f => let! x := eval env e in let! y := eval env f in bit_xor x y
  | Add e f => let! x := eval env e in let! y := eval env f in bit_add x y
  | Sub e f => let! x := eval env e in let! y := eval env f in bit_sub x y
  | Mul e f => let! x := eval env e in let! y := eval env f in bit_mul x y
  | Div e f => let! x := eval env e in let! y := eval env f in bit_div x y
  | Rem e f => let! x := eval env e in let! y := eval env f in bit_rem x y
  | Shl e amt => let! x := eval env e in bit_shl x amt
  | Shr e amt => let! x := eval env e in bit_shr x amt
  end.

(** the same expression over the integers modulo 2^n *)
Fixpoint meaning (n : Z) (env : nat -> Z) (e : expr) : Z :=
  match e with
  | Var k => env k mod 2 ^ n
  | Not e => 2 ^ n - 1 - meaning n env e
  | Neg e => (- meaning n env e) mod 2 ^ n
  | And e f => Z.land (meaning n env e) (meaning n env f)
  | Or e f => Z.lor (meaning n env e) (meaning n env f)
  | Xor e f => Z.lxor (meaning n env e) (meaning n env f)
  | Add e f => (meaning n env e + meaning n env f) mod 2 ^ n
  | Sub e f => (meaning n env e - meaning n env f) mod 2 ^ n
  | Mul e f => (meaning n env e * meaning n env f) mod 2 ^ n
  | Div e f => meaning n env e / meaning n env f
  | Rem e f => meaning n env e mod meaning n env f
  | Shl e amt => (meaning n env e * 2 ^ value amt) mod 2 ^ n
  | Shr e amt => meaning n env e / 2 ^ value amt
  end.

(** widths at which a vector has no storage above its positions *)
Definition full_width (n : Z) : Prop := n = 8 \/ n = 16 \/ n = 32 \/ n = 64 \/ (65 <= n /\ n mod 64 = 0).

(** the values of the variables *)
Definition good (n : Z) (env : nat -> bit) : Prop := forall k, typed (env k) n false /\ tidy (env k).
(** a shift amount *)
Definition amount (n : Z) (k : bit) : Prop := vec k /\ tidy k /\ 0 <= value k < n /\ (n <= 64 -> bw k <= 64).

(** expressions whose value never has anything stored above its positions *)
Fixpoint neat (e : expr) : Prop :=
  match e with
  | Var _ | Div _ _ | Rem _ _ => True
  | And e f | Or e f | Xor e f => neat e /\ neat f
  | Shr e _ => neat e
  | _ => False
  end.

(** factors the multi-word multiplication handles (C39): they fit in [i] and [j] 64-bit groups, [i + j] groups are
    available, and the upper groups do not have ones in their upper halves only *)
Definition factors (n x y : Z) : Prop :=
  visible (x / 2 ^ 64) /\ visible (y / 2 ^ 64) /\
  exists i j, 0 <= i /\ 0 <= j /\ x < 2 ^ (64 * i) /\ y < 2 ^ (64 * j) /\ 64 * (i + j) < n + 64.
(** where the library's operators are right (C37 to C40, C26, C27): products of 9 to 16 bits must be below 2^31, those of
    multi-word vectors as in [factors]; there is no multi-word negation; the operands of [/] and [%] must not carry
    anything above the width, and the divisor is not 0; shift amounts are below the width *)
Fixpoint supported (n : Z) (env : nat -> Z) (e : expr) : Prop :=
  match e with
  | Var _ => True
  | Not e => supported n env e
  | Neg e => supported n env e /\ n <= 64
  | And e f | Or e f | Xor e f | Add e f | Sub e f => supported n env e /\ supported n env f
  | Mul e f => supported n env e /\ supported n env f /\
      (n <= 8 \/ 17 <= n <= 64 \/
       (full_width n \/ neat e /\ neat f) /\ (n <= 64 /\ meaning n env e * meaning n env f < 2 ^ 31 \/ 65 <= n /\ factors n (meaning n env e) (meaning n env f)))
  | Div e f | Rem e f => supported n env e /\ supported n env f /\ (full_width n \/ neat e /\ neat f) /\ meaning n env f <> 0 /\
      (65 <= n -> visible (meaning n env f) /\ visible (meaning n env f / 2 ^ 64) /\ visible (meaning n env e / 2 ^ 64))
  | Shl e amt | Shr e amt => supported n env e /\ amount n amt
  end.

(** * laws
    pairs of expressions that are equal over the integers modulo 2^n, whatever the sub-expressions [a], [b], [c] *)
Definition bitwise_laws (a b c : expr) : list (expr * expr) :=
  [ (And a b, And b a); (Or a b, Or b a); (Xor a b, Xor b a);
    (And (And a b) c, And a (And b c)); (Or (Or a b) c, Or a (Or b c)); (Xor (Xor a b) c, Xor a (Xor b c));
    (And a a, a); (Or a a, a); (Xor (Xor a b) b, a);
    (And a (Or b c), Or (And a b) (And a c)); (Or a (And b c), And (Or a b) (Or a c)); (And a (Xor b c), Xor (And a b) (And a c));
    (And a (Or a b), a); (Or a (And a b), a); (Not (Not a), a);
    (Not (And a b), Or (Not a) (Not b)); (Not (Or a b), And (Not a) (Not b)); (Xor a b, Or (And a (Not b)) (And (Not a) b)) ].
Definition additive_laws (a b c : expr) : list (expr * expr) :=
  [ (Add a b, Add b a); (Add (Add a b) c, Add a (Add b c)); (Sub (Add a b) b, a); (Add (Sub a b) b, a);
    (Sub a (Add b c), Sub (Sub a b) c); (Sub a a, Xor a a); (Sub a b, Not (Add (Not a) b));
    (Add a b, Add (Or a b) (And a b)); (Add a (Not a), Not (Xor a a)) ].
Definition negation_laws (a b : expr) : list (expr * expr) :=
  [ (Neg (Neg a), a); (Sub a b, Add a (Neg b)); (Neg (Add a b), Sub (Neg a) b); (Neg (Sub a b), Sub b a); (Add a (Neg a), Xor a a) ].
Definition product_laws (a b c : expr) : list (expr * expr) :=
  [ (Mul a b, Mul b a); (Mul (Mul a b) c, Mul a (Mul b c)); (Mul a (Add b c), Add (Mul a b) (Mul a c));
    (Mul a (Sub b c), Sub (Mul a b) (Mul a c)); (Mul (Neg a) b, Neg (Mul a b)) ].

(** both sides evaluate, to vectors with the same positions; the library's [==] says so wherever nothing is stored above them *)
Definition agree (n : Z) (env : nat -> bit) (p : expr * expr) : Prop :=
  exists r s, eval env (fst p) = Ok r /\ eval env (snd p) = Ok s /\ typed r n false /\ typed s n false /\
    (forall i, 0 <= i < n -> bit_at r i = bit_at s i) /\
    (full_width n \/ neat (fst p) /\ neat (snd p) -> bit_eq r s = Ok true).
