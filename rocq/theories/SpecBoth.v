(** An expression over 2-state vectors as an expression over 4-state vectors: the shift amounts become [logic] vectors without x and z. *)
From Verif Require Import Bit Logic SpecFour Client Client4.

Fixpoint to4 (e : expr) : expr4 :=
  match e with
  | Var k => Var k
  | Not e => Not (to4 e) | Neg e => Neg (to4 e)
  | And e f => And (to4 e) (to4 f) | Or e f => Or (to4 e) (to4 f) | Xor e f => Xor (to4 e) (to4 f)
  | Add e f => Add (to4 e) (to4 f) | Sub e f => Sub (to4 e) (to4 f) | Mul e f => Mul (to4 e) (to4 f)
  | Div e f => Div (to4 e) (to4 f) | Rem e f => Rem (to4 e) (to4 f)
  | Shl e k => Shl (to4 e) (certain k) | Shr e k => Shr (to4 e) (certain k)
  end.
(** no / and % in the expression *)
Fixpoint undivided {A} (e : gexpr A) : Prop :=
  match e with
  | Var _ => True
  | Not e | Neg e | Shl e _ | Shr e _ => undivided e
  | And e f | Or e f | Xor e f | Add e f | Sub e f | Mul e f => undivided e /\ undivided f
  | Div _ _ | Rem _ _ => False
  end.
