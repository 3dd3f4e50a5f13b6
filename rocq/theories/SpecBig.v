(** Small specification for [big_num<n, s>] objects: which objects the C++ types allow and the number
    they hold.  Independent of the operations in BigObj.v. *)
From Coq Require Import ZArith List Bool.
From Verif Require Import Cpp BigNum Spec BigObj.
Import ListNotations.
Open Scope Z_scope.

(** an object of type [big_num<n, s>]: one 64-bit word per started group of 64 positions *)
Definition is_num (x : bnum) (n : Z) (s : bool) : Prop :=
  1 <= n < 2 ^ 32 /\ n_size x = n /\ n_sgn x = s /\
  Z.of_nat (length (n_ws x)) = (n + 63) / 64 /\ Forall (fun w => 0 <= w < 2 ^ 64) (n_ws x).

(** everything stored, and the number held by the [n] declared positions *)
Definition raw (x : bnum) : Z := words_num (n_ws x).
Definition magn (x : bnum) : Z := raw x mod 2 ^ n_size x.
(** content of position [p] *)
Definition pos (x : bnum) (p : Z) : bool := Z.testbit (magn x) p.
(** nothing stored above the declared positions *)
Definition inwidth (x : bnum) : Prop := raw x < 2 ^ n_size x.
(** the number under the declared signedness *)
Definition ival (x : bnum) : Z := if n_sgn x then twos (n_size x) (magn x) else magn x.

(** number of 64-bit groups needed to write a number *)
Definition groups (z : Z) : Z := if z =? 0 then 0 else Z.log2 z / 64 + 1.

(** what a list of single-position writes leaves at position [p]: the last one wins *)
Definition after_writes (x : bnum) (ws : list (Z * bool)) (p : Z) : bool :=
  fold_left (fun b w => if fst w =? p then snd w else b) ws (pos x p).

(** the number an operand stands for in a binary operation: two's complement if both operands are
    signed, otherwise unsigned *)
Definition oper (x : bnum) (both : bool) : Z := if both then ival x else magn x.
(** the operands the library widens to [m] positions correctly: those that need no widening, and those
    that hold nothing above their width and are unsigned (negative, if both operands are signed) *)
Definition widens (x : bnum) (m : Z) (both : bool) : Prop :=
  n_size x = m \/ (inwidth x /\ if both then ival x < 0 else n_sgn x = false).
(** the same operand as the [m] positions it is widened to, read as an unsigned number *)
Definition opnd (x : bnum) (M : Z) (both : bool) : Z := oper x both mod 2 ^ M.
