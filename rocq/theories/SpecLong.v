(** Numbers kept in several vectors: the lowest part comes first. *)
From Coq Require Import ZArith List.
From Verif Require Import Bit Spec.
Import ListNotations.
Open Scope Z_scope.

Fixpoint parts_num (n : Z) (l : list bit) : Z := match l with [] => 0 | b :: l' => num b + 2 ^ n * parts_num n l' end.
(** the left and the right operands *)
Definition firsts (ps : list (bit * bit)) : list bit := map fst ps.
Definition seconds (ps : list (bit * bit)) : list bit := map snd ps.
