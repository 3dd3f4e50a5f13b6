(** Vocabulary for the theorems about arrays. *)
From Coq Require Import ZArith List Bool.
From Verif Require Import Cpp BigNum Bit Logic Arr Spec.
Open Scope Z_scope.

(** number of elements *)
Definition elems (t : parr_ty) : Z := width (pa_msb t) (pa_lsb t).
(** [a] is the storage of a 4-state (2-state) packed array of type [t]: the elements side by side, the one with
    the lowest index in the lowest positions *)
Definition arr4 (t : parr_ty) (a : logic) : Prop := 1 <= pa_base t /\ ltyped a (pa_base t * elems t) (pa_sgn t).
Definition arr2 (t : parr_ty) (a : bit) : Prop := 1 <= pa_base t /\ typed a (pa_base t * elems t) (pa_sgn t).
(** [i] is the index of an element *)
Definition element (t : parr_ty) (i : Z) : Prop := in_range (pa_msb t) (pa_lsb t) i.
(** where element [i] starts *)
Definition start (t : parr_ty) (i : Z) : Z := (i - Z.min (pa_msb t) (pa_lsb t)) * pa_base t.
(** [op] is a known index with value [i] *)
Definition index (op : logic) (i : Z) : Prop := lvec op /\ lw op <= 64 /\ ltidy op /\ known op /\ value (l_val op) = i.
(** [op] is an index holding x or z *)
Definition bad_index (op : logic) : Prop := lvec op /\ lw op <= 64 /\ tidy (l_xz op) /\ ~ known op.
