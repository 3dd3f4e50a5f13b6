(** Reference machine for packed arrays: what reading and writing an element gives for every index vector and all contents.
    Nothing here refers to the comparison, the address computation or the loops of the model. *)
From Coq Require Import ZArith List Bool.
From Verif Require Import Cpp Bit Logic Arr Spec SpecArr SpecExact SpecMachine SpecWide SpecFour SpecIff3.
Open Scope Z_scope.

(** the number of bits of the array *)
Definition bits (t : parr_ty) : Z := pa_base t * elems t.
(** The index the library uses: none if the index vector stores an x or z or if the number it stores, read as a 64-bit pattern, is not
    smaller than the number of bits (not of elements).  A vector of more than 64 positions does not compile. *)
Definition ref_index (t : parr_ty) (op : logic) : outcome (option Z) :=
  if 64 <? lw op then IllFormed
  else if negb (stored (l_xz op) =? 0) || (bits t <=? stored (l_val op) mod 2 ^ 64) then Ok None
  else Ok (Some (stored (l_val op))).
(** the distance to the lowest index and the addresses of the element must be ints *)
Definition is_int (z : Z) : bool := (- 2 ^ 31 <=? z) && (z <? 2 ^ 31).
Definition addressable (t : parr_ty) (i : Z) : bool :=
  is_int (i - Z.min (pa_msb t) (pa_lsb t)) && is_int (i - Z.min (pa_msb t) (pa_lsb t) + 1) && is_int (start t i) && is_int (start t i + pa_base t).
(** what is done with the element found, or instead *)
Definition with_element {A} (t : parr_ty) (op : logic) (instead : A) (f : Z -> outcome A) : outcome A :=
  match ref_index t op with
  | Ok None => Ok instead
  | Ok (Some i) => if addressable t i then f (start t i) else UB
  | UB => UB | Exn => Exn | Fuel => Fuel | IllFormed => IllFormed
  end.
(** reading takes one position more than the element has *)
Definition ref_read4 (t : parr_ty) (a : logic) (op : logic) : outcome logic :=
  with_element t op (all_unknown (pa_base t) false) (fun p => four_slice_dynamic a (pa_base t) p (p + pa_base t)).
Definition ref_read2 (t : parr_ty) (a : bit) (op : logic) : outcome bit :=
  with_element t op (vec_of (pa_base t) false 0) (fun p => any_slice_dynamic a (pa_base t) p (p + pa_base t)).

(** When is the element [i] read right?  An index that is too large reads x, right if that is what the element holds.  In an array of at
    most 64 bits the extra position must exist in the storage, and an element of one position is mixed with it. *)
Definition mixes (s t : sym) : Prop := (high t = true -> high s = true) /\ (unknown t = true -> unknown s = true).
Definition reads_right4 (t : parr_ty) (a : logic) (i : Z) : Prop :=
  let n := bits t in
  if (0 <=? i) && (i <? n) then
    65 <= n \/ (n = 1 /\ sym_at a 0 = S0) \/
    (2 <= n <= 64 /\ start t i + pa_base t < storage n /\ (2 <= pa_base t \/ start t i + 1 = n \/ mixes (sym_at a (start t i)) (sym_at a (start t i + 1))))
  else forall p, 0 <= p < pa_base t -> sym_at a (start t i + p) = SX.
Definition reads_right2 (t : parr_ty) (a : bit) (i : Z) : Prop :=
  let n := bits t in
  if (0 <=? i) && (i <? n) then
    65 <= n \/ (n = 1 /\ bit_at a 0 = false) \/
    (2 <= n <= 64 /\ start t i + pa_base t < storage n /\ (2 <= pa_base t \/ start t i + 1 = n \/ (bit_at a (start t i + 1) = true -> bit_at a (start t i) = true)))
  else forall p, 0 <= p < pa_base t -> bit_at a (start t i + p) = false.
(** An index that is not one of an element reads x exactly if it is too large, or in one case: just below the range. *)
Definition reads_nothing4 (t : parr_ty) (a : logic) (i : Z) : Prop :=
  ~ 0 <= i < bits t \/ (65 <= bits t /\ i = Z.min (pa_msb t) (pa_lsb t) - 1 /\ 2 <= pa_base t /\ forall p, 0 <= p < pa_base t -> sym_at a p = SX).
(** The same for 2-state arrays, which should read 0.  An index above the range reads what the storage holds there: nothing, or copies of the sign. *)
Definition reads_nothing2 (t : parr_ty) (a : bit) (i : Z) : Prop :=
  let n := bits t in
  ~ 0 <= i < n \/
  (addressable t i = true /\ Z.max (pa_msb t) (pa_lsb t) < i /\
     (65 <= n \/ (n = 1 /\ start t i + 1 < 8) \/ (2 <= n <= 64 /\ start t i + pa_base t < storage n /\ 0 <= value a))) \/
  (addressable t i = true /\ i < Z.min (pa_msb t) (pa_lsb t) /\ 65 <= n /\
     (i = Z.min (pa_msb t) (pa_lsb t) - 1 -> 2 <= pa_base t /\ forall p, 0 <= p < pa_base t -> bit_at a p = false) /\
     (i = Z.min (pa_msb t) (pa_lsb t) - 2 -> 2 <= pa_base t)).

(** Writing element [i] with a value of the element's width: one position too many is written, so the neighbour must have a 0 there (in a
    2-state array of negative signed values a 1), and in an array of 64 bits there must be a neighbour.  Nothing is written if the index is
    not smaller than the number of bits.  An x or z of the value at position 64 or above is lost. *)
Definition lower (t : parr_ty) : Z := Z.min (pa_msb t) (pa_lsb t).
Definition undefined_write4 (t : parr_ty) (v : logic) (i : Z) : Prop :=
  lost v (pa_base t) \/ (bits t <= 64 /\ (i < lower t \/ 64 <= start t i + pa_base t)).
Definition writes_right4 (t : parr_ty) (a v : logic) (i : Z) : Prop :=
  if (0 <=? i) && (i <? bits t) then ~ undefined_write4 t v i /\ (start t i + pa_base t < bits t -> sym_at a (start t i + pa_base t) = S0)
  else forall p, 0 <= p < pa_base t -> sym_at a (start t i + p) = sym_at v p.
(** An index without an element: nothing is changed if it is too large; just below the range the lowest position is. *)
Definition writes_nothing4 (t : parr_ty) (a v : logic) (i : Z) : Prop :=
  ~ 0 <= i < bits t \/
  (addressable t i = true /\ ~ undefined_write4 t v i /\ (i = lower t - 1 -> sym_at a 0 = S0) /\ (bits t = 1 -> mixes (sym_at a 0) (sym_at v 0))).
(** what a 2-state value of [n] positions shows at position [n] *)
Definition beyond (v : bit) (n : Z) : bool := (2 <=? n) && (n <=? 64) && (value v <? 0).
Definition undefined_write2 (t : parr_ty) (i : Z) : Prop :=
  pa_base t = 32 \/ pa_base t = 64 \/ (bits t <= 64 /\ (i < lower t \/ 64 <= start t i + pa_base t)).
Definition writes_right2 (t : parr_ty) (a v : bit) (i : Z) : Prop :=
  if (0 <=? i) && (i <? bits t) then ~ undefined_write2 t i /\ (start t i + pa_base t < bits t -> bit_at a (start t i + pa_base t) = beyond v (pa_base t))
  else forall p, 0 <= p < pa_base t -> bit_at a (start t i + p) = bit_at v p.
Definition writes_nothing2 (t : parr_ty) (a v : bit) (i : Z) : Prop :=
  ~ 0 <= i < bits t \/
  (addressable t i = true /\ ~ undefined_write2 t i /\ (i = lower t - 1 -> bit_at a 0 = beyond v (pa_base t)) /\ (bits t = 1 -> bit_at v 0 = true -> bit_at a 0 = true)).
(** Reading elements [lo] to [hi], [w] positions from [st] on. *)
Definition range_right4 (t : parr_ty) (a : logic) (st w : Z) : Prop :=
  let n := bits t in
  if pa_sgn t then n = 1 \/ (2 <= n <= 64 /\ st + w + 1 <= storage n /\ (w = 1 -> st + 1 = n \/ high (sym_at a st) = true \/ high (sym_at a (st + 1)) = false)) \/ (65 <= n /\ w <> 65)
  else n <= 64 \/ w <> 65.
Definition range_right2 (t : parr_ty) (a : bit) (st w : Z) : Prop :=
  let n := bits t in
  n <= 64 /\ (pa_sgn t = true -> n = 1 \/ (st + w + 1 <= storage n /\ (w = 1 -> st + 1 = n \/ bit_at a st = true \/ bit_at a (st + 1) = false))).
