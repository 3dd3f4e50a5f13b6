(** Reference machine for 4-state vectors of any width: what every operator of [logic] computes, as one formula on the
    two numbers a vector stores (values and x/z mask), or one table on its symbols.  It is built on the 2-state machine of
    SpecWide.v; nothing here refers to the operations of the model. *)
From Coq Require Import ZArith List Bool.
From Verif Require Import Cpp Bit Logic Spec SpecExact SpecMachine SpecWide.
From Verif Require SpecExact4.
Import ListNotations.
Open Scope Z_scope.

(** an object [logic<msb,lsb,s>] after the values [v] and the mask [m] are written into it *)
Definition object4 (msb lsb : Z) (s : bool) (v m : Z) : logic := mkLogic (object msb lsb s v) (object msb lsb false m).
Definition vec4 (n : Z) (s : bool) (v m : Z) : logic := object4 (n - 1) 0 s v m.
Definition rewritten4 (l : logic) (v m : Z) : logic := object4 (lmsb l) (llsb l) (lsgn l) v m.
(** nothing but x *)
Definition all_unknown (n : Z) (s : bool) : logic := vec4 n s 0 (2 ^ n - 1).
(** no x or z *)
Definition certain (b : bit) : logic := mkLogic b (object (bmsb b) (blsb b) false 0).
(** a single position *)
Definition high (c : sym) : bool := match c with S1 | SZ => true | _ => false end.
Definition single (c : sym) : logic := vec4 1 false (if high c then 1 else 0) (if unknown c then 1 else 0).
(** declared [n-1:0] *)
Definition plain_range (l : logic) : bool := (llsb l =? 0) && (0 <=? lmsb l).

(** The library takes the vector to hold an x or z.  In a mask of more than 64 positions it sees the lower half of every word only. *)
Definition doubtful (l : logic) : bool := any_true (l_xz l).
(** the same tests after widening to [n] positions *)
Definition seems_nonzero (b : bit) (n : Z) : bool := if n <=? 64 then negb (stored b =? 0) else negb (seems_zero n (widened b n)).
Definition doubt_at (l : logic) (n : Z) : bool := seems_nonzero (l_xz l) n.

(** what an operator gives when the operand holds an x or z; whether it compiles is decided before *)
Definition unless {A} (doubt : bool) (instead : A) (r : outcome A) : outcome A :=
  match r with IllFormed => IllFormed | _ => if doubt then Ok instead else r end.

(** operands of different widths: the wider one must be declared [n-1:0] *)
Definition widths_ok (a b : logic) : bool := (lw a =? lw b) || plain_range (if lw a <? lw b then b else a).
(** + - * and, with [division], / %: [f] is the 2-state operator *)
Definition four_arith (division : bool) (f : bit -> bit -> outcome bit) (a b : logic) : outcome logic :=
  let n := Z.max (lw a) (lw b) in
  if negb (widths_ok a b) then IllFormed
  else unless (doubt_at a n || doubt_at b n || (division && negb (seems_nonzero (l_val b) n)))
         (all_unknown n (lsgn a && lsgn b)) (omap certain (f (l_val a) (l_val b))).

(** shifts: the amount counts as unknown if it holds an x or z; [f] is applied to values and mask *)
Definition four_shift (f : bit -> bit -> outcome bit) (a k : logic) : outcome logic :=
  unless (doubtful a || doubtful k) (all_unknown (lw a) (lsgn a && lsgn k))
    (let! v := f (l_val a) (l_val k) in let! m := f (l_xz a) (l_val k) in Ok (mkLogic v m)).

(** comparisons *)
Definition four_compare (f : bit -> bit -> outcome bool) (a b : logic) : outcome logic :=
  unless (doubtful a || doubtful b) (single SX) (omap (fun r => single (sym_of_bool r)) (f (l_val a) (l_val b))).
(** [match] *)
Definition four_match (a b : logic) : outcome bool :=
  let! v := any_equal (l_val a) (l_val b) in let! m := any_equal (l_xz a) (l_xz b) in Ok (v && m).

(** the number whose bit [p] is [g p], for [p] below [k] *)
Fixpoint gather (k : nat) (g : Z -> bool) : Z :=
  match k with O => 0 | S j => gather j g + (if g (Z.of_nat j) then 2 ^ Z.of_nat j else 0) end.
Definition from_syms (n : Z) (g : Z -> sym) : logic :=
  vec4 n false (gather (Z.to_nat n) (fun p => high (g p))) (gather (Z.to_nat n) (fun p => unknown (g p))).
(** the symbol in position [p] after widening to [n] positions *)
Definition sym_wide (l : logic) (n p : Z) : sym :=
  sym_of (Z.testbit (widened (l_val l) n) p) (Z.testbit (widened (l_xz l) n) p).
(** & and | by the tables the library implements (see SpecExact4.v), on symbols, if at most one operand is signed *)
Definition four_table (table : sym -> sym -> sym) (a b : logic) : outcome logic :=
  let n := Z.max (lw a) (lw b) in
  let accepted := if lw a =? lw b then (llsb a <=? lmsb a) && (llsb b <=? lmsb b) else widths_ok a b in
  if negb accepted || (lsgn a && lsgn b) then IllFormed
  else Ok (from_syms n (fun p => table (sym_wide a n p) (sym_wide b n p))).
(** ^: an x where one of the operands has an x or z, and whatever the masks hold above the width stays; operands of different widths are or-ed *)
Definition four_xor (a b : logic) : outcome logic :=
  let n := lw a in
  if negb (lw a =? lw b) then four_table SpecExact4.lib_or a b
  else if negb (llsb b <=? lmsb b) || (lsgn a && lsgn b) then IllFormed
  else Ok (vec4 n false (gather (Z.to_nat n) (fun p => match xor4 (sym_at a p) (sym_at b p) with S1 => true | _ => false end))
                        (Z.lor (stored (l_xz a)) (stored (l_xz b)))).
Definition four_not (a : logic) : logic :=
  let n := lw a in
  vec4 n false (gather (Z.to_nat n) (fun p => match sym_at a p with S0 => true | _ => false end)) (stored (l_xz a)).

(** logical not and conversion to bool *)
Definition four_false (a : logic) : logic := single (if doubtful a then SX else sym_of_bool (negb (any_true (l_val a)))).
Definition four_true (a : logic) : bool := negb (doubtful a) && any_true (l_val a).

(** unary minus and plus, ++ and -- *)
Definition four_minus (a : logic) : outcome logic :=
  unless (doubtful a) (rewritten4 a 0 (2 ^ lw a - 1)) (omap certain (any_minus (l_val a))).
Definition four_plus (a : logic) : logic := if doubtful a then rewritten4 a 0 (2 ^ lw a - 1) else a.
Definition four_step (d : Z) (a : logic) : outcome logic :=
  if negb ((lw a =? 1) || plain_range a) then IllFormed
  else unless (doubtful a) (rewritten4 a 0 (2 ^ lw a - 1)) (omap certain (any_step d (l_val a))).

(** reductions look at the indices from 0 upwards; the first symbol that is an x or z or decides the result ends the search *)
Fixpoint search (l : logic) (decisive : sym) (k : nat) (i : Z) : outcome sym :=
  match k with
  | O => Ok (match decisive with S0 => S1 | _ => S0 end)
  | S k =>
      let! v := any_position (l_val l) i in let! m := any_position (l_xz l) i in
      if m then Ok SX
      else match decisive, v with S0, false => Ok S0 | S1, true => Ok S1 | _, _ => search l decisive k (i + 1) end
  end.
Definition four_all (l : logic) : outcome logic := omap single (search l S0 (Z.to_nat (lw l)) 0).
Definition four_some (l : logic) : outcome logic := omap single (search l S1 (Z.to_nat (lw l)) 0).
(** parity of the number of zeros, for unsigned vectors of 2 to 64 positions *)
Definition four_parity (l : logic) : outcome logic :=
  if lsgn l || (lw l =? 1) || (64 <? lw l) then IllFormed
  else Ok (single (if doubtful l then SX else sym_of_bool (Z.odd (lw l - ones 64 (stored (l_val l)))))).
Definition inverted (r : outcome logic) : outcome logic := omap four_false r.

(** one position: reading an x or z at index 64 or above is undefined, outside the declared range there is an x *)
Definition four_at (l : logic) (i : Z) : outcome logic :=
  if negb ((Z.min (lmsb l) (llsb l) <=? i) && (i <=? Z.max (lmsb l) (llsb l))) then Ok (single SX)
  else let! m := any_position (l_xz l) i in let! v := any_position (l_val l) i in
       if m && negb ((0 <=? i) && (i <? 64)) then UB else Ok (single (sym_of v m)).
Definition four_put_at (l : logic) (i : Z) (c : sym) : outcome logic :=
  let! v := any_with_position (l_val l) i (high c) in let! m := any_with_position (l_xz l) i (unknown c) in Ok (mkLogic v m).

(** the operations that treat values and mask alike *)
Definition both (f : bit -> outcome bit) (l : logic) : outcome logic :=
  let! v := f (l_val l) in let! m := f (l_xz l) in Ok (mkLogic v m).
Definition four_slice (l : logic) (i j : Z) : outcome logic := if Z.max i j <? lw l then both (fun b => any_slice b i j) l else IllFormed.
Definition four_slice_dynamic (l : logic) (m i j : Z) : outcome logic := both (fun b => any_slice_dynamic b m i j) l.
Definition four_widen (l : logic) (m : Z) : outcome logic := if lw l <=? m then both (fun b => any_resize b m) l else IllFormed.
Definition four_assign (d a : logic) : outcome logic :=
  let! v := any_assign (l_val d) (l_val a) in let! m := any_assign (l_xz d) (l_xz a) in Ok (mkLogic v m).
Definition four_sign (s : bool) (l : logic) : logic := vec4 (lw l) s (stored (l_val l)) (stored (l_xz l)).
Definition four_join (a b : logic) : outcome logic :=
  let! v := joined (l_val a) (l_val b) in let! m := joined (l_xz a) (l_xz b) in
  Ok (vec4 (lw a + lw b) (lsgn a) (stored v) (stored m)).
(** joining a 2-state vector on the right: the mask stays where it is *)
Definition four_join_bit (a : logic) (b : bit) : outcome logic :=
  let! v := joined (l_val a) b in Ok (vec4 (lw a + bw b) (lsgn a) (stored v) (stored (l_xz a))).

(** compound assignment *)
Definition four_assigned (a b : logic) (r : outcome logic) : outcome logic :=
  if negb (plain_range a && (negb (lsgn a) || lsgn b)) then IllFormed else let! r := r in four_assign a r.
(** conversion to integers *)
Definition four_to_uint64 (l : logic) : Z := if doubtful l then 0 else stored (l_val l) mod 2 ^ 64.
