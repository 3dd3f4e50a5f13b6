(** Reference machine for [big_num<n, s>] objects of any size: what every member computes, as one formula on the number stored.
    An object of [n] positions stores a natural number below [2 ^ capacity n]; the positions from [n] on may hold anything.
    Nothing here refers to the loops, carries or word accesses of the model. *)
From Coq Require Import ZArith List Bool.
From Verif Require Import Cpp Spec SpecWide BigObj SpecBig.
Import ListNotations.
Open Scope Z_scope.

(** an object after [z] is written into its words *)
Definition num_obj (n : Z) (s : bool) (z : Z) : bnum := mkNum n s (words_of n z).
Definition again (x : bnum) (z : Z) : bnum := num_obj (n_size x) (n_sgn x) z.

(** what [x] stores after widening it to [m] positions.  A signed object gets ones, whatever its sign. *)
Definition stretched (x : bnum) (m : Z) : Z :=
  if n_size x =? m then raw x
  else if n_sgn x then Z.lor (raw x) (2 ^ m - 2 ^ n_size x)
  else raw x.
Definition ref_extend (x : bnum) (m : Z) : outcome bnum :=
  if m <? n_size x then IllFormed else Ok (num_obj m (n_sgn x) (stretched x m)).

(** the shape of the binary operators *)
Definition joined (f : Z -> Z -> Z -> outcome Z) (x y : bnum) : outcome bnum :=
  let m := Z.max (n_size x) (n_size y) in
  match f m (stretched x m) (stretched y m) with
  | Ok z => Ok (num_obj m (n_sgn x && n_sgn y) z)
  | UB => UB | Exn => Exn | Fuel => Fuel | IllFormed => IllFormed
  end.
(** only & clears what lies above the declared positions *)
Definition ref_and := joined (fun m x y => Ok (Z.land x y mod 2 ^ m)).
Definition ref_or := joined (fun _ x y => Ok (Z.lor x y)).
Definition ref_xor := joined (fun _ x y => Ok (Z.lxor x y)).
Definition ref_add := joined (fun _ x y => Ok (x + y)).
Definition ref_sub := joined (fun _ x y => Ok (x - y)).
(** products of objects of one word are undefined: the upper half is written to a second word *)
Definition ref_mul := joined (fun m x y =>
  if m <=? 64 then UB
  else if seems_small m x && seems_small m y then Ok ((x mod 2 ^ 64) * (y mod 2 ^ 64))
  else if (x =? 0) || (y =? 0) then Ok 0
  else if Z.log2 x / 64 + Z.log2 y / 64 + 1 <? words_in m then Ok (x * y)
  else UB).
(** a signed dividend does not compile *)
Definition ref_div (x y : bnum) : outcome bnum :=
  joined (fun m a b => if n_sgn x then IllFormed else omap fst (divided m a b)) x y.
Definition ref_rem (x y : bnum) : outcome bnum :=
  joined (fun m a b => if n_sgn x then IllFormed else omap snd (divided m a b)) x y.
(** compound assignment: the right operand must not be wider, nor unsigned if the object is signed *)
Definition ref_assign (r : outcome bnum) (x y : bnum) : outcome bnum :=
  if (n_size x <? n_size y) || (n_sgn x && negb (n_sgn y)) then IllFormed
  else match r with Ok v => Ok (again x (magn v)) | e => e end.

Definition ref_not (x : bnum) : bnum := again x (- raw x - 1).
Definition ref_negate (x : bnum) : bnum := again x (- raw x).
Definition ref_mask_off (x : bnum) : bnum := again x (magn x).

(** shifts by a number or by everything another object stores; [s] is the signedness of the result *)
Definition ref_shl (x : bnum) (s : bool) (k : Z) : bnum := num_obj (n_size x) s ((raw x * 2 ^ k) mod 2 ^ n_size x).
Definition ref_shr (x : bnum) (s : bool) (k : Z) : bnum := num_obj (n_size x) s (magn x / 2 ^ k).
(** arithmetic shift: the position the sign moves to is never written and stays 0 *)
Definition ref_ashr (x : bnum) (s : bool) (k : Z) : bnum :=
  if n_sgn x then
    let r := (ival x / 2 ^ k) mod 2 ^ n_size x in
    num_obj (n_size x) s (if k <? n_size x then Z.clearbit r (n_size x - 1 - k) else r)
  else ref_shr x s k.

(** comparisons.  Unless both are signed, the words both have must be equal and the others must seem to be 0. *)
Definition ref_eq (x y : bnum) : outcome bool :=
  if n_sgn x && n_sgn y then
    if n_size x <? n_size y then Ok (stretched x (n_size y) =? raw y) else IllFormed
  else
    let k := Z.min (words_in (n_size x)) (words_in (n_size y)) in
    Ok ((raw x mod 2 ^ (64 * k) =? raw y mod 2 ^ (64 * k)) &&
        blank (skipn (Z.to_nat k) (words_of (n_size x) (raw x))) && blank (skipn (Z.to_nat k) (words_of (n_size y) (raw y)))).
(** x > y: two negative numbers are negated first, which the smallest signed number is not changed by; two of
    these are compared forever *)
Definition lowest (x : bnum) : bool := magn x =? 2 ^ (n_size x - 1).
Definition ref_gt (x y : bnum) : outcome bool :=
  if n_sgn x && n_sgn y then
    if (ival x <? 0) && (ival y <? 0) then
      if lowest x then (if lowest y then Fuel else Ok true)
      else if lowest y then Ok false
      else Ok ((- raw x) mod 2 ^ capacity (n_size x) <? (- raw y) mod 2 ^ capacity (n_size y))
    else if ival x <? 0 then Ok false
    else if ival y <? 0 then Ok true
    else Ok (raw y <? raw x)
  else Ok (raw y <? raw x).
Definition ref_ge (x y : bnum) : outcome bool :=
  match ref_eq x y with
  | Ok e => match ref_gt x y with Ok g => Ok (g || e) | z => z end
  | z => z
  end.

(** queries *)
Definition ref_any (x : bnum) : bool := negb (seems_zero (n_size x) (raw x)).
Definition ref_one (x : bnum) : bool := seems_small (n_size x) (raw x) && (raw x mod 2 ^ 64 =? 1).
Definition ref_all (x : bnum) : bool := (n_size x <=? 64) && (raw x =? 2 ^ n_size x - 1).
Definition ref_highest (x : bnum) : Z := if raw x =? 0 then words_in (n_size x) else Z.log2 (raw x).

(** a single position *)
Definition ref_set (x : bnum) (i : Z) (v : bool) : bnum :=
  again x (if i <? n_size x then (if v then Z.setbit (raw x) i else Z.clearbit (raw x) i) else raw x).
