(** Model of include/logic/big_num.hh: [big_num<size, signed_>].
    A value is its array [values] of 64-bit words, least significant word first.  The template
    parameters [size] and [signed_] are explicit arguments.  No proofs in this file. *)
From Coq Require Import ZArith List Bool.
From Verif Require Import Cpp.
Import ListNotations.
Open Scope Z_scope.

(** [big_num::s], big_num.hh 13-14 *)
Definition nwords (size : Z) : Z :=
  if size mod 64 =? 0 then size / 64 else size / 64 + 1.

(** [values[i]] with the index known to be in bounds at the call site (the library guards every such
    access by [idx < size] or a loop bound [s]); the unguarded accesses of [operator*] go through
    [word_put] below, which reports out-of-bounds as UB. *)
Definition word (ws : list Z) (i : Z) : Z := nth (Z.to_nat i) ws 0.

Fixpoint lupd {A} (l : list A) (i : nat) (x : A) : list A :=
  match l, i with
  | [], _ => []
  | _ :: t, O => x :: t
  | h :: t, S k => h :: lupd t k x
  end.

(** write [values[i] = w], in bounds *)
Definition word_set (ws : list Z) (i w : Z) : list Z := lupd ws (Z.to_nat i) w.

(** write [values[i] = w] without a valid guard: out of bounds is undefined behaviour *)
Definition word_put (ws : list Z) (i w : Z) : outcome (list Z) :=
  if (0 <=? i) && (i <? Z.of_nat (length ws)) then Ok (word_set ws i w) else UB.

(** default constructor, big_num.hh 916 *)
Definition bn_zero (size : Z) : list Z := repeat 0 (Z.to_nat (nwords size)).

(** [operator[]], [get], big_num.hh 21-29, 53-62, 925 *)
Definition bn_get (size : Z) (ws : list Z) (idx : Z) : bool :=
  if idx <? size then negb (Z.land (Z.shiftr (word ws (idx / 64)) (idx mod 64)) 1 =? 0) else false.

(** [set(idx, value)], big_num.hh 65-75 (and the constant-index forms 31-51, which agree with it) *)
Definition bn_set (size : Z) (ws : list Z) (idx : Z) (v : bool) : list Z :=
  if idx <? size then
    let a := idx / 64 in
    let b := idx mod 64 in
    if v then word_set ws a (Z.lor (word ws a) (u64 (Z.shiftl 1 b)))
    else word_set ws a (Z.land (word ws a) (u64 (Z.lnot (u64 (Z.shiftl 1 b)))))
  else ws.

(** [negative], big_num.hh 77 *)
Definition bn_negative (size : Z) (ws : list Z) : bool := bn_get size ws (size - 1).

(** [slice<a, b>()], big_num.hh 79-95; result [big_num<|a-b|+1, false>] *)
Definition bn_slice_c (size : Z) (ws : list Z) (a b : Z) : outcome (list Z) :=
  requires (Z.max a b <? size)
    (let mx := Z.max a b in
     let mn := Z.min a b in
     let rsize := Z.abs (a - b) + 1 in
     Ok (fold_left (fun r i => bn_set rsize r (i - mn) (bn_get size ws i))
           (zrange mn (mx + 1)) (bn_zero rsize))).

(** [slice<target_size>(a, b)], big_num.hh 98-108.  [a], [b] are [uint64_t]; with [max(a,b) = 2^64-1]
    the C++ loop would not end, which is reported as [Fuel]. *)
Definition bn_slice_r (size : Z) (ws : list Z) (tsize a b : Z) : outcome (list Z) :=
  let st := Z.min a b in
  let en := Z.max a b in
  if en =? u64max then Fuel
  else Ok (fold_left (fun r i => bn_set tsize r (i - st) (bn_get size ws i))
             (zrange st (en + 1)) (bn_zero tsize)).

(** [extend<op_size>()], big_num.hh 110-126.  For [op_size < size] the C++ returns [*this] where a
    different type is expected, which does not compile. *)
Definition bn_extend (size : Z) (sgn : bool) (ws : list Z) (op_size : Z) : outcome (list Z) :=
  if size <? op_size then
    let r := ws ++ repeat 0 (Z.to_nat (nwords op_size - nwords size)) in
    Ok (if sgn then fold_left (fun r i => bn_set op_size r i true) (zrange size op_size) r else r)
  else if op_size =? size then Ok ws
  else IllFormed.

(** [concat], big_num.hh 128-144: [this] is the high part, [num] the low part *)
Definition bn_concat (size : Z) (ws : list Z) (ss : Z) (num : list Z) : list Z :=
  let fsize := size + ss in
  let r := num ++ repeat 0 (Z.to_nat (nwords fsize - nwords ss)) in
  fold_left (fun r i => bn_set fsize r i (bn_get size ws (i - ss))) (zrange ss fsize) r.

(** [mask_off], big_num.hh 150-155 *)
Definition bn_mask_off (size : Z) (ws : list Z) : list Z :=
  let s := nwords size in
  word_set ws (s - 1) (Z.land (word ws (s - 1)) (Z.shiftr u64max (s * 64 - size))).

(** [operator~], big_num.hh 167-177.  The "mask off the top bit" loop is transcribed as it is: every
    [set] it makes is outside [idx < size]. *)
Definition bn_not (size : Z) (ws : list Z) : list Z :=
  let r := map (fun w => u64 (Z.lnot w)) ws in
  fold_left (fun r i => bn_set size r i false) (zrange size (nwords size * 64)) r.

Fixpoint map2 (f : Z -> Z -> Z) (a b : list Z) : list Z :=
  match a, b with
  | x :: a', y :: b' => f x y :: map2 f a' b'
  | _, _ => []
  end.

(** [operator&] same size, big_num.hh 189-198 *)
Definition bn_and (size : Z) (a b : list Z) : list Z := bn_mask_off size (map2 Z.land a b).
(** [operator^] same size, big_num.hh 228-236 *)
Definition bn_xor (a b : list Z) : list Z := map2 Z.lxor a b.
(** [operator|] same size, big_num.hh 266-274 *)
Definition bn_or (a b : list Z) : list Z := map2 Z.lor a b.

(** operands of different size are extended to the larger one: [and_], [xor_], [or_], [add], [minus],
    [multiply], [divide], [mod]; big_num.hh 200-208, 238-246, 276-284, 587-595, 609-617, 669-677,
    690-698, 711-719 *)
Definition bn_widen2 (n1 : Z) (s1 : bool) (a : list Z) (n2 : Z) (s2 : bool) (b : list Z)
  : outcome (list Z * list Z) :=
  let m := Z.max n1 n2 in
  let! l := bn_extend n1 s1 a m in
  let! r := bn_extend n2 s2 b m in
  Ok (l, r).

(** [r_xor], big_num.hh 317-323 *)
Definition bn_r_xor (size : Z) (ws : list Z) : bool :=
  fold_left (fun b i => xorb b (bn_get size ws i)) (zrange 1 size) (bn_get size ws 0).

(** [operator>>(uint64_t)], big_num.hh 325-335 *)
Definition bn_shr (size : Z) (ws : list Z) (amount : Z) : list Z :=
  if size <? amount then bn_zero size
  else fold_left (fun r i => bn_set size r (i - amount) (bn_get size ws i))
         (zrange amount size) (bn_zero size).

(** [operator<<(uint64_t)], big_num.hh 351-361 *)
Definition bn_shl (size : Z) (ws : list Z) (amount : Z) : list Z :=
  if size <? amount then bn_zero size
  else fold_left (fun r i => bn_set size r (i + amount) (bn_get size ws i))
         (zrange 0 (size - amount)) (bn_zero size).

(** does a multi-word shift amount use a word above the first: loops at big_num.hh 344-346, 370-372,
    412-421 *)
Definition bn_amount_high (amount : list Z) : bool := existsb (fun w => negb (w =? 0)) (tl amount).

(** [operator>>(big_num)], big_num.hh 337-349 *)
Definition bn_shr_big (size : Z) (ws amount : list Z) : list Z :=
  if bn_amount_high amount then bn_zero size else bn_shr size ws (word amount 0).
(** [operator<<(big_num)], big_num.hh 363-375 *)
Definition bn_shl_big (size : Z) (ws amount : list Z) : list Z :=
  if bn_amount_high amount then bn_zero size else bn_shl size ws (word amount 0).

(** [mask], big_num.hh 778-785 *)
Definition bn_mask (size : Z) : list Z :=
  let s := nwords size in
  repeat u64max (Z.to_nat (s - 1)) ++ [Z.shiftr u64max (s * 64 - size)].

(** [ashr(uint64_t)], big_num.hh 377-402 *)
Definition bn_ashr (size : Z) (sgn : bool) (ws : list Z) (amount : Z) : list Z :=
  if sgn then
    if (size - 1) <? amount then
      (if bn_negative size ws then bn_mask size else bn_zero size)
    else
      let neg := bn_negative size ws in
      let r := fold_left (fun r i => bn_set size r (size - i - 1) neg) (zrange 0 amount) (bn_zero size) in
      fold_left (fun r i => bn_set size r (i - amount) (bn_get size ws i)) (zrange amount (size - 1)) r
  else bn_shr size ws amount.

(** [ashr(big_num)], big_num.hh 404-424 *)
Definition bn_ashr_big (size : Z) (sgn : bool) (ws amount : list Z) : list Z :=
  if bn_amount_high amount then
    (if sgn then (if bn_negative size ws then bn_mask size else bn_zero size) else bn_zero size)
  else bn_ashr size sgn ws (word amount 0).

(** [std::reduce(first, last, 0, a|b)]: the accumulator has the type of the literal [0], [int], so
    every partial result is converted to 32 bits.  Used at big_num.hh 469, 477, 774, 809, 815.
    (libstdc++ may combine words pairwise before accumulating; bitwise or makes the grouping
    irrelevant.) *)
Definition reduce_or (ws : list Z) : Z :=
  fold_left (fun acc w => i32 (Z.lor (u64 acc) w)) ws 0.
(** [std::reduce(first, last, 0, a&b)], big_num.hh 790 *)
Definition reduce_and (ws : list Z) : Z :=
  fold_left (fun acc w => i32 (Z.land (u64 acc) w)) ws 0.

(** [any_set], big_num.hh 770-776 (also [operator bool], 162) *)
Definition bn_any_set (ws : list Z) : bool := negb (reduce_or ws =? 0).

(** [all_set], big_num.hh 789-799 *)
Definition bn_all_set (size : Z) (ws : list Z) : bool :=
  let s := nwords size in
  let mx := Z.shiftr u64max (s * 64 - size) in
  if s =? 1 then word ws 0 =? mx
  else (u64 (reduce_and (firstn (Z.to_nat (s - 1)) ws)) =? u64max) && (word ws (s - 1) =? mx).

(** [is_one], big_num.hh 805-812 *)
Definition bn_is_one (ws : list Z) : bool :=
  if Z.of_nat (length ws) =? 1 then word ws 0 =? 1
  else (word ws 0 =? 1) && (reduce_or (tl ws) =? 0).

(** [fit_in_64], big_num.hh 814-817 *)
Definition bn_fit_in_64 (ws : list Z) : bool := reduce_or (tl ws) =? 0.

Fixpoint words_eqb (a b : list Z) : bool :=
  match a, b with
  | x :: a', y :: b' => if x =? y then words_eqb a' b' else false
  | _, _ => true
  end.

(** [operator==(big_num)], big_num.hh 440-481.  Signed against signed with [op_size <= size] uses
    [op->], which does not compile.  [words_eqb] compares the common prefix of words. *)
Definition bn_eq (n1 : Z) (s1 : bool) (a : list Z) (n2 : Z) (s2 : bool) (b : list Z) : outcome bool :=
  if s1 && s2 then
    if n1 <? n2 then
      let! t := bn_extend n1 s1 a n2 in Ok (words_eqb t b)
    else IllFormed
  else
    if nwords n2 <=? nwords n1 then
      if words_eqb a b then
        if nwords n1 =? nwords n2 then Ok true
        else Ok (reduce_or (skipn (Z.to_nat (nwords n2)) a) =? 0)
      else Ok false
    else
      if words_eqb a b then Ok (reduce_or (skipn (Z.to_nat (nwords n1)) b) =? 0)
      else Ok false.

(** [operator==(T v)] for a native [v] (already converted to [uint64_t]), big_num.hh 483-488 *)
Definition bn_eq_native (ws : list Z) (v : Z) : bool :=
  if negb (u64 v =? word ws 0) then false else forallb (fun c => c =? 0) (tl ws).

(** the top-to-bottom scan of [operator>], big_num.hh 506-521 *)
Fixpoint bn_gt_scan (s1 s2 : Z) (a b : list Z) (idxs : list Z) : bool :=
  match idxs with
  | [] => false
  | idx :: rest =>
      if s1 <=? idx then
        (if negb (word b idx =? 0) then false else bn_gt_scan s1 s2 a b rest)
      else if s2 <=? idx then
        (if negb (word a idx =? 0) then true else bn_gt_scan s1 s2 a b rest)
      else if negb (word a idx =? word b idx) then word b idx <? word a idx
      else bn_gt_scan s1 s2 a b rest
  end.

Definition bn_ugt (n1 : Z) (a : list Z) (n2 : Z) (b : list Z) : bool :=
  let s1 := nwords n1 in
  let s2 := nwords n2 in
  let top := Z.max s1 s2 in
  bn_gt_scan s1 s2 a b (map (fun i => top - i - 1) (zrange 0 top)).

(** [operator+] same size, big_num.hh 572-585, 128-bit carry chain *)
Fixpoint bn_add_c (carry : Z) (a b : list Z) : list Z :=
  match a, b with
  | x :: a', y :: b' =>
      let v := u128 (u128 (carry + x) + y) in
      u64 (Z.shiftr (u128 (Z.shiftl v 64)) 64) :: bn_add_c (Z.shiftr v 64) a' b'
  | _, _ => []
  end.
Definition bn_add (a b : list Z) : list Z := bn_add_c 0 a b.

(** [big_num(T v)] for a native [v] of type [t], big_num.hh 902-913.  [values({v})] converts
    [v] to [uint64_t]; for a signed [T] this is a narrowing list-initialisation, which gcc accepts. *)
Definition bn_of_native (size : Z) (v : Z) : list Z :=
  word_set (bn_zero size) 0 (u64 v).

(** [negate], [operator-()], big_num.hh 750-756, 764 *)
Definition bn_negate (size : Z) (ws : list Z) : list Z :=
  bn_add (bn_not size ws) (bn_of_native size 1).

(** [operator-] same size, big_num.hh 602-607 *)
Definition bn_sub (size : Z) (a b : list Z) : list Z := bn_add a (bn_negate size b).

(** [operator>(big_num)], big_num.hh 490-522, and [operator<], 532-535, mutually recursive through
    [negate() < op.negate()], i.e. [op.negate() > negate()]; the recursion is fuelled. *)
Fixpoint bn_gt_f (fuel : nat) (n1 : Z) (s1 : bool) (a : list Z) (n2 : Z) (s2 : bool) (b : list Z)
  : outcome bool :=
  match fuel with
  | O => Fuel
  | S f =>
      if s1 && s2 then
        if bn_negative n1 a && negb (bn_negative n2 b) then Ok false
        else if negb (bn_negative n1 a) && bn_negative n2 b then Ok true
        else if bn_negative n1 a && bn_negative n1 a then
          bn_gt_f f n2 s2 (bn_negate n2 b) n1 s1 (bn_negate n1 a)
        else Ok (bn_ugt n1 a n2 b)
      else Ok (bn_ugt n1 a n2 b)
  end.

(** Fuel used by the callers: 8 levels.  (Proved: a run that needs more than 2 levels never ends.) *)
Definition bn_gt (n1 : Z) (s1 : bool) (a : list Z) (n2 : Z) (s2 : bool) (b : list Z) : outcome bool :=
  bn_gt_f 8 n1 s1 a n2 s2 b.
(** [operator<], big_num.hh 532-535 *)
Definition bn_lt n1 s1 a n2 s2 b : outcome bool := bn_gt n2 s2 b n1 s1 a.
(** [operator>=], big_num.hh 545-548.  Both operands of [||] are instantiated, so an ill-formed [==]
    makes the whole operator ill-formed. *)
Definition bn_ge n1 s1 a n2 s2 b : outcome bool :=
  match bn_eq n1 s1 a n2 s2 b with
  | IllFormed => IllFormed
  | e => let! g := bn_gt n1 s1 a n2 s2 b in if g then Ok true else e
  end.
(** [operator<=], big_num.hh 558-561 *)
Definition bn_le n1 s1 a n2 s2 b : outcome bool := bn_ge n2 s2 b n1 s1 a.

(** one inner iteration of the textbook multiplication, big_num.hh 644-663 *)
Definition bn_mul_step (size : Z) (a b : list Z) (i : Z) (result : list Z) (j : Z)
  : outcome (list Z) :=
  if word b j =? 0 then Ok result
  else
    let c := u128 (word a i * word b j) in
    let hi := u64 (Z.shiftr c 64) in
    let lo := u64 (Z.shiftr (u128 (Z.shiftl c 64)) 64) in
    let temp := bn_zero size in
    let! result1 :=
      (if i + j <? size then
         let! t := word_put temp (i + j) lo in Ok (bn_add result t)
       else Ok result) in
    if i + j + 1 <? size then
      let! t := word_put temp (i + j + 1) hi in Ok (bn_add result1 t)
    else Ok result1.

(** [operator*] same size, big_num.hh 624-667.  [temp] is all zero again after every iteration, so it
    is created afresh in [bn_mul_step]. *)
Definition bn_mul (size : Z) (a b : list Z) : outcome (list Z) :=
  if bn_fit_in_64 a && bn_fit_in_64 b then
    let c := u128 (word a 0 * word b 0) in
    let! r0 := word_put (bn_zero size) 0 (u64 (Z.shiftr (u128 (Z.shiftl c 64)) 64)) in
    word_put r0 1 (u64 (Z.shiftr c 64))
  else
    let s := nwords size in
    ofold (fun result i =>
             if word a i =? 0 then Ok result
             else ofold (bn_mul_step size a b i) (zrange 0 s) result)
      (zrange 0 s) (bn_zero size).

(** [highest_bit], big_num.hh 882-892; [64 - clz(v)] is [Z.log2 v + 1] for [v <> 0] *)
Fixpoint bn_highest_scan (s : Z) (ws : list Z) (is : list Z) : Z :=
  match is with
  | [] => s
  | i :: rest =>
      let v := word ws (s - i - 1) in
      if negb (v =? 0) then (s - i) * 64 - (63 - Z.log2 v) - 1 else bn_highest_scan s ws rest
  end.
Definition bn_highest_bit (size : Z) (ws : list Z) : Z :=
  bn_highest_scan (nwords size) ws (zrange 0 (nwords size)).

(** [r >= t] on unsigned operands of the same size, as used in the division loop *)
Definition bn_uge (size : Z) (a b : list Z) : bool :=
  bn_ugt size a size b || words_eqb a b.

(** [div_mod_unsigned], big_num.hh 848-880 *)
Definition bn_div_loop (size : Z) (op : list Z) (diff : Z) (qr : list Z * list Z) (i : Z)
  : list Z * list Z :=
  let '(q, r) := qr in
  let t := bn_shl size op (diff - i) in
  if bn_uge size r t then (bn_set size q (diff - i) true, bn_sub size r t) else (q, r).

Definition bn_div_mod_unsigned (size : Z) (a op : list Z) : outcome (list Z * list Z) :=
  if bn_is_one op then Ok (a, bn_of_native size 0)
  else if words_eqb a op then Ok (bn_of_native size 1, bn_of_native size 0)
  else if bn_ugt size op size a then Ok (bn_of_native size 0, a)
  else if bn_fit_in_64 a && bn_fit_in_64 op then
    if word op 0 =? 0 then UB
    else Ok (bn_of_native size (word a 0 / word op 0), bn_of_native size (word a 0 mod word op 0))
  else
    let diff := u64 (bn_highest_bit size a - bn_highest_bit size op) in
    Ok (fold_left (bn_div_loop size op diff) (zrange 0 (diff + 1)) (bn_zero size, a)).

(** [div_mod], big_num.hh 819-846.  Signed by signed calls the non-existing [div_mode_]; a signed
    dividend with an unsigned divisor calls [div_mod_unsigned], which [requires(!signed_)];
    an unsigned dividend with a signed divisor converts the divisor, whose words stay the same (918-922), so [s2] is not used. *)
Definition bn_div_mod (size : Z) (s1 : bool) (a : list Z) (s2 : bool) (op : list Z)
  : outcome (list Z * list Z) :=
  if s1 then IllFormed
  else if negb (bn_any_set op) then Ok (bn_zero size, bn_zero size)
  else bn_div_mod_unsigned size a op.

(** [to_uint64], big_num.hh 897 *)
Definition bn_to_uint64 (ws : list Z) : Z := word ws 0.
