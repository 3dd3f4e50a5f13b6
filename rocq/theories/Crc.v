(** Client code: cyclic redundancy checks, one message bit at a time, and a delay line.
    Only calls of the model's API are chained. *)
From Coq Require Import ZArith List Bool.
From Verif Require Import Cpp BigNum Bit Logic Arr.
Import ListNotations.
Open Scope Z_scope.

(** [bool t = c[n - 1] ^ b; c = c << one; if (t) c = c ^ poly;] (the temporaries of << and ^ are kept as they are; all have [n] positions) *)
Definition crc_step (n : Z) (poly one : bit) (c : bit) (b : bool) : outcome bit :=
  let! top := bit_get c (n - 1) in
  let! d := bit_shl c one in
  if xorb top b then bit_xor d poly else Ok d.
(** [for (bool b : message) ...] *)
Definition crc (n : Z) (poly one : bit) (message : list bool) (c : bit) : outcome bit := ofold (crc_step n poly one) message c.

(** [template <size_t... i> void push(T const &v, index_sequence<i...>) { (a.template update<D - 1 - i>(a[D - 2 - i]), ...); a.template update<0>(v); }]
    with [i] from 0 to D - 2, for an [unpacked_array<T, msb, lsb>] of D elements *)
Section Delay.
  Context {T : Type} (assign : T -> T -> outcome T) (dflt : T) (msb lsb : Z).
  Definition delay_move (D : Z) (a : list T) (i : Z) : outcome (list T) :=
    let! x := ua_get dflt msb lsb a (D - 2 - i) in ua_update assign dflt msb lsb a (D - 1 - i) x.
  Definition delay_push (D : Z) (a : list T) (v : T) : outcome (list T) :=
    let! b := ofold (delay_move D) (zrange 0 (D - 1)) a in ua_update assign dflt msb lsb b 0 v.
End Delay.
