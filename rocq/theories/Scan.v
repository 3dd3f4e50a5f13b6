(** Client code: looking for ones and comparing position by position.  Only calls of the model's API are chained. *)
From Coq Require Import ZArith List Bool.
From Verif Require Import Cpp Bit Logic.
Import ListNotations.
Open Scope Z_scope.

(** [int r = -1; for (int i = 0; i < n; i++) { if (a[i]) r = i; }]: bit.hh 47-52, 1093-1120 *)
Definition scan_high (n : Z) (a : bit) : outcome Z := ofold (fun r i => let! c := bit_get a i in Ok (if c then i else r)) (zrange 0 n) (-1).
(** [int r = -1; for (int i = 0; i < n; i++) { if (r < 0 && a[i]) r = i; }] *)
Definition scan_low (n : Z) (a : bit) : outcome Z := ofold (fun r i => if r <? 0 then let! c := bit_get a i in Ok (if c then i else r) else Ok r) (zrange 0 n) (-1).
(** the same for 4-state vectors; operator bool of the position that was read, logic.hh 54-70, 281-284 *)
Definition scan_high4 (n : Z) (a : logic) : outcome Z := ofold (fun r i => let! c := logic_get a i in Ok (if logic_bool c then i else r)) (zrange 0 n) (-1).
Definition scan_low4 (n : Z) (a : logic) : outcome Z := ofold (fun r i => if r <? 0 then let! c := logic_get a i in Ok (if logic_bool c then i else r) else Ok r) (zrange 0 n) (-1).

(** [bool c = false; for (int i = 0; i < n - 1; i++) { if (a[i] != b[i]) c = b[i]; } if (a[n - 1] != b[n - 1]) c = s ? a[n - 1] : b[n - 1];]
    where [s] tells whether the vectors are signed; the positions are bool *)
Definition scan_less (n : Z) (s : bool) (a b : bit) : outcome bool :=
  let! c := ofold (fun c i => let! x := bit_get a i in let! y := bit_get b i in Ok (if xorb x y then y else c)) (zrange 0 (n - 1)) false in
  let! x := bit_get a (n - 1) in
  let! y := bit_get b (n - 1) in
  Ok (if xorb x y then (if s then x else y) else c).
