(** C176: comparing numbers kept in several vectors.  C177: sorting vectors. *)
From Coq Require Import ZArith List Bool Permutation Sorted.
From Verif Require Import Cpp Bit Logic Spec SpecLong Sort BitMain LogicArith SortProofs.
Import ListNotations.
Open Scope Z_scope.

(** C176: started with false the loop tells whether the left number is smaller, started with true whether it is not greater *)
Theorem C176_less : forall n, 1 <= n -> forall ps c, (forall p, In p ps -> typed (fst p) n false /\ tidy (fst p) /\ typed (snd p) n false /\ tidy (snd p)) ->
  long_less ps c = Ok (if parts_num n (firsts ps) =? parts_num n (seconds ps) then c else parts_num n (firsts ps) <? parts_num n (seconds ps)).
Proof. exact long_less_all. Qed.
Print Assumptions C176_less.
Definition c8 (z : Z) : bit := bit_of_native 7 0 false z.
Example C176_ex : typed (c8 200) 8 false /\ tidy (c8 200) /\ typed (c8 3) 8 false /\ tidy (c8 3) /\ long_less [(c8 200, c8 3); (c8 3, c8 200); (c8 3, c8 3)] false = Ok true /\ long_less [(c8 3, c8 3)] true = Ok true /\
  parts_num 8 [c8 200; c8 3; c8 3] = 200 + 256 * 3 + 65536 * 3.
Proof. conc. Qed.

(** C177.  Missing: signed vectors of one position and of more than 64 positions (false, see [C177_exact]). *)
Theorem C177_partial : forall n s l, 1 <= n -> (s = true -> 2 <= n <= 64) -> (forall a, In a l -> typed a n s /\ tidy a) ->
  exists r, sort2 l = Ok r /\ Permutation l r /\ StronglySorted (fun a b => value a <= value b) r.
Proof. exact sort2_ok. Qed.
Print Assumptions C177_partial.
(** the least signed number of 70 positions is compared with itself for ever *)
Theorem C177_refuted : exists a, typed a 70 true /\ tidy a /\ sort2 [a; a] = Fuel.
Proof. exists (mkBit 69 0 true (HB [0; 2 ^ 5])). conc. Qed.
Print Assumptions C177_refuted.
Theorem C177_exact : forall n s, 1 <= n < 2 ^ 31 ->
  (forall l, (forall a, In a l -> typed a n s /\ tidy a) -> exists r, sort2 l = Ok r /\ Permutation l r /\ StronglySorted (fun a b => value a <= value b) r) <-> s = false \/ 2 <= n <= 64.
Proof. exact sort2_exact. Qed.
Print Assumptions C177_exact.
(** Missing: vectors that hold x or z (false, see [C177_four_refuted]), and the signed widths above. *)
Theorem C177_four_partial : forall n s l, 1 <= n -> (s = true -> 2 <= n <= 64) -> (forall a, In a l -> ltyped a n s /\ ltidy a /\ known a) ->
  exists r, sort4 l = Ok r /\ Permutation l r /\ StronglySorted (fun a b => value (l_val a) <= value (l_val b)) r.
Proof. exact sort4_ok. Qed.
Print Assumptions C177_four_partial.
(** vectors that hold x or z are not lost *)
Theorem C177_four_permutation : forall n s l, 1 <= n -> (s = true -> 2 <= n <= 64) -> (forall a, In a l -> ltyped a n s /\ ltidy a) -> exists r, sort4 l = Ok r /\ Permutation l r.
Proof. exact sort4_perm. Qed.
Print Assumptions C177_four_permutation.
(** but the known ones before and after one are not in order: a comparison that gives x ends the inner loop *)
Definition l8 (v m : Z) : logic := mkLogic (bit_of_native 7 0 false v) (bit_of_native 7 0 false m).
Theorem C177_four_refuted : exists a b c, ltyped a 8 false /\ ltidy a /\ known a /\ ltyped b 8 false /\ ltidy b /\ ltyped c 8 false /\ ltidy c /\ known c /\
  value (l_val c) < value (l_val a) /\ sort4 [a; b; c] = Ok [a; b; c].
Proof.
  exists (l8 2 0), (l8 0 4), (l8 1 0). split; [conc|]. split; [conc|]. split; [apply known_of_num0; reflexivity|]. split; [conc|]. split; [conc|]. split; [conc|]. split; [conc|]. split; [apply known_of_num0; reflexivity|]. conc.
Qed.
Print Assumptions C177_four_refuted.
Definition i8 (z : Z) : bit := bit_of_native 7 0 true z.
Example C177_ex : typed (i8 (-3)) 8 true /\ tidy (i8 (-3)) /\ sort2 [i8 7; i8 (-3); i8 0; i8 7; i8 (-128)] = Ok [i8 (-128); i8 (-3); i8 0; i8 7; i8 7] /\ value (i8 (-3)) = -3 /\
  ltyped (l8 9 0) 8 false /\ ltidy (l8 9 0) /\ known (l8 9 0) /\ sort4 [l8 9 0; l8 2 0; l8 4 0] = Ok [l8 2 0; l8 4 0; l8 9 0].
Proof. do 6 (split; [conc|]). split; [apply known_of_num0; reflexivity|]. vm_compute. reflexivity. Qed.
