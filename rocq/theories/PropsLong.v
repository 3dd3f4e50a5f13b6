(** C172: the mean of two vectors.  C173: numbers kept in several vectors. *)
From Coq Require Import ZArith List Bool.
From Verif Require Import Cpp Bit Spec Client SpecLong Long BitMain LongProofs.
Import ListNotations.
Open Scope Z_scope.

(** C172: (a & b) + ((a ^ b) >> 1) is the mean rounded down, without overflow *)
Theorem C172_mean : forall n one a b, 2 <= n -> typed a n false -> tidy a -> typed b n false -> tidy b -> typed one n false -> tidy one -> num one = 1 ->
  exists r, mean one a b = Ok r /\ typed r n false /\ tidy r /\ num r = (num a + num b) / 2.
Proof. exact mean_all. Qed.
Print Assumptions C172_mean.
(** (a + b) >> 1 is it exactly if the sum fits: the carry a sum may keep above the width is lost in the shift *)
Theorem C172_plain : forall n one a b, 2 <= n -> typed a n false -> tidy a -> typed b n false -> tidy b -> typed one n false -> tidy one -> num one = 1 ->
  exists r, plain_mean one a b = Ok r /\ typed r n false /\ num r = ((num a + num b) mod 2 ^ n) / 2 /\ (num r = (num a + num b) / 2 <-> num a + num b < 2 ^ n).
Proof. exact plain_mean_exact. Qed.
Print Assumptions C172_plain.
(** so at no width for all operands *)
Theorem C172_plain_wrong : forall n, 2 <= n < 2 ^ 31 -> exists one a b r, typed a n false /\ tidy a /\ typed b n false /\ tidy b /\ typed one n false /\ tidy one /\ num one = 1 /\
  plain_mean one a b = Ok r /\ num r <> (num a + num b) / 2.
Proof. exact plain_mean_wrong. Qed.
Print Assumptions C172_plain_wrong.
Definition m100 (z0 z1 : Z) : bit := mkBit 99 0 false (HB [z0; z1]).
Example C172_ex : typed (m100 5 (2 ^ 35)) 100 false /\ tidy (m100 5 (2 ^ 35)) /\ typed (m100 1 0) 100 false /\ tidy (m100 1 0) /\ num (m100 1 0) = 1 /\
  mean (m100 1 0) (m100 5 (2 ^ 35)) (m100 8 (2 ^ 35)) = Ok (m100 6 (2 ^ 35)) /\ plain_mean (m100 1 0) (m100 5 (2 ^ 35)) (m100 8 (2 ^ 35)) = Ok (m100 6 0).
Proof. conc. Qed.

(** C173: the parts of the difference, with the borrow, at every width *)
Theorem C173_subtract : forall n one, 1 <= n -> typed one n false -> tidy one -> num one = 1 -> forall ps c, (forall p, In p ps -> typed (fst p) n false /\ tidy (fst p) /\ typed (snd p) n false /\ tidy (snd p)) ->
  exists rs d, long_sub one ps c = Ok (rs, d) /\ length rs = length ps /\ (forall r, In r rs -> typed r n false) /\
    parts_num n rs - 2 ^ (n * Z.of_nat (length ps)) * Z.b2z d = parts_num n (firsts ps) - parts_num n (seconds ps) - Z.b2z c.
Proof. exact long_sub_all. Qed.
Print Assumptions C173_subtract.
(** the sum loses its carries at width 4: 15 + 1 gives 0 without carry *)
Theorem C173_refuted : exists one a r, typed one 4 false /\ tidy one /\ num one = 1 /\ typed a 4 false /\ tidy a /\ num a = 15 /\ num r = 0 /\ long_add one [(a, one)] false = Ok ([r], false).
Proof. exists (bit_of_native 3 0 false 1), (bit_of_native 3 0 false 15), (mkBit 3 0 false (HN 16)). conc. Qed.
Print Assumptions C173_refuted.
(** it is right at exactly the widths that fill their storage *)
Theorem C173_exact : forall n, 1 <= n < 2 ^ 31 ->
  (forall one ps c, typed one n false -> tidy one -> num one = 1 -> (forall p, In p ps -> typed (fst p) n false /\ tidy (fst p) /\ typed (snd p) n false /\ tidy (snd p)) ->
     exists rs d, long_add one ps c = Ok (rs, d) /\ length rs = length ps /\ (forall r, In r rs -> typed r n false) /\
       parts_num n rs + 2 ^ (n * Z.of_nat (length ps)) * Z.b2z d = parts_num n (firsts ps) + parts_num n (seconds ps) + Z.b2z c) <-> full_width n.
Proof. exact long_add_exact. Qed.
Print Assumptions C173_exact.
(** Missing: the other widths (false, see [C173_exact]). *)
Theorem C173_partial : forall n one, full_width n -> typed one n false -> num one = 1 -> forall ps c, (forall p, In p ps -> typed (fst p) n false /\ typed (snd p) n false) ->
  exists rs d, long_add one ps c = Ok (rs, d) /\ length rs = length ps /\ (forall r, In r rs -> typed r n false) /\
    parts_num n rs + 2 ^ (n * Z.of_nat (length ps)) * Z.b2z d = parts_num n (firsts ps) + parts_num n (seconds ps) + Z.b2z c.
Proof. exact long_add_full. Qed.
Print Assumptions C173_partial.
Definition b8 (z : Z) : bit := bit_of_native 7 0 false z.
Example C173_ex : full_width 8 /\ typed (b8 1) 8 false /\ tidy (b8 1) /\ num (b8 1) = 1 /\
  long_add (b8 1) [(b8 255, b8 1); (b8 255, b8 0); (b8 7, b8 2)] false = Ok ([b8 0; b8 0; b8 10], false) /\
  long_sub (b8 1) [(b8 0, b8 1); (b8 0, b8 0); (b8 7, b8 2)] false = Ok ([b8 255; b8 255; b8 4], false).
Proof. split; [left; reflexivity|]. conc. Qed.
