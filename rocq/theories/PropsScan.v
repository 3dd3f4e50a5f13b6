(** C178: looking for the highest and the lowest one.  C179: comparing position by position. *)
From Coq Require Import ZArith List Bool.
From Verif Require Import Cpp Bit Logic Spec SpecScan Scan BitMain ScanProofs.
Import ListNotations.
Open Scope Z_scope.

(** C178, 2-state *)
Theorem C178_high : forall n a s, 1 <= n -> typed a n s -> exists r, scan_high n a = Ok r /\ highest (fun p => bit_at a p = true) n r.
Proof. exact scan_high_all. Qed.
Print Assumptions C178_high.
Theorem C178_low : forall n a s, 1 <= n -> typed a n s -> exists r, scan_low n a = Ok r /\ lowest (fun p => bit_at a p = true) n r.
Proof. exact scan_low_all. Qed.
Print Assumptions C178_low.
(** 4-state.  Missing: vectors that hold x or z at position 64 or above (undefined, see [C178_high4_exact]). *)
Theorem C178_high4_partial : forall n a s, 1 <= n -> ltyped a n s -> (forall p, 64 <= p < n -> unknown (sym_at a p) = false) -> exists r, scan_high4 n a = Ok r /\ highest (fun p => sym_at a p = S1) n r.
Proof. exact scan_high4_all. Qed.
Print Assumptions C178_high4_partial.
(** reading an x or z at position 64 or above is undefined, so the loop is right exactly if there is none *)
Theorem C178_high4_exact : forall n a s, 1 <= n -> ltyped a n s -> ((exists r, scan_high4 n a = Ok r /\ highest (fun p => sym_at a p = S1) n r) <-> forall p, 64 <= p < n -> unknown (sym_at a p) = false) /\
  (scan_high4 n a = UB <-> exists p, 64 <= p < n /\ unknown (sym_at a p) = true).
Proof. exact scan_high4_exact. Qed.
Print Assumptions C178_high4_exact.
(** from below it is right exactly if a one lies below each of them *)
Theorem C178_low4_exact : forall n a s, 1 <= n -> ltyped a n s ->
  ((exists r, scan_low4 n a = Ok r /\ lowest (fun p => sym_at a p = S1) n r) <-> forall p, 64 <= p < n -> unknown (sym_at a p) = true -> exists q, 0 <= q < p /\ sym_at a q = S1).
Proof. exact scan_low4_exact. Qed.
Print Assumptions C178_low4_exact.
Theorem C178_refuted : exists a, ltyped a 70 false /\ sym_at a 3 = S1 /\ scan_high4 70 a = UB /\ scan_low4 70 a = Ok 3.
Proof. exists (mkLogic (mkBit 69 0 false (HB [8; 0])) (mkBit 69 0 false (HB [0; 2]))). conc. Qed.
Print Assumptions C178_refuted.
Definition q8 (v m : Z) : logic := mkLogic (bit_of_native 7 0 false v) (bit_of_native 7 0 false m).
Example C178_ex : typed (mkBit 99 0 true (HB [5; 2 ^ 35])) 100 true /\ scan_high 100 (mkBit 99 0 true (HB [4; 2 ^ 35])) = Ok 99 /\ scan_low 100 (mkBit 99 0 true (HB [4; 2 ^ 35])) = Ok 2 /\ scan_high 8 (bit_of_native 7 0 false 0) = Ok (-1) /\
  ltyped (q8 44 33) 8 false /\ sym_at (q8 44 33) 5 = SZ /\ scan_high4 8 (q8 44 33) = Ok 3 /\ scan_low4 8 (q8 44 33) = Ok 2.
Proof. conc. Qed.

(** C179: whatever the width and the sign, and whatever is stored above the width *)
Theorem C179_less : forall n s a b, 1 <= n -> typed a n s -> typed b n s -> scan_less n s a b = Ok (value a <? value b).
Proof. exact scan_less_all. Qed.
Print Assumptions C179_less.
(** the two numbers of 70 positions that operator< never finishes comparing *)
Example C179_ex : let m := mkBit 69 0 true (HB [0; 2 ^ 5]) in let k := mkBit 69 0 true (HB [1; 2 ^ 5]) in
  typed m 70 true /\ typed k 70 true /\ value m = - 2 ^ 69 /\ bit_lt m m = Fuel /\ scan_less 70 true m m = Ok false /\ scan_less 70 true m k = Ok true /\ scan_less 70 true k m = Ok false /\
  scan_less 8 true (bit_of_native 7 0 true (-3)) (bit_of_native 7 0 true 5) = Ok true /\ scan_less 8 false (bit_of_native 7 0 false 200) (bit_of_native 7 0 false 5) = Ok false.
Proof. conc. Qed.
