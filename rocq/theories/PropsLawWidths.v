(** The widths at which the laws of C77 hold. *)
From Coq Require Import ZArith List Bool Lia.
From Verif Require Import Cpp BigNum Bit Spec SpecWide Client LawWidths.
Import ListNotations.
Open Scope Z_scope.

(** C77: the laws with a minus hold for all operands exactly up to 64 positions *)
Theorem C77_negation_exact : forall n, 2 <= n < 2 ^ 31 ->
  (forall env, good n env -> forall a b, supported n (fun k => num (env k)) a -> supported n (fun k => num (env k)) b -> Forall (agree n env) (negation_laws a b)) <-> n <= 64.
Proof. exact negation_widths. Qed.
Print Assumptions C77_negation_exact.
(** the laws with a product hold for all operands exactly up to 8 and from 17 to 64 positions: at the other widths ~0 * ~0 is undefined *)
Theorem C77_product_exact : forall n, 2 <= n < 2 ^ 31 ->
  (forall env, good n env -> forall a b c, supported n (fun k => num (env k)) a -> supported n (fun k => num (env k)) b -> supported n (fun k => num (env k)) c -> Forall (agree n env) (product_laws a b c)) <->
  n <= 8 \/ 17 <= n <= 64.
Proof. exact product_widths. Qed.
Print Assumptions C77_product_exact.
Example C77_exact_ex : let env := fun k : nat => vec_of 12 false (match k with O => 4000 | _ => 77 end) in
  good 12 env /\ supported 12 (fun k => num (env k)) (Not (Var 0)) /\ eval env (Mul (Not (Var 0)) (Not (Var 1))) = UB /\ omap num (eval env (Mul (Var 0) (Var 1))) = Ok (4000 * 77 - 75 * 4096).
Proof. split; [intros [|k]; vm_compute; repeat split; congruence|]. split; [exact I|]. split; vm_compute; reflexivity. Qed.
