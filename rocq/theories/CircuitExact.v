(** The adder made of single positions: when it is undefined. *)
From Coq Require Import ZArith List Bool Lia.
From Verif Require Import Cpp ZBits BigNum Bit Logic Spec SpecExact4 SpecCircuit Circuit BitOps BitProofs WideProofs2 CircuitProofs.
From Verif Require Iff12.
Import ListNotations.
Open Scope Z_scope.
Local Ltac Zify.zify_post_hook ::= idtac.

Lemma unread l n s i : 1 <= n -> ltyped l n s -> 64 <= i < n -> unknown (sym_at l i) = true -> logic_get l i = UB.
Proof.
  intros N T I U. destruct T as [(V & (Em & El) & Es) (Vx & (Xm & Xl) & Xs)]. assert (L : lvec l) by (split; [exact V|]; split; [exact Vx|]; repeat split; congruence).
  assert (Pl : Spec.place (lmsb l) (llsb l) i = i) by (unfold place, lmsb, llsb; rewrite Em, El; replace (0 <=? n - 1) with true by lia; lia).
  apply (Iff12.read4_iff l i L).
  - unfold lmsb, llsb. rewrite Em, El. lia.
  - unfold in_range, lmsb, llsb. rewrite Em, El. lia.
  - rewrite Pl. exact U.
  - lia.
Qed.
Theorem ripple4_undefined n a b r sa sb s : 1 <= n -> ltyped a n sa -> ltyped b n sb -> ltyped r n s ->
  (exists p, 64 <= p < n /\ (unknown (sym_at a p) = true \/ unknown (sym_at b p) = true)) -> ripple4 n a b r = UB.
Proof.
  intros N A B R (p & Hp & U). unfold ripple4.
  apply (ofold_ub (ripple4_step a b) (fun st => ltyped (fst st) n s /\ ltyped (snd st) 1 false) (zrange 0 n) p).
  - intros [x c] i [T T1] IN. apply in_zrange in IN. cbn [fst snd] in *. unfold ripple4_step.
    destruct (Z_lt_dec i 64) as [L|L]; [|destruct (unknown (sym_at a i)) eqn:Ua; [left; rewrite (unread a n sa i) by (assumption || lia); reflexivity|]; destruct (unknown (sym_at b i)) eqn:Ub].
    2: { destruct (l_get a n sa i A ltac:(lia) ltac:(congruence)) as (xa & -> & _). left. cbn [bind]. rewrite (unread b n sb i) by (assumption || lia). reflexivity. }
    all: right.
    all: assert (Qa : unknown (sym_at a i) = true -> i < 64) by (intros; (lia || congruence)); assert (Qb : unknown (sym_at b i) = true -> i < 64) by (intros; (lia || congruence)).
    all: destruct (l_get a n sa i A ltac:(lia) Qa) as (xa & -> & Ta & Sa); destruct (l_get b n sb i B ltac:(lia) Qb) as (xb & -> & Tb & Sb); cbn [bind].
    all: destruct (l1_ops xa xb Ta Tb) as ((xs & -> & Ts & Ss) & (g & Eg & Tg & Sg) & _); cbn [bind].
    all: destruct (l1_ops xs c Ts T1) as ((s' & -> & Ts' & Ss') & _); cbn [bind]; destruct (l_set x n s i s' T ltac:(lia) Ts') as (x' & -> & T' & _); cbn [bind]; rewrite Eg; cbn [bind].
    all: destruct (l1_ops c xs T1 Ts) as (_ & (q & -> & Tq & Sq) & _); cbn [bind]; destruct (l1_ops g q Tg Tq) as (_ & _ & (c' & -> & Tc & Sc)); cbn [bind]; eexists; split; [reflexivity|split; assumption].
  - apply in_zrange. lia.
  - intros [x c] [T T1]. cbn [fst snd] in *. unfold ripple4_step. destruct (unknown (sym_at a p)) eqn:Ua; [rewrite (unread a n sa p) by (assumption || lia); reflexivity|].
    destruct U as [U|U]; [congruence|]. destruct (l_get a n sa p A ltac:(lia) ltac:(congruence)) as (xa & -> & _). cbn [bind]. rewrite (unread b n sb p) by (assumption || lia). reflexivity.
  - split; [exact R|]. repeat split; vm_compute; congruence.
Qed.
Theorem ripple4_exact n a b r sa sb s : 1 <= n -> ltyped a n sa -> ltyped b n sb -> ltyped r n s ->
  (ripple4 n a b r = UB <-> exists p, 64 <= p < n /\ (unknown (sym_at a p) = true \/ unknown (sym_at b p) = true)) /\
  (ripple4 n a b r <> UB -> exists r' c, ripple4 n a b r = Ok (r', c) /\ ltyped r' n s /\ ltyped c 1 false /\
    (forall p, 0 <= p < n -> sym_at r' p = sum4 (sym_at a) (sym_at b) p) /\ sym_at c 0 = carry4 (sym_at a) (sym_at b) (Z.to_nat n)).
Proof.
  intros N A B R.
  assert (D : (exists p, 64 <= p < n /\ (unknown (sym_at a p) = true \/ unknown (sym_at b p) = true)) \/ forall p, 64 <= p < n -> unknown (sym_at a p) = false /\ unknown (sym_at b p) = false).
  { destruct (existsb (fun p => unknown (sym_at a p) || unknown (sym_at b p)) (zrange 64 n)) eqn:E.
    - left. apply existsb_exists in E as (p & I & Q). apply in_zrange in I. apply orb_true_iff in Q. exists p. split; assumption.
    - right. intros p Hp. apply orb_false_iff. destruct (unknown (sym_at a p) || unknown (sym_at b p)) eqn:Q; [|reflexivity]. rewrite <- E. symmetry. apply existsb_exists. exists p. split; [apply in_zrange; lia|exact Q]. }
  destruct D as [D|D].
  - pose proof (ripple4_undefined n a b r sa sb s N A B R D) as U. split; [tauto|]. intros C. now elim C.
  - destruct (ripple4_symbols n a b r sa sb s N A B R D) as (r' & c & E & Q). split; [|intros _; exists r', c; split; assumption]. split; [congruence|].
    intros (p & Hp & U). destruct (D p Hp). destruct U; congruence.
Qed.
