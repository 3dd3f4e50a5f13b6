(** Exactly when the properties of 4-state operators hold. *)
From Coq Require Import ZArith List Bool Lia.
From Verif Require Import Cpp BigNum Bit Logic Spec SpecExact SpecIff BitExt ZBits Words BigNumProofs BitProofs BitCmp BitMain BitMain2 LogicProofs LogicOps LogicMain LogicRed.
Import ListNotations.
Open Scope Z_scope.
Local Ltac Zify.zify_post_hook ::= idtac.

(** * bitwise operators *)
Ltac table_iff E Q :=
  split;
  [ intros (r' & E' & H) p Hp B; rewrite E in E'; injection E' as <-; specialize (H p Hp); rewrite Q in H by exact Hp; revert H B
  | intros C; eexists; split; [exact E|]; intros p Hp; rewrite Q by exact Hp; specialize (C p Hp); revert C ].
Lemma and_iff a b n : lvec a -> lvec b -> lw a = n -> lw b = n -> llsb a <= lmsb a -> llsb b <= lmsb b -> lsgn a && lsgn b = false ->
  (exists r, logic_and a b = Ok r /\ forall p, 0 <= p < n -> sym_at r p = and4 (sym_at a p) (sym_at b p)) <-> (forall p, 0 <= p < n -> ~ bad_and (sym_at a p) (sym_at b p)).
Proof.
  intros Va Vb Wa Wb Da Db S. destruct (and4_main a b n) as (r & E & T & _ & Q); auto.
  table_iff E Q; unfold bad_and; destruct (sym_at a p), (sym_at b p); cbn; intuition discriminate || (exfalso; intuition discriminate).
Qed.
Lemma or_iff a b n : lvec a -> lvec b -> lw a = n -> lw b = n -> llsb a <= lmsb a -> llsb b <= lmsb b -> lsgn a && lsgn b = false ->
  (exists r, logic_or a b = Ok r /\ forall p, 0 <= p < n -> sym_at r p = or4 (sym_at a p) (sym_at b p)) <-> (forall p, 0 <= p < n -> ~ bad_or (sym_at a p) (sym_at b p)).
Proof.
  intros Va Vb Wa Wb Da Db S. destruct (or4_main a b n) as (r & E & T & _ & Q); auto.
  table_iff E Q; unfold bad_or; destruct (sym_at a p), (sym_at b p); cbn; intuition discriminate || (exfalso; intuition discriminate).
Qed.
Lemma and_mixed_iff a b na nb : 1 <= na -> 1 <= nb -> na <> nb -> ltyped a na false -> ltyped b nb false -> ltidy a -> ltidy b ->
  (exists r, logic_and a b = Ok r /\ forall p, 0 <= p < Z.max na nb -> sym_at r p = and4 (padded a na p) (padded b nb p)) <-> (forall p, 0 <= p < Z.max na nb -> ~ bad_and (padded a na p) (padded b nb p)).
Proof.
  intros Ha Hb N Ta Tb Da Db. destruct (and_mixed_main a b na nb) as (r & E & T & _ & Q); auto. fold (padded a na) (padded b nb) in Q.
  table_iff E Q; unfold padded, bad_and; destruct (if p <? na then sym_at a p else S0), (if p <? nb then sym_at b p else S0); cbn; intuition discriminate || (exfalso; intuition discriminate).
Qed.
Lemma or_mixed_iff a b na nb : 1 <= na -> 1 <= nb -> na <> nb -> ltyped a na false -> ltyped b nb false -> ltidy a -> ltidy b ->
  (exists r, logic_or a b = Ok r /\ forall p, 0 <= p < Z.max na nb -> sym_at r p = or4 (padded a na p) (padded b nb p)) <-> (forall p, 0 <= p < Z.max na nb -> ~ bad_or (padded a na p) (padded b nb p)).
Proof.
  intros Ha Hb N Ta Tb Da Db. destruct (or_mixed_main a b na nb) as (r & E & T & _ & Q); auto.
  table_iff E Q; unfold padded, bad_or; destruct (if p <? na then sym_at a p else S0), (if p <? nb then sym_at b p else S0); cbn; intuition discriminate || (exfalso; intuition discriminate).
Qed.
Lemma xor_mixed_iff a b na nb : 1 <= na -> 1 <= nb -> na <> nb -> ltyped a na false -> ltyped b nb false -> ltidy a -> ltidy b ->
  (exists r, logic_xor a b = Ok r /\ forall p, 0 <= p < Z.max na nb -> sym_at r p = xor4 (padded a na p) (padded b nb p)) <-> (forall p, 0 <= p < Z.max na nb -> ~ bad_xor (padded a na p) (padded b nb p)).
Proof.
  intros Ha Hb N Ta Tb Da Db. destruct (mixed_main logic_xor logic_or_same or_code a b na nb xor_mixed_eq or_gen Ha Hb N Ta Tb Da Db) as (r & E & T & _ & Q).
  table_iff E Q; unfold padded, bad_xor; destruct (if p <? na then sym_at a p else S0), (if p <? nb then sym_at b p else S0); cbn; intuition discriminate || (exfalso; intuition discriminate).
Qed.

(** * reductions *)
Lemma reduce_and l n : 0 <= n -> reduce and4 S1 l n = S0 <-> exists p, 0 <= p < n /\ sym_at l p = S0.
Proof.
  intros Hn. unfold reduce. assert (G : forall ps, fold_right (fun p acc => and4 (sym_at l p) acc) S1 ps = S0 <-> exists p, In p ps /\ sym_at l p = S0).
  { induction ps as [|p ps IH]; cbn [fold_right]; [split; [discriminate|intros (p & [] & _)]|]. split.
    - intros E. destruct (sym_at l p) eqn:Sp; [exists p; split; [now left|exact Sp]|..]; (destruct (fold_right _ _ _) eqn:F; try discriminate E; destruct (proj1 IH eq_refl) as (q & I & Sq); exists q; split; [now right|exact Sq]).
    - intros (q & [<- | I] & Sq); [now rewrite Sq|]. assert (X : fold_right (fun p acc => and4 (sym_at l p) acc) S1 ps = S0) by (apply IH; eauto). rewrite X. now destruct (sym_at l p). }
  rewrite G. split; intros (p & I & Sp); exists p; (split; [|exact Sp]); now apply ZBits.in_zrange.
Qed.
Lemma reduce_and1 l n : 0 <= n -> reduce and4 S1 l n = S1 <-> forall p, 0 <= p < n -> sym_at l p = S1.
Proof.
  intros Hn. unfold reduce. assert (G : forall ps, fold_right (fun p acc => and4 (sym_at l p) acc) S1 ps = S1 <-> forall p, In p ps -> sym_at l p = S1).
  { induction ps as [|p ps IH]; cbn [fold_right]; [split; [intros _ p []|reflexivity]|]. split.
    - intros E q [<- | I]; destruct (sym_at l p) eqn:Sp; try reflexivity; destruct (fold_right _ _ _) eqn:F; try discriminate E. now apply IH.
    - intros H. rewrite (H p) by now left. rewrite (proj2 IH); [reflexivity|]. intros q I. apply H. now right. }
  rewrite G. split; intros H p Hp; apply H; [now apply ZBits.in_zrange|]. now apply ZBits.in_zrange in Hp.
Qed.
Lemma reduce_or l n : 0 <= n -> reduce or4 S0 l n = S1 <-> exists p, 0 <= p < n /\ sym_at l p = S1.
Proof.
  intros Hn. unfold reduce. assert (G : forall ps, fold_right (fun p acc => or4 (sym_at l p) acc) S0 ps = S1 <-> exists p, In p ps /\ sym_at l p = S1).
  { induction ps as [|p ps IH]; cbn [fold_right]; [split; [discriminate|intros (p & [] & _)]|]. split.
    - intros E. destruct (sym_at l p) eqn:Sp; [|exists p; split; [now left|exact Sp]|..]; (destruct (fold_right _ _ _) eqn:F; try discriminate E; destruct (proj1 IH eq_refl) as (q & I & Sq); exists q; split; [now right|exact Sq]).
    - intros (q & [<- | I] & Sq); [now rewrite Sq|]. assert (X : fold_right (fun p acc => or4 (sym_at l p) acc) S0 ps = S1) by (apply IH; eauto). rewrite X. now destruct (sym_at l p). }
  rewrite G. split; intros (p & I & Sp); exists p; (split; [|exact Sp]); now apply ZBits.in_zrange.
Qed.
Lemma reduce_or0 l n : 0 <= n -> reduce or4 S0 l n = S0 <-> forall p, 0 <= p < n -> sym_at l p = S0.
Proof.
  intros Hn. unfold reduce. assert (G : forall ps, fold_right (fun p acc => or4 (sym_at l p) acc) S0 ps = S0 <-> forall p, In p ps -> sym_at l p = S0).
  { induction ps as [|p ps IH]; cbn [fold_right]; [split; [intros _ p []|reflexivity]|]. split.
    - intros E q [<- | I]; destruct (sym_at l p) eqn:Sp; try reflexivity; destruct (fold_right _ _ _) eqn:F; try discriminate E. now apply IH.
    - intros H. rewrite (H p) by now left. rewrite (proj2 IH); [reflexivity|]. intros q I. apply H. now right. }
  rewrite G. split; intros H p Hp; apply H; [now apply ZBits.in_zrange|]. now apply ZBits.in_zrange in Hp.
Qed.
Lemma reduce_range op init l n : (op = and4 /\ init = S1) \/ (op = or4 /\ init = S0) -> reduce op init l n <> SZ.
Proof. unfold reduce. intros C. induction (zrange 0 n) as [|p ps IH]; cbn [fold_right]; [destruct C as [[_ ->]|[_ ->]]; discriminate|]. destruct C as [[-> ->]|[-> ->]]; destruct (sym_at l p), (fold_right _ _ _); cbn; congruence. Qed.
Lemma first_not (P : Z -> bool) n : 0 <= n -> (forall p, 0 <= p < n -> P p = true) \/ exists p, 0 <= p < n /\ P p = false /\ forall q, 0 <= q < p -> P q = true.
Proof.
  intros H. rewrite <- (Z2Nat.id n H). generalize (Z.to_nat n). clear n H. intros n. induction n as [|n IH]; [left; lia|].
  destruct IH as [A | (p & Hp & E & M)]; [|right; exists p; repeat split; auto; lia]. destruct (P (Z.of_nat n)) eqn:E; [left|right].
  - intros p Hp. destruct (Z.eq_dec p (Z.of_nat n)) as [->|]; [exact E|]. apply A. lia.
  - exists (Z.of_nat n). split; [lia|]. split; [exact E|]. exact A.
Qed.
(** the lowest position that does not hold the neutral symbol decides *)
Lemma r_and_iff l n s : 1 <= n -> ltyped l n s ->
  (exists r, logic_r_and l = Ok r /\ sym_at r 0 = reduce and4 S1 l n) <->
  (forall p, 0 <= p < n -> unknown (sym_at l p) = true -> (exists q, 0 <= q < p /\ sym_at l q = S0) \/ (forall q, 0 <= q < n -> sym_at l q <> S0)).
Proof.
  intros Hn T. destruct (red_scan l n s Hn T) as (ra & ro & E & _ & _ & _ & A1 & AP & _ & _). set (is1 := fun p => match sym_at l p with S1 => true | _ => false end).
  pose proof (reduce_range and4 S1 l n (or_introl (conj eq_refl eq_refl))) as RZ.
  destruct (first_not is1 n ltac:(lia)) as [A | (p & Hp & F & M)].
  - assert (A' : forall p, 0 <= p < n -> sym_at l p = S1) by (intros p Hp; specialize (A p Hp); unfold is1 in A; destruct (sym_at l p); congruence).
    split; [intros _ p Hp U; rewrite A' in U by exact Hp; discriminate|]. intros _. exists ra. split; [exact E|]. rewrite A1 by exact A'. symmetry. apply reduce_and1; [lia|exact A'].
  - assert (M' : forall q, 0 <= q < p -> sym_at l q = S1) by (intros q Hq; specialize (M q Hq); unfold is1 in M; destruct (sym_at l q); congruence). assert (F' : sym_at l p <> S1) by (intros X; unfold is1 in F; rewrite X in F; discriminate).
    specialize (AP p Hp M' F'). split.
    + intros (r & E' & H) q Hq U. rewrite E in E'. injection E' as <-. rewrite AP in H. destruct (unknown (sym_at l p)) eqn:U'.
      * right. intros q' Hq' S'. assert (X : reduce and4 S1 l n = S0) by (apply reduce_and; [lia|eauto]). congruence.
      * left. exists p. assert (p < q). { destruct (Z.lt_trichotomy p q) as [|[->|G]]; [assumption|congruence|]. rewrite M' in U by lia. discriminate. } split; [lia|]. destruct (sym_at l p); try discriminate; congruence.
    + intros C. exists ra. split; [exact E|]. rewrite AP. destruct (unknown (sym_at l p)) eqn:U.
      * destruct (C p Hp U) as [(q & Hq & X) | X]; [rewrite M' in X by lia; discriminate|]. destruct (reduce and4 S1 l n) eqn:R; [| |reflexivity|congruence].
        -- apply reduce_and in R; [|lia]. destruct R as (q & Hq & X'). now apply X in X'.
        -- rewrite reduce_and1 in R by lia. specialize (R p Hp). congruence.
      * symmetry. apply reduce_and; [lia|]. exists p. split; [exact Hp|]. destruct (sym_at l p); try discriminate; congruence.
Qed.
Lemma r_or_iff l n s : 1 <= n -> ltyped l n s ->
  (exists r, logic_r_or l = Ok r /\ sym_at r 0 = reduce or4 S0 l n) <->
  (forall p, 0 <= p < n -> unknown (sym_at l p) = true -> (exists q, 0 <= q < p /\ sym_at l q = S1) \/ (forall q, 0 <= q < n -> sym_at l q <> S1)).
Proof.
  intros Hn T. destruct (red_scan l n s Hn T) as (ra & ro & _ & E & _ & _ & _ & _ & A1 & AP). set (is0 := fun p => match sym_at l p with S0 => true | _ => false end).
  pose proof (reduce_range or4 S0 l n (or_intror (conj eq_refl eq_refl))) as RZ.
  destruct (first_not is0 n ltac:(lia)) as [A | (p & Hp & F & M)].
  - assert (A' : forall p, 0 <= p < n -> sym_at l p = S0) by (intros p Hp; specialize (A p Hp); unfold is0 in A; destruct (sym_at l p); congruence).
    split; [intros _ p Hp U; rewrite A' in U by exact Hp; discriminate|]. intros _. exists ro. split; [exact E|]. rewrite A1 by exact A'. symmetry. apply reduce_or0; [lia|exact A'].
  - assert (M' : forall q, 0 <= q < p -> sym_at l q = S0) by (intros q Hq; specialize (M q Hq); unfold is0 in M; destruct (sym_at l q); congruence). assert (F' : sym_at l p <> S0) by (intros X; unfold is0 in F; rewrite X in F; discriminate).
    specialize (AP p Hp M' F'). split.
    + intros (r & E' & H) q Hq U. rewrite E in E'. injection E' as <-. rewrite AP in H. destruct (unknown (sym_at l p)) eqn:U'.
      * right. intros q' Hq' S'. assert (X : reduce or4 S0 l n = S1) by (apply reduce_or; [lia|eauto]). congruence.
      * left. exists p. assert (p < q). { destruct (Z.lt_trichotomy p q) as [|[->|G]]; [assumption|congruence|]. rewrite M' in U by lia. discriminate. } split; [lia|]. destruct (sym_at l p); try discriminate; congruence.
    + intros C. exists ro. split; [exact E|]. rewrite AP. destruct (unknown (sym_at l p)) eqn:U.
      * destruct (C p Hp U) as [(q & Hq & X) | X]; [rewrite M' in X by lia; discriminate|]. destruct (reduce or4 S0 l n) eqn:R; [| |reflexivity|congruence].
        -- rewrite reduce_or0 in R by lia. specialize (R p Hp). congruence.
        -- apply reduce_or in R; [|lia]. destruct R as (q & Hq & X'). now apply X in X'.
      * symmetry. apply reduce_or; [lia|]. exists p. split; [exact Hp|]. destruct (sym_at l p); try discriminate; congruence.
Qed.
