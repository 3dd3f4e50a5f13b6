(** Moving the positions of a vector. *)
From Coq Require Import ZArith List Bool Lia.
From Verif Require Import Cpp ZBits BigNum Bit Logic Spec SpecExact4 Permute BitShift BitMain BitMain2 BitMain3 LogicMain CircuitProofs CircuitExact.
From Verif Require Exact5.
Import ListNotations.
Open Scope Z_scope.
Local Ltac Zify.zify_post_hook ::= idtac.

Lemma half n : 1 <= n -> 0 <= n / 2 /\ 2 * (n / 2) <= n < 2 * (n / 2) + 2.
Proof. intros H. pose proof (Z.div_mod n 2 ltac:(lia)). pose proof (Z.mod_pos_bound n 2 ltac:(lia)). lia. Qed.
Lemma zofold_ub {B} (f : B -> Z -> outcome B) (P : Z -> B -> Prop) b j : forall m a s, m = Z.to_nat (j - a) -> a <= j < b -> P a s ->
  (forall i s, a <= i < j -> P i s -> f s i = UB \/ exists s', f s i = Ok s' /\ P (i + 1) s') -> (forall s, P j s -> f s j = UB) -> ofold f (zrange a b) s = UB.
Proof.
  assert (C : forall a, a < b -> zrange a b = a :: zrange (a + 1) b).
  { intros a L. rewrite (Exact5.zrange_split a (a + 1) b) by lia. replace (zrange a (a + 1)) with [a]; [reflexivity|]. unfold zrange. replace (a + 1 - a) with 1 by lia. change (Z.to_nat 1) with 1%nat. cbn [seq map]. f_equal. change (Z.of_nat 0) with 0. lia. }
  induction m as [|m IH]; intros a s E I Pa St Un; rewrite C by lia; cbn [ofold].
  - assert (a = j) by lia. subst a. rewrite (Un s Pa). reflexivity.
  - destruct (St a s ltac:(lia) Pa) as [->|(s' & -> & P')]; [reflexivity|]. cbn [bind]. apply IH; [lia|lia|exact P'| |exact Un]. intros i t Hi. apply St. lia.
Qed.

(** * 2-state *)
Lemma gather_all f n a r sa s : 1 <= n -> (forall i, 0 <= i < n -> 0 <= f i < n) -> typed a n sa -> typed r n s ->
  exists r', gather f n a r = Ok r' /\ typed r' n s /\ forall p, 0 <= p < n -> bit_at r' p = bit_at a (f p).
Proof.
  intros N F A R. unfold gather.
  destruct (zrange_ofold_ind (fun r i => let! x := bit_get a (f i) in bit_set r i x) (fun k x => typed x n s /\ forall p, 0 <= p < k -> bit_at x p = bit_at a (f p)) 0 n r) as (r' & E & T & Q); [lia| | |].
  - split; [exact R|]. intros p Hp. lia.
  - intros i x I [T Q]. rewrite (typed_get a n sa (f i) A (F i I)). cbn [bind]. destruct (typed_set x n s i (bit_at a (f i)) T I) as (x' & -> & T' & G & O). eexists. split; [reflexivity|]. split; [exact T'|].
    intros p Hp. destruct (Z.eq_dec p i) as [->|D]; [exact G|]. rewrite O by lia. apply Q. lia.
  - exists r'. split; [exact E|]. split; [exact T|]. exact Q.
Qed.
Lemma scatter_all f n a r sa s : 1 <= n -> (forall i, 0 <= i < n -> 0 <= f i < n) -> (forall i j, 0 <= i < j -> j < n -> f i <> f j) -> typed a n sa -> typed r n s ->
  exists r', scatter f n a r = Ok r' /\ typed r' n s /\ forall p, 0 <= p < n -> bit_at r' (f p) = bit_at a p.
Proof.
  intros N F J A R. unfold scatter.
  destruct (zrange_ofold_ind (fun r i => let! x := bit_get a i in bit_set r (f i) x) (fun k x => typed x n s /\ forall p, 0 <= p < k -> bit_at x (f p) = bit_at a p) 0 n r) as (r' & E & T & Q); [lia| | |].
  - split; [exact R|]. intros p Hp. lia.
  - intros i x I [T Q]. rewrite (typed_get a n sa i A I). cbn [bind]. destruct (typed_set x n s (f i) (bit_at a i) T (F i I)) as (x' & -> & T' & G & O). eexists. split; [reflexivity|]. split; [exact T'|].
    intros p Hp. destruct (Z.eq_dec p i) as [->|D]; [exact G|]. rewrite O; [apply Q; lia|apply F; lia|apply J; lia].
  - exists r'. split; [exact E|]. split; [exact T|]. exact Q.
Qed.
Lemma there_and_back f n a r q sa s s' : 1 <= n -> (forall i, 0 <= i < n -> 0 <= f i < n) -> (forall i j, 0 <= i < j -> j < n -> f i <> f j) -> typed a n sa -> typed r n s -> typed q n s' ->
  exists x y, scatter f n a r = Ok x /\ gather f n x q = Ok y /\ typed y n s' /\ num y = num a.
Proof.
  intros N F J A R Q. destruct (scatter_all f n a r sa s N F J A R) as (x & Ex & Tx & Bx). destruct (gather_all f n x q s s' N F Tx Q) as (y & Ey & Ty & By). exists x, y. split; [exact Ex|]. split; [exact Ey|]. split; [exact Ty|].
  pose proof (num_range y) as Ry. pose proof (num_range a) as Ra. rewrite (typed_bw y n s' N Ty) in Ry. rewrite (typed_bw a n sa N A) in Ra. rewrite <- (Z.mod_small (num y) (2 ^ n)), <- (Z.mod_small (num a) (2 ^ n)) by auto.
  apply low_same; [lia|]. intros p Hp. fold (bit_at y p) (bit_at a p). rewrite By, Bx by lia. reflexivity.
Qed.
Lemma reverse_all n a s : 1 <= n -> typed a n s -> exists r, reverse n a = Ok r /\ typed r n s /\ forall p, 0 <= p < n -> bit_at r p = bit_at a (n - 1 - p).
Proof.
  intros N A. destruct (half n N) as (H0 & H). unfold reverse.
  destruct (zrange_ofold_ind (fun a i => let! t := bit_get a i in let! u := bit_get a (n - 1 - i) in let! a' := bit_set a i u in bit_set a' (n - 1 - i) t)
    (fun k x => typed x n s /\ forall p, 0 <= p < n -> bit_at x p = if (p <? k) || (n - 1 - p <? k) then bit_at a (n - 1 - p) else bit_at a p) 0 (n / 2) a) as (r' & E & T & Q); [lia| | |].
  - split; [exact A|]. intros p Hp. replace ((p <? 0) || (n - 1 - p <? 0)) with false by lia. reflexivity.
  - intros i x I [T Q]. rewrite (typed_get x n s i T), (typed_get x n s (n - 1 - i) T) by lia. cbn [bind].
    destruct (typed_set x n s i (bit_at x (n - 1 - i)) T ltac:(lia)) as (x1 & -> & T1 & G1 & O1). cbn [bind]. destruct (typed_set x1 n s (n - 1 - i) (bit_at x i) T1 ltac:(lia)) as (x2 & -> & T2 & G2 & O2).
    eexists. split; [reflexivity|]. split; [exact T2|]. intros p Hp.
    destruct (Z.eq_dec p (n - 1 - i)) as [->|D2].
    + rewrite G2, Q by lia. replace ((i <? i) || (n - 1 - i <? i)) with false by lia. replace ((n - 1 - i <? i + 1) || (n - 1 - (n - 1 - i) <? i + 1)) with true by lia. f_equal. lia.
    + rewrite O2 by lia. destruct (Z.eq_dec p i) as [->|D1].
      * rewrite G1, Q by lia. replace ((n - 1 - i <? i) || (n - 1 - (n - 1 - i) <? i)) with false by lia. replace ((i <? i + 1) || (n - 1 - i <? i + 1)) with true by lia. reflexivity.
      * rewrite O1, Q by lia. replace ((p <? i + 1) || (n - 1 - p <? i + 1)) with ((p <? i) || (n - 1 - p <? i)) by lia. reflexivity.
  - exists r'. split; [exact E|]. split; [exact T|]. intros p Hp. rewrite Q by lia. destruct ((p <? n / 2) || (n - 1 - p <? n / 2)) eqn:X; [reflexivity|]. f_equal. lia.
Qed.

(** * 4-state *)
Section unknown_above.
Variables (f : Z -> Z) (n : Z).
Lemma some_or_none (P : Z -> bool) m : (exists p, 0 <= p < m /\ P p = true) \/ forall p, 0 <= p < m -> P p = false.
Proof.
  destruct (existsb P (zrange 0 m)) eqn:E.
  - left. apply existsb_exists in E as (p & I & Q). apply FmtProofs.in_zrange in I. exists p. split; assumption.
  - right. intros p Hp. destruct (P p) eqn:Q; [|reflexivity]. rewrite <- E. symmetry. apply existsb_exists. exists p. split; [apply FmtProofs.in_zrange; lia|exact Q].
Qed.
Definition bad (a : logic) (p : Z) : bool := (64 <=? p) && unknown (sym_at a p).
Lemma bad_iff a p : bad a p = true <-> 64 <= p /\ unknown (sym_at a p) = true.
Proof. unfold bad. rewrite andb_true_iff, Z.leb_le. reflexivity. Qed.
Lemma bad_get a s p : 1 <= n -> ltyped a n s -> 0 <= p < n -> bad a p = true -> logic_get a p = UB.
Proof. intros N A I B. apply bad_iff in B. apply (unread a n s p N A); [lia|apply B]. Qed.
Lemma good_get a s p : ltyped a n s -> 0 <= p < n -> bad a p = false -> exists x, logic_get a p = Ok x /\ ltyped x 1 false /\ sym_at x 0 = sym_at a p.
Proof. intros A I B. apply (l_get a n s p A I). intros U. unfold bad in B. rewrite U in B. lia. Qed.

Lemma gather4_exact a r sa s : 1 <= n -> (forall i, 0 <= i < n -> 0 <= f i < n) -> ltyped a n sa -> ltyped r n s ->
  (gather4 f n a r = UB <-> exists i, 0 <= i < n /\ 64 <= f i /\ unknown (sym_at a (f i)) = true) /\
  (gather4 f n a r <> UB -> exists r', gather4 f n a r = Ok r' /\ ltyped r' n s /\ forall p, 0 <= p < n -> sym_at r' p = sym_at a (f p)).
Proof.
  intros N F A R. destruct (some_or_none (fun i => bad a (f i)) n) as [(i & I & B)|G].
  - assert (U : gather4 f n a r = UB).
    { unfold gather4. apply (zofold_ub _ (fun _ x => ltyped x n s) n i (Z.to_nat (i - 0)) 0 r); [reflexivity|lia|exact R| |].
      - intros j x J T. destruct (bad a (f j)) eqn:Bj; [left; rewrite (bad_get a sa (f j) N A (F j ltac:(lia)) Bj); reflexivity|]. right.
        destruct (good_get a sa (f j) A (F j ltac:(lia)) Bj) as (v & -> & Tv & _). cbn [bind]. destruct (l_set x n s j v T ltac:(lia) Tv) as (x' & E & T' & _). exists x'. split; assumption.
      - intros x T. rewrite (bad_get a sa (f i) N A (F i I) B). reflexivity. }
    split; [|intros C; now elim C]. split; [|intros _; exact U]. intros _. exists i. apply bad_iff in B. tauto.
  - destruct (zrange_ofold_ind (fun r i => let! x := logic_get a (f i) in logic_set_l r i x) (fun k x => ltyped x n s /\ forall p, 0 <= p < k -> sym_at x p = sym_at a (f p)) 0 n r) as (r' & E & T & Q); [lia| | |].
    + split; [exact R|]. intros p Hp. lia.
    + intros i x I [T Q]. destruct (good_get a sa (f i) A (F i I) (G i I)) as (v & -> & Tv & Sv). cbn [bind]. destruct (l_set x n s i v T I Tv) as (x' & -> & T' & Gx & O). eexists. split; [reflexivity|]. split; [exact T'|].
      intros p Hp. destruct (Z.eq_dec p i) as [->|D]; [congruence|]. rewrite O by lia. apply Q. lia.
    + unfold gather4. rewrite E. split; [|intros _; exists r'; split; [reflexivity|split; assumption]]. split; [discriminate|]. intros (i & I & B1 & B2). pose proof (G i I) as X. assert (bad a (f i) = true) by (apply bad_iff; tauto). congruence.
Qed.
Lemma scatter4_exact a r sa s : 1 <= n -> (forall i, 0 <= i < n -> 0 <= f i < n) -> (forall i j, 0 <= i < j -> j < n -> f i <> f j) -> ltyped a n sa -> ltyped r n s ->
  (scatter4 f n a r = UB <-> exists i, 64 <= i < n /\ unknown (sym_at a i) = true) /\
  (scatter4 f n a r <> UB -> exists r', scatter4 f n a r = Ok r' /\ ltyped r' n s /\ forall p, 0 <= p < n -> sym_at r' (f p) = sym_at a p).
Proof.
  intros N F J A R. destruct (some_or_none (bad a) n) as [(i & I & B)|G].
  - assert (U : scatter4 f n a r = UB).
    { unfold scatter4. apply (zofold_ub _ (fun _ x => ltyped x n s) n i (Z.to_nat (i - 0)) 0 r); [reflexivity|lia|exact R| |].
      - intros j x Hj T. destruct (bad a j) eqn:Bj; [left; rewrite (bad_get a sa j N A ltac:(lia) Bj); reflexivity|]. right.
        destruct (good_get a sa j A ltac:(lia) Bj) as (v & -> & Tv & _). cbn [bind]. destruct (l_set x n s (f j) v T (F j ltac:(lia)) Tv) as (x' & E & T' & _). exists x'. split; assumption.
      - intros x T. rewrite (bad_get a sa i N A I B). reflexivity. }
    split; [|intros C; now elim C]. split; [|intros _; exact U]. intros _. exists i. apply bad_iff in B. split; [lia|apply B].
  - destruct (zrange_ofold_ind (fun r i => let! x := logic_get a i in logic_set_l r (f i) x) (fun k x => ltyped x n s /\ forall p, 0 <= p < k -> sym_at x (f p) = sym_at a p) 0 n r) as (r' & E & T & Q); [lia| | |].
    + split; [exact R|]. intros p Hp. lia.
    + intros i x I [T Q]. destruct (good_get a sa i A I (G i I)) as (v & -> & Tv & Sv). cbn [bind]. destruct (l_set x n s (f i) v T (F i I) Tv) as (x' & -> & T' & Gx & O). eexists. split; [reflexivity|]. split; [exact T'|].
      intros p Hp. destruct (Z.eq_dec p i) as [->|D]; [congruence|]. rewrite O; [apply Q; lia|apply F; lia|apply J; lia].
    + unfold scatter4. rewrite E. split; [|intros _; exists r'; split; [reflexivity|split; assumption]]. split; [discriminate|]. intros (i & I & U). pose proof (G i ltac:(lia)) as X. assert (bad a i = true) by (apply bad_iff; split; [lia|exact U]). congruence.
Qed.

Definition half_way (a : logic) (s : bool) (k : Z) (x : logic) : Prop := ltyped x n s /\ forall p, 0 <= p < n -> sym_at x p = if (p <? k) || (n - 1 - p <? k) then sym_at a (n - 1 - p) else sym_at a p.
Lemma half_bad a s k x p : half_way a s k x -> k <= p -> k <= n - 1 - p -> 0 <= p < n -> bad x p = bad a p.
Proof. intros [_ Q] H1 H2 I. unfold bad. rewrite Q by lia. replace ((p <? k) || (n - 1 - p <? k)) with false by lia. reflexivity. Qed.
Lemma half_step a s i x : 1 <= n -> 0 <= i < n / 2 -> half_way a s i x -> bad a i = false -> bad a (n - 1 - i) = false ->
  exists x', (let! t := logic_get x i in let! u := logic_get x (n - 1 - i) in let! a' := logic_set_l x i u in logic_set_l a' (n - 1 - i) t) = Ok x' /\ half_way a s (i + 1) x'.
Proof.
  intros N I W B1 B2. destruct (half n N) as (_ & H). rewrite <- (half_bad a s i x i W) in B1 by lia. rewrite <- (half_bad a s i x (n - 1 - i) W) in B2 by lia. destruct W as [T Q].
  destruct (good_get x s i T ltac:(lia) B1) as (t & -> & Tt & St). cbn [bind]. destruct (good_get x s (n - 1 - i) T ltac:(lia) B2) as (u & -> & Tu & Su). cbn [bind].
  destruct (l_set x n s i u T ltac:(lia) Tu) as (x1 & -> & T1 & G1 & O1). cbn [bind]. destruct (l_set x1 n s (n - 1 - i) t T1 ltac:(lia) Tt) as (x2 & -> & T2 & G2 & O2).
  eexists. split; [reflexivity|]. split; [exact T2|]. intros p Hp.
  destruct (Z.eq_dec p (n - 1 - i)) as [->|D2].
  - rewrite G2, St, Q by lia. replace ((i <? i) || (n - 1 - i <? i)) with false by lia. replace ((n - 1 - i <? i + 1) || (n - 1 - (n - 1 - i) <? i + 1)) with true by lia. f_equal. lia.
  - rewrite O2 by lia. destruct (Z.eq_dec p i) as [->|D1].
    + rewrite G1, Su, Q by lia. replace ((n - 1 - i <? i) || (n - 1 - (n - 1 - i) <? i)) with false by lia. replace ((i <? i + 1) || (n - 1 - i <? i + 1)) with true by lia. reflexivity.
    + rewrite O1, Q by lia. replace ((p <? i + 1) || (n - 1 - p <? i + 1)) with ((p <? i) || (n - 1 - p <? i)) by lia. reflexivity.
Qed.
Lemma reverse4_exact a s : 1 <= n -> ltyped a n s ->
  (reverse4 n a = UB <-> exists p, 64 <= p < n /\ n <> 2 * p + 1 /\ unknown (sym_at a p) = true) /\
  (reverse4 n a <> UB -> exists r, reverse4 n a = Ok r /\ ltyped r n s /\ forall p, 0 <= p < n -> sym_at r p = sym_at a (n - 1 - p)).
Proof.
  intros N A. destruct (half n N) as (H0 & H). assert (W0 : half_way a s 0 a). { split; [exact A|]. intros p Hp. replace ((p <? 0) || (n - 1 - p <? 0)) with false by lia. reflexivity. }
  destruct (some_or_none (fun i => bad a i || bad a (n - 1 - i)) (n / 2)) as [(i & I & B)|G].
  - assert (U : reverse4 n a = UB).
    { unfold reverse4. apply (zofold_ub _ (half_way a s) (n / 2) i (Z.to_nat (i - 0)) 0 a); [reflexivity|lia|exact W0| |].
      - intros j x Hj W. destruct (bad a j) eqn:B1; [left|destruct (bad a (n - 1 - j)) eqn:B2; [left|right]].
        + rewrite <- (half_bad a s j x j W) in B1 by lia. rewrite (bad_get x s j N (proj1 W) ltac:(lia) B1). reflexivity.
        + rewrite <- (half_bad a s j x j W) in B1 by lia. rewrite <- (half_bad a s j x (n - 1 - j) W) in B2 by lia. destruct (good_get x s j (proj1 W) ltac:(lia) B1) as (t & -> & _). cbn [bind]. rewrite (bad_get x s (n - 1 - j) N (proj1 W) ltac:(lia) B2). reflexivity.
        + apply (half_step a s j x N ltac:(lia) W B1 B2).
      - intros x W. rewrite <- (half_bad a s i x i W), <- (half_bad a s i x (n - 1 - i) W) in B by lia. destruct (bad x i) eqn:B1; [rewrite (bad_get x s i N (proj1 W) ltac:(lia) B1); reflexivity|].
        destruct (good_get x s i (proj1 W) ltac:(lia) B1) as (t & -> & _). cbn [bind]. rewrite (bad_get x s (n - 1 - i) N (proj1 W) ltac:(lia) B). reflexivity. }
    split; [|intros C; now elim C]. split; [|intros _; exact U]. intros _. apply orb_true_iff in B as [B|B]; apply bad_iff in B as [B1 B2]; [exists i|exists (n - 1 - i)]; (split; [lia|split; [lia|exact B2]]).
  - destruct (zrange_ofold_ind (fun a i => let! t := logic_get a i in let! u := logic_get a (n - 1 - i) in let! a' := logic_set_l a i u in logic_set_l a' (n - 1 - i) t) (half_way a s) 0 (n / 2) a) as (r' & E & T & Q); [lia|exact W0| |].
    + intros i x I W. pose proof (G i I) as B. apply orb_false_iff in B as [B1 B2]. apply (half_step a s i x N I W B1 B2).
    + unfold reverse4. rewrite E. split.
      * split; [discriminate|]. intros (p & Hp & M & U). assert (B : bad a p = true) by (apply bad_iff; split; [lia|exact U]). destruct (Z_lt_dec p (n / 2)) as [L|L].
        -- pose proof (G p ltac:(lia)) as X. cbv beta in X. rewrite B in X. discriminate.
        -- pose proof (G (n - 1 - p) ltac:(lia)) as X. cbv beta in X. replace (n - 1 - (n - 1 - p)) with p in X by lia. rewrite B, orb_true_r in X. discriminate.
      * intros _. exists r'. split; [reflexivity|]. split; [exact T|]. intros p Hp. rewrite Q by lia. destruct ((p <? n / 2) || (n - 1 - p <? n / 2)) eqn:X; [reflexivity|]. f_equal. lia.
Qed.
End unknown_above.

Lemma gather4_low f n a r sa s : 1 <= n -> (forall i, 0 <= i < n -> 0 <= f i < n) -> ltyped a n sa -> ltyped r n s -> (forall p, 64 <= p < n -> unknown (sym_at a p) = false) ->
  exists r', gather4 f n a r = Ok r' /\ ltyped r' n s /\ forall p, 0 <= p < n -> sym_at r' p = sym_at a (f p).
Proof. intros N F A R U. destruct (gather4_exact f n a r sa s N F A R) as [[X _] Y]. apply Y. intros C. destruct (X C) as (i & I & H & V). pose proof (F i I). rewrite U in V by lia. discriminate. Qed.
Lemma reverse4_low n a s : 1 <= n -> ltyped a n s -> (forall p, 64 <= p < n -> unknown (sym_at a p) = false) ->
  exists r, reverse4 n a = Ok r /\ ltyped r n s /\ forall p, 0 <= p < n -> sym_at r p = sym_at a (n - 1 - p).
Proof. intros N A U. destruct (reverse4_exact n a s N A) as [[X _] Y]. apply Y. intros C. destruct (X C) as (i & I & H & V). rewrite U in V by lia. discriminate. Qed.
