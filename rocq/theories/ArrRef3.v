(** Proofs: exactly when reading and writing a range of elements of a packed array is right. *)
From Coq Require Import ZArith List Bool Lia.
From Verif Require Import Cpp BigNum Bit Logic Arr Spec SpecArr ZBits Words BigNumProofs BitProofs BitSlice BitExt BitOps
  BitShift BitCmp BitMain BitMain2 BitMain3 BitMain4 BitMain5 LogicProofs LogicOps LogicRed LogicArith LogicArith2 LogicConv LogicConv2 LogicMain ArrProofs
  SpecExact SpecMachine SpecWide SpecFour SpecIff3 SpecArrRef ArrRef FourProofs3 Iff6 Iff10.
Open Scope Z_scope.
Local Ltac Zify.zify_post_hook ::= idtac.

Lemma lslice_iff x n s a b : 1 <= n -> ltyped x n s -> tidy (l_val x) -> 0 <= a < n -> 0 <= b < n ->
  (exists r, logic_slice_c x a b = Ok r /\ forall p, 0 <= p < Z.abs (a - b) + 1 -> sym_at r p = sym_at x (Z.min a b + p)) <->
  if s then n = 1 \/ (2 <= n <= 64 /\ Z.max a b + 2 <= storage n /\ (a = b -> a = n - 1 \/ high (sym_at x a) = true \/ high (sym_at x (a + 1)) = false)) \/ (65 <= n /\ Z.abs (a - b) + 1 <> 65)
  else n <= 64 \/ Z.abs (a - b) + 1 <> 65.
Proof.
  intros Hn T D Ha Hb. assert (W := ltyped_lsize x n s Hn T). destruct T as [T1 T2]. unfold logic_slice_c. rewrite W. replace (Z.max a b <? n) with true by lia. cbn [requires].
  assert (E : (exists r, (let! v := bit_slice_c (l_val x) a b in let! m := bit_slice_c (l_xz x) a b in Ok (mkLogic v m)) = Ok r /\ forall p, 0 <= p < Z.abs (a - b) + 1 -> sym_at r p = sym_at x (Z.min a b + p)) <->
    (exists v, bit_slice_c (l_val x) a b = Ok v /\ forall p, 0 <= p < Z.abs (a - b) + 1 -> bit_at v p = bit_at (l_val x) (Z.min a b + p)) /\
    (exists v, bit_slice_c (l_xz x) a b = Ok v /\ forall p, 0 <= p < Z.abs (a - b) + 1 -> bit_at v p = bit_at (l_xz x) (Z.min a b + p))).
  { split.
    - intros (r & E & Q). destruct (bit_slice_c (l_val x) a b) as [v| | | |]; cbn [bind] in E; try discriminate. destruct (bit_slice_c (l_xz x) a b) as [m| | | |]; cbn [bind] in E; try discriminate. injection E as <-.
      split; eexists; (split; [reflexivity|]); intros p Hp; specialize (Q p Hp); unfold sym_at in Q; cbn [l_val l_xz] in Q; apply sym_of_inj in Q; apply Q.
    - intros [(v & -> & Qv) (m & -> & Qm)]. cbn [bind]. eexists. split; [reflexivity|]. intros p Hp. unfold sym_at. cbn [l_val l_xz]. now rewrite Qv, Qm. }
  rewrite E. assert (X : (exists v, bit_slice_c (l_xz x) a b = Ok v /\ forall p, 0 <= p < Z.abs (a - b) + 1 -> bit_at v p = bit_at (l_xz x) (Z.min a b + p)) <-> n <= 64 \/ Z.abs (a - b) + 1 <> 65).
  { split.
    - intros (v & Ev & _). destruct (Z.le_gt_cases n 64); [auto|]. right. intros F. rewrite (slice_65_rejected _ n) in Ev by (auto; lia). discriminate.
    - intros C. destruct (slice_const_unsigned _ n a b Hn T2 Ha Hb C) as (r & A & _ & _ & B). eauto. }
  rewrite X. unfold sym_at. rewrite !high_sym. destruct s.
  - rewrite (slice_signed_iff _ n a b Hn T1 D Ha Hb). split; [tauto|]. intros C. split; [exact C|]. lia.
  - split; [tauto|]. intros C. split; [|exact C]. destruct (slice_const_unsigned _ n a b Hn T1 Ha Hb C) as (r & A & _ & _ & B). eauto.
Qed.
Lemma range_read4_iff t a hi lo st w : arr4 t a -> tidy (l_val a) -> element t hi -> element t lo -> st = start t (Z.min hi lo) -> w = (Z.abs (hi - lo) + 1) * pa_base t ->
  (exists r, pa_slice_array t a hi lo = Ok r /\ forall p, 0 <= p < w -> sym_at r p = sym_at a (st + p)) <-> range_right4 t a st w.
Proof.
  intros A D E1 E2 Es Ew. destruct (arr4_facts t a A) as (Hb & Hn & _ & T). destruct (range_addr t hi lo Hb E1 E2) as (P & Q & R1 & R2 & R3). rewrite <- Ew, <- Es in *. change (pa_base t * elems t) with (bits t) in *. unfold pa_slice_array. rewrite P, Q.
  assert (I := lslice_iff a (bits t) (pa_sgn t) (st + w - 1) st ltac:(lia) T D ltac:(lia) ltac:(lia)). replace (Z.abs (st + w - 1 - st) + 1) with w in I by lia. replace (Z.min (st + w - 1) st) with st in I by lia. replace (Z.max (st + w - 1) st) with (st + w - 1) in I by lia.
  rewrite I. unfold range_right4. cbv zeta. destruct (pa_sgn t); [|reflexivity]. assert (C : (st + w - 1 = st -> st + w - 1 = bits t - 1 \/ high (sym_at a (st + w - 1)) = true \/ high (sym_at a (st + w - 1 + 1)) = false) <-> (w = 1 -> st + 1 = bits t \/ high (sym_at a st) = true \/ high (sym_at a (st + 1)) = false)).
  { split; intros H G.
    - rewrite G in H. replace (st + 1 - 1) with st in H by lia. specialize (H eq_refl). destruct H; [left; lia|right; assumption].
    - assert (G1 : w = 1) by lia. specialize (H G1). rewrite G1. replace (st + 1 - 1) with st by lia. destruct H; [left; lia|right; assumption]. }
  rewrite C. replace (st + w - 1 + 2) with (st + w + 1) by lia. reflexivity.
Qed.
Lemma range_read2_iff t a hi lo st w : arr2 t a -> tidy a -> element t hi -> element t lo -> st = start t (Z.min hi lo) -> w = (Z.abs (hi - lo) + 1) * pa_base t ->
  (exists r, pa_slice_array_bit t a hi lo = Ok r /\ forall p, 0 <= p < w -> bit_at r p = bit_at a (st + p)) <-> range_right2 t a st w.
Proof.
  intros A D E1 E2 Es Ew. destruct (arr2_facts t a A) as (Hb & Hn & _ & T). destruct (range_addr t hi lo Hb E1 E2) as (P & Q & R1 & R2 & R3). rewrite <- Ew, <- Es in *. change (pa_base t * elems t) with (bits t) in *.
  unfold pa_slice_array_bit. rewrite P, Q. rewrite (typed_bsize a (bits t) (pa_sgn t) ltac:(lia) T). unfold range_right2. cbv zeta. unfold native_num. destruct (Z.leb_spec (bits t) 64) as [L|L]; cbn [requires].
  2: { split; [intros (r & X & _); discriminate|lia]. }
  destruct (pa_sgn t) eqn:Sg.
  - assert (I := slice_signed_iff a (bits t) (st + w - 1) st ltac:(lia) T D ltac:(lia) ltac:(lia)). replace (Z.abs (st + w - 1 - st) + 1) with w in I by lia. replace (Z.min (st + w - 1) st) with st in I by lia. replace (Z.max (st + w - 1) st) with (st + w - 1) in I by lia.
    rewrite I. assert (C : (st + w - 1 = st -> st + w - 1 = bits t - 1 \/ bit_at a (st + w - 1) = true \/ bit_at a (st + w - 1 + 1) = false) <-> (w = 1 -> st + 1 = bits t \/ bit_at a st = true \/ bit_at a (st + 1) = false)).
    { split; intros H G.
      - rewrite G in H. replace (st + 1 - 1) with st in H by lia. specialize (H eq_refl). destruct H; [left; lia|right; assumption].
      - assert (G1 : w = 1) by lia. specialize (H G1). rewrite G1. replace (st + 1 - 1) with st by lia. destruct H; [left; lia|right; assumption]. }
    rewrite C. replace (st + w - 1 + 2) with (st + w + 1) by lia. split.
    + intros [H|[(H1 & H2)|H]]; [split; [lia|intros _; left; exact H]|split; [lia|intros _; right; exact H2]|lia].
    + intros [_ H]. destruct (H eq_refl) as [X|X]; [left; exact X|]. destruct (Z.eq_dec (bits t) 1) as [O|O]; [left; exact O|]. right. left. split; [lia|exact X].
  - split; [intros _; split; [exact L|discriminate]|]. intros _. destruct (slice_const_unsigned a (bits t) (st + w - 1) st ltac:(lia) T ltac:(lia) ltac:(lia) (or_introl L)) as (r & X & _ & _ & Y). exists r. split; [exact X|].
    replace (Z.abs (st + w - 1 - st) + 1) with w in Y by lia. replace (Z.min (st + w - 1) st) with st in Y by lia. exact Y.
Qed.
Lemma range_write4_iff t a hi lo v k sv st w : arr4 t a -> element t hi -> element t lo -> st = start t (Z.min hi lo) -> w = (Z.abs (hi - lo) + 1) * pa_base t -> 1 <= k -> ltyped v k sv ->
  ((exists r, pa_update_c t a hi lo v = Ok r /\ (forall p, 0 <= p < w -> sym_at r (st + p) = if p <? k then sym_at v p else S0) /\ forall q, 0 <= q < bits t -> ~ st <= q < st + w -> sym_at r q = sym_at a q) <->
   ~ lost v (Z.min k w)) /\ (pa_update_c t a hi lo v = UB <-> lost v (Z.min k w)).
Proof.
  intros A E1 E2 Es Ew Hk Tv. destruct (arr4_facts t a A) as (Hb & Hn & _ & T). destruct (range_addr t hi lo Hb E1 E2) as (P & Q & R1 & R2 & R3). rewrite <- Ew, <- Es in *. change (pa_base t * elems t) with (bits t) in *.
  unfold pa_update_c. rewrite P, Q. rewrite (lupdate_c a (bits t) (pa_sgn t)) by (auto; lia).
  destruct (update_iff a (bits t) (pa_sgn t) v k sv (st + w - 1) st ltac:(lia) Hk T Tv ltac:(lia) ltac:(lia)) as [I1 I2].
  replace (Z.abs (st + w - 1 - st)) with (w - 1) in * by lia. replace (Z.min (st + w - 1) st) with st in * by lia. replace (Z.max (st + w - 1) st) with (st + w - 1) in * by lia.
  assert (Ls : lost v (Z.min k w) <-> exists q, 64 <= q < k /\ q <= w - 1 /\ unknown (sym_at v q) = true).
  { unfold lost. split; intros (q & H); exists q; [destruct H as [H U]|destruct H as (H & H' & U)]; repeat split; auto; lia. }
  split; [|rewrite I2; symmetry; exact Ls].
  assert (F : ~ lost v (Z.min k w) <-> (forall q, 64 <= q < k -> q <= w - 1 -> unknown (sym_at v q) = false)).
  { rewrite Ls. split; [intros N q H1 H2; destruct (unknown (sym_at v q)) eqn:U; [exfalso; apply N; eauto|reflexivity]|]. intros H (q & H1 & H2 & U). rewrite H in U by assumption. discriminate. }
  rewrite F, <- I1. split; intros (r & X & Y).
  - exists r. split; [exact X|]. intros p Hp. destruct Y as [Y1 Y2]. destruct ((st <=? p) && (p <=? st + w - 1)) eqn:C.
    + replace p with (st + (p - st)) at 1 by lia. apply Y1. lia.
    + apply Y2; [exact Hp|lia].
  - exists r. split; [exact X|]. split.
    + intros p Hp. rewrite Y by lia. replace ((st <=? st + p) && (st + p <=? st + w - 1)) with true by lia. now replace (st + p - st) with p by lia.
    + intros q Hq Out. rewrite Y by exact Hq. replace ((st <=? q) && (q <=? st + w - 1)) with false by lia. reflexivity.
Qed.
