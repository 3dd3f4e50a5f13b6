(** Proofs: exactly when writing an element of a packed array is right. *)
From Coq Require Import ZArith List Bool Lia.
From Verif Require Import Cpp BigNum Bit Logic Arr Spec SpecArr ZBits Words BigNumProofs BitProofs BitSlice BitExt BitOps
  BitShift BitCmp BitMain BitMain2 BitMain3 BitMain4 BitMain5 LogicProofs LogicOps LogicRed LogicArith LogicArith2 LogicConv LogicConv2 LogicMain ArrProofs
  SpecExact SpecMachine SpecWide SpecFour SpecIff3 SpecArrRef MachineProofs MachineProofs3 MachineProofs4 WideProofs WideProofs4 WideProofs5 FourProofs FourProofs2 Iff5 ArrRef.
From Verif Require Iff14.
Open Scope Z_scope.
Local Ltac Zify.zify_post_hook ::= idtac.

(** * one position of a plain vector set, the position being any int *)
Lemma rewritten_bit a z p : vec a -> 2 <= bw a -> 0 <= p < bw a -> bit_at (rewritten a z) p = Z.testbit z p.
Proof.
  intros V H Hp. rewrite bit_at_stored by (rewrite rewritten_bw; exact Hp). destruct (Z.le_gt_cases (bw a) 64) as [L|L].
  - rewrite rewritten_small by exact L. unfold written. cbn [stored bval].
    assert (Hs : bw a <= storage (bw a)) by (unfold storage; destruct (bw a <=? 8) eqn:?, (bw a <=? 16) eqn:?, (bw a <=? 32) eqn:?; lia).
    assert (E := store_mod_eq (bw a) (bsgn a) z ltac:(lia)). apply (f_equal (fun u => Z.testbit u p)) in E. rewrite !testbit_mod_pow2 in E by lia. replace (p <? storage (bw a)) with true in E by lia. exact E.
  - rewrite stored_rewritten by lia. pose proof (capacity_ge (bw a) ltac:(lia)). rewrite testbit_mod_pow2 by lia. replace (p <? capacity (bw a)) with true by lia. reflexivity.
Qed.
Definition out_of_word (n j : Z) : bool := (n <=? 64) && negb ((0 <=? j) && (j <? 64)).
Lemma set_plain a n s j x : 1 <= n -> typed a n s -> int_ok j ->
  if out_of_word n j then bit_set a j x = UB /\ bit_set_bit0 a j x = UB
  else exists r, bit_set a j x = Ok r /\ bit_set_bit0 a j x = Ok r /\ typed r n s /\ forall p, 0 <= p < n -> bit_at r p = if p =? j then x else bit_at a p || ((n =? 1) && x).
Proof.
  intros Hn T J. assert (V := BitMain3.typed_vec a n s T). assert (W := typed_bw a n s Hn T). pose proof (typed_lt a n s Hn T) as Ln. rewrite set_any, set_bit0_any by assumption.
  destruct T as (_ & [P1 P2] & P3). unfold any_with_position, any_with_position_bit, with_position, small, slot. rewrite P1, P2, W.
  rewrite (proj2 (Z.leb_le 0 (n - 1))) by lia. rewrite Z.min_l by lia. cbn zeta. rewrite Z.sub_0_r. unfold out_of_word. destruct (Z.leb_spec n 64) as [L|L]; cbn [andb].
  - destruct ((0 <=? j) && (j <? 64)) eqn:R; cbn [negb]; [|split; reflexivity]. set (z := if x then _ else _). exists (written a z). split; [reflexivity|]. split; [reflexivity|].
    rewrite <- rewritten_small by lia. split; [split; [apply rewritten_vec; exact V|split; [split; assumption|exact P3]]|]. intros p Hp. destruct (Z.eq_dec n 1) as [E1|E1].
    + subst n. assert (p = 0) as -> by lia. rewrite bit_at_stored by (rewrite rewritten_bw; lia). rewrite bit_at_stored by lia. rewrite rewritten_small by lia. unfold written, store. rewrite E1. change (1 =? 1) with true. cbn [stored bval andb].
      assert (S01 : stored a = 0 \/ stored a = 1). { destruct (vec_cases a V) as [(v & Ea & _ & Ia & Sa)|(ws & _ & B & _)]; [|lia]. rewrite Sa. rewrite E1 in Ia. apply in_ity_range in Ia. cbn in Ia. lia. }
      assert (Hj : 0 <= j < 64) by lia. subst z. destruct x.
      * rewrite orb_true_r. destruct (Z.eqb_spec (Z.setbit (stored a) j) 0) as [Ez|_]; [|now destruct (0 =? j)]. exfalso. apply (f_equal (fun u => Z.testbit u j)) in Ez. rewrite Z.setbit_eq, Z.bits_0 in Ez by lia. discriminate.
      * rewrite orb_false_r. destruct (Z.eqb_spec 0 j) as [E0|E0].
        -- subst j. destruct S01 as [-> | ->]; reflexivity.
        -- assert (Z.clearbit (stored a) j = stored a) as ->. { apply Z.bits_inj'. intros q Hq. rewrite Z.clearbit_eqb. destruct (Z.eqb_spec j q) as [->|]; [|now rewrite andb_true_r]. rewrite andb_false_r. destruct S01 as [-> | ->]; [now rewrite Z.bits_0|]. destruct q; [lia|reflexivity|lia]. }
           destruct S01 as [-> | ->]; reflexivity.
    + rewrite rewritten_bit by (try exact V; lia). rewrite bit_at_stored by lia. replace (n =? 1) with false by lia. cbn [andb]. rewrite orb_false_r. subst z.
      destruct x; [rewrite Z.setbit_eqb by lia|rewrite Z.clearbit_eqb]; rewrite (Z.eqb_sym j p); destruct (p =? j); cbn; try reflexivity; [now rewrite andb_false_r|now rewrite andb_true_r].
  - set (j' := j mod 2 ^ 64). exists (placed a j' x). split; [reflexivity|]. split; [reflexivity|]. unfold placed. split; [split; [apply rewritten_vec; exact V|split; [split; assumption|exact P3]]|].
    intros p Hp. rewrite rewritten_bit by (try exact V; lia). rewrite bit_at_stored by lia. replace (n =? 1) with false by lia. cbn [andb]. rewrite orb_false_r, W.
    assert (Jj : (0 <= j /\ j' = j) \/ (j < 0 /\ n <= j')).
    { subst j'. unfold int_ok in J. destruct (Z.le_gt_cases 0 j); [left; split; [assumption|apply Z.mod_small; lia]|right]. split; [assumption|]. rewrite <- (Z.mod_unique j (2 ^ 64) (-1) (j + 2 ^ 64)); lia. }
    destruct (Z.ltb_spec j' n) as [Lt|Ge].
    + destruct Jj as [[Jp ->]|[? ?]]; [|lia]. destruct x; [rewrite Z.setbit_eqb by lia|rewrite Z.clearbit_eqb]; rewrite (Z.eqb_sym j p); destruct (p =? j); cbn; try reflexivity; [now rewrite andb_false_r|now rewrite andb_true_r].
    + destruct (Z.eqb_spec p j); [lia|reflexivity].
Qed.
Definition sym_or (c d : sym) : sym := sym_of (high c || high d) (unknown c || unknown d).
Lemma sym_split b c : sym_of b c = sym_of (high (sym_of b c)) (unknown (sym_of b c)). Proof. destruct b, c; reflexivity. Qed.
Lemma lset_plain l n s j b : 1 <= n -> ltyped l n s -> int_ok j ->
  let c := sym_of (bit0_bool (l_val b)) (bit0_bool (l_xz b)) in
  if out_of_word n j then logic_set_l l j b = UB
  else exists r, logic_set_l l j b = Ok r /\ ltyped r n s /\ forall p, 0 <= p < n -> sym_at r p = if p =? j then c else if n =? 1 then sym_or (sym_at l p) c else sym_at l p.
Proof.
  intros Hn [T1 T2] J. cbn zeta. unfold logic_set_l. assert (A := set_plain (l_val l) n s j (bit0_bool (l_val b)) Hn T1 J). assert (B := set_plain (l_xz l) n false j (bit0_bool (l_xz b)) Hn T2 J).
  destruct (out_of_word n j); [destruct A as [-> _]; reflexivity|]. destruct A as (r1 & -> & _ & A1 & A2). destruct B as (r2 & -> & _ & B1 & B2). cbn [bind]. eexists. split; [reflexivity|]. split; [split; assumption|].
  intros p Hp. unfold sym_at. cbn [l_val l_xz]. rewrite A2, B2 by exact Hp. destruct (p =? j); [reflexivity|]. destruct (n =? 1); cbn [andb]; [|now rewrite !orb_false_r].
  unfold sym_or. destruct (bit_at (l_val l) p), (bit_at (l_xz l) p), (bit0_bool (l_val b)), (bit0_bool (l_xz b)); reflexivity.
Qed.
(** * one step of the 4-state loop *)
Definition lost_at (op : logic) (k q : Z) : bool := (64 <=? q) && (q <? k) && unknown (sym_at op q).
Definition filled (op : logic) (k q : Z) : sym := if q <? k then sym_at op q else S0.
Lemma step4 x n s op k so st i : 1 <= n -> 1 <= k -> ltyped x n s -> ltyped op k so -> st <= i -> i - st < 2 ^ 31 -> int_ok i ->
  if lost_at op k (i - st) || out_of_word n i then logic_update_step st op x i = UB
  else exists r, logic_update_step st op x i = Ok r /\ ltyped r n s /\
    forall p, 0 <= p < n -> sym_at r p = if p =? i then filled op k (i - st) else if n =? 1 then sym_or (sym_at x p) (filled op k (i - st)) else sym_at x p.
Proof.
  intros Hn Hk Tx To Hi Hq Ii. destruct (ltyped_plain x n s Hn Tx) as (X1 & X2 & X3 & X4). destruct (ltyped_plain op k so Hk To) as (O1 & O2 & O3 & O4).
  pose proof (ltyped_lt x n s Hn Tx) as Ln. pose proof (ltyped_lt op k so Hk To) as Lk.
  unfold logic_update_step. rewrite X1, X2, O1, O2. assert (big_endian (k - 1) 0 = true) as -> by (unfold big_endian; apply Z.leb_le; lia).
  assert (big_endian (n - 1) 0 = true) as -> by (unfold big_endian; apply Z.leb_le; lia). cbn [xorb].
  rewrite Z.max_r, Z.min_l by lia. rewrite !u64_id by lia. replace (i - st <? 0) with false by lia. rewrite orb_false_r. unfold filled, lost_at.
  destruct (Z.ltb_spec (k - 1) (i - st)) as [Q|Q].
  - replace (i - st <? k) with false by lia. rewrite andb_false_r. cbn [andb orb bind]. exact (lset_plain x n s i logic_zero Hn Tx Ii).
  - replace (i - st <? k) with true by lia. rewrite i32_id by lia. rewrite (logic_get_spec op (i - st) O4 O3); [|unfold in_range; rewrite O1, O2; lia].
    assert (Pl : place (lmsb op) (llsb op) (i - st) = i - st) by (unfold place; rewrite O1, O2; rewrite (proj2 (Z.leb_le _ _)) by lia; lia). rewrite Pl.
    rewrite andb_true_r. rewrite (andb_comm (unknown _)). destruct (_ && _) eqn:U; cbn [bind orb]; [reflexivity|].
    match goal with |- context [logic_set_l x i ?b] => pose proof (lset_plain x n s i b Hn Tx Ii) as A; cbn zeta in A; replace (sym_of (bit0_bool (l_val b)) (bit0_bool (l_xz b))) with (sym_at op (i - st)) in A end.
    + exact A.
    + destruct (sym_at op (i - st)); reflexivity.
Qed.
(** * the loops *)
Lemma loop_gen {X} (f : X -> Z -> outcome X) (bad : Z -> bool) (P : Z -> X -> Prop) hi : forall c lo x0, Z.to_nat (hi - lo) = c -> lo <= hi -> P lo x0 ->
  (forall i x, lo <= i < hi -> P i x -> if bad i then f x i = UB else exists x', f x i = Ok x' /\ P (i + 1) x') ->
  ((exists i, lo <= i < hi /\ bad i = true) /\ ofold f (zrange lo hi) x0 = UB) \/ ((forall i, lo <= i < hi -> bad i = false) /\ exists r, ofold f (zrange lo hi) x0 = Ok r /\ P hi r).
Proof.
  induction c as [|c IH]; intros lo x0 Ec Hl P0 St.
  - right. assert (lo = hi) as <- by lia. split; [intros i Hi; lia|]. exists x0. unfold zrange. rewrite Ec. split; [reflexivity|exact P0].
  - assert (Z1 : zrange lo hi = lo :: zrange (lo + 1) hi). { unfold zrange. rewrite Ec. replace (Z.to_nat (hi - (lo + 1))) with c by lia. cbn [seq map]. rewrite Z.add_0_r. f_equal. rewrite <- seq_shift, map_map. apply map_ext. intros; lia. }
    rewrite Z1. cbn [ofold]. assert (A := St lo x0 ltac:(lia) P0). destruct (bad lo) eqn:B.
    + left. split; [exists lo; split; [lia|exact B]|]. rewrite A. reflexivity.
    + destruct A as (x' & -> & P1). cbn [bind]. destruct (IH (lo + 1) x' ltac:(lia) ltac:(lia) P1) as [[(i & Hi & Bi) E]|[Al E]].
      { intros i x Hi. apply St. lia. }
      * left. split; [exists i; split; [lia|exact Bi]|exact E].
      * right. split; [|exact E]. intros i Hi. destruct (Z.eq_dec i lo) as [->|]; [exact B|apply Al; lia].
Qed.
Definition bad4 (op : logic) (n k st i : Z) : bool := lost_at op k (i - st) || out_of_word n i.
Lemma update4_all x n s op k so st w : 1 <= n -> 1 <= k -> ltyped x n s -> ltyped op k so -> 1 <= w < 2 ^ 31 -> int_ok st -> int_ok (st + w) ->
  ((exists i, st <= i <= st + w /\ bad4 op n k st i = true) /\ logic_update_r x st (st + w) op = UB) \/
  ((forall i, st <= i <= st + w -> bad4 op n k st i = false) /\ exists r, logic_update_r x st (st + w) op = Ok r /\ ltyped r n s /\
     (2 <= n -> forall p, 0 <= p < n -> sym_at r p = if (st <=? p) && (p <=? st + w) then filled op k (p - st) else sym_at x p) /\
     (n = 1 -> w = 1 -> k = 1 -> sym_at r 0 = if st =? 0 then sym_at op 0 else if st =? -1 then S0 else sym_or (sym_at x 0) (sym_at op 0))).
Proof.
  intros Hn Hk Tx To Hw I1 I2. unfold logic_update_r. rewrite Z.min_l, Z.max_r by lia.
  destruct (loop_gen (logic_update_step st op) (bad4 op n k st)
    (fun i y => ltyped y n s /\ (2 <= n -> forall p, 0 <= p < n -> sym_at y p = if (st <=? p) && (p <? i) then filled op k (p - st) else sym_at x p) /\
       (n = 1 -> w = 1 -> k = 1 -> sym_at y 0 = if i =? st then sym_at x 0 else if st =? 0 then sym_at op 0 else if i =? st + 1 then sym_or (sym_at x 0) (sym_at op 0) else if st =? -1 then S0 else sym_or (sym_at x 0) (sym_at op 0)))
    (st + w + 1) (Z.to_nat (st + w + 1 - st)) st x eq_refl ltac:(lia)) as [[(i & Hi & Bi) E]|[Al (r & E & T & Q1 & Q2)]].
  - split; [exact Tx|]. split; [intros _ p Hp; replace ((st <=? p) && (p <? st)) with false by lia; reflexivity|]. intros _ _ _. now rewrite Z.eqb_refl.
  - intros i y Hi (Ty & Y1 & Y2). unfold int_ok in I1, I2. assert (A := step4 y n s op k so st i Hn Hk Ty To ltac:(lia) ltac:(lia) ltac:(unfold int_ok; lia)). unfold bad4. destruct (lost_at op k (i - st) || out_of_word n i); [exact A|].
    destruct A as (y' & E & Ty' & Q). exists y'. split; [exact E|]. split; [exact Ty'|]. split.
    + intros H2 p Hp. rewrite Q by exact Hp. replace (n =? 1) with false by lia. destruct (Z.eqb_spec p i) as [->|Ne].
      * replace ((st <=? i) && (i <? i + 1)) with true by lia. reflexivity.
      * rewrite Y1 by assumption. replace ((st <=? p) && (p <? i + 1)) with ((st <=? p) && (p <? i)) by lia. reflexivity.
    + intros E1 Ew Ek. specialize (Y2 E1 Ew Ek). subst n w k. rewrite Q by lia. change (1 =? 1) with true. cbn match. unfold filled.
      replace (i + 1 =? st) with false by lia. destruct (Z.eqb_spec i st) as [->|Ne].
      * rewrite Y2. replace (st - st) with 0 by lia. change (0 <? 1) with true. cbn match. rewrite (Z.eqb_sym 0 st), Z.eqb_refl. destruct (st =? 0); reflexivity.
      * assert (i = st + 1) as -> by lia. replace (st + 1 + 1 =? st + 1) with false by lia. replace (st + 1 - st <? 1) with false by lia. rewrite Y2. rewrite Z.eqb_refl.
        destruct (Z.eqb_spec st 0) as [E0|E0]; [replace (0 =? st + 1) with false by lia; destruct (sym_at op 0); reflexivity|].
        destruct (Z.eqb_spec st (-1)) as [E3|E3]; [replace (0 =? st + 1) with true by lia; reflexivity|]. replace (0 =? st + 1) with false by lia. destruct (sym_at x 0), (sym_at op 0); reflexivity.
  - left. split; [exists i; split; [lia|exact Bi]|exact E].
  - right. split; [intros i Hi; apply Al; lia|]. exists r. split; [exact E|]. split; [exact T|]. split.
    + intros H2 p Hp. rewrite Q1 by assumption. replace ((st <=? p) && (p <? st + w + 1)) with ((st <=? p) && (p <=? st + w)) by lia. reflexivity.
    + intros E1 Ew Ek. rewrite Q2 by assumption. replace (st + w + 1 =? st) with false by lia. replace (st + w + 1 =? st + 1) with false by lia. reflexivity.
Qed.
(** * elements of 4-state arrays *)
Lemma update4_given t a op v i : arr4 t a -> index op i -> (lw op = 1 -> lsgn op = false) ->
  pa_update t a op v = if (0 <=? i) && (i <? bits t) then (if addressable t i then logic_update_r a (start t i) (start t i + pa_base t) v else UB) else Ok a.
Proof.
  intros A Ix O. destruct (arr4_facts t a A) as (Hb & Hn & _). assert (V : lvec op) by apply Ix. assert (E := index_given t op i Ix O Hn). rewrite <- (index_ref t op V Hb ltac:(lia)) in E. unfold pa_update.
  destruct (pa_index_bad t op) as [[|]| | | |]; cbn [bind] in *; try (destruct (_ && _); discriminate).
  - destruct (_ && _); [discriminate|reflexivity].
  - destruct (pa_index op) as [j| | | |]; cbn [bind omap] in *; try (destruct (_ && _); discriminate). destruct ((0 <=? i) && (i <? bits t)); [|discriminate]. injection E as ->.
    rewrite addresses_ref. destruct (addressable t i); reflexivity.
Qed.
Lemma update2_given t a op v i : arr2 t a -> index op i -> (lw op = 1 -> lsgn op = false) ->
  pa_update_bit t a op v = if (0 <=? i) && (i <? bits t) then (if addressable t i then bit_update_r a (start t i) (start t i + pa_base t) v else UB) else Ok a.
Proof.
  intros A Ix O. destruct (arr2_facts t a A) as (Hb & Hn & _). assert (V : lvec op) by apply Ix. assert (E := index_given t op i Ix O Hn). rewrite <- (index_ref t op V Hb ltac:(lia)) in E. unfold pa_update_bit.
  destruct (pa_index_bad t op) as [[|]| | | |]; cbn [bind] in *; try (destruct (_ && _); discriminate).
  - destruct (_ && _); [discriminate|reflexivity].
  - destruct (pa_index op) as [j| | | |]; cbn [bind omap] in *; try (destruct (_ && _); discriminate). destruct ((0 <=? i) && (i <? bits t)); [|discriminate]. injection E as ->.
    rewrite addresses_ref. destruct (addressable t i); reflexivity.
Qed.
Lemma start_sign t i : 1 <= pa_base t -> (start t i < 0 <-> i < lower t).
Proof. intros H. unfold start, lower. nia. Qed.
Lemma out_range n st w : 1 <= w -> ((exists i, st <= i <= st + w /\ out_of_word n i = true) <-> n <= 64 /\ (st < 0 \/ 64 <= st + w)).
Proof.
  intros Hw. unfold out_of_word. split.
  - intros (i & Hi & B). lia.
  - intros (Hn & [L|L]); [exists st|exists (st + w)]; lia.
Qed.
Lemma bad4_iff t v i : 1 <= pa_base t -> ((exists j, start t i <= j <= start t i + pa_base t /\ bad4 v (bits t) (pa_base t) (start t i) j = true) <-> undefined_write4 t v i).
Proof.
  intros Hb. unfold undefined_write4, bad4, lost. rewrite <- (start_sign t i Hb), <- (out_range (bits t) (start t i) (pa_base t) Hb). split.
  - intros (j & Hj & B). apply orb_prop in B. destruct B as [B|B]; [left|right; eauto]. unfold lost_at in B. apply andb_prop in B. exists (j - start t i). split; [lia|apply B].
  - intros [(q & Hq & U)|(j & Hj & B)]; [exists (start t i + q)|exists j]; (split; [lia|]).
    + unfold lost_at. replace (start t i + q - start t i) with q by lia. rewrite U. replace (64 <=? q) with true by lia. replace (q <? pa_base t) with true by lia. reflexivity.
    + rewrite B. apply orb_true_r.
Qed.
Lemma one_bits t : 1 <= pa_base t -> bits t = 1 -> pa_base t = 1 /\ elems t = 1.
Proof. intros Hb E. pose proof (elems_pos t). unfold bits in E. nia. Qed.
Lemma write4_iff t a op i v sv : arr4 t a -> index op i -> (lw op = 1 -> lsgn op = false) -> element t i -> ltyped v (pa_base t) sv ->
  ((exists r, pa_update t a op v = Ok r /\ (forall p, 0 <= p < pa_base t -> sym_at r (start t i + p) = sym_at v p) /\
      (forall q, 0 <= q < bits t -> ~ start t i <= q < start t i + pa_base t -> sym_at r q = sym_at a q)) <-> writes_right4 t a v i) /\
  (pa_update t a op v = UB <-> 0 <= i < bits t /\ undefined_write4 t v i).
Proof.
  intros A Ix O El Tv. destruct (arr4_facts t a A) as (Hb & Hn & La & T). destruct (base_bits t i Hb El) as (B1 & B2 & B3). rewrite (update4_given t a op v i A Ix O). unfold writes_right4.
  destruct ((0 <=? i) && (i <? bits t)) eqn:Ei.
  - assert (Hi : 0 <= i < bits t) by lia. assert (Ad := element_addressable t i Hb ltac:(lia) El). rewrite Ad. destruct (addressable_ints t i Ad) as [I1 I2].
    destruct (update4_all a (bits t) (pa_sgn t) v (pa_base t) sv (start t i) (pa_base t) ltac:(lia) Hb T Tv ltac:(lia) I1 I2) as [[Bd E]|[Gd (r & E & Tr & Q1 & Q2)]]; rewrite E.
    + apply (bad4_iff t v i Hb) in Bd. split; [split; [intros (r & X & _); discriminate|intros [X _]; tauto]|tauto].
    + assert (Gd' : ~ undefined_write4 t v i). { intros U. apply (bad4_iff t v i Hb) in U. destruct U as (j & Hj & U). rewrite Gd in U by exact Hj. discriminate. }
      split; [|split; [discriminate|tauto]]. destruct (Z.eq_dec (bits t) 1) as [One|N1].
      * destruct (one_bits t Hb One) as [O1 O2]. rewrite O1 in *. assert (St : start t i = 0) by lia. rewrite St in *. specialize (Q2 One eq_refl eq_refl). split; [intros _; split; [exact Gd'|lia]|]. intros _. exists r. split; [reflexivity|]. split; [|intros q H1 H2; lia].
        intros p Hp. assert (p = 0) as -> by lia. exact Q2.
      * specialize (Q1 ltac:(lia)). split.
        -- intros (r' & X & _ & K). injection X as <-. split; [exact Gd'|]. intros Lt. specialize (K (start t i + pa_base t) ltac:(lia) ltac:(lia)). rewrite Q1 in K by lia.
           replace ((start t i <=? start t i + pa_base t) && (start t i + pa_base t <=? start t i + pa_base t)) with true in K by lia. unfold filled in K. replace (start t i + pa_base t - start t i <? pa_base t) with false in K by lia. now symmetry.
        -- intros [_ K]. exists r. split; [reflexivity|]. split.
           ++ intros p Hp. rewrite Q1 by lia. replace ((start t i <=? start t i + p) && (start t i + p <=? start t i + pa_base t)) with true by lia. unfold filled. replace (start t i + p - start t i) with p by lia. replace (p <? pa_base t) with true by lia. reflexivity.
           ++ intros q Hq Out. rewrite Q1 by exact Hq. destruct ((start t i <=? q) && (q <=? start t i + pa_base t)) eqn:Eq; [|reflexivity]. assert (q = start t i + pa_base t) as -> by lia.
              unfold filled. replace (start t i + pa_base t - start t i <? pa_base t) with false by lia. symmetry. apply K. lia.
  - split; [|split; [discriminate|lia]]. split.
    + intros (r & X & K & _). injection X as <-. exact K.
    + intros K. exists a. split; [reflexivity|]. split; [exact K|]. reflexivity.
Qed.
Lemma write4_none_iff t a op i v sv : arr4 t a -> index op i -> (lw op = 1 -> lsgn op = false) -> ~ element t i -> ltyped v (pa_base t) sv ->
  (exists r, pa_update t a op v = Ok r /\ forall q, 0 <= q < bits t -> sym_at r q = sym_at a q) <-> writes_nothing4 t a v i.
Proof.
  intros A Ix O El Tv. destruct (arr4_facts t a A) as (Hb & Hn & La & T). rewrite (update4_given t a op v i A Ix O). unfold writes_nothing4. destruct ((0 <=? i) && (i <? bits t)) eqn:Ei.
  2: { split; [intros _; left; lia|]. intros _. exists a. split; reflexivity. }
  assert (Hi : 0 <= i < bits t) by lia. destruct (addressable t i) eqn:Ad.
  2: { split; [intros (r & X & _); discriminate|]. intros [X|(X & _)]; [tauto|discriminate]. }
  destruct (addressable_ints t i Ad) as [I1 I2]. assert (Bn : pa_base t <= bits t) by (unfold bits; pose proof (elems_pos t); nia).
  destruct (update4_all a (bits t) (pa_sgn t) v (pa_base t) sv (start t i) (pa_base t) ltac:(lia) Hb T Tv ltac:(lia) I1 I2) as [[Bd E]|[Gd (r & E & Tr & Q1 & Q2)]]; rewrite E.
  - apply (bad4_iff t v i Hb) in Bd. split; [intros (r & X & _); discriminate|]. intros [X|(_ & X & _)]; tauto.
  - assert (Gd' : ~ undefined_write4 t v i). { intros U. apply (bad4_iff t v i Hb) in U. destruct U as (j & Hj & U). rewrite Gd in U by exact Hj. discriminate. }
    assert (Sides : i < lower t \/ i > Z.max (pa_msb t) (pa_lsb t)) by (unfold element, in_range, lower in *; lia).
    assert (Far : (i = lower t - 1 /\ start t i = - pa_base t) \/ (i <= lower t - 2 /\ start t i + pa_base t <= - pa_base t) \/ (lower t <= i /\ bits t <= start t i)).
    { unfold lower, start, bits, elems, width, element, in_range in *. destruct Sides; [destruct (Z.eq_dec i (Z.min (pa_msb t) (pa_lsb t) - 1)); [left|right; left]; split; try lia; nia|right; right; split; [lia|]]. nia. }
    destruct (Z.eq_dec (bits t) 1) as [One|N1].
    + destruct (one_bits t Hb One) as [O1 O2]. rewrite O1 in *. specialize (Q2 One eq_refl eq_refl).
      assert (Pos : 0 < start t i). { destruct Far as [[F1 F2]|[[F1 F2]|[F1 F2]]]; [exfalso|exfalso|lia]; apply Gd'; right; (split; [lia|]); left; lia. }
      replace (start t i =? 0) with false in Q2 by lia. replace (start t i =? -1) with false in Q2 by lia. split.
      * intros (r' & X & K). injection X as <-. right. split; [reflexivity|]. split; [exact Gd'|]. split; [intros E1; exfalso; destruct Far as [[F1 F2]|[[F1 F2]|[F1 F2]]]; lia|].
        intros _. specialize (K 0 ltac:(lia)). rewrite Q2 in K. unfold mixes. destruct (sym_at a 0), (sym_at v 0); cbn in *; split; intros; try reflexivity; discriminate.
      * intros [X|(_ & _ & _ & M)]; [tauto|]. exists r. split; [reflexivity|]. intros q Hq. assert (q = 0) as -> by lia. rewrite Q2. specialize (M One). destruct M as [M1 M2]. destruct (sym_at a 0), (sym_at v 0); cbn in *; try reflexivity; try (specialize (M1 eq_refl); discriminate); specialize (M2 eq_refl); discriminate.
    + specialize (Q1 ltac:(lia)). split.
      * intros (r' & X & K). injection X as <-. right. split; [reflexivity|]. split; [exact Gd'|]. split; [|lia]. intros E1. specialize (K 0 ltac:(lia)). rewrite Q1 in K by lia. destruct Far as [[F1 F2]|[[F1 F2]|[F1 F2]]]; try lia. rewrite F2 in K.
        replace ((- pa_base t <=? 0) && (0 <=? - pa_base t + pa_base t)) with true in K by lia. unfold filled in K. replace (0 - - pa_base t <? pa_base t) with false in K by lia. now symmetry.
      * intros [X|(_ & _ & M & _)]; [tauto|]. exists r. split; [reflexivity|]. intros q Hq. rewrite Q1 by exact Hq. destruct ((start t i <=? q) && (q <=? start t i + pa_base t)) eqn:Eq; [|reflexivity].
        destruct Far as [[F1 F2]|[[F1 F2]|[F1 F2]]]; try lia. assert (q = 0) as -> by lia. unfold filled. replace (0 - start t i <? pa_base t) with false by lia. symmetry. now apply M.
Qed.
(** * 2-state arrays *)
Definition filled2 (op : bit) (k q : Z) : bool := if q <? k then bit_at op q else beyond op k.
Lemma get_at op k so q : 1 <= k -> typed op k so -> tidy op -> 0 <= q <= k ->
  bit_get op q = if (q =? k) && ((k =? 32) || (k =? 64)) then UB else Ok (filled2 op k q).
Proof.
  intros Hk T D Hq. assert (V := BitMain3.typed_vec op k so T). assert (W := typed_bw op k so Hk T). pose proof (typed_lt op k so Hk T) as Lk. rewrite get_any by exact V. unfold any_position, position, small, slot.
  assert (T' := T). destruct T' as (_ & [P1 P2] & P3). rewrite P1, P2, W. rewrite (proj2 (Z.leb_le 0 (k - 1))) by lia. cbn zeta. unfold filled2, beyond. destruct (Z.leb_spec k 64) as [L|L].
  - destruct (Z.ltb_spec q k) as [Lt|Ge].
    + replace (q =? k) with false by lia. cbn [andb]. assert (k <= computing k) by (unfold computing; destruct (Z.leb_spec k 32); lia). replace ((0 <=? q) && (q <? computing k)) with true by lia. rewrite bit_at_stored by lia. reflexivity.
    + assert (q = k) as -> by lia. rewrite Z.eqb_refl. cbn [andb]. destruct ((k =? 32) || (k =? 64)) eqn:B.
      * replace ((0 <=? k) && (k <? computing k)) with false; [reflexivity|]. unfold computing. destruct (Z.leb_spec k 32); lia.
      * replace ((0 <=? k) && (k <? computing k)) with true by (unfold computing; destruct (Z.leb_spec k 32); lia). f_equal. destruct (Z.eq_dec k 1) as [E1|E1].
        -- rewrite E1 in *. change (2 <=? 1) with false. cbn [andb]. assert (S01 : stored op = 0 \/ stored op = 1). { destruct (vec_cases op V) as [(v & Ea & _ & Ia & Sa)|(ws & _ & Bg & _)]; [|lia]. rewrite Sa. rewrite W in Ia. apply in_ity_range in Ia. cbn in Ia. lia. }
           destruct S01 as [-> | ->]; reflexivity.
        -- replace (2 <=? k) with true by lia. cbn [andb]. rewrite tidy_stored by (try exact V; try exact D; lia). apply Iff14.value_high. lia.
  - rewrite Z.mod_small by lia. replace ((k =? 32) || (k =? 64)) with false by lia. rewrite andb_false_r. destruct (Z.ltb_spec q k); cbn [andb].
    + rewrite bit_at_stored by lia. reflexivity.
    + replace (k <=? 64) with false by lia. rewrite andb_false_r. reflexivity.
Qed.
Definition bad2 (n k st i : Z) : bool := ((i - st =? k) && ((k =? 32) || (k =? 64))) || out_of_word n i.
Lemma update2_all x n s op k so st : 1 <= n -> 1 <= k -> typed x n s -> typed op k so -> tidy op -> int_ok st -> int_ok (st + k) ->
  ((exists i, st <= i <= st + k /\ bad2 n k st i = true) /\ bit_update_r x st (st + k) op = UB) \/
  ((forall i, st <= i <= st + k -> bad2 n k st i = false) /\ exists r, bit_update_r x st (st + k) op = Ok r /\ typed r n s /\
     (2 <= n -> forall p, 0 <= p < n -> bit_at r p = if (st <=? p) && (p <=? st + k) then filled2 op k (p - st) else bit_at x p) /\
     (n = 1 -> k = 1 -> bit_at r 0 = if st =? 0 then bit_at op 0 else if st =? -1 then false else bit_at x 0 || bit_at op 0)).
Proof.
  intros Hn Hk Tx To D I1 I2. unfold bit_update_r. rewrite (Z.min_l st (st + k)), (Z.max_r st (st + k)) by lia. pose proof (typed_lt x n s Hn Tx) as Ln. pose proof (typed_lt op k so Hk To) as Lk.
  destruct (loop_gen (fun x i => let idx := if xorb (big_endian (bmsb op) (blsb op)) (big_endian (bmsb x) (blsb x)) then Z.max (blsb op) (bmsb op) - i else i in let! v := bit_get op (idx - st) in bit_set_bit0 x i v) (bad2 n k st)
    (fun i y => typed y n s /\ (2 <= n -> forall p, 0 <= p < n -> bit_at y p = if (st <=? p) && (p <? i) then filled2 op k (p - st) else bit_at x p) /\
       (n = 1 -> k = 1 -> bit_at y 0 = if i =? st then bit_at x 0 else if st =? 0 then bit_at op 0 else if i =? st + 1 then bit_at x 0 || bit_at op 0 else if st =? -1 then false else bit_at x 0 || bit_at op 0))
    (st + k + 1) (Z.to_nat (st + k + 1 - st)) st x eq_refl ltac:(lia)) as [[(i & Hi & Bi) E]|[Al (r & E & T & Q1 & Q2)]].
  - split; [exact Tx|]. split; [intros _ p Hp; replace ((st <=? p) && (p <? st)) with false by lia; reflexivity|]. intros _ _. now rewrite Z.eqb_refl.
  - intros i y Hi (Ty & Y1 & Y2). unfold int_ok in I1, I2. cbn zeta.
    assert (xorb (big_endian (bmsb op) (blsb op)) (big_endian (bmsb y) (blsb y)) = false) as ->. { destruct To as (_ & [-> ->] & _), Ty as (_ & [-> ->] & _). unfold big_endian. rewrite !(proj2 (Z.leb_le _ _)) by lia. reflexivity. }
    rewrite (get_at op k so (i - st) Hk To D ltac:(lia)). unfold bad2. destruct ((i - st =? k) && ((k =? 32) || (k =? 64))) eqn:B; cbn [bind orb]; [reflexivity|].
    assert (A := set_plain y n s i (filled2 op k (i - st)) Hn Ty ltac:(unfold int_ok; lia)). destruct (out_of_word n i); [apply A|].
    destruct A as (y' & _ & E & Ty' & Q). exists y'. split; [exact E|]. split; [exact Ty'|]. split.
    + intros H2 p Hp. rewrite Q by exact Hp. replace (n =? 1) with false by lia. cbn [andb]. rewrite orb_false_r. destruct (Z.eqb_spec p i) as [->|Ne].
      * replace ((st <=? i) && (i <? i + 1)) with true by lia. reflexivity.
      * rewrite Y1 by assumption. replace ((st <=? p) && (p <? i + 1)) with ((st <=? p) && (p <? i)) by lia. reflexivity.
    + intros E1 Ek. specialize (Y2 E1 Ek). subst n k. rewrite Q by lia. change (1 =? 1) with true. cbn [andb]. unfold filled2.
      replace (i + 1 =? st) with false by lia. destruct (Z.eqb_spec i st) as [->|Ne].
      * rewrite Y2. replace (st - st) with 0 by lia. change (0 <? 1) with true. cbn match. rewrite (Z.eqb_sym 0 st), Z.eqb_refl. destruct (st =? 0); reflexivity.
      * assert (i = st + 1) as -> by lia. replace (st + 1 + 1 =? st + 1) with false by lia. replace (st + 1 - st <? 1) with false by lia. rewrite Y2. rewrite Z.eqb_refl. change (beyond op 1) with false. rewrite orb_false_r.
        destruct (Z.eqb_spec st 0) as [E0|E0]; [replace (0 =? st + 1) with false by lia; reflexivity|].
        destruct (Z.eqb_spec st (-1)) as [E3|E3]; [replace (0 =? st + 1) with true by lia; reflexivity|]. replace (0 =? st + 1) with false by lia. reflexivity.
  - left. split; [exists i; split; [lia|exact Bi]|exact E].
  - right. split; [intros i Hi; apply Al; lia|]. exists r. split; [exact E|]. split; [exact T|]. split.
    + intros H2 p Hp. rewrite Q1 by assumption. replace ((st <=? p) && (p <? st + k + 1)) with ((st <=? p) && (p <=? st + k)) by lia. reflexivity.
    + intros E1 Ek. rewrite Q2 by assumption. replace (st + k + 1 =? st) with false by lia. replace (st + k + 1 =? st + 1) with false by lia. reflexivity.
Qed.
Lemma bad2_iff t i : 1 <= pa_base t -> ((exists j, start t i <= j <= start t i + pa_base t /\ bad2 (bits t) (pa_base t) (start t i) j = true) <-> undefined_write2 t i).
Proof.
  intros Hb. unfold undefined_write2, bad2. rewrite <- (start_sign t i Hb), <- (out_range (bits t) (start t i) (pa_base t) Hb). split.
  - intros (j & Hj & B). apply orb_prop in B. destruct B as [B|B]; [|right; right; eauto]. lia.
  - intros [B|[B|(j & Hj & B)]]; [exists (start t i + pa_base t)|exists (start t i + pa_base t)|exists j]; (split; [lia|]); [| |rewrite B; apply orb_true_r]; rewrite B; replace (start t i + _ - start t i =? _) with true by lia; reflexivity.
Qed.
Lemma write2_iff t a op i v sv : arr2 t a -> index op i -> (lw op = 1 -> lsgn op = false) -> element t i -> typed v (pa_base t) sv -> tidy v ->
  ((exists r, pa_update_bit t a op v = Ok r /\ (forall p, 0 <= p < pa_base t -> bit_at r (start t i + p) = bit_at v p) /\
      (forall q, 0 <= q < bits t -> ~ start t i <= q < start t i + pa_base t -> bit_at r q = bit_at a q)) <-> writes_right2 t a v i) /\
  (pa_update_bit t a op v = UB <-> 0 <= i < bits t /\ undefined_write2 t i).
Proof.
  intros A Ix O El Tv D. destruct (arr2_facts t a A) as (Hb & Hn & La & T). destruct (base_bits t i Hb El) as (B1 & B2 & B3). rewrite (update2_given t a op v i A Ix O). unfold writes_right2.
  destruct ((0 <=? i) && (i <? bits t)) eqn:Ei.
  - assert (Hi : 0 <= i < bits t) by lia. assert (Ad := element_addressable t i Hb ltac:(lia) El). rewrite Ad. destruct (addressable_ints t i Ad) as [I1 I2].
    destruct (update2_all a (bits t) (pa_sgn t) v (pa_base t) sv (start t i) ltac:(lia) Hb T Tv D I1 I2) as [[Bd E]|[Gd (r & E & Tr & Q1 & Q2)]]; rewrite E.
    + apply (bad2_iff t i Hb) in Bd. split; [split; [intros (r & X & _); discriminate|intros [X _]; tauto]|tauto].
    + assert (Gd' : ~ undefined_write2 t i). { intros U. apply (bad2_iff t i Hb) in U. destruct U as (j & Hj & U). rewrite Gd in U by exact Hj. discriminate. }
      split; [|split; [discriminate|tauto]]. destruct (Z.eq_dec (bits t) 1) as [One|N1].
      * destruct (one_bits t Hb One) as [O1 O2]. rewrite O1 in *. assert (St : start t i = 0) by lia. rewrite St in *. specialize (Q2 One eq_refl). split; [intros _; split; [exact Gd'|lia]|]. intros _. exists r. split; [reflexivity|]. split; [|intros q H1 H2; lia].
        intros p Hp. assert (p = 0) as -> by lia. exact Q2.
      * specialize (Q1 ltac:(lia)). split.
        -- intros (r' & X & _ & K). injection X as <-. split; [exact Gd'|]. intros Lt. specialize (K (start t i + pa_base t) ltac:(lia) ltac:(lia)). rewrite Q1 in K by lia.
           replace ((start t i <=? start t i + pa_base t) && (start t i + pa_base t <=? start t i + pa_base t)) with true in K by lia. unfold filled2 in K. replace (start t i + pa_base t - start t i <? pa_base t) with false in K by lia. now symmetry.
        -- intros [_ K]. exists r. split; [reflexivity|]. split.
           ++ intros p Hp. rewrite Q1 by lia. replace ((start t i <=? start t i + p) && (start t i + p <=? start t i + pa_base t)) with true by lia. unfold filled2. replace (start t i + p - start t i) with p by lia. replace (p <? pa_base t) with true by lia. reflexivity.
           ++ intros q Hq Out. rewrite Q1 by exact Hq. destruct ((start t i <=? q) && (q <=? start t i + pa_base t)) eqn:Eq; [|reflexivity]. assert (q = start t i + pa_base t) as -> by lia.
              unfold filled2. replace (start t i + pa_base t - start t i <? pa_base t) with false by lia. symmetry. apply K. lia.
  - split; [|split; [discriminate|lia]]. split.
    + intros (r & X & K & _). injection X as <-. exact K.
    + intros K. exists a. split; [reflexivity|]. split; [exact K|]. reflexivity.
Qed.
Lemma write2_none_iff t a op i v sv : arr2 t a -> index op i -> (lw op = 1 -> lsgn op = false) -> ~ element t i -> typed v (pa_base t) sv -> tidy v ->
  (exists r, pa_update_bit t a op v = Ok r /\ forall q, 0 <= q < bits t -> bit_at r q = bit_at a q) <-> writes_nothing2 t a v i.
Proof.
  intros A Ix O El Tv D. destruct (arr2_facts t a A) as (Hb & Hn & La & T). rewrite (update2_given t a op v i A Ix O). unfold writes_nothing2. destruct ((0 <=? i) && (i <? bits t)) eqn:Ei.
  2: { split; [intros _; left; lia|]. intros _. exists a. split; reflexivity. }
  assert (Hi : 0 <= i < bits t) by lia. destruct (addressable t i) eqn:Ad.
  2: { split; [intros (r & X & _); discriminate|]. intros [X|(X & _)]; [tauto|discriminate]. }
  destruct (addressable_ints t i Ad) as [I1 I2]. assert (Bn : pa_base t <= bits t) by (unfold bits; pose proof (elems_pos t); nia).
  destruct (update2_all a (bits t) (pa_sgn t) v (pa_base t) sv (start t i) ltac:(lia) Hb T Tv D I1 I2) as [[Bd E]|[Gd (r & E & Tr & Q1 & Q2)]]; rewrite E.
  - apply (bad2_iff t i Hb) in Bd. split; [intros (r & X & _); discriminate|]. intros [X|(_ & X & _)]; tauto.
  - assert (Gd' : ~ undefined_write2 t i). { intros U. apply (bad2_iff t i Hb) in U. destruct U as (j & Hj & U). rewrite Gd in U by exact Hj. discriminate. }
    assert (Sides : i < lower t \/ i > Z.max (pa_msb t) (pa_lsb t)) by (unfold element, in_range, lower in *; lia).
    assert (Far : (i = lower t - 1 /\ start t i = - pa_base t) \/ (i <= lower t - 2 /\ start t i + pa_base t <= - pa_base t) \/ (lower t <= i /\ bits t <= start t i)).
    { unfold lower, start, bits, elems, width, element, in_range in *. destruct Sides; [destruct (Z.eq_dec i (Z.min (pa_msb t) (pa_lsb t) - 1)); [left|right; left]; split; try lia; nia|right; right; split; [lia|]]. nia. }
    destruct (Z.eq_dec (bits t) 1) as [One|N1].
    + destruct (one_bits t Hb One) as [O1 O2]. rewrite O1 in *. specialize (Q2 One eq_refl).
      assert (Pos : 0 < start t i). { destruct Far as [[F1 F2]|[[F1 F2]|[F1 F2]]]; [exfalso|exfalso|lia]; apply Gd'; right; right; (split; [lia|]); left; lia. }
      replace (start t i =? 0) with false in Q2 by lia. replace (start t i =? -1) with false in Q2 by lia. split.
      * intros (r' & X & K). injection X as <-. right. split; [reflexivity|]. split; [exact Gd'|]. split; [intros E1; exfalso; destruct Far as [[F1 F2]|[[F1 F2]|[F1 F2]]]; lia|].
        intros _. specialize (K 0 ltac:(lia)). rewrite Q2 in K. intros Hv. rewrite Hv, orb_true_r in K. now symmetry.
      * intros [X|(_ & _ & _ & M)]; [tauto|]. exists r. split; [reflexivity|]. intros q Hq. assert (q = 0) as -> by lia. rewrite Q2. specialize (M One). destruct (bit_at v 0); [rewrite (M eq_refl)|]; now destruct (bit_at a 0).
    + specialize (Q1 ltac:(lia)). split.
      * intros (r' & X & K). injection X as <-. right. split; [reflexivity|]. split; [exact Gd'|]. split; [|lia]. intros E1. specialize (K 0 ltac:(lia)). rewrite Q1 in K by lia. destruct Far as [[F1 F2]|[[F1 F2]|[F1 F2]]]; try lia. rewrite F2 in K.
        replace ((- pa_base t <=? 0) && (0 <=? - pa_base t + pa_base t)) with true in K by lia. unfold filled2 in K. replace (0 - - pa_base t <? pa_base t) with false in K by lia. now symmetry.
      * intros [X|(_ & _ & M & _)]; [tauto|]. exists r. split; [reflexivity|]. intros q Hq. rewrite Q1 by exact Hq. destruct ((start t i <=? q) && (q <=? start t i + pa_base t)) eqn:Eq; [|reflexivity].
        destruct Far as [[F1 F2]|[[F1 F2]|[F1 F2]]]; try lia. assert (q = 0) as -> by lia. unfold filled2. replace (0 - start t i <? pa_base t) with false by lia. symmetry. now apply M.
Qed.
