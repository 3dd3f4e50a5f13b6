(** Lemmas about packed and unpacked arrays. *)
From Coq Require Import ZArith List Bool Lia.
From Verif Require Import Cpp BigNum Bit Logic Arr Spec SpecArr ZBits Words BigNumProofs BitProofs BitSlice BitExt BitOps
  BitShift BitCmp BitMain BitMain2 BitMain3 BitMain4 BitMain5 LogicProofs LogicOps LogicRed LogicArith LogicArith2 LogicConv LogicConv2 LogicMain.
Import ListNotations.
Open Scope Z_scope.

(** * one position past the end *)
Lemma native_set_low t v i x : t <> TBool -> 0 <= i < 64 ->
  exists r, native_set t v i x = Ok r /\ in_ity t r = true /\ forall p, 0 <= p < iwidth t -> p <> i -> Z.testbit r p = Z.testbit v p.
Proof.
  intros NT Hi. pose proof (iwidth_pos t). assert (iwidth t <= 64) by (destruct t; cbn; lia). unfold native_set, c_shl. change (promote TU64) with TU64.
  change (iwidth TU64) with 64. replace ((0 <=? i) && (i <? 64)) with true by lia. cbn [bind].
  assert (E1 : conv TU64 (Z.shiftl 1 i) = 2 ^ i).
  { rewrite Z.shiftl_1_l. change (2 ^ i mod 2 ^ 64 = 2 ^ i). apply Z.mod_small. split; [apply Z.pow_nonneg; lia | apply Z.pow_lt_mono_r; lia]. }
  rewrite E1. destruct x; eexists; (split; [reflexivity|]); (split; [apply conv_in_ity|]); intros p Hp N; rewrite conv_testbit by assumption.
  - unfold c_or. rewrite uac_u64. cbn zeta. rewrite Z.lor_spec, !conv_testbit by (discriminate || (cbn; lia)).
    rewrite Z.pow2_bits_eqb by lia. rewrite (proj2 (Z.eqb_neq i p)) by lia. apply orb_false_r.
  - unfold c_and, c_not. rewrite uac_u64. cbn zeta. change (promote TU64) with TU64.
    rewrite Z.land_spec, !conv_testbit by (discriminate || (cbn; lia)).
    rewrite Z.lnot_spec, Z.pow2_bits_eqb by lia. rewrite (proj2 (Z.eqb_neq i p)) by lia. apply andb_true_r.
Qed.
Lemma set_over b n s x : 2 <= n -> n <> 64 -> typed b n s ->
  exists b', bit_set b n x = Ok b' /\ bit_set_bit0 b n x = Ok b' /\ typed b' n s /\ forall p, 0 <= p < n -> bit_at b' p = bit_at b p.
Proof.
  intros Hn N64 T. assert (H1 : 1 <= n) by lia. pose proof (typed_lt b n s H1 T) as Ln. pose proof (typed_bsize b n s H1 T) as Bs.
  destruct (typed_cases b n s H1 T) as [(v & E & R & I)|(ws & E & R & I)]; subst b; unfold bit_set, bit_set_bit0; cbn [bmsb blsb bsgn bval] in *; rewrite Bs.
  - assert (big_endian (n - 1) 0 = true) as -> by (unfold big_endian; apply Z.leb_le; lia). rewrite Z.min_l by lia. rewrite Z.sub_0_r, u64_id by lia.
    assert (Nb : hty n s <> TBool) by (apply hty_nb; lia). pose proof (hty_width n s ltac:(lia)) as Hw.
    destruct (native_set_low (hty n s) v n x Nb ltac:(lia)) as (r & E & Ir & B). rewrite E. cbn [bind]. eexists. split; [reflexivity|]. split; [reflexivity|].
    assert (T' : typed (mkBit (n - 1) 0 s (HN r)) n s).
    { rewrite <- (conv_id _ _ Ir). pose proof (typed_nat n s r ltac:(lia)) as Q. unfold nat_bit in Q. replace (width (n - 1) 0) with n in Q by (unfold width; lia). exact Q. }
    split; [exact T'|]. intros p Hp. rewrite !bit_at_stored by (rewrite (typed_bw _ _ _ H1 T') || rewrite (typed_bw _ _ _ H1 T); exact Hp).
    unfold stored. cbn [bval]. apply B; lia.
  - assert (big_endian (n - 1) 0 = true) as -> by (unfold big_endian; apply Z.leb_le; lia). rewrite Z.min_l by lia. rewrite Z.sub_0_r, u64_id by lia.
    rewrite bn_set_noop by lia. eexists. split; [reflexivity|]. split; [reflexivity|]. split; [exact T|]. reflexivity.
Qed.
Lemma lset_over l n s b : 2 <= n -> n <> 64 -> ltyped l n s ->
  exists l', logic_set_l l n b = Ok l' /\ ltyped l' n s /\ forall p, 0 <= p < n -> sym_at l' p = sym_at l p.
Proof.
  intros Hn N [T1 T2]. unfold logic_set_l. destruct (set_over (l_val l) n s (bit0_bool (l_val b)) Hn N T1) as (v & Ev & _ & Tv & Bv).
  destruct (set_over (l_xz l) n false (bit0_bool (l_xz b)) Hn N T2) as (m & Em & _ & Tm & Bm). rewrite Ev, Em. cbn [bind].
  eexists. split; [reflexivity|]. split; [split; assumption|]. intros p Hp. unfold sym_at. cbn [l_val l_xz]. now rewrite Bv, Bm.
Qed.
Lemma ofold_app {A B} (f : B -> A -> outcome B) l1 l2 x : ofold f (l1 ++ l2) x = (let! y := ofold f l1 x in ofold f l2 y).
Proof. revert x. induction l1 as [|a l1 IH]; intros x; [reflexivity|]. cbn [app ofold]. destruct (f x a); cbn [bind]; auto. Qed.

(** [update(lo, lo + k, op)] with one position too many *)
Lemma lupdate_over x n s op k so lo w : 2 <= n -> 1 <= k -> 1 <= w -> ltyped x n s -> ltyped op k so -> 0 <= lo -> lo + w <= n -> (lo + w = n -> n <> 64) ->
  (forall q, 64 <= q < k -> q <= w -> unknown (sym_at op q) = false) ->
  exists r, logic_update_r x lo (lo + w) op = Ok r /\ ltyped r n s /\
    forall p, 0 <= p < n -> sym_at r p = if (lo <=? p) && (p <=? lo + w) then (if p - lo <? k then sym_at op (p - lo) else S0) else sym_at x p.
Proof.
  intros Hn Hk Hw Tx To Hlo Hhi N64 U. assert (H1 : 1 <= n) by lia. destruct (Z.eq_dec (lo + w) n) as [E|E].
  - unfold logic_update_r. rewrite Z.min_l, Z.max_r by lia. rewrite zrange_snoc by lia. rewrite ofold_app.
    destruct (lupdate_loop x n s op k so lo H1 Hk To Hlo (Z.to_nat (lo + w - lo)) lo ltac:(lia) ltac:(lia)) as (r & Er & Tr & _ & Q).
    { intros q Hq V. destruct (Z.ltb_spec q 64); [assumption|]. exfalso. unfold padded in V. destruct (Z.ltb_spec q k); [|discriminate]. rewrite U in V by lia. discriminate. }
    { exact Tx. }
    unfold zrange. rewrite Er. cbn [bind ofold]. rewrite E. unfold logic_update_step.
    destruct (ltyped_plain r n s H1 Tr) as (X1 & X2 & X3 & X4). destruct (ltyped_plain op k so Hk To) as (O1 & O2 & O3 & O4).
    pose proof (ltyped_lt x n s H1 Tx) as Ln. pose proof (ltyped_lt op k so Hk To) as Lk. rewrite X1, X2, O1, O2.
    assert (big_endian (k - 1) 0 = true) as -> by (unfold big_endian; apply Z.leb_le; lia).
    assert (big_endian (n - 1) 0 = true) as -> by (unfold big_endian; apply Z.leb_le; lia). cbn [xorb].
    rewrite Z.max_r, Z.min_l by lia. rewrite !u64_id by lia.
    assert (exists b, (if (k - 1 <? n - lo) || (n - lo <? 0) then Ok logic_zero else logic_get op (i32 (n - lo))) = Ok b) as (b & ->).
    { replace (n - lo <? 0) with false by (symmetry; apply Z.ltb_ge; lia). rewrite orb_false_r. destruct (Z.ltb_spec (k - 1) (n - lo)); [eauto|].
      rewrite i32_id by lia. rewrite (logic_get_spec op (n - lo) O4 O3); [|unfold in_range; rewrite O1, O2; lia].
      assert (Pl : place (lmsb op) (llsb op) (n - lo) = n - lo). { unfold place. rewrite O1, O2. rewrite (proj2 (Z.leb_le _ _)) by lia. lia. }
      rewrite Pl. destruct (Z.leb_spec 64 (n - lo)).
      - rewrite U by lia. cbn [andb]. eauto.
      - rewrite andb_false_r. eauto. }
    cbn [bind]. destruct (lset_over r n s b Hn (N64 E) Tr) as (r' & Er' & Tr' & Q'). rewrite Er'. cbn [bind]. exists r'. split; [reflexivity|]. split; [exact Tr'|].
    intros p Hp. rewrite Q', Q by exact Hp. unfold padded. destruct (Z.leb_spec lo p); cbn [andb]; [|reflexivity].
    rewrite (proj2 (Z.ltb_lt p _)), (proj2 (Z.leb_le p _)) by lia. reflexivity.
  - destruct (lupdate x n s op k so lo (lo + w) H1 Hk Tx To ltac:(lia) ltac:(lia)) as (r & Er & Tr & _ & Q). { intros q Hq Hq2. apply U; lia. }
    exists r. split; [exact Er|]. split; [exact Tr|]. rewrite Z.min_l, Z.max_r in Q by lia. exact Q.
Qed.

(** [slice<k>(lo, lo + k)] *)
Lemma slice_over x n s k lo : 2 <= n -> typed x n s -> 1 <= k -> 0 <= lo -> lo + k <= n ->
  (n <= 64 -> 2 <= k /\ lo + k < iwidth (hty n s)) ->
  exists r, bit_slice_r x k lo (lo + k) = Ok r /\ typed r k false /\ forall p, 0 <= p < k -> bit_at r p = bit_at x (lo + p).
Proof.
  intros Hn T Hk Hlo Hhi C. assert (H1 : 1 <= n) by lia. pose proof (typed_lt x n s H1 T) as Ln. pose proof (typed_bsize x n s H1 T) as Bs. pose proof (typed_bw x n s H1 T) as W.
  destruct (typed_cases x n s H1 T) as [(v & E & R & I)|(ws & E & R & I)]; subst x; unfold bit_slice_r; cbn [bmsb blsb bsgn bval] in *.
  - destruct (C ltac:(lia)) as [K2 Kw]. unfold requires, native_num. replace (k <=? 64) with true by lia. unfold native_slice_r.
    replace (vsize (n - 1) 0) with n by (unfold vsize; lia). rewrite (Z.min_l lo), (Z.max_r lo) by lia. replace (Z.min (n - 1) 0) with 0 by lia. rewrite !Z.sub_0_r. cbn zeta.
    assert (Nb : hty n s <> TBool) by (apply hty_nb; lia). pose proof (hty_width n s ltac:(lia)) as Hw. pose proof (iwidth_pos (hty n s)). rewrite (szbits_nb _ Nb). rewrite u64_id by lia.
    destruct (slice_core n s v lo (iwidth (hty n s) - (lo + k) - 1) ltac:(lia) I ltac:(lia) ltac:(lia)) as (m1 & m2 & r & E1 & E2 & E3 & B1 & _).
    rewrite E1. cbn [bind]. rewrite E2. cbn [bind]. rewrite E3. cbn [bind].
    pose proof (typed_nat k false r ltac:(lia)) as Tr. assert (Wk : width (k - 1) 0 = k) by (unfold width; lia).
    exists (nat_bit (k - 1) 0 false r). split. { unfold nat_bit. rewrite Wk. reflexivity. }
    split; [exact Tr|]. intros p Hp. unfold bit_at at 1. rewrite nat_bit_num by lia. rewrite Wk, testbit_mod_pow2 by lia. rewrite (proj2 (Z.ltb_lt p k)) by lia. cbn [andb].
    rewrite B1 by lia. rewrite (proj2 (Z.ltb_lt _ _)) by lia. cbn [andb]. rewrite bit_at_stored by (rewrite W; lia). unfold stored. cbn [bval]. f_equal. lia.
  - rewrite Bs. destruct (bn_slice_r_spec n ws k lo (lo + k) H1 Hk I) as (r & Er & Wr & Nr); [unfold u64max; lia..|]. rewrite !u64_id by lia. rewrite Er. cbn [bind].
    replace (Z.min k (Z.abs (lo - (lo + k)) + 1)) with k in Nr by lia. rewrite Z.min_l in Nr by lia.
    assert (Bt : forall p, 0 <= p < k -> Z.testbit (words_num r) p = bit_at (mkBit (n - 1) 0 s (HB ws)) (lo + p)).
    { intros p Hp. rewrite Nr, testbit_div_mod by lia. rewrite (proj2 (Z.ltb_lt p k)) by lia. cbn [andb]. unfold bit_at, num. rewrite W. unfold stored. cbn [bval]. f_equal. lia. }
    assert (Rk : 0 <= words_num r < 2 ^ k) by (rewrite Nr; apply Z.mod_pos_bound, pow2_pos; lia).
    assert (Wk : width (k - 1) 0 = k) by (unfold width; lia). unfold native_num. destruct (Z.leb_spec k 64).
    + assert (Ew : word r 0 = words_num r).
      { destruct Wr as [Wr Lr]. assert (nwords k = 1) by (pose proof (nwords_bounds k ltac:(lia)); lia).
        destruct r as [|w0 [|w1 r]]; unfold wlen in Lr; cbn [length] in Lr; try lia. cbn [words_num]. unfold word. cbn [Z.to_nat nth]. lia. }
      rewrite Ew. exists (nat_bit (k - 1) 0 false (words_num r)). split; [unfold nat_bit; rewrite Wk; reflexivity|].
      split; [apply typed_nat; lia|]. intros p Hp. unfold bit_at at 1. rewrite nat_bit_num_small by (rewrite Wk; lia). now apply Bt.
    + eexists. split; [reflexivity|]. assert (Tr : typed (mkBit (k - 1) 0 false (HB r)) k false) by (apply typed_big; [lia|exact Wr]).
      split; [exact Tr|]. intros p Hp. rewrite bit_at_stored by (rewrite (typed_bw _ _ _ Hk Tr); exact Hp). unfold stored. cbn [bval]. now apply Bt.
Qed.
Lemma lslice_over x n s k lo : 2 <= n -> ltyped x n s -> 1 <= k -> 0 <= lo -> lo + k <= n -> (n <= 64 -> 2 <= k /\ lo + k < iwidth (hty n s)) ->
  exists r, logic_slice_r x k lo (lo + k) = Ok r /\ ltyped r k false /\ forall p, 0 <= p < k -> sym_at r p = sym_at x (lo + p).
Proof.
  intros Hn [T1 T2] Hk Hlo Hhi C. destruct (slice_over _ n s k lo Hn T1 Hk Hlo Hhi C) as (v & Ev & Tv & Bv).
  destruct (slice_over _ n false k lo Hn T2 Hk Hlo Hhi) as (m & Em & Tm & Bm). { intros L. rewrite <- (hty_iw n s). auto. }
  unfold logic_slice_r. rewrite Ev, Em. cbn [bind]. eexists. split; [reflexivity|]. split; [split; assumption|]. intros p Hp. unfold sym_at. cbn [l_val l_xz]. now rewrite Bv, Bm.
Qed.

(** * the index *)
Lemma value_num b : vec b -> 0 <= value b -> num b = value b.
Proof.
  intros V. unfold value. destruct (bsgn b); [|reflexivity]. unfold snum, twos. destruct (Z.testbit _ _); [|reflexivity]. pose proof (num_range b). lia.
Qed.
Lemma pa_size_eq t : pa_size t = pa_base t * elems t. Proof. reflexivity. Qed.
Lemma elems_pos t : 1 <= elems t. Proof. unfold elems, width. lia. Qed.
Lemma start_range t i : 1 <= pa_base t -> element t i -> 0 <= start t i /\ start t i + pa_base t <= pa_base t * elems t.
Proof. unfold element, in_range, start, elems, width. intros. nia. Qed.
Lemma index_known t op i : index op i -> 0 <= i -> 0 <= pa_size t < 2 ^ 31 ->
  pa_index_bad t op = Ok (pa_size t <=? i) /\ pa_index op = Ok (i32 i).
Proof.
  intros (V & W & [D1 D2] & K & E) Hi Hs. unfold pa_index_bad.
  assert (native_num (lsize op) = true) as -> by (unfold native_num; apply Z.leb_le; exact W). cbn [requires].
  assert (Se : seen op) by (left; exact W). rewrite (proj2 (any_xz op V D2 Se) K).
  set (S := logic_of_arith 31 0 false (pa_size t)).
  assert (ES : l_val S = nat_bit 31 0 false (pa_size t)) by reflexivity.
  assert (NS : num (l_val S) = pa_size t). { rewrite ES. apply nat_bit_num_small; change (width 31 0) with 32; lia. }
  assert (TS : typed (l_val S) 32 false) by (rewrite ES; apply (typed_nat 32 false (pa_size t)); lia).
  assert (DS : tidy (l_val S)). { rewrite ES. apply nat_bit_tidy; change (width 31 0) with 32; lia. }
  assert (LS : ltyped S 32 false) by (split; [exact TS|conc]).
  destruct (order_mixed_native (l_val op) (l_val S)) as (_ & _ & Ege & _); auto.
  { apply V. } { apply TS. } { rewrite (typed_bw _ 32 false ltac:(lia) TS). lia. } { rewrite (typed_sgn _ _ _ TS). apply andb_false_r. }
  { left. split; [lia|]. unfold value. rewrite (typed_sgn _ _ _ TS), NS. lia. }
  assert (KS : known S) by (apply known_of_num0; reflexivity).
  destruct (lcmp_unknown logic_ge bit_ge) with (a := op) (b := S) as [_ H]; auto.
  { cbn. tauto. } { apply (ltyped_lvec _ _ _ LS). } { conc. } { left. rewrite (ltyped_lw _ 32 false ltac:(lia) LS). lia. }
  destruct (H K KS _ Ege) as (g & Eg & Tg & Sg). rewrite Eg. cbn [bind]. split.
  - rewrite NS in Sg. rewrite (value_num (l_val op)) in Sg by (apply V || lia). rewrite E in Sg. rewrite (one_logic_eq g Tg), Sg. destruct (pa_size t <=? i); reflexivity.
  - unfold pa_index. pose proof (tidy_value_stored (l_val op) (proj1 V) D1 ltac:(lia)) as St. unfold stored in St. rewrite E in St.
    destruct (vec_cases (l_val op) (proj1 V)) as [(v & Ev & _)|(ws & Ev & Wb & _)]; [|unfold lw in W; lia]. rewrite Ev in *. now rewrite St.
Qed.
Lemma index_bad t op : bad_index op -> pa_index_bad t op = Ok true.
Proof.
  intros (V & W & D & K). unfold pa_index_bad.
  assert (native_num (lsize op) = true) as -> by (unfold native_num; apply Z.leb_le; exact W). cbn [requires].
  assert (Se : seen op) by (left; exact W). now rewrite (proj2 (any_xz_unknown op V D Se) K).
Qed.
Lemma index_big t op : 65 <= lw op -> pa_index_bad t op = IllFormed.
Proof. intros W. unfold pa_index_bad. assert (native_num (lsize op) = false) as -> by (unfold native_num; apply Z.leb_gt; change (lsize op) with (lw op); lia). reflexivity. Qed.

(** * packed arrays *)
Lemma arr_size t n s a : 1 <= pa_base t -> n = pa_base t * elems t -> ltyped a n s -> 1 <= n < 2 ^ 31 /\ pa_base t <= n /\ 0 <= pa_size t < 2 ^ 31.
Proof.
  intros Hb E T. pose proof (elems_pos t). assert (pa_base t <= n) by nia. assert (H1 : 1 <= n) by nia. pose proof (ltyped_lt a n s H1 T). rewrite pa_size_eq, <- E. lia.
Qed.
Lemma arr_size2 t n s a : 1 <= pa_base t -> n = pa_base t * elems t -> typed a n s -> 1 <= n < 2 ^ 31 /\ pa_base t <= n /\ 0 <= pa_size t < 2 ^ 31.
Proof.
  intros Hb E T. pose proof (elems_pos t). assert (pa_base t <= n) by nia. assert (H1 : 1 <= n) by nia. pose proof (typed_lt a n s H1 T). rewrite pa_size_eq, <- E. lia.
Qed.
Lemma start_next t i : (i - Z.min (pa_msb t) (pa_lsb t) + 1) * pa_base t = start t i + pa_base t. Proof. unfold start. lia. Qed.

Lemma addresses_in t i : 1 <= pa_base t -> element t i -> pa_base t * elems t < 2 ^ 31 -> pa_addresses t i = Ok (start t i, start t i + pa_base t).
Proof.
  intros Hb El Hs. destruct (start_range t i Hb El) as [S1 S2]. unfold start in *. unfold pa_addresses. set (d := i - Z.min (pa_msb t) (pa_lsb t)) in *.
  assert (0 <= d) by nia. assert (d * 1 <= d * pa_base t) by (apply Z.mul_le_mono_nonneg_l; lia).
  assert (A : forall z, 0 <= z < 2 ^ 31 -> arith TI32 z = Ok z).
  { intros z Z. unfold arith. cbn [isigned]. unfold in_ity. cbn [isigned iwidth]. change (2 ^ (32 - 1)) with (2 ^ 31). now rewrite (proj2 (Z.leb_le _ _)), (proj2 (Z.ltb_lt _ _)) by lia. }
  rewrite A by lia. cbn [bind]. rewrite A by lia. cbn [bind]. rewrite A by lia. cbn [bind]. rewrite A by lia. cbn [bind]. do 2 f_equal. lia.
Qed.

Lemma packed_read t a op i : arr4 t a -> index op i -> 0 <= i < pa_base t * elems t -> element t i ->
  (pa_base t * elems t <= 64 -> 2 <= pa_base t /\ start t i + pa_base t < iwidth (hty (pa_base t * elems t) (pa_sgn t))) ->
  exists r, pa_get t a op = Ok r /\ ltyped r (pa_base t) false /\ forall p, 0 <= p < pa_base t -> sym_at r p = sym_at a (start t i + p).
Proof.
  intros [Hb T] I Hi El C. destruct (arr_size t _ _ a Hb eq_refl T) as (Hn & Hbn & Hs). destruct (index_known t op i I ltac:(lia) Hs) as [E1 E2].
  destruct (start_range t i Hb El) as [S1 S2]. unfold pa_get. rewrite E1, pa_size_eq. cbn [bind]. rewrite (proj2 (Z.leb_gt _ _)) by lia. rewrite E2. cbn [bind].
  rewrite i32_id by lia. rewrite (addresses_in t i Hb El ltac:(lia)). cbn [bind fst snd].
  apply (lslice_over a (pa_base t * elems t) (pa_sgn t)); auto. destruct (Z.leb_spec (pa_base t * elems t) 64); [pose proof (C ltac:(assumption)); nia|lia].
Qed.
Lemma packed_read_x t a op : arr4 t a -> (bad_index op \/ exists i, index op i /\ pa_base t * elems t <= i) ->
  exists r, pa_get t a op = Ok r /\ ltyped r (pa_base t) false /\ all_x r.
Proof.
  intros [Hb T] I. destruct (arr_size t _ _ a Hb eq_refl T) as (Hn & Hbn & Hs). assert (E : pa_index_bad t op = Ok true).
  { destruct I as [B|(i & I & Hi)]; [now apply index_bad|]. destruct (index_known t op i I ltac:(lia) Hs) as [-> _]. f_equal. apply Z.leb_le. rewrite pa_size_eq. exact Hi. }
  unfold pa_get. rewrite E. cbn [bind]. eexists. split; [reflexivity|]. split; apply (default_typed (pa_base t) false); lia.
Qed.
Lemma packed_read2 t a op i : arr2 t a -> index op i -> 0 <= i < pa_base t * elems t -> element t i ->
  (pa_base t * elems t <= 64 -> 2 <= pa_base t /\ start t i + pa_base t < iwidth (hty (pa_base t * elems t) (pa_sgn t))) ->
  exists r, pa_get_bit t a op = Ok r /\ typed r (pa_base t) false /\ forall p, 0 <= p < pa_base t -> bit_at r p = bit_at a (start t i + p).
Proof.
  intros [Hb T] I Hi El C. destruct (arr_size2 t _ _ a Hb eq_refl T) as (Hn & Hbn & Hs). destruct (index_known t op i I ltac:(lia) Hs) as [E1 E2].
  destruct (start_range t i Hb El) as [S1 S2]. unfold pa_get_bit. rewrite E1, pa_size_eq. cbn [bind]. rewrite (proj2 (Z.leb_gt _ _)) by lia. rewrite E2. cbn [bind].
  rewrite i32_id by lia. rewrite (addresses_in t i Hb El ltac:(lia)). cbn [bind fst snd].
  apply (slice_over a (pa_base t * elems t) (pa_sgn t)); auto. destruct (Z.leb_spec (pa_base t * elems t) 64); [pose proof (C ltac:(assumption)); nia|lia].
Qed.
Lemma packed_read2_zero t a op : arr2 t a -> (bad_index op \/ exists i, index op i /\ pa_base t * elems t <= i) ->
  exists r, pa_get_bit t a op = Ok r /\ typed r (pa_base t) false /\ num r = 0.
Proof.
  intros [Hb T] I. destruct (arr_size2 t _ _ a Hb eq_refl T) as (Hn & Hbn & Hs). assert (E : pa_index_bad t op = Ok true).
  { destruct I as [B|(i & I & Hi)]; [now apply index_bad|]. destruct (index_known t op i I ltac:(lia) Hs) as [-> _]. f_equal. apply Z.leb_le. rewrite pa_size_eq. exact Hi. }
  unfold pa_get_bit. rewrite E. cbn [bind]. eexists. split; [reflexivity|].
  destruct (default_zero (pa_base t - 1) 0 false) as (A & B & C & D & F & G); [unfold int_ok; lia|unfold int_ok; lia|unfold width; lia|].
  split; [split; [exact A|split; [split; [exact B|exact C]|exact D]]|]. apply Z.bits_inj'. intros p Hp. rewrite Z.bits_0. apply F.
Qed.
Lemma packed_write t a op i v k sv : arr4 t a -> index op i -> 0 <= i < pa_base t * elems t -> element t i -> 2 <= pa_base t * elems t ->
  1 <= k -> ltyped v k sv -> (start t i + pa_base t = 64 -> pa_base t * elems t <> 64) -> (forall q, 64 <= q < k -> q <= pa_base t -> unknown (sym_at v q) = false) ->
  exists r, pa_update t a op v = Ok r /\ arr4 t r /\ forall q, 0 <= q < pa_base t * elems t -> sym_at r q =
    if (start t i <=? q) && (q <=? start t i + pa_base t) then (if q - start t i <? k then sym_at v (q - start t i) else S0) else sym_at a q.
Proof.
  intros [Hb T] I Hi El H2 Hk Tv C U. destruct (arr_size t _ _ a Hb eq_refl T) as (Hn & Hbn & Hs). destruct (index_known t op i I ltac:(lia) Hs) as [E1 E2].
  destruct (start_range t i Hb El) as [S1 S2]. unfold pa_update. rewrite E1, pa_size_eq. cbn [bind]. rewrite (proj2 (Z.leb_gt _ _)) by lia. rewrite E2. cbn [bind].
  rewrite i32_id by lia. rewrite (addresses_in t i Hb El ltac:(lia)). cbn [bind fst snd].
  destruct (lupdate_over a (pa_base t * elems t) (pa_sgn t) v k sv (start t i) (pa_base t)) as (r & A & B & D); auto.
  { intros E. lia. }
  exists r. split; [exact A|]. split; [split; assumption|exact D].
Qed.
Lemma packed_write_none t a op v : 1 <= pa_base t -> pa_size t < 2 ^ 31 -> (bad_index op \/ exists i, index op i /\ pa_base t * elems t <= i) -> pa_update t a op v = Ok a.
Proof.
  intros Hb Hs I. pose proof (elems_pos t). rewrite pa_size_eq in Hs. assert (E : pa_index_bad t op = Ok true).
  { destruct I as [B|(i & I & Hi)]; [now apply index_bad|]. destruct (index_known t op i I) as [-> _]; [nia|rewrite pa_size_eq; nia|]. f_equal. apply Z.leb_le. rewrite pa_size_eq. exact Hi. }
  unfold pa_update. now rewrite E.
Qed.
Lemma packed_rejected t a b op v w : 65 <= lw op -> pa_get t a op = IllFormed /\ pa_update t a op v = IllFormed /\ pa_get_bit t b op = IllFormed /\ pa_update_bit t b op w = IllFormed.
Proof. intros W. unfold pa_get, pa_update, pa_get_bit, pa_update_bit. rewrite (index_big t op W). auto. Qed.

(** 2-state writes *)
Lemma update_over2 x n s op k so lo w (f : Z -> bool) : 2 <= n -> 1 <= k -> 1 <= w -> typed x n s -> typed op k so -> 0 <= lo -> lo + w <= n -> (lo + w = n -> n <> 64) ->
  (forall q, 0 <= q <= w -> bit_get op q = Ok (f q)) ->
  exists r, bit_update_r x lo (lo + w) op = Ok r /\ typed r n s /\
    forall p, 0 <= p < n -> bit_at r p = if (lo <=? p) && (p <=? lo + w) then f (p - lo) else bit_at x p.
Proof.
  intros Hn Hk Hw Tx To Hlo Hhi N64 F. assert (H1 : 1 <= n) by lia.
  set (Inv := fun i y => typed y n s /\ (forall p, 0 <= p < n -> bit_at y p = if (lo <=? p) && (p <? i) then f (p - lo) else bit_at x p)).
  destruct (zrange_ofold_ind (fun x i => let! v := bit_get op (i - lo) in bit_set_bit0 x i v) Inv lo (lo + w + 1) x) as (r & E & Tr & Br); [lia | | |].
  - split; [exact Tx|]. intros p Hp. replace ((lo <=? p) && (p <? lo)) with false by lia. reflexivity.
  - intros i y Hi (Ty & By). rewrite (F (i - lo)) by lia. cbn [bind]. destruct (Z.eq_dec i n) as [En|En].
    + subst i. destruct (set_over y n s (f (n - lo)) Hn (N64 ltac:(lia)) Ty) as (y' & _ & E' & T' & B'). exists y'. split; [exact E'|]. split; [exact T'|].
      intros p Hp. rewrite B', By by exact Hp. replace ((lo <=? p) && (p <? n + 1)) with ((lo <=? p) && (p <? n)) by lia. reflexivity.
    + destruct (rd_plain y n s i Ty H1) as (_ & R2 & R3). pose proof (typed_bw y n s H1 Ty) as Wy.
      destruct (bit_set_bit0_spec y i (f (i - lo))) as (y' & E' & V' & F1 & F2 & F3 & B' & Y'); [eapply typed_vec; eassumption | exact R3 | rewrite R2, Wy; lia |].
      exists y'. split; [exact E'|]. split; [eapply typed_of_fields; eassumption|]. intros p Hp. rewrite B' by lia. rewrite R2. destruct (Z.eqb_spec p i) as [->|Ne].
      * replace ((lo <=? i) && (i <? i + 1)) with true by lia. reflexivity.
      * rewrite By by lia. replace ((lo <=? p) && (p <? i + 1)) with ((lo <=? p) && (p <? i)) by lia. reflexivity.
  - exists r. split; [|split; [exact Tr|]].
    + rewrite <- E. unfold bit_update_r. cbn zeta. replace (Z.min lo (lo + w)) with lo by lia. replace (Z.max lo (lo + w)) with (lo + w) by lia. apply (ofold_ext_in (fun y => bmsb y = bmsb x /\ blsb y = blsb x)); [| |auto].
      * intros y i [F1 F2]. rewrite F1, F2. unfold big_endian. destruct Tx as (_ & [-> ->] & _). destruct To as (_ & [-> ->] & _).
        replace (0 <=? k - 1) with true by lia. replace (0 <=? n - 1) with true by lia. reflexivity.
      * intros y i y' [F1 F2] G. destruct (bit_get op (i - lo)); cbn [bind] in G; try discriminate. apply set0_fields in G. destruct G. split; congruence.
    + intros p Hp. rewrite Br by lia. replace ((lo <=? p) && (p <? lo + w + 1)) with ((lo <=? p) && (p <=? lo + w)) by lia. reflexivity.
Qed.
(** reading past the end of an unsigned vector *)
Lemma get_past b k q : 1 <= k -> typed b k false -> tidy b -> 0 <= q -> (k <= 32 -> q < 32) -> (k <= 64 -> q < 64) -> q < 2 ^ 31 -> bit_get b q = Ok ((q <? k) && bit_at b q).
Proof.
  intros Hk T D Hq C1 C2 C3. assert (Wb := typed_bw b k false Hk T). destruct (Z.ltb_spec q k).
  - destruct (rd_plain b k false q T Hk) as (R1 & _ & _). rewrite (bit_get_spec b q) by (try (eapply typed_vec; eassumption); rewrite R1, Wb; lia). now rewrite R1.
  - cbn [andb]. destruct (typed_cases b k false Hk T) as [(v & E & R & I)|(ws & E & R & I)]; subst b; unfold bit_get; cbn [bmsb blsb bsgn bval];
    (assert (big_endian (k - 1) 0 = true) as -> by (unfold big_endian; apply Z.leb_le; lia)).
    + assert (Bs : bsize (mkBit (k - 1) 0 false (HN v)) = k) by (apply (typed_bsize _ k false Hk T)). rewrite Bs.
      pose proof (proj1 (tidy_u_iff _ k Hk T) D) as Nr. unfold stored in Nr. cbn [bval] in Nr.
      assert (W : q < iwidth (promote (hty k false))). { unfold hty. destruct (k <=? 1) eqn:K1; [cbn; lia|]. destruct (k <=? 8) eqn:K8; [cbn; lia|]. destruct (k <=? 16) eqn:K16; [cbn; lia|]. destruct (k <=? 32) eqn:K32; [cbn; lia|]. cbn; lia. }
      unfold c_shr. replace ((0 <=? q) && (q <? iwidth (promote (hty k false)))) with true by lia. cbn [bind].
      assert (Z.shiftr v q = 0) as ->. { rewrite Z.shiftr_div_pow2 by lia. apply Z.div_small. split; [lia|]. apply Z.lt_le_trans with (2 ^ k); [lia|]. apply Z.pow_le_mono_r; lia. }
      unfold c_and. cbn zeta. f_equal. destruct (conv _ 0) eqn:Z0; destruct (hty k false) eqn:Eh; cbn in Z0; try discriminate; reflexivity.
    + rewrite (typed_bsize _ k false Hk T). rewrite u64_id by lia. unfold bn_get. rewrite (proj2 (Z.ltb_ge _ _)) by lia. reflexivity.
Qed.
Lemma packed_write2 t a op i v k : arr2 t a -> index op i -> 0 <= i < pa_base t * elems t -> element t i -> 2 <= pa_base t * elems t ->
  1 <= k -> typed v k false -> tidy v -> (start t i + pa_base t = 64 -> pa_base t * elems t <> 64) -> (k <= 32 -> pa_base t < 32) -> (k <= 64 -> pa_base t < 64) ->
  exists r, pa_update_bit t a op v = Ok r /\ arr2 t r /\ forall q, 0 <= q < pa_base t * elems t -> bit_at r q =
    if (start t i <=? q) && (q <=? start t i + pa_base t) then (q - start t i <? k) && bit_at v (q - start t i) else bit_at a q.
Proof.
  intros [Hb T] I Hi El H2 Hk Tv Dv C C1 C2. destruct (arr_size2 t _ _ a Hb eq_refl T) as (Hn & Hbn & Hs). destruct (index_known t op i I ltac:(lia) Hs) as [E1 E2].
  destruct (start_range t i Hb El) as [S1 S2]. unfold pa_update_bit. rewrite E1, pa_size_eq. cbn [bind]. rewrite (proj2 (Z.leb_gt _ _)) by lia. rewrite E2. cbn [bind].
  rewrite i32_id by lia. rewrite (addresses_in t i Hb El ltac:(lia)). cbn [bind fst snd].
  destruct (update_over2 a (pa_base t * elems t) (pa_sgn t) v k false (start t i) (pa_base t) (fun q => (q <? k) && bit_at v q)) as (r & A & B & D); auto.
  { intros E. lia. }
  { intros q Hq. apply (get_past v k q); auto; lia. }
  exists r. split; [exact A|]. split; [split; assumption|exact D].
Qed.
Lemma packed_write2_none t a op v : 1 <= pa_base t -> pa_size t < 2 ^ 31 -> (bad_index op \/ exists i, index op i /\ pa_base t * elems t <= i) -> pa_update_bit t a op v = Ok a.
Proof.
  intros Hb Hs I. pose proof (elems_pos t). rewrite pa_size_eq in Hs. assert (E : pa_index_bad t op = Ok true).
  { destruct I as [B|(i & I & Hi)]; [now apply index_bad|]. destruct (index_known t op i I) as [-> _]; [nia|rewrite pa_size_eq; nia|]. f_equal. apply Z.leb_le. rewrite pa_size_eq. exact Hi. }
  unfold pa_update_bit. now rewrite E.
Qed.

(** * ranges of elements *)
Lemma range_addr t hi lo : 1 <= pa_base t -> element t hi -> element t lo ->
  pa_start t hi lo = start t (Z.min hi lo) /\ pa_end t hi lo - 1 = start t (Z.min hi lo) + (Z.abs (hi - lo) + 1) * pa_base t - 1 /\
  0 <= start t (Z.min hi lo) /\ start t (Z.min hi lo) + (Z.abs (hi - lo) + 1) * pa_base t <= pa_base t * elems t /\ 1 <= (Z.abs (hi - lo) + 1) * pa_base t.
Proof.
  intros Hb E1 E2. unfold pa_start, pa_end, start. unfold element, in_range in *. unfold elems, width.
  split; [reflexivity|]. destruct (Z.le_gt_cases hi lo).
  - rewrite (Z.min_l hi lo), (Z.max_r hi lo) by lia. replace (Z.abs (hi - lo)) with (lo - hi) by lia. nia.
  - rewrite (Z.min_r hi lo), (Z.max_l hi lo) by lia. replace (Z.abs (hi - lo)) with (hi - lo) by lia. nia.
Qed.
Lemma range_read t a hi lo w : arr4 t a -> pa_sgn t = false -> element t hi -> element t lo -> w = (Z.abs (hi - lo) + 1) * pa_base t -> (pa_base t * elems t <= 64 \/ w <> 65) ->
  exists r, pa_slice_array t a hi lo = Ok r /\ ltyped r w false /\ ltidy r /\ forall p, 0 <= p < w -> sym_at r p = sym_at a (start t (Z.min hi lo) + p).
Proof.
  intros [Hb T] S E1 E2 Ew C. rewrite S in T. destruct (range_addr t hi lo Hb E1 E2) as (P & Q & R1 & R2 & R3). rewrite <- Ew in *. unfold pa_slice_array. rewrite P, Q.
  pose proof (elems_pos t). destruct (lslice_c a (pa_base t * elems t) (start t (Z.min hi lo) + w - 1) (start t (Z.min hi lo))) as (r & A & B & D & F); auto; try lia.
  replace (Z.abs _ + 1) with w in * by lia. rewrite Z.min_r in F by lia. eauto.
Qed.
Lemma range_read_signed t a hi lo w : arr4 t a -> pa_sgn t = true -> element t hi -> element t lo -> w = (Z.abs (hi - lo) + 1) * pa_base t ->
  (2 <= pa_base t * elems t <= 64 /\ 2 <= w /\ start t (Z.min hi lo) + w + 1 <= iwidth (hty (pa_base t * elems t) true)) \/ (65 <= pa_base t * elems t /\ w <> 65) ->
  exists r, pa_slice_array t a hi lo = Ok r /\ ltyped r w false /\ forall p, 0 <= p < w -> sym_at r p = sym_at a (start t (Z.min hi lo) + p).
Proof.
  intros [Hb T] S E1 E2 Ew C. rewrite S in T. destruct (range_addr t hi lo Hb E1 E2) as (P & Q & R1 & R2 & R3). rewrite <- Ew in *. unfold pa_slice_array. rewrite P, Q.
  pose proof (elems_pos t). destruct (lslice_c_signed a (pa_base t * elems t) (start t (Z.min hi lo) + w - 1) (start t (Z.min hi lo))) as (r & A & B & F); auto; try lia.
  replace (Z.abs _ + 1) with w in * by lia. rewrite Z.min_r in F by lia. eauto.
Qed.
Lemma range_read2 t a hi lo w : arr2 t a -> pa_sgn t = false -> element t hi -> element t lo -> w = (Z.abs (hi - lo) + 1) * pa_base t -> pa_base t * elems t <= 64 ->
  exists r, pa_slice_array_bit t a hi lo = Ok r /\ typed r w false /\ tidy r /\ forall p, 0 <= p < w -> bit_at r p = bit_at a (start t (Z.min hi lo) + p).
Proof.
  intros [Hb T] S E1 E2 Ew C. rewrite S in T. destruct (range_addr t hi lo Hb E1 E2) as (P & Q & R1 & R2 & R3). rewrite <- Ew in *. unfold pa_slice_array_bit. rewrite P, Q.
  pose proof (elems_pos t). assert (H1 : 1 <= pa_base t * elems t) by nia. rewrite (typed_bsize _ _ _ H1 T). unfold native_num. rewrite (proj2 (Z.leb_le _ _)) by lia. cbn [requires].
  destruct (slice_const_unsigned a (pa_base t * elems t) (start t (Z.min hi lo) + w - 1) (start t (Z.min hi lo))) as (r & A & B & D & F); auto; try lia.
  replace (Z.abs _ + 1) with w in * by lia. rewrite Z.min_r in F by lia. eauto.
Qed.
Lemma range_read2_rejected t a hi lo : arr2 t a -> 65 <= pa_base t * elems t -> pa_slice_array_bit t a hi lo = IllFormed.
Proof.
  intros [Hb T] H. assert (H1 : 1 <= pa_base t * elems t) by lia. unfold pa_slice_array_bit. rewrite (typed_bsize _ _ _ H1 T). unfold native_num. rewrite (proj2 (Z.leb_gt _ _)) by lia. reflexivity.
Qed.
Lemma range_write t a hi lo v k sv w : arr4 t a -> element t hi -> element t lo -> w = (Z.abs (hi - lo) + 1) * pa_base t -> 1 <= k -> ltyped v k sv ->
  (forall q, 64 <= q < k -> q < w -> unknown (sym_at v q) = false) ->
  exists r, pa_update_c t a hi lo v = Ok r /\ arr4 t r /\ forall q, 0 <= q < pa_base t * elems t -> sym_at r q =
    if (start t (Z.min hi lo) <=? q) && (q <? start t (Z.min hi lo) + w) then (if q - start t (Z.min hi lo) <? k then sym_at v (q - start t (Z.min hi lo)) else S0) else sym_at a q.
Proof.
  intros [Hb T] E1 E2 Ew Hk Tv U. destruct (range_addr t hi lo Hb E1 E2) as (P & Q & R1 & R2 & R3). rewrite <- Ew in *. unfold pa_update_c. rewrite P, Q. set (st := start t (Z.min hi lo)) in *.
  pose proof (elems_pos t). assert (H1 : 1 <= pa_base t * elems t) by nia. rewrite (lupdate_c a (pa_base t * elems t) (pa_sgn t)) by (auto; lia).
  destruct (lupdate a (pa_base t * elems t) (pa_sgn t) v k sv (st + w - 1) st) as (r & A & B & D & F); auto; try lia. { intros q H2 H3. apply U; lia. }
  exists r. split; [exact A|]. split; [split; assumption|]. intros q Hq. rewrite F by exact Hq. rewrite Z.min_r, Z.max_l by lia.
  replace (q <=? st + w - 1) with (q <? st + w) by lia. reflexivity.
Qed.

(** * unpacked arrays *)
Lemma int_in z : int_ok z <-> in_ity TI32 z = true.
Proof. unfold int_ok, in_ity. cbn [isigned iwidth]. change (2 ^ (32 - 1)) with (2 ^ 31). rewrite andb_true_iff, Z.leb_le, Z.ltb_lt. lia. Qed.
Lemma arith_int z : arith TI32 z = if in_ity TI32 z then Ok z else UB. Proof. reflexivity. Qed.
Section Unpacked.
  Context {T V : Type} (assign : T -> V -> outcome T) (dflt : T) (msb lsb : Z).
  Hypothesis R : int_ok msb /\ int_ok lsb /\ width msb lsb < 2 ^ 31.
  Lemma range_int i : in_range msb lsb i -> in_ity TI32 (i - Z.min msb lsb) = true.
  Proof using R. intros H. apply int_in. unfold in_range, int_ok, width in *. lia. Qed.
  Lemma ua_get_in a i : in_range msb lsb i -> ua_get dflt msb lsb a i = Ok (nth (Z.to_nat (i - Z.min msb lsb)) a dflt).
  Proof using R.
    intros H. unfold ua_get. rewrite arith_int, (range_int i H). cbn [bind]. unfold in_range, int_ok in *. rewrite Z.mod_small by lia. unfold vsize. rewrite (proj2 (Z.leb_gt _ _)) by lia. reflexivity.
  Qed.
  Lemma ua_get_out a i : int_ok i -> ~ in_range msb lsb i -> int_ok (i - Z.min msb lsb) -> ua_get dflt msb lsb a i = Ok dflt.
  Proof using R.
    intros Hi H D. unfold ua_get. rewrite arith_int, (proj1 (int_in _) D). cbn [bind]. unfold in_range, int_ok in *. f_equal.
    destruct (Z.leb_spec (vsize msb lsb) ((i - Z.min msb lsb) mod 2 ^ 32)) as [G|G]; [reflexivity|]. exfalso. unfold vsize in G.
    destruct (Z.le_gt_cases (Z.min msb lsb) i).
    - rewrite Z.mod_small in G by lia. lia.
    - replace (i - Z.min msb lsb) with ((i - Z.min msb lsb + 2 ^ 32) + (-1) * 2 ^ 32) in G by lia. rewrite Z.mod_add, Z.mod_small in G by lia. lia.
  Qed.
  (** every [int] index *)
  Lemma ua_get_exact a i : int_ok i ->
    (~ in_range msb lsb i -> ua_get dflt msb lsb a i = Ok dflt <-> int_ok (i - Z.min msb lsb)) /\ (ua_get dflt msb lsb a i = UB <-> ~ int_ok (i - Z.min msb lsb)).
  Proof using R.
    clear assign V. intros Hi. unfold ua_get at 2. rewrite arith_int. destruct (in_ity TI32 (i - Z.min msb lsb)) eqn:E.
    - assert (D := proj2 (int_in _) E). cbn [bind]. split; [|split; [discriminate|tauto]]. intros H. split; [auto|]. intros _. now apply ua_get_out.
    - assert (D : ~ int_ok (i - Z.min msb lsb)) by (rewrite int_in; congruence). cbn [bind]. split; [|tauto]. intros _. split; [|tauto]. unfold ua_get. rewrite arith_int, E. discriminate.
  Qed.
  Lemma ua_write a i v x : Z.of_nat (length a) = width msb lsb -> in_range msb lsb i -> 0 <= i < width msb lsb -> assign (nth (Z.to_nat (i - Z.min msb lsb)) a dflt) v = Ok x ->
    exists a', ua_update assign dflt msb lsb a i v = Ok a' /\ length a' = length a /\ ua_get dflt msb lsb a' i = Ok x /\
      forall j, int_ok j -> j <> i -> ua_get dflt msb lsb a' j = ua_get dflt msb lsb a j.
  Proof using R.
    intros L H Hi E. unfold ua_update. rewrite (range_int i H). cbn [requires]. rewrite u64_id by (unfold width, int_ok in *; lia).
    rewrite (proj2 (Z.leb_gt _ _)) by exact (proj2 Hi). assert (B : (0 <=? i - Z.min msb lsb) && (i - Z.min msb lsb <? vsize msb lsb) = true). { unfold in_range, vsize in *. lia. }
    rewrite B. cbn [ub_unless]. rewrite E. cbn [bind]. eexists. split; [reflexivity|]. split; [apply lupd_length|].
    assert (Li : (Z.to_nat (i - Z.min msb lsb) < length a)%nat) by (unfold in_range, width in *; lia). split.
    - rewrite ua_get_in by exact H. rewrite lupd_nth. rewrite (proj2 (Nat.eqb_eq _ _)) by reflexivity. rewrite (proj2 (Nat.ltb_lt _ _)) by exact Li. reflexivity.
    - intros j Hj Nj. destruct (Z_le_dec (Z.min msb lsb) j), (Z_le_dec j (Z.max msb lsb)).
      + rewrite !ua_get_in by (unfold in_range; lia). rewrite lupd_nth. destruct (Nat.eqb_spec (Z.to_nat (j - Z.min msb lsb)) (Z.to_nat (i - Z.min msb lsb))); [lia|]. reflexivity.
      + destruct (in_ity TI32 (j - Z.min msb lsb)) eqn:D; [|unfold ua_get; rewrite arith_int, D; reflexivity]. rewrite !ua_get_out by (auto; unfold in_range; lia || (apply int_in; exact D)). reflexivity.
      + destruct (in_ity TI32 (j - Z.min msb lsb)) eqn:D; [|unfold ua_get; rewrite arith_int, D; reflexivity]. rewrite !ua_get_out by (auto; unfold in_range; lia || (apply int_in; exact D)). reflexivity.
      + destruct (in_ity TI32 (j - Z.min msb lsb)) eqn:D; [|unfold ua_get; rewrite arith_int, D; reflexivity]. rewrite !ua_get_out by (auto; unfold in_range; lia || (apply int_in; exact D)). reflexivity.
  Qed.
  Lemma ua_write_out a i v : int_ok i -> ~ 0 <= i < width msb lsb -> int_ok (i - Z.min msb lsb) -> ua_update assign dflt msb lsb a i v = Ok a.
  Proof using R.
    intros Hi H D. unfold ua_update. rewrite (proj1 (int_in _) D). cbn [requires]. assert (vsize msb lsb <=? u64 i = true) as ->; [|reflexivity]. apply Z.leb_le. change (vsize msb lsb) with (width msb lsb).
    unfold int_ok, width in *. destruct (Z.le_gt_cases 0 i).
    - rewrite u64_id by lia. lia.
    - unfold u64. replace (i mod 2 ^ 64) with (i + 2 ^ 64). { lia. } replace i with ((i + 2 ^ 64) + (-1) * 2 ^ 64) at 2 by lia. rewrite Z.mod_add, Z.mod_small by lia. reflexivity.
  Qed.
  (** writing an element: right exactly if the index is smaller than the number of elements or nothing is to be written *)
  Lemma ua_write_exact a i v x : Z.of_nat (length a) = width msb lsb -> in_range msb lsb i -> assign (nth (Z.to_nat (i - Z.min msb lsb)) a dflt) v = Ok x ->
    (exists a', ua_update assign dflt msb lsb a i v = Ok a' /\ ua_get dflt msb lsb a' i = Ok x /\ forall j, int_ok j -> j <> i -> ua_get dflt msb lsb a' j = ua_get dflt msb lsb a j) <->
    0 <= i < width msb lsb \/ nth (Z.to_nat (i - Z.min msb lsb)) a dflt = x.
  Proof using R.
    intros L H E. assert (Ii : int_ok i) by (unfold int_ok, in_range in *; lia). assert (D : int_ok (i - Z.min msb lsb)) by (apply int_in, range_int, H). split.
    - intros (a' & U & G & _). destruct (Z_le_dec 0 i), (Z_lt_dec i (width msb lsb)); [left; lia|right..]; rewrite ua_write_out in U by (auto; lia); injection U as <-; rewrite ua_get_in in G by exact H; congruence.
    - intros [Hi|Q].
      + destruct (ua_write a i v x L H Hi E) as (a' & U & _ & G & F). exists a'. auto.
      + destruct (Z_le_dec 0 i), (Z_lt_dec i (width msb lsb)); [destruct (ua_write a i v x L H ltac:(lia) E) as (a' & U & _ & G & F); exists a'; auto|exists a..]; (split; [apply ua_write_out; auto; lia|]; split; [rewrite ua_get_in by exact H; now f_equal|auto]).
  Qed.
  Lemma ua_write_out_exact a i v : Z.of_nat (length a) = width msb lsb -> int_ok i -> ~ in_range msb lsb i ->
    (ua_update assign dflt msb lsb a i v = Ok a <-> int_ok (i - Z.min msb lsb) /\ ~ 0 <= i < width msb lsb) /\
    (ua_update assign dflt msb lsb a i v = UB <-> int_ok (i - Z.min msb lsb) /\ 0 <= i < width msb lsb) /\
    (ua_update assign dflt msb lsb a i v = IllFormed <-> ~ int_ok (i - Z.min msb lsb)).
  Proof using R.
    intros L Hi H. destruct (in_ity TI32 (i - Z.min msb lsb)) eqn:E.
    - assert (D := proj2 (int_in _) E). destruct (Z_le_dec 0 i), (Z_lt_dec i (width msb lsb)); [|rewrite ua_write_out by (auto; lia); split; [|split]; (split; intros X; [try discriminate X; tauto|tauto])..].
      assert (U : ua_update assign dflt msb lsb a i v = UB).
      { unfold ua_update. rewrite E. cbn [requires]. unfold width, int_ok in *. rewrite u64_id by lia. unfold vsize, in_range in *. rewrite (proj2 (Z.leb_gt _ _)) by lia.
        assert ((0 <=? i - Z.min msb lsb) && (i - Z.min msb lsb <? Z.abs (msb - lsb) + 1) = false) as ->; [|reflexivity]. apply andb_false_iff. rewrite Z.leb_gt, Z.ltb_ge. lia. }
      rewrite U. split; [|split]; (split; intros X; [try discriminate X; tauto|tauto]).
    - assert (D : ~ int_ok (i - Z.min msb lsb)) by (rewrite int_in; congruence). assert (U : ua_update assign dflt msb lsb a i v = IllFormed) by (unfold ua_update; rewrite E; reflexivity).
      rewrite U. split; [|split]; (split; intros X; [try discriminate X; tauto|tauto]).
  Qed.
End Unpacked.

(** * counterexamples and examples *)
(** an [n]-bit (n <= 64) known vector *)
Definition k4 (n v : Z) : logic := mkLogic (bit_of_native (n - 1) 0 false v) (bit_of_native (n - 1) 0 false 0).
(** an 80-bit known vector *)
Definition k80 (a b : Z) : logic := mkLogic (mkBit 79 0 false (HB [a; b])) (mkBit 79 0 false (HB [0; 0])).
Lemma packed_read_counter :
  (exists t a op, arr4 t a /\ index op 3 /\ element t 3 /\ pa_get t a op = UB) /\
  (exists t a op r, arr4 t a /\ index op 12 /\ element t 12 /\ pa_get t a op = Ok r /\ all_x r /\ ~ all_x a /\ known a) /\
  (exists t a op r, arr4 t a /\ index op 7 /\ ~ element t 7 /\ pa_get t a op = Ok r /\ known r) /\
  (exists t a op r, arr4 t a /\ pa_base t = 1 /\ index op 2 /\ element t 2 /\ pa_get t a op = Ok r /\ sym_at a (start t 2) = S0 /\ sym_at r 0 = S1).
Proof.
  split; [|split; [|split]].
  - exists (mkParrTy 8 false 3 0), (k4 32 0), (k4 8 3). split; [split; [vm_compute; discriminate|conc]|]. split.
    { split; [conc|]. split; [vm_compute; discriminate|]. split; [conc|]. split; [apply known_of_num0; reflexivity|reflexivity]. }
    split; [conc|]. vm_compute. reflexivity.
  - exists (mkParrTy 2 false 13 10), (k4 8 255), (k4 8 12), (logic_default 1 0 false). split; [split; [vm_compute; discriminate|conc]|]. split.
    { split; [conc|]. split; [vm_compute; discriminate|]. split; [conc|]. split; [apply known_of_num0; reflexivity|reflexivity]. }
    split; [conc|]. split; [vm_compute; reflexivity|]. split; [apply (default_typed 2 false); lia|]. split.
    { intros A. specialize (A 0). vm_compute in A. discriminate A. all: conc. }
    apply known_of_num0; reflexivity.
  - exists (mkParrTy 16 false 4 0), (k80 0 0), (k4 8 7), (k4 16 0). split; [split; [vm_compute; discriminate|conc]|]. split.
    { split; [conc|]. split; [vm_compute; discriminate|]. split; [conc|]. split; [apply known_of_num0; reflexivity|reflexivity]. }
    split. { intros [_ H]. vm_compute in H. now apply H. }
    split; [vm_compute; reflexivity|]. apply known_of_num0; reflexivity.
  - exists (mkParrTy 1 false 7 0), (k4 8 8), (k4 8 2), (k4 1 1). split; [split; [vm_compute; discriminate|conc]|]. split; [reflexivity|]. split.
    { split; [conc|]. split; [vm_compute; discriminate|]. split; [conc|]. split; [apply known_of_num0; reflexivity|reflexivity]. }
    split; [conc|]. split; [vm_compute; reflexivity|]. split; vm_compute; reflexivity.
Qed.

Ltac idx := split; [conc|split; [vm_compute; discriminate|split; [conc|split; [apply known_of_num0; reflexivity|reflexivity]]]].
Lemma packed_write_counter :
  (exists t a op v r, arr4 t a /\ index op 1 /\ element t 1 /\ element t 2 /\ ltyped v (pa_base t) false /\ ltidy v /\ pa_update t a op v = Ok r /\
     sym_at a (start t 2) = S1 /\ sym_at r (start t 2) = S0) /\
  (exists t a op v, arr4 t a /\ index op 3 /\ element t 3 /\ ltyped v (pa_base t) false /\ ltidy v /\ pa_update t a op v = UB).
Proof.
  split.
  - exists (mkParrTy 16 false 4 0), (k80 (2 ^ 32) 0), (k4 8 1), (k4 16 7). eexists. split; [split; [vm_compute; discriminate|conc]|]. split; [idx|]. split; [conc|]. split; [conc|].
    split; [conc|]. split; [conc|]. split; [vm_compute; reflexivity|]. split; vm_compute; reflexivity.
  - exists (mkParrTy 16 false 3 0), (k4 64 0), (k4 8 3), (k4 16 7). split; [split; [vm_compute; discriminate|conc]|]. split; [idx|]. split; [conc|]. split; [conc|]. split; [conc|]. vm_compute. reflexivity.
Qed.
Lemma packed_write_counter2 :
  (exists t a op v r, arr2 t a /\ index op 1 /\ element t 1 /\ element t 2 /\ typed v (pa_base t) false /\ tidy v /\ pa_update_bit t a op v = Ok r /\
     bit_at a (start t 2) = true /\ bit_at r (start t 2) = false) /\
  (exists t a op v, arr2 t a /\ index op 1 /\ element t 1 /\ typed v (pa_base t) false /\ tidy v /\ pa_update_bit t a op v = UB).
Proof.
  split.
  - exists (mkParrTy 16 false 4 0), (l_val (k80 (2 ^ 32) 0)), (k4 8 1), (l_val (k4 16 7)). eexists. split; [split; [vm_compute; discriminate|conc]|]. split; [idx|]. split; [conc|]. split; [conc|].
    split; [conc|]. split; [conc|]. split; [vm_compute; reflexivity|]. split; vm_compute; reflexivity.
  - exists (mkParrTy 32 false 4 0), (mkBit 159 0 false (HB [0; 0; 0])), (k4 8 1), (l_val (k4 32 7)). split; [split; [vm_compute; discriminate|conc]|]. split; [idx|]. split; [conc|]. split; [conc|]. split; [conc|]. vm_compute. reflexivity.
Qed.
(** 8-bit elements 5 down to 2 *)
Definition four (a b c d : Z) : list bit := [bit_of_native 7 0 false a; bit_of_native 7 0 false b; bit_of_native 7 0 false c; bit_of_native 7 0 false d].
Lemma unpacked_counter : let dflt := bit_zero 7 0 false in let a := four 1 2 3 4 in let v := bit_of_native 7 0 false 9 in
  (in_range 5 2 4 /\ (let! e := ua_get dflt 5 2 a 4 in bit_assign e v) = Ok v /\ ua_update bit_assign dflt 5 2 a 4 v = Ok a /\ ua_get dflt 5 2 a 4 = Ok (bit_of_native 7 0 false 3)) /\
  (~ in_range 5 2 1 /\ ua_update bit_assign dflt 5 2 a 1 v = UB) /\
  (~ in_range 5 2 (- 2 ^ 31) /\ ua_get dflt 5 2 a (- 2 ^ 31) = UB).
Proof.
  cbv zeta. split; [|split; split].
  - conc.
  - intros [H _]. vm_compute in H. now apply H.
  - vm_compute. reflexivity.
  - intros [H _]. vm_compute in H. now apply H.
  - vm_compute. reflexivity.
Qed.
Lemma packed_ex : let t := mkParrTy 16 false 4 0 in
  arr4 t (k80 5 9) /\ arr2 t (l_val (k80 5 9)) /\ index (k4 8 3) 3 /\ 0 <= 3 < pa_base t * elems t /\ element t 3 /\ index (k4 8 100) 100 /\
  bad_index (mkLogic (bit_of_native 7 0 false 3) (bit_of_native 7 0 false 4)) /\
  (let t := mkParrTy 2 true 2 0 in arr4 t (mkLogic (bit_of_native 5 0 true 7) (bit_of_native 5 0 false 16)) /\ start t 2 + pa_base t < iwidth (hty 6 true)).
Proof.
  cbv zeta. split; [split; [vm_compute; discriminate|conc]|]. split; [split; [vm_compute; discriminate|conc]|]. split; [idx|]. split; [conc|]. split; [conc|]. split; [idx|]. split.
  { split; [conc|]. split; [vm_compute; discriminate|]. split; [conc|]. intros K. assert (H : unknown SX = false). { change SX with (sym_at (mkLogic (bit_of_native 7 0 false 3) (bit_of_native 7 0 false 4)) 2). apply K. conc. } discriminate H. }
  split; [split; [vm_compute; discriminate|conc]|]. conc.
Qed.
