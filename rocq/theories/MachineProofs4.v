(** Slices, change of width, concatenation and reductions against the reference machine. *)
From Coq Require Import ZArith List Bool Lia Zify ZifyBool.
From Verif Require Import Cpp BigNum Bit Logic Spec SpecExact SpecMachine ZBits Words BigNumProofs BigArith BitProofs BitSlice BitExt BitOps BitShift BitArith MachineProofs MachineProofs2 MachineProofs3.
Import ListNotations.
Open Scope Z_scope.
Local Ltac Zify.zify_post_hook ::= idtac.

(** the mask-and-shift sequence of both kinds of slice *)
Definition chain (n : Z) (s : bool) (v lo sh : Z) : outcome Z :=
  let t := hty n s in
  let tu := hty n false in
  let! m1 := c_shl tu (cmax tu) lo in
  let! m2 := c_shr tu (cmax tu) sh in
  c_shr (promote t) (c_and t t v (conv t (Z.land (u64 m1) (u64 m2)))) lo.

Lemma chain_ok n s v lo hi : 2 <= n <= 64 -> in_ity (hty n s) v = true -> 0 <= lo <= hi -> hi < storage n ->
  chain n s v lo (storage n - 1 - hi) = Ok (cut s (storage n) v lo hi).
Proof.
  intros Hn Iv Hlo Hhi. destruct (storage_cases n Hn) as (L1 & L2 & S & W). set (w := storage n) in *.
  unfold chain. cbn zeta. set (t := hty n s) in *. set (tu := hty n false) in *.
  assert (Wt : iwidth t = w) by (unfold t; rewrite hty_iw; exact W).
  assert (Nt : t <> TBool) by (apply hty_nb; lia).
  assert (Mx : cmax tu = Z.ones w) by (unfold cmax, tu; rewrite hty_signed by lia; fold tu; rewrite W, Z.ones_equiv; lia).
  unfold c_shl, c_shr. rewrite Mx, promote_idem. cbn zeta.
  assert (Pt : iwidth (promote t) = computing n) by (apply promote_computing; lia).
  assert (Pu : iwidth (promote tu) = computing n) by (apply promote_computing; lia). rewrite !Pt, !Pu.
  replace ((0 <=? lo) && (lo <? computing n)) with true by lia. cbn [bind].
  replace ((0 <=? w - 1 - hi) && (w - 1 - hi <? computing n)) with true by lia. cbn [bind]. apply f_equal.
  set (mask := Z.land _ _).
  assert (BM : forall p, 0 <= p < w -> Z.testbit mask p = (lo <=? p) && (p <=? hi)).
  { intros p Hp. unfold mask, u64. rewrite Z.land_spec, !testbit_mod_pow2 by lia. replace (p <? 64) with true by lia. cbn [andb].
    rewrite conv_testbit by (try apply promote_nb; rewrite Pu; lia).
    rewrite Z.shiftl_spec, Z.shiftr_spec, !Z.testbit_ones by lia. lia. }
  assert (BC : forall p, 0 <= p -> Z.testbit (conv t mask) p = if p <? w then (lo <=? p) && (p <=? hi) else s && (hi =? w - 1)).
  { intros p Hp. destruct (Z.ltb_spec p w) as [Lp | Lp]; [rewrite conv_testbit by (auto; lia); apply BM; lia|].
    pose proof (conv_in_ity t mask) as IC. apply in_ity_range in IC. unfold t in IC at 1. rewrite hty_signed, Wt in IC by lia.
    destruct s.
    - rewrite (sign_bits w (conv t mask) p IC) by lia. rewrite <- (sign_bits w (conv t mask) (w - 1) IC) by lia.
      rewrite conv_testbit by (auto; lia). rewrite BM by lia. cbn [andb]. lia.
    - rewrite (testbit_small _ w) by (lia || exact IC). reflexivity. }
  assert (Iand : c_and t t v (conv t mask) = Z.land v (conv t mask)).
  { unfold c_and. rewrite uac_same. cbn zeta. rewrite !conv_promote by (try apply conv_in_ity; exact Iv). reflexivity. }
  rewrite Iand. apply Z.bits_inj'. intros p Hp. rewrite Z.shiftr_spec, Z.land_spec, BC by lia. unfold cut.
  apply in_ity_range in Iv. unfold t in Iv at 1. rewrite hty_signed, Wt in Iv by lia.
  destruct (s && (hi =? w - 1)) eqn:Q.
  - rewrite Z.div_pow2_bits by lia. destruct (Z.ltb_spec (p + lo) w); [|apply andb_true_r].
    replace ((lo <=? p + lo) && (p + lo <=? hi)) with true by lia. apply andb_true_r.
  - rewrite testbit_mod_pow2 by lia. rewrite Z.div_pow2_bits by lia. destruct (Z.ltb_spec (p + lo) w) as [Lp | Lp].
    + rewrite andb_comm. f_equal. lia.
    + rewrite andb_false_r. replace (p <? hi - lo + 1) with false by lia. reflexivity.
Qed.
Lemma chain_ub n s v lo hi : 2 <= n <= 64 -> lo <= hi -> - 2 ^ 40 < lo -> hi < 2 ^ 40 -> ~ (0 <= lo /\ hi < storage n) ->
  chain n s v lo (u64 (storage n - 1 - hi)) = UB.
Proof.
  intros Hn Hl B1 B2 D. destruct (storage_cases n Hn) as (L1 & L2 & S & W).
  unfold chain. cbn zeta. unfold c_shl, c_shr. cbn zeta. rewrite !promote_computing by lia.
  destruct ((0 <=? lo) && (lo <? computing n)) eqn:Q; [|reflexivity]. cbn [bind].
  assert (E : u64 (storage n - 1 - hi) = storage n - 1 - hi + 2 ^ 64).
  { unfold u64. rewrite <- (Z_mod_plus_full _ 1), Z.mod_small by lia. lia. }
  rewrite E. replace (_ && _) with false; [reflexivity|]. destruct (computing_two n) as [C | C]; rewrite C; lia.
Qed.
(** the same for a single bit *)
Lemma chain_one s v lo hi : (v = 0 \/ v = 1) -> lo <= hi -> - 2 ^ 40 < lo -> hi < 2 ^ 40 ->
  chain 1 s v lo (u64 (7 - hi)) = if (0 <=? lo) && (hi <? 8) then Ok (if (lo =? 0) && (hi =? 7) then v else 0) else UB.
Proof.
  intros Hv Hl B1 B2. unfold chain. rewrite !hty_1. cbn zeta.
  destruct ((0 <=? lo) && (hi <? 8)) eqn:Q.
  - assert (H1 : hi = 0 \/ hi = 1 \/ hi = 2 \/ hi = 3 \/ hi = 4 \/ hi = 5 \/ hi = 6 \/ hi = 7) by lia.
    assert (H2 : lo = 0 \/ lo = 1 \/ lo = 2 \/ lo = 3 \/ lo = 4 \/ lo = 5 \/ lo = 6 \/ lo = 7) by lia. clear Q B1 B2 Hl.
    repeat destruct H1 as [-> | H1]; try rewrite H1; repeat destruct H2 as [-> | H2]; try rewrite H2; destruct Hv as [-> | ->]; reflexivity.
  - unfold c_shl, c_shr. cbn [promote iwidth]. destruct ((0 <=? lo) && (lo <? 32)) eqn:P; [|reflexivity]. cbn [bind].
    assert (E : u64 (7 - hi) = 7 - hi + 2 ^ 64).
    { unfold u64. rewrite <- (Z_mod_plus_full _ 1), Z.mod_small by lia. lia. }
    rewrite E. replace (_ && _) with false by lia. reflexivity.
Qed.
Lemma bind_same {A B} (m : outcome A) (k : A -> outcome B) : (let! x := m in k x) = bind m k. Proof. reflexivity. Qed.

Lemma slots a i j : vec a -> int_ok i -> int_ok j -> slot_of a (Z.min i j) <= slot_of a (Z.max i j) /\
  - 2 ^ 39 < slot_of a (Z.min i j) /\ slot_of a (Z.max i j) < 2 ^ 39.
Proof. intros (_ & M & L & _) I J. unfold slot_of, int_ok in *. lia. Qed.
Lemma u64_small z : 0 <= z < 2 ^ 64 -> u64 z = z. Proof. apply Z.mod_small. Qed.

Lemma chain_any n s v lo hi : 1 <= n <= 64 -> in_ity (hty n s) v = true -> lo <= hi -> - 2 ^ 40 < lo -> hi < 2 ^ 40 ->
  chain n s v lo (u64 ((if n =? 1 then 8 else storage n) - 1 - hi)) =
  if negb ((0 <=? lo) && (hi <? (if n =? 1 then 8 else storage n))) then UB
  else Ok (if n =? 1 then (if (lo =? 0) && (hi =? 7) then v else 0) else cut s (storage n) v lo hi).
Proof.
  intros Hn Iv Hl B1 B2. destruct (Z.eqb_spec n 1) as [-> | N].
  - rewrite hty_1 in Iv. apply in_bool in Iv. replace (8 - 1 - hi) with (7 - hi) by lia. rewrite chain_one by assumption.
    destruct (_ && (hi <? 8)); reflexivity.
  - destruct ((0 <=? lo) && (hi <? storage n)) eqn:Q; cbn [negb].
    + destruct (storage_cases n ltac:(lia)) as (L1 & L2 & S & W). rewrite u64_small by lia. apply chain_ok; (lia || assumption).
    + apply chain_ub; lia.
Qed.
Lemma chain_bind n s v lo sh (k : Z -> outcome Z) :
  (let! m1 := c_shl (hty n false) (cmax (hty n false)) lo in
   let! m2 := c_shr (hty n false) (cmax (hty n false)) sh in
   let! r := c_shr (promote (hty n s)) (c_and (hty n s) (hty n s) v (conv (hty n s) (Z.land (u64 m1) (u64 m2)))) lo in k r) =
  bind (chain n s v lo sh) k.
Proof. unfold chain. cbn zeta. destruct (c_shl _ _ _); try reflexivity. cbn [bind]. destruct (c_shr _ _ sh); reflexivity. Qed.
Lemma sz_storage n s : 1 <= n <= 64 -> szbits (hty n s) = if n =? 1 then 8 else storage n.
Proof.
  intros H. destruct (Z.eqb_spec n 1) as [-> | N]; [reflexivity|]. destruct (storage_cases n ltac:(lia)) as (_ & _ & _ & W).
  rewrite szbits_nb by (apply hty_nb; lia). rewrite hty_iw. exact W.
Qed.

Lemma slice_c_machine a i j : vec a -> bw a <= 64 -> int_ok i -> int_ok j -> bit_slice_c a i j = slice_fixed a i j.
Proof.
  intros Va Ha Hi Hj. native a v Ea Na Ia Sa. destruct (slots a i j Va Hi Hj) as (O & B1 & B2).
  unfold bit_slice_c, slice_fixed, requires. rewrite (bsize_bw a _ eq_refl). cbn zeta.
  destruct ((Z.max i j <? bw a) && (blsb a <=? j)) eqn:R; [|reflexivity]. cbn [negb]. rewrite Ea, Sa.
  assert (M64 : Z.abs (i - j) + 1 <= 64 \/ (0 <=? slot_of a (Z.min i j)) && (slot_of a (Z.max i j) + (if bsgn a then 1 else 0) <? (if bw a =? 1 then 8 else storage (bw a))) = false).
  { clear R. match goal with |- _ \/ ?c = false => destruct c eqn:Q end; [left|right; reflexivity]. unfold slot_of in *.
    assert (T : (if bw a =? 1 then 8 else storage (bw a)) <= 64).
    { destruct (bw a =? 1) eqn:X; [lia|]. destruct (storage_cases (bw a) ltac:(lia)) as (? & ? & ? & ?). lia. }
    destruct (bsgn a); lia. }
  unfold native_slice_c. cbn zeta. change (vsize (bmsb a) (blsb a)) with (bw a).
  replace ((Z.abs (i - j) + 1 =? 1) && (bw a =? 1)) with ((bw a =? 1) && (Z.abs (i - j) + 1 =? 1)) by apply andb_comm.
  destruct ((bw a =? 1) && (Z.abs (i - j) + 1 =? 1)) eqn:One.
  - cbn [bind]. unfold vector. replace (Z.abs (i - j)) with 0 by lia. cbn [Z.add Z.sub]. apply f_equal. replace (Z.pos_sub 1 1) with 0 by reflexivity. apply f_equal, f_equal.
    apply andb_true_iff in One. destruct One as [One _]. apply Z.eqb_eq in One. rewrite One, hty_1 in Ia. apply in_bool in Ia.
    destruct Ia as [-> | ->]; reflexivity.
  - rewrite chain_bind. rewrite sz_storage by lia.
    change (Z.min i j - Z.min (bmsb a) (blsb a)) with (slot_of a (Z.min i j)). change (Z.max i j - Z.min (bmsb a) (blsb a)) with (slot_of a (Z.max i j)).
    replace ((if bw a =? 1 then 8 else storage (bw a)) - slot_of a (Z.max i j) - (if bsgn a then 2 else 1))
      with ((if bw a =? 1 then 8 else storage (bw a)) - 1 - (slot_of a (Z.max i j) + (if bsgn a then 1 else 0))) by (destruct (bsgn a); lia).
    rewrite chain_any by (lia || assumption || (destruct (bsgn a); lia)).
    destruct ((0 <=? slot_of a (Z.min i j)) && _) eqn:Q; [|reflexivity]. destruct M64 as [M64 | M64]; [|discriminate]. cbn [negb bind].
    rewrite conv_store by lia. unfold vector. replace (Z.abs (i - j) + 1 - 1) with (Z.abs (i - j)) by lia. reflexivity.
Qed.
Lemma slice_r_machine a m i j : vec a -> bw a <= 64 -> 1 <= m -> int_ok i -> int_ok j -> bit_slice_r a m i j = slice_dynamic a m i j.
Proof.
  intros Va Ha Hm Hi Hj. native a v Ea Na Ia Sa. destruct (slots a i j Va Hi Hj) as (O & B1 & B2).
  unfold bit_slice_r, slice_dynamic, requires, native_num. rewrite Ea, Sa. cbn zeta.
  destruct (Z.leb_spec m 64) as [L | L]; [replace (64 <? m) with false by lia|replace (64 <? m) with true by lia; reflexivity].
  unfold native_slice_r. cbn zeta. change (vsize (bmsb a) (blsb a)) with (bw a). rewrite chain_bind. rewrite sz_storage by lia.
  change (Z.min i j - Z.min (bmsb a) (blsb a)) with (slot_of a (Z.min i j)). change (Z.max i j - Z.min (bmsb a) (blsb a)) with (slot_of a (Z.max i j)).
  replace ((if bw a =? 1 then 8 else storage (bw a)) - slot_of a (Z.max i j) - 1)
    with ((if bw a =? 1 then 8 else storage (bw a)) - 1 - slot_of a (Z.max i j)) by lia.
  rewrite chain_any by (lia || assumption). destruct (_ && _); [|reflexivity]. cbn [negb bind]. rewrite conv_store by lia. reflexivity.
Qed.

(** * change of width *)
Lemma extend_machine a m : vec a -> bw a <= 64 -> 1 <= m <= 64 -> bit_extend a m = resized a m.
Proof.
  intros Va Ha Hm. native a v Ea Na Ia Sa. unfold resized. destruct (Z.ltb_spec (bw a) m) as [L | L].
  - destruct (extend_up a _ v m Va Ea eq_refl ltac:(lia)) as [-> J]. apply f_equal. unfold vector. rewrite Sa, store_in by (lia || assumption). reflexivity.
  - destruct (Z.eqb_spec m (bw a)) as [-> | N].
    + rewrite (extend_same a _ v Va Ea eq_refl). destruct (_ || _); [|reflexivity]. apply f_equal. unfold vector. rewrite Sa, store_in by (lia || assumption). reflexivity.
    + unfold bit_extend. rewrite (bsize_bw a _ eq_refl). replace (bw a <? m) with false by lia. replace (m =? bw a) with false by lia.
      rewrite slice_c_machine by (auto; unfold int_ok; lia).
      destruct (slice_fixed a (m - 1) 0) as [r| | | |] eqn:E; try reflexivity. cbn [bind].
      assert (R : bmsb r = m - 1 /\ blsb r = 0 /\ bsgn r = false).
      { unfold slice_fixed in E. cbn zeta in E. replace (Z.abs (m - 1 - 0) + 1) with m in E by lia.
        destruct (negb _); [discriminate|]. destruct (_ && (m =? 1)); [injection E as <-; repeat split; reflexivity|].
        destruct (negb _); [discriminate|]. injection E as <-. repeat split; reflexivity. }
      destruct R as (R1 & R2 & R3). unfold bit_convert. rewrite R1, R2, R3, !Z.eqb_refl. destruct (bsgn a); reflexivity.
Qed.

(** * concatenation *)
Lemma conv_common na sa nb sb : 1 <= na <= 64 -> 1 <= nb <= 64 -> forall z,
  let c := Z.max (computing na) (computing nb) in
  conv (uac (promote (hty na sa)) (hty nb sb)) z =
  wrap (((na <=? 16) || (computing na <? c) || sa) && ((nb <=? 16) || (computing nb <? c) || sb)) c z.
Proof.
  intros Ha Hb z c. subst c. unfold computing, hty.
  destruct (Z.leb_spec na 1), (Z.leb_spec na 8), (Z.leb_spec na 16), (Z.leb_spec na 32); try lia;
  destruct (Z.leb_spec nb 1), (Z.leb_spec nb 8), (Z.leb_spec nb 16), (Z.leb_spec nb 32); try lia; destruct sa, sb; reflexivity.
Qed.
Lemma conv_promoted n s z : 1 <= n <= 64 -> conv (promote (hty n s)) z = wrap ((n <=? 16) || s) (computing n) z.
Proof.
  intros H. unfold computing, hty.
  destruct (Z.leb_spec n 1), (Z.leb_spec n 8), (Z.leb_spec n 16), (Z.leb_spec n 32); try lia; destruct s; reflexivity.
Qed.
Lemma concat_machine a b : vec a -> vec b -> bw a <= 64 -> bw b <= 64 -> bit_concat a b = joined a b.
Proof.
  intros Va Vb Ha Hb. native a x Ea Na Ia Sa. native b y Eb Nb Ib Sb. unfold bit_concat, joined. cbn zeta.
  rewrite (bsize_bw a _ eq_refl), (bsize_bw b _ eq_refl), Ea, Eb, Sa, Sb.
  destruct (Z.ltb_spec (bw a + bw b) 64) as [L | L]; [|replace (64 <=? bw a + bw b) with true by lia; reflexivity].
  replace (64 <=? bw a + bw b) with false by lia. unfold c_shl. cbn zeta. rewrite promote_computing by lia.
  destruct (Z.leb_spec (computing (bw a)) (bw b)) as [M | M]; [replace (_ && _) with false by lia; reflexivity|].
  replace ((0 <=? bw b) && (bw b <? computing (bw a))) with true by lia. cbn [bind].
  unfold bit_of_native, vector. apply f_equal. replace (vsize (bw a + bw b - 1) 0) with (bw a + bw b) by (unfold vsize; lia).
  rewrite conv_store by lia. apply f_equal, f_equal, f_equal. unfold c_or. cbn zeta. rewrite !conv_common by lia. cbn zeta.
  rewrite conv_promoted by lia. rewrite Z.shiftl_mul_pow2 by lia. reflexivity.
Qed.

(** * reductions and counts *)
Lemma r_and_machine a : vec a -> bw a <= 64 -> bit_r_and a = all_ones a.
Proof.
  intros Va Ha. native a x Ea Na Ia Sa. unfold bit_r_and, all_ones. rewrite Ea, Sa, (bsize_bw a _ eq_refl). cbn zeta.
  destruct (Z.eqb_spec (bw a) 1) as [E | E].
  - rewrite E in *. rewrite hty_1 in *. apply in_bool in Ia. destruct Ia as [-> | ->]; reflexivity.
  - destruct (storage_cases (bw a) ltac:(lia)) as (L1 & L2 & S & W). set (n := bw a) in *. set (s := bsgn a) in *. clearbody n s.
    assert (M : Z.shiftr (cmax (hty n s)) (szbits (hty n s) - n) = if s then 2 ^ (n - 1) - 1 else 2 ^ n - 1).
    { unfold cmax. rewrite hty_signed by lia. rewrite szbits_nb by (apply hty_nb; lia). rewrite hty_iw, W.
      rewrite Z.shiftr_div_pow2 by lia. assert (P : 0 < 2 ^ (storage n - n)) by (apply pow2_pos; lia). destruct s.
      - symmetry. apply Z.div_unique with (2 ^ (storage n - n) - 1); [left; lia|].
        replace (storage n - 1) with ((storage n - n) + (n - 1)) at 1 by lia. rewrite Z.pow_add_r by lia. ring.
      - symmetry. apply Z.div_unique with (2 ^ (storage n - n) - 1); [left; lia|].
        replace (storage n) with ((storage n - n) + n) at 1 by lia. rewrite Z.pow_add_r by lia. ring. }
    rewrite M. unfold c_eq. cbn zeta. assert (U : uac (hty n s) (promote (hty n s)) = promote (hty n s)) by (destruct (hty n s); reflexivity).
    rewrite U. rewrite conv_promote by exact Ia. rewrite (conv_promote _ (if s then _ else _)); [reflexivity|].
    apply in_ity_range. rewrite hty_signed, hty_iw, W by lia.
    assert (P1 : 2 ^ n <= 2 ^ storage n) by (apply pow2_mono; lia). assert (P2 : 2 ^ (n - 1) <= 2 ^ (storage n - 1)) by (apply pow2_mono; lia).
    assert (P3 : 0 < 2 ^ (n - 1)) by (apply pow2_pos; lia). assert (P4 : 0 < 2 ^ n) by (apply pow2_pos; lia). destruct s; lia.
Qed.
Lemma any_machine a : vec a -> bw a <= 64 -> bit_any_set a = negb (stored a =? 0).
Proof. intros Va Ha. native a x Ea Na Ia Sa. unfold bit_any_set. rewrite Ea, Sa. reflexivity. Qed.
Lemma highest_machine a : vec a -> bw a <= 64 -> bit_highest_bit a = top_one a.
Proof. intros Va Ha. native a x Ea Na Ia Sa. unfold bit_highest_bit, top_one, u64. rewrite Ea, Sa, (bsize_bw a _ eq_refl). destruct (x =? 0); [reflexivity|lia]. Qed.

(** * compound assignment *)
Lemma written_vec a z : vec a -> bw a <= 64 -> vec (written a z) /\ bw (written a z) = bw a /\ stored (written a z) = store (bw a) (bsgn a) z.
Proof.
  intros Va Ha. pose proof (bw_pos a). split; [|split; reflexivity]. destruct Va as (_ & M & L & B).
  split; [|split; [exact M|split; [exact L|exact B]]]. unfold bit_ok, written. cbn [bval bsgn].
  change (bsize _) with (bw a). replace (bw a <=? 64) with true by lia. cbn [andb].
  rewrite <- conv_store by lia. apply conv_in_ity.
Qed.
Lemma updatable_ok a b : compound_ok a (bsgn b) = updatable a b.
Proof.
  unfold compound_ok, updatable. change (bsize a) with (bw a).
  assert (E : (bmsb a =? bw a - 1) && (blsb a =? 0) = (blsb a =? 0) && (0 <=? bmsb a)) by (unfold bw, width; lia).
  rewrite E. f_equal. destruct (bsgn a), (bsgn b); reflexivity.
Qed.
Lemma compound_machine op r a b : op a b = r -> (forall x, r = Ok x -> vec x /\ bw x <= 64) -> vec a -> bw a <= 64 ->
  bit_compound op a b = assigned true a b r.
Proof.
  intros <- N Va Ha. unfold bit_compound, assigned, requires. rewrite updatable_ok. destruct (updatable a b); [|reflexivity]. cbn [negb].
  destruct (op a b) as [x| | | |]; try reflexivity. destruct (N x eq_refl) as [Vx Wx]. cbn [bind].
  rewrite assign_machine by assumption. cbn [bind]. destruct (written_vec a (stored x) Va Ha) as (V & W & S).
  rewrite mask_off_any by (assumption || lia). rewrite S, W. reflexivity.
Qed.
Lemma shift_assign_machine op r a b : op a b = r -> (forall x, r = Ok x -> vec x /\ bw x <= 64) -> vec a -> bw a <= 64 ->
  bit_shift_assign op a b = assigned false a b r.
Proof.
  intros <- N Va Ha. unfold bit_shift_assign, assigned, requires. rewrite updatable_ok. destruct (updatable a b); [|reflexivity]. cbn [negb].
  destruct (op a b) as [x| | | |]; try reflexivity. destruct (N x eq_refl) as [Vx Wx]. cbn [bind].
  rewrite assign_machine by assumption. apply f_equal. unfold written. apply f_equal, f_equal. pose proof (bw_pos a).
  rewrite <- !conv_store by lia. rewrite (conv_id _ (conv _ _)) by apply conv_in_ity. reflexivity.
Qed.
