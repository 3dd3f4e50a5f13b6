(** Lemmas about 4-state conversions, case equality, slices, concatenation, unpacking and updates. *)
From Coq Require Import ZArith List Bool Lia.
From Verif Require Import Cpp BigNum Bit Logic Spec ZBits Words BigNumProofs BigArith BitProofs BitSlice BitExt BitOps
  BitShift BitCmp BitArith BitMain BitMain2 BitMain3 BitMain4 BitMain5 LogicProofs LogicOps LogicRed LogicArith LogicArith2 LogicConv.
Import ListNotations.
Open Scope Z_scope.

(** * change of signedness *)
Lemma lresign a n s0 s : 1 <= n -> ltyped a n s0 ->
  exists r, logic_resign s a = Ok r /\ ltyped r n s /\ forall p, 0 <= p < n -> sym_at r p = sym_at a p.
Proof.
  intros Hn T. pose proof T as [T1 T2]. destruct (resign (l_val a) n s0 Hn T1) as (A1 & A2 & B1 & B2 & _).
  assert (typed (bit_resign s (l_val a)) n s /\ forall p, 0 <= p < n -> bit_at (bit_resign s (l_val a)) p = bit_at (l_val a) p) as [A B].
  { destruct s; split; assumption. }
  unfold logic_resign. rewrite (ltyped_lsize a n s0 Hn T). destruct (default_typed n s) as ([D1 D2] & _); [split; [lia|apply (ltyped_lt a n s0 Hn T)]|].
  destruct (assign_typed _ _ n s s Hn D1 A) as (v & Ev & Tv & Nv). destruct (assign_typed _ _ n false false Hn D2 T2) as (m & Em & Tm & Nm).
  rewrite Ev, Em. cbn [bind]. eexists. split; [reflexivity|]. split; [split; assumption|]. intros p Hp. unfold sym_at. cbn [l_val l_xz].
  rewrite (bit_at_num _ _ Nv), (bit_at_num _ _ Nm), B by exact Hp. reflexivity.
Qed.

(** * conversion to integers *)
Lemma lto_num l : lvec l -> tidy (l_xz l) -> seen l -> extendable (l_val l) ->
  (~ known l -> logic_to_uint64 l = 0 /\ (lw l <= 64 -> logic_to_num l = Ok 0)) /\
  (known l -> logic_to_uint64 l = value (l_val l) mod 2 ^ 64 /\ (lw l <= 64 -> logic_to_num l = Ok (value (l_val l)))) /\
  (65 <= lw l -> logic_to_num l = IllFormed).
Proof.
  intros V X S E. destruct (to_number (l_val l) (proj1 V) E) as [A B]. unfold logic_to_uint64, logic_to_num. split; [|split].
  - intros K. rewrite (proj2 (any_xz_unknown l V X S) K). split; [reflexivity|]. intros W. destruct (A W) as [-> _]. reflexivity.
  - intros K. rewrite (proj2 (any_xz l V X S) K). split.
    + destruct (Z.leb_spec (bw (l_val l)) 64) as [L|L]; [apply A; exact L|]. destruct (B ltac:(lia)) as [_ ->]. unfold value.
      destruct (bsgn (l_val l)) eqn:Sg; [|reflexivity]. destruct E as [_ E]. specialize (E Sg). lia.
    + intros W. destruct (A W) as [-> _]. reflexivity.
  - intros W. destruct (B W) as [-> _]. reflexivity.
Qed.

(** * case equality *)
Lemma num_eq_bits a b n : bw a = n -> bw b = n -> (num a = num b <-> forall p, 0 <= p < n -> bit_at a p = bit_at b p).
Proof.
  intros A B. split; [intros E p _; now apply bit_at_num|]. intros H. pose proof (num_range a) as R1. pose proof (num_range b) as R2. rewrite A in R1. rewrite B in R2.
  apply Z.bits_inj'. intros p Hp. destruct (Z.ltb_spec p n); [apply H; lia|]. rewrite (testbit_small _ n p R1), (testbit_small _ n p R2) by lia. reflexivity.
Qed.
Lemma value_num_inj a b n s : bw a = n -> bw b = n -> bsgn a = s -> bsgn b = s -> (value a = value b <-> num a = num b).
Proof.
  intros A B C D. unfold value. rewrite C, D. destruct s; [|reflexivity]. unfold snum. rewrite A, B. split; [|intros ->; reflexivity].
  pose proof (num_range a) as R1. pose proof (num_range b) as R2. rewrite A in R1. rewrite B in R2. intros E.
  assert (M : forall z, twos n z mod 2 ^ n = z mod 2 ^ n).
  { intros z. unfold twos. destruct (Z.testbit _ _); [|reflexivity]. replace (z - 2 ^ n) with (z + (-1) * 2 ^ n) by lia. apply Z.mod_add. lia. }
  rewrite <- (Z.mod_small _ _ R1), <- (Z.mod_small _ _ R2), <- M, E, M. reflexivity.
Qed.
Lemma eq_same a b n s : 1 <= n -> typed a n s -> typed b n s -> tidy a -> tidy b -> (s = true -> 2 <= n <= 64) ->
  exists c, bit_eq a b = Ok c /\ (c = true <-> forall p, 0 <= p < n -> bit_at a p = bit_at b p).
Proof.
  intros Hn Ta Tb Da Db C. pose proof (typed_bw a n s Hn Ta) as Wa. pose proof (typed_bw b n s Hn Tb) as Wb.
  pose proof (typed_sgn _ _ _ Ta) as Sa. pose proof (typed_sgn _ _ _ Tb) as Sb.
  exists (value a =? value b). split.
  - apply equality; [apply Ta|apply Tb|]. unfold eq_ok. split; [congruence|]. split; [split; [exact Da|rewrite Sa, Wa; exact C]|].
    split; [split; [exact Db|rewrite Sb, Wb; exact C]|]. rewrite Wa, Wb, Sa, Sb. destruct (Z.leb_spec n 64).
    + left. lia.
    + right. right. split; [destruct s; [exfalso; specialize (C eq_refl); lia|reflexivity]|]. split; [lia|]. split; [lia|]. now left.
  - rewrite Z.eqb_eq, (value_num_inj a b n s Wa Wb Sa Sb). now apply num_eq_bits.
Qed.
Lemma sym_of_inj v m v' m' : sym_of v m = sym_of v' m' <-> v = v' /\ m = m'.
Proof. destruct v, m, v', m'; cbn; split; try (intros [? ?]); try discriminate; auto. Qed.
Lemma lmatch a b n s : 1 <= n -> ltyped a n s -> ltyped b n s -> ltidy a -> ltidy b -> (s = true -> 2 <= n <= 64) ->
  exists c, logic_match a b = Ok c /\ (c = true <-> forall p, 0 <= p < n -> sym_at a p = sym_at b p).
Proof.
  intros Hn [A1 A2] [B1 B2] [Ta1 Ta2] [Tb1 Tb2] C. unfold logic_match.
  destruct (eq_same _ _ n s Hn A1 B1 Ta1 Tb1 C) as (c1 & E1 & I1). destruct (eq_same _ _ n false Hn A2 B2 Ta2 Tb2 ltac:(discriminate)) as (c2 & E2 & I2).
  rewrite E1, E2. exists (c1 && c2). split; [destruct c1; reflexivity|]. rewrite andb_true_iff, I1, I2. unfold sym_at. split.
  - intros [H1 H2] p Hp. rewrite H1, H2 by exact Hp. reflexivity.
  - intros H. split; intros p Hp; specialize (H p Hp); apply sym_of_inj in H; apply H.
Qed.
Lemma lnmatch a b : logic_nmatch a b = omap negb (logic_match a b). Proof. reflexivity. Qed.

(** * slices *)
Lemma lslice_c x n a b : 1 <= n -> ltyped x n false -> 0 <= a < n -> 0 <= b < n -> (n <= 64 \/ Z.abs (a - b) + 1 <> 65) ->
  exists r, logic_slice_c x a b = Ok r /\ ltyped r (Z.abs (a - b) + 1) false /\ ltidy r /\
    forall p, 0 <= p < Z.abs (a - b) + 1 -> sym_at r p = sym_at x (Z.min a b + p).
Proof.
  intros Hn T Ha Hb C. pose proof T as [T1 T2]. destruct (slice_const_unsigned _ n a b Hn T1 Ha Hb C) as (v & Ev & Tv & Dv & Bv).
  destruct (slice_const_unsigned _ n a b Hn T2 Ha Hb C) as (m & Em & Tm & Dm & Bm). unfold logic_slice_c.
  rewrite (ltyped_lsize x n false Hn T), (proj2 (Z.ltb_lt _ _)) by lia. cbn [requires]. rewrite Ev, Em. cbn [bind].
  eexists. split; [reflexivity|]. split; [split; assumption|]. split; [split; assumption|]. intros p Hp. unfold sym_at. cbn [l_val l_xz].
  rewrite Bv, Bm by exact Hp. reflexivity.
Qed.
Lemma lslice_c_signed x n a b : ltyped x n true -> 0 <= a < n -> 0 <= b < n ->
  (2 <= n <= 64 /\ a <> b /\ Z.max a b + 2 <= iwidth (hty n true)) \/ (65 <= n /\ Z.abs (a - b) + 1 <> 65) ->
  exists r, logic_slice_c x a b = Ok r /\ ltyped r (Z.abs (a - b) + 1) false /\
    forall p, 0 <= p < Z.abs (a - b) + 1 -> sym_at r p = sym_at x (Z.min a b + p).
Proof.
  intros T Ha Hb C. assert (Hn : 1 <= n) by lia. pose proof T as [T1 T2]. destruct (slice_const_signed _ n a b T1 Ha Hb C) as (v & Ev & Tv & Bv).
  destruct (slice_const_unsigned _ n a b Hn T2 Ha Hb ltac:(lia)) as (m & Em & Tm & Dm & Bm). unfold logic_slice_c.
  rewrite (ltyped_lsize x n true Hn T), (proj2 (Z.ltb_lt _ _)) by lia. cbn [requires]. rewrite Ev, Em. cbn [bind].
  eexists. split; [reflexivity|]. split; [split; assumption|]. intros p Hp. unfold sym_at. cbn [l_val l_xz].
  rewrite Bv, Bm by exact Hp. reflexivity.
Qed.
Lemma lslice_r x n s a b : 2 <= n -> ltyped x n s -> 0 <= a < n -> 0 <= b < n ->
  exists r, logic_slice_r x (Z.abs (a - b) + 1) a b = Ok r /\ ltyped r (Z.abs (a - b) + 1) false /\
    forall p, 0 <= p < Z.abs (a - b) + 1 -> sym_at r p = sym_at x (Z.min a b + p).
Proof.
  intros Hn [T1 T2] Ha Hb. destruct (slice_runtime _ n s a b Hn T1 Ha Hb) as (v & Ev & Tv & Bv).
  destruct (slice_runtime _ n false a b Hn T2 Ha Hb) as (m & Em & Tm & Bm). unfold logic_slice_r. rewrite Ev, Em. cbn [bind].
  eexists. split; [reflexivity|]. split; [split; assumption|]. intros p Hp. unfold sym_at. cbn [l_val l_xz].
  rewrite Bv, Bm by exact Hp. reflexivity.
Qed.
Lemma lslice_idx x n s k (up : bool) base : 2 <= n -> ltyped x n s -> 1 <= k -> 0 <= base < n ->
  (if up then base + k <= n else k <= base + 1) ->
  exists r, logic_slice_idx x k up base = Ok r /\ ltyped r k false /\
    forall p, 0 <= p < k -> sym_at r p = sym_at x ((if up then base else base - k + 1) + p).
Proof.
  intros Hn T Hk Hb C. assert (n < 2 ^ 31) by (apply (ltyped_lt x n s); auto; lia). unfold logic_slice_idx. rewrite i32_id by lia.
  set (b2 := if up then base + (k - 1) else base - (k - 1)).
  assert (R : 0 <= b2 < n) by (unfold b2; destruct up; lia). assert (W : Z.abs (base - b2) + 1 = k) by (unfold b2; destruct up; lia).
  destruct (lslice_r x n s base b2 Hn T Hb R) as (r & A & B & D). rewrite W in A, B, D. exists r. split; [exact A|]. split; [exact B|].
  intros p Hp. rewrite D by exact Hp. f_equal. unfold b2. destruct up; lia.
Qed.

(** * concatenation *)
Lemma concat_bits a b na nb : 1 <= na -> 1 <= nb -> na + nb < 64 -> (na + nb <= 32 \/ 33 <= na) ->
  typed a na false -> typed b nb false -> tidy a -> tidy b ->
  exists r, bit_concat a b = Ok r /\ typed r (na + nb) false /\ tidy r /\
    forall p, 0 <= p < na + nb -> bit_at r p = if p <? nb then bit_at b p else bit_at a (p - nb).
Proof.
  intros Ha Hb L C Ta Tb Da Db. destruct (concat_num a b na nb Ha Hb L C Ta Tb Da Db) as (r & E & T & N & D). exists r.
  split; [exact E|]. split; [exact T|]. split; [exact D|]. intros p Hp. unfold bit_at. rewrite N.
  pose proof (num_range b) as R. rewrite (typed_bw b nb false Hb Tb) in R. pose proof (pow2_pos nb ltac:(lia)).
  destruct (Z.ltb_spec p nb).
  - rewrite <- (Z.mod_pow2_bits_low _ nb p) by lia. rewrite Z.add_comm, Z.mod_add by lia. apply Z.mod_pow2_bits_low. lia.
  - replace p with ((p - nb) + nb) at 1 by lia. rewrite <- Z.div_pow2_bits by lia. f_equal. rewrite Z.div_add_l by lia. rewrite (Z.div_small (num b)) by lia. lia.
Qed.
Lemma assign_tidy dst src n r : 1 <= n -> typed dst n false -> typed src n false -> tidy src -> bit_assign dst src = Ok r -> tidy r.
Proof.
  intros Hn Td Ts D E. destruct (typed_cases src n false ltac:(lia) Ts) as [(v & Es & R & I)|(ws & Es & R & I)]; subst src;
    unfold bit_assign, holder_assign in E; cbn [bval] in E; rewrite (typed_bsize dst n false Hn Td) in E; unfold native_num in E.
  - rewrite (proj2 (Z.leb_le n 64)) in E by lia. cbn [bind] in E. injection E as <-. destruct Td as (_ & [-> ->] & ->).
    rewrite conv_id by exact I. exact D.
  - rewrite (proj2 (Z.leb_gt n 64)) in E by lia. destruct (_ =? n); [|discriminate]. cbn [bind] in E. injection E as <-. destruct Td as (_ & [-> ->] & ->). exact D.
Qed.
Lemma lconcat a b na nb : 1 <= na -> 1 <= nb -> na + nb < 64 -> (na + nb <= 32 \/ 33 <= na) ->
  ltyped a na false -> ltyped b nb false -> ltidy a -> ltidy b ->
  exists r, logic_concat a b = Ok r /\ ltyped r (na + nb) false /\ ltidy r /\
    forall p, 0 <= p < na + nb -> sym_at r p = if p <? nb then sym_at b p else sym_at a (p - nb).
Proof.
  intros Ha Hb L C Ta Tb [Da1 Da2] [Db1 Db2]. assert (Hm : 1 <= na + nb) by lia.
  destruct (concat_bits (l_val a) (l_val b) na nb Ha Hb L C (proj1 Ta) (proj1 Tb) Da1 Db1) as (v & Ev & Tv & Dv & Bv).
  destruct (concat_bits (l_xz a) (l_xz b) na nb Ha Hb L C (proj2 Ta) (proj2 Tb) Da2 Db2) as (m & Em & Tm & Dm & Bm).
  unfold logic_concat. rewrite (ltyped_lsize a na false Ha Ta), (ltyped_lsize b nb false Hb Tb), (ltyped_sgn _ _ _ Ta), Ev, Em. cbn [bind].
  destruct (default_typed (na + nb) false ltac:(lia)) as ([D1 D2] & _).
  destruct (assign_typed _ _ _ _ _ Hm D1 Tv) as (v' & Ev' & Tv' & Nv'). destruct (assign_typed _ _ _ _ _ Hm D2 Tm) as (m' & Em' & Tm' & Nm').
  rewrite Ev', Em'. cbn [bind]. eexists. split; [reflexivity|]. split; [split; assumption|].
  split; [split; [exact (assign_tidy _ _ _ _ Hm D1 Tv Dv Ev')|exact (assign_tidy _ _ _ _ Hm D2 Tm Dm Em')]|]. intros p Hp. unfold sym_at. cbn [l_val l_xz].
  rewrite (bit_at_num _ _ Nv'), (bit_at_num _ _ Nm'), Bv, Bm by exact Hp. destruct (p <? nb); reflexivity.
Qed.
(** concatenation with a 2-state vector: what the library computes *)
Lemma lconcat_bit a b na nb : 1 <= na -> 1 <= nb -> na + nb < 64 -> (na + nb <= 32 \/ 33 <= na) ->
  ltyped a na false -> typed b nb false -> ltidy a -> tidy b ->
  exists r, logic_concat_bit a b = Ok r /\ ltyped r (na + nb) false /\
    forall p, 0 <= p < na + nb -> sym_at r p = sym_of (if p <? nb then bit_at b p else bit_at (l_val a) (p - nb)) (bit_at (l_xz a) p).
Proof.
  intros Ha Hb L C Ta Tb [Da1 Da2] Db1. assert (Hm : 1 <= na + nb) by lia.
  destruct (concat_bits (l_val a) b na nb Ha Hb L C (proj1 Ta) Tb Da1 Db1) as (v & Ev & Tv & Dv & Bv).
  destruct (extend_at (l_xz a) na (na + nb) ltac:(lia) ltac:(lia) (proj2 Ta) Da2) as (m & Em & Tm & Dm & Bm).
  unfold logic_concat_bit. rewrite (ltyped_lsize a na false Ha Ta), (typed_bsize b nb false Hb Tb), (ltyped_sgn _ _ _ Ta), Ev, Em. cbn [bind].
  destruct (default_typed (na + nb) false ltac:(lia)) as ([D1 D2] & _).
  destruct (assign_typed _ _ _ _ _ Hm D1 Tv) as (v' & Ev' & Tv' & Nv'). destruct (assign_typed _ _ _ _ _ Hm D2 Tm) as (m' & Em' & Tm' & Nm').
  rewrite Ev', Em'. cbn [bind]. eexists. split; [reflexivity|]. split; [split; assumption|]. intros p Hp. unfold sym_at. cbn [l_val l_xz].
  rewrite (bit_at_num _ _ Nv'), (bit_at_num _ _ Nm'), Bv, Bm by exact Hp. reflexivity.
Qed.
Lemma sym_of_known v : sym_of v false = sym_of_bool v. Proof. destruct v; reflexivity. Qed.
Lemma lconcat_bit_known a b na nb : 1 <= na -> 1 <= nb -> na + nb < 64 -> (na + nb <= 32 \/ 33 <= na) ->
  ltyped a na false -> typed b nb false -> ltidy a -> tidy b -> known a ->
  exists r, logic_concat_bit a b = Ok r /\ ltyped r (na + nb) false /\
    forall p, 0 <= p < na + nb -> sym_at r p = if p <? nb then sym_of_bool (bit_at b p) else sym_at a (p - nb).
Proof.
  intros Ha Hb L C Ta Tb Da Db K. destruct (lconcat_bit a b na nb Ha Hb L C Ta Tb Da Db) as (r & E & T & B). exists r. split; [exact E|]. split; [exact T|].
  intros p Hp. rewrite B by exact Hp. apply known_num in K; [|apply (ltyped_lvec _ _ _ Ta)]. unfold sym_at. rewrite !(known_num0 _ K), !sym_of_known.
  now destruct (p <? nb).
Qed.

(** * unpacking *)
Lemma total_cons x a : total (x :: a) = x + total a. Proof. reflexivity. Qed.
Lemma total_app a b : total (a ++ b) = total a + total b. Proof. induction a as [|x a IH]; [reflexivity|]. cbn [app]. rewrite !total_cons, IH. lia. Qed.
Lemma total_rev a : total (rev a) = total a. Proof. induction a as [|x a IH]; [reflexivity|]. cbn [rev]. rewrite total_app, IH, !total_cons. change (total []) with 0. lia. Qed.
Definition target (t : logic) : Prop := ltyped t (lw t) (lsgn t).
Lemma lw_pos l : 1 <= lw l. Proof. apply bw_pos. Qed.
Lemma total_nonneg ts : 0 <= total (map lw ts). Proof. induction ts as [|t ts IH]; [cbn; lia|]. cbn [map]. rewrite total_cons. pose proof (lw_pos t). lia. Qed.
Lemma unpack_loop l n ts : 1 <= n -> ltyped l n false -> Forall target ts -> (n <= 64 \/ Forall (fun t => lw t <> 65) ts) ->
  forall base, 0 <= base -> base + total (map lw ts) <= n ->
  exists rs, logic_unpack_ l base ts = Ok rs /\ length rs = length ts /\
    forall pre t post, ts = pre ++ t :: post -> exists r, nth_error rs (length pre) = Some r /\ ltyped r (lw t) (lsgn t) /\ (lsgn t = false -> ltidy r) /\
      forall p, 0 <= p < lw t -> sym_at r p = sym_at l (base + total (map lw pre) + p).
Proof.
  intros Hn T. induction ts as [|t ts IH]; intros F C base Hb Ht.
  - exists []. split; [reflexivity|]. split; [reflexivity|]. intros [|? ?] ? ?; discriminate.
  - inversion F as [|? ? Ft Fs]; subst. cbn [map] in Ht. rewrite total_cons in Ht. pose proof (lw_pos t) as Lt. pose proof (total_nonneg ts) as Ln.
    assert (C' : n <= 64 \/ Forall (fun t => lw t <> 65) ts) by (destruct C as [C|C]; [now left|right; now inversion C]).
    assert (C1 : n <= 64 \/ lw t <> 65) by (destruct C as [C|C]; [now left|right; now inversion C]).
    destruct (IH Fs C' (base + lw t) ltac:(lia) ltac:(lia)) as (rs & E & Len & H).
    cbn [logic_unpack_]. change (lsize t) with (lw t). rewrite (ltyped_lsize l n false Hn T), (proj2 (Z.ltb_lt base n)) by lia. cbn [requires].
    rewrite (Z.min_r (n - 1)) by lia. assert (W : Z.abs (base - (lw t + base - 1)) + 1 = lw t) by lia.
    destruct (slice_const_unsigned (l_val l) n base (lw t + base - 1) Hn (proj1 T) ltac:(lia) ltac:(lia) ltac:(lia)) as (v & Ev & Tv & Dv & Bv).
    destruct (slice_const_unsigned (l_xz l) n base (lw t + base - 1) Hn (proj2 T) ltac:(lia) ltac:(lia) ltac:(lia)) as (m & Em & Tm & Dm & Bm).
    rewrite W in Tv, Tm, Bv, Bm. rewrite Ev, Em. cbn [bind].
    destruct (assign_typed _ _ _ _ _ Lt (proj1 Ft) Tv) as (v' & Ev' & Tv' & Nv'). destruct (assign_typed _ _ _ _ _ Lt (proj2 Ft) Tm) as (m' & Em' & Tm' & Nm').
    rewrite Ev', Em', E. cbn [bind]. eexists. split; [reflexivity|]. split; [cbn; now rewrite Len|].
    intros [|t0 pre] t1 post Eq; cbn in Eq; injection Eq as <- Eq.
    + eexists. split; [reflexivity|]. split; [split; assumption|].
      split. { intros U. pose proof (proj1 Ft) as Ft1. rewrite U in Ft1. split; [exact (assign_tidy _ _ _ _ Lt Ft1 Tv Dv Ev')|exact (assign_tidy _ _ _ _ Lt (proj2 Ft) Tm Dm Em')]. }
      change (total (map lw [])) with 0. intros p Hp. unfold sym_at. cbn [l_val l_xz].
      rewrite (bit_at_num _ _ Nv'), (bit_at_num _ _ Nm'), Bv, Bm by exact Hp. rewrite Z.min_l by lia. now rewrite Z.add_0_r.
    + destruct (H pre t1 post Eq) as (r & R1 & R2 & R2' & R3). exists r. split; [exact R1|]. split; [exact R2|]. split; [exact R2'|]. intros p Hp. rewrite R3 by exact Hp.
      f_equal. cbn [map]. rewrite total_cons. lia.
Qed.
Lemma nth_error_rev {A} (l : list A) k : (k < length l)%nat -> nth_error (rev l) k = nth_error l (length l - S k).
Proof.
  intros H. destruct l as [|d l0] eqn:E; [cbn in H; lia|]. rewrite <- E in *. rewrite !(nth_error_nth' _ d) by (rewrite ?rev_length; lia). now rewrite rev_nth.
Qed.
Lemma lunpack l n ts : 1 <= n -> ltyped l n false -> Forall target ts -> (n <= 64 \/ Forall (fun t => lw t <> 65) ts) ->
  total (map lw ts) <= n ->
  exists rs, logic_unpack l ts = Ok rs /\ length rs = length ts /\
    forall pre t post, ts = pre ++ t :: post -> exists r, nth_error rs (length pre) = Some r /\ ltyped r (lw t) (lsgn t) /\ (lsgn t = false -> ltidy r) /\
      forall p, 0 <= p < lw t -> sym_at r p = sym_at l (total (map lw post) + p).
Proof.
  intros Hn T F C Ht. unfold logic_unpack. pose proof T as [(_ & [P1 P2] & _) _]. unfold lmsb, llsb. rewrite P1, P2.
  assert (big_endian (n - 1) 0 = true) as -> by (unfold big_endian; apply Z.leb_le; lia).
  destruct (unpack_loop l n (rev ts) Hn T) with (base := 0) as (rs & E & Len & H).
  - rewrite Forall_forall in *. intros x Hx. apply F. now apply in_rev.
  - destruct C as [C|C]; [now left|right]. rewrite Forall_forall in *. intros x Hx. apply C. now apply in_rev.
  - lia.
  - rewrite map_rev, total_rev. lia.
  - rewrite E. cbn [bind]. exists (rev rs). split; [reflexivity|]. rewrite rev_length in *. split; [exact Len|]. intros pre t post Eq.
    destruct (H (rev post) t (rev pre)) as (r & R1 & R2 & R2' & R3). { rewrite Eq, rev_app_distr. cbn. now rewrite <- app_assoc. }
    exists r. split; [|split; [exact R2|split; [exact R2'|]]].
    + rewrite rev_length in R1. rewrite nth_error_rev by (rewrite Len, Eq, app_length; cbn; lia). rewrite <- R1. f_equal. rewrite Len, Eq, app_length. cbn. lia.
    + intros p Hp. rewrite R3 by exact Hp. now rewrite map_rev, total_rev.
Qed.

(** * update of a range *)
Lemma ltyped_plain l n s : 1 <= n -> ltyped l n s -> lmsb l = n - 1 /\ llsb l = 0 /\ zero_based l /\ lvec l.
Proof. intros H T. pose proof T as [(_ & [P1 P2] & _) _]. unfold zero_based, lmsb, llsb. rewrite P1, P2. split; [reflexivity|]. split; [reflexivity|]. split; [lia|apply (ltyped_lvec _ _ _ T)]. Qed.
Lemma ltyped_fields l l' n s : 1 <= n -> ltyped l n s -> lvec l' -> lmsb l' = lmsb l -> llsb l' = llsb l -> lsgn l' = lsgn l -> ltyped l' n s.
Proof.
  intros Hn T (V1 & V2 & E1 & E2 & E3) A B C. pose proof T as [(_ & [P1 P2] & Sg) _]. unfold lmsb, llsb, lsgn in *.
  split; (split; [assumption|]); (split; [split; congruence|congruence]).
Qed.
(** the symbols of [op], padded with zeros *)
Definition padded (op : logic) (k q : Z) : sym := if q <? k then sym_at op q else S0.
Lemma update_step x n s op k so st i : 1 <= n -> 1 <= k -> ltyped x n s -> ltyped op k so -> 0 <= st <= i -> i < n ->
  (unknown (padded op k (i - st)) = true -> i - st < 64) ->
  exists x', logic_update_step st op x i = Ok x' /\ ltyped x' n s /\ (s = false -> ltidy x -> ltidy x') /\
    forall p, 0 <= p < n -> sym_at x' p = if p =? i then padded op k (i - st) else sym_at x p.
Proof.
  intros Hn Hk Tx To Hi Hin U. destruct (ltyped_plain x n s Hn Tx) as (X1 & X2 & X3 & X4). destruct (ltyped_plain op k so Hk To) as (O1 & O2 & O3 & O4).
  pose proof (ltyped_lt x n s Hn Tx) as Ln. pose proof (ltyped_lt op k so Hk To) as Lk.
  unfold logic_update_step. rewrite X1, X2, O1, O2. assert (big_endian (k - 1) 0 = true) as -> by (unfold big_endian; apply Z.leb_le; lia).
  assert (big_endian (n - 1) 0 = true) as -> by (unfold big_endian; apply Z.leb_le; lia). cbn [xorb].
  rewrite Z.max_r, Z.min_l by lia. rewrite !u64_id by lia.
  assert (G : (if (k - 1 <? i - st) || (i - st <? 0) then Ok logic_zero else logic_get op (i32 (i - st))) = Ok (sym1 (padded op k (i - st)))).
  { unfold padded in *. replace (i - st <? 0) with false by (symmetry; apply Z.ltb_ge; lia). rewrite orb_false_r.
    destruct (Z.ltb_spec (k - 1) (i - st)).
    - rewrite (proj2 (Z.ltb_ge _ _)) by lia. reflexivity.
    - rewrite (proj2 (Z.ltb_lt (i - st) k)) in * by lia. rewrite i32_id by lia.
      rewrite (logic_get_spec op (i - st) O4 O3); [|unfold in_range; rewrite O1, O2; lia].
      assert (Pl : place (lmsb op) (llsb op) (i - st) = i - st). { unfold place. rewrite O1, O2. rewrite (proj2 (Z.leb_le _ _)) by lia. lia. }
      rewrite Pl. destruct (unknown (sym_at op (i - st))); [|reflexivity]. rewrite (proj2 (Z.leb_gt _ _)) by (apply U; reflexivity). reflexivity. }
  rewrite G. cbn [bind].
  destruct (logic_write_spec x i (padded op k (i - st)) X4 X3) as (x' & _ & E & V' & A & B & C & D & Q); [unfold in_range; rewrite X1, X2; lia|].
  exists x'. split; [exact E|]. split; [now apply (ltyped_fields x x' n s)|]. split; [rewrite (ltyped_sgn _ _ _ Tx) in D; exact D|].
  intros p Hp. rewrite Q by (rewrite (ltyped_lw x n s Hn Tx); exact Hp). unfold place. rewrite X1, X2, (proj2 (Z.leb_le _ _)) by lia. now rewrite Z.sub_0_r.
Qed.
Lemma lupdate_loop x n s op k so st : 1 <= n -> 1 <= k -> ltyped op k so -> 0 <= st -> forall c lo, st <= lo -> lo + Z.of_nat c <= n ->
  (forall q, lo - st <= q < lo + Z.of_nat c - st -> unknown (padded op k q) = true -> q < 64) -> ltyped x n s ->
  exists r, ofold (logic_update_step st op) (map (fun j => lo + Z.of_nat j) (seq 0 c)) x = Ok r /\ ltyped r n s /\ (s = false -> ltidy x -> ltidy r) /\
    forall p, 0 <= p < n -> sym_at r p = if (lo <=? p) && (p <? lo + Z.of_nat c) then padded op k (p - st) else sym_at x p.
Proof.
  intros Hn Hk To Hs c. revert x. induction c as [|c IH]; intros x lo Hlo Hc U Tx.
  - cbn. exists x. split; [reflexivity|]. split; [exact Tx|]. split; [auto|]. intros p Hp. destruct (Z.leb_spec lo p); cbn [andb]; [|reflexivity].
    rewrite (proj2 (Z.ltb_ge _ _)) by lia. reflexivity.
  - cbn [seq map ofold]. destruct (update_step x n s op k so st (lo + Z.of_nat 0) Hn Hk Tx To ltac:(lia) ltac:(lia)) as (x' & E & Tx' & D & Q).
    { intros V. specialize (U (lo + Z.of_nat 0 - st) ltac:(lia) V). exact U. }
    rewrite E. cbn [bind]. rewrite <- seq_shift, map_map.
    destruct (IH x' (lo + 1) ltac:(lia) ltac:(lia)) as (r & E' & Tr & D' & Q'); [intros q Hq; apply U; lia|exact Tx'|].
    exists r. split. { rewrite <- E'. f_equal. apply map_ext. intros j. lia. }
    split; [exact Tr|]. split; [auto|]. intros p Hp. rewrite Q', Q by exact Hp.
    destruct (Z.leb_spec (lo + 1) p), (Z.leb_spec lo p); cbn [andb]; try lia.
    + destruct (Z.ltb_spec p (lo + 1 + Z.of_nat c)), (Z.ltb_spec p (lo + Z.of_nat (S c))); try lia; [reflexivity|]. rewrite (proj2 (Z.eqb_neq _ _)) by lia. reflexivity.
    + assert (p = lo) by lia. subst p. rewrite (proj2 (Z.eqb_eq _ _)) by lia. rewrite (proj2 (Z.ltb_lt _ _)) by lia. f_equal. lia.
    + rewrite (proj2 (Z.eqb_neq _ _)) by lia. reflexivity.
Qed.
Lemma lupdate x n s op k so a b : 1 <= n -> 1 <= k -> ltyped x n s -> ltyped op k so -> 0 <= a < n -> 0 <= b < n ->
  (forall q, 64 <= q < k -> q <= Z.abs (a - b) -> unknown (sym_at op q) = false) ->
  exists r, logic_update_r x a b op = Ok r /\ ltyped r n s /\ (s = false -> ltidy x -> ltidy r) /\
    forall p, 0 <= p < n -> sym_at r p =
      if (Z.min a b <=? p) && (p <=? Z.max a b) then (if p - Z.min a b <? k then sym_at op (p - Z.min a b) else S0) else sym_at x p.
Proof.
  intros Hn Hk Tx To Ha Hb U. unfold logic_update_r, zrange.
  destruct (lupdate_loop x n s op k so (Z.min a b) Hn Hk To ltac:(lia) (Z.to_nat (Z.max a b + 1 - Z.min a b)) (Z.min a b) ltac:(lia) ltac:(lia)) as (r & E & T & D & Q).
  - intros q Hq V. destruct (Z.ltb_spec q 64); [assumption|]. exfalso. unfold padded in V. destruct (Z.ltb_spec q k); [|discriminate]. rewrite U in V by lia. discriminate.
  - exact Tx.
  - exists r. split; [exact E|]. split; [exact T|]. split; [exact D|]. intros p Hp. rewrite Q by exact Hp. unfold padded.
    replace (p <? Z.min a b + Z.of_nat (Z.to_nat (Z.max a b + 1 - Z.min a b))) with (p <=? Z.max a b); [reflexivity|].
    apply Bool.eq_true_iff_eq. rewrite Z.leb_le, Z.ltb_lt. lia.
Qed.
Lemma lupdate_c x n s hi lo op : 1 <= n -> ltyped x n s -> 0 <= lo <= hi -> hi < n -> logic_update_c x hi lo op = logic_update_r x hi lo op.
Proof.
  intros Hn T H1 H2. unfold logic_update_c. destruct (ltyped_plain x n s Hn T) as (-> & -> & _). rewrite (ltyped_lsize x n s Hn T).
  unfold match_endian. rewrite !(proj2 (Z.ltb_lt _ n)), (proj2 (Z.leb_le lo hi)), (proj2 (Z.leb_le 0 (n - 1))) by lia. reflexivity.
Qed.

(** * literals *)
Lemma lliterals v : (exists r, lit_logic v = Ok r /\ ltyped r 32 true /\ known r /\ num (l_val r) = v mod 2 ^ 32) /\
  (exists r, lit_logic64 v = Ok r /\ ltyped r 64 true /\ known r /\ num (l_val r) = v mod 2 ^ 64).
Proof.
  destruct (literals v) as [(r & E & T & N & _) (r' & E' & T' & N' & _)]. split.
  - exists (mkLogic r (bit_zero 31 0 false)). unfold lit_bit, bit_of_native in E. unfold lit_logic, logic_extend, logic_of_arith, bit_of_arith, bit_of_native.
    change (native_num (vsize 31 0)) with true. cbn iota. cbn [l_val l_xz]. rewrite E.
    change (lsize _ <=? 32) with true. cbn [requires bind].
    split; [reflexivity|]. split; [split; [exact T|]; conc|]. split; [apply known_of_num0; reflexivity|exact N].
  - exists (mkLogic r' (bit_zero 63 0 false)). unfold lit_bit64, bit_of_native in E'. unfold lit_logic64, logic_extend, logic_of_arith, bit_of_arith, bit_of_native.
    change (native_num (vsize 63 0)) with true. cbn iota. cbn [l_val l_xz]. rewrite E'.
    change (lsize _ <=? 64) with true. cbn [requires bind].
    split; [reflexivity|]. split; [split; [exact T'|]; conc|]. split; [apply known_of_num0; reflexivity|exact N'].
Qed.
