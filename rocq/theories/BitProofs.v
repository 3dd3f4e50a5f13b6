(** bit: holders, single-bit access, slices, extension, concatenation. *)
From Coq Require Import ZArith List Bool Lia Zify ZifyBool.
From Verif Require Import Cpp BigNum Bit Logic Spec ZBits Words BigNumProofs BigArith.
Import ListNotations.
Open Scope Z_scope.

(** * holder types *)
Ltac hty_cases n :=
  unfold hty; destruct (Z.leb_spec n 1); [|destruct (Z.leb_spec n 8); [|destruct (Z.leb_spec n 16);
    [|destruct (Z.leb_spec n 32)]]].
Lemma hty_1 s : hty 1 s = TBool. Proof. reflexivity. Qed.
Lemma hty_nb n s : 2 <= n -> hty n s <> TBool.
Proof. intros. hty_cases n; try lia; destruct s; discriminate. Qed.
Lemma hty_signed n s : 2 <= n -> isigned (hty n s) = s.
Proof. intros. hty_cases n; try lia; destruct s; reflexivity. Qed.
Lemma hty_width n s : 1 <= n <= 64 -> n <= iwidth (hty n s).
Proof. intros. hty_cases n; destruct s; cbn; lia. Qed.
Lemma hty_iw n s : iwidth (hty n s) = iwidth (hty n false).
Proof. hty_cases n; destruct s; reflexivity. Qed.
Lemma hty_sz n s : szbits (hty n s) = szbits (hty n false).
Proof. hty_cases n; destruct s; reflexivity. Qed.
Lemma szbits_nb t : t <> TBool -> szbits t = iwidth t.
Proof. destruct t; congruence || reflexivity. Qed.
Lemma promote_nb t : promote t <> TBool. Proof. destruct t; discriminate. Qed.
Lemma promote_width t : iwidth t <= iwidth (promote t). Proof. destruct t; cbn; lia. Qed.
Lemma uac_nb a b : uac a b <> TBool. Proof. destruct a, b; discriminate. Qed.
Lemma uac_width a b : iwidth a <= iwidth (uac a b) /\ iwidth b <= iwidth (uac a b).
Proof. destruct a, b; cbn; lia. Qed.
Lemma uac_32 a b : 32 <= iwidth (uac a b). Proof. destruct a, b; cbn; lia. Qed.
Lemma promote_32 t : 32 <= iwidth (promote t). Proof. destruct t; cbn; lia. Qed.
Lemma uac_u64 t : uac t TU64 = TU64. Proof. destruct t; reflexivity. Qed.
Lemma promote_idem t : promote (promote t) = promote t. Proof. destruct t; reflexivity. Qed.
Lemma uac_promote_l a b : uac (promote a) b = uac a b. Proof. destruct a, b; reflexivity. Qed.
Lemma in_promote t v : in_ity t v = true -> in_ity (promote t) v = true.
Proof. rewrite !in_ity_range. destruct t; cbn; lia. Qed.
Lemma conv_promote t v : in_ity t v = true -> conv (promote t) v = v.
Proof. intros. apply conv_id, in_promote. assumption. Qed.

Lemma conv_testbit t z p : t <> TBool -> 0 <= p < iwidth t -> Z.testbit (conv t z) p = Z.testbit z p.
Proof.
  intros Ht Hp. pose proof (conv_mod t z (iwidth t) Ht ltac:(lia)) as E.
  apply (f_equal (fun x => Z.testbit x p)) in E. rewrite !testbit_mod_pow2 in E by lia.
  replace (p <? iwidth t) with true in E by lia. exact E.
Qed.

Lemma conv_bool_01 v : v = 0 \/ v = 1 -> conv TBool v = v.
Proof. intros [-> | ->]; reflexivity. Qed.
Lemma in_bool v : in_ity TBool v = true <-> v = 0 \/ v = 1.
Proof. unfold in_ity. cbn. lia. Qed.

(** operators modulo a power of two *)
Lemma c_and_mod ta tb a b k : 0 <= k <= iwidth (uac ta tb) -> c_and ta tb a b mod 2 ^ k = Z.land a b mod 2 ^ k.
Proof.
  intros. unfold c_and. cbn zeta. rewrite !land_mod_pow2 by lia.
  rewrite !conv_mod by (apply uac_nb || lia). reflexivity.
Qed.
Lemma c_or_mod ta tb a b k : 0 <= k <= iwidth (uac ta tb) -> c_or ta tb a b mod 2 ^ k = Z.lor a b mod 2 ^ k.
Proof.
  intros. unfold c_or. cbn zeta. rewrite !lor_mod_pow2 by lia.
  rewrite !conv_mod by (apply uac_nb || lia). reflexivity.
Qed.
Lemma c_xor_mod ta tb a b k : 0 <= k <= iwidth (uac ta tb) -> c_xor ta tb a b mod 2 ^ k = Z.lxor a b mod 2 ^ k.
Proof.
  intros. unfold c_xor. cbn zeta. rewrite !lxor_mod_pow2 by lia.
  rewrite !conv_mod by (apply uac_nb || lia). reflexivity.
Qed.
Lemma c_not_mod ta a k : 0 <= k <= iwidth (promote ta) -> c_not ta a mod 2 ^ k = Z.lnot a mod 2 ^ k.
Proof. intros. unfold c_not. cbn zeta. apply conv_mod; [apply promote_nb | lia]. Qed.
Lemma arith_mod t z r k : t <> TBool -> 0 <= k <= iwidth t -> arith t z = Ok r -> r mod 2 ^ k = z mod 2 ^ k.
Proof.
  intros Ht Hk. unfold arith. destruct (isigned t).
  - destruct (in_ity t z); [|discriminate]. injection 1 as <-. reflexivity.
  - injection 1 as <-. apply mod_mod_pow2. lia.
Qed.

(** * the width and number of a vector *)
Lemma bw_bsize b : bw b = bsize b. Proof. reflexivity. Qed.
Lemma bw_pos b : 1 <= bw b. Proof. unfold bw, width. lia. Qed.
Lemma pow_bw b : 0 < 2 ^ bw b. Proof. apply pow2_pos. pose proof (bw_pos b). lia. Qed.
Lemma num_range b : 0 <= num b < 2 ^ bw b.
Proof. unfold num. apply Z.mod_pos_bound, pow_bw. Qed.

Lemma vec_cases b : vec b ->
  (exists v, bval b = HN v /\ 1 <= bw b <= 64 /\ in_ity (hty (bw b) (bsgn b)) v = true /\ stored b = v) \/
  (exists ws, bval b = HB ws /\ 65 <= bw b < 2 ^ 31 /\ wfn (bw b) ws /\ stored b = words_num ws).
Proof.
  intros (H & _ & _ & L). pose proof (bw_pos b). unfold bit_ok in H. unfold stored. rewrite <- bw_bsize in H.
  destruct (bval b) as [v|ws]; apply andb_true_iff in H; destruct H as [H1 H2].
  - left. exists v. repeat split; try lia. exact H2.
  - right. exists ws. repeat split; try lia; apply words_ok_wfn in H2; apply H2.
Qed.

Lemma bit_at_stored b p : 0 <= p < bw b -> bit_at b p = Z.testbit (stored b) p.
Proof.
  intros. unfold bit_at, num. rewrite testbit_mod_pow2 by lia. replace (p <? bw b) with true by lia. reflexivity.
Qed.
Lemma bit_at_high b p : bw b <= p -> bit_at b p = false.
Proof. intros. unfold bit_at. apply (testbit_small _ (bw b)); [apply num_range | lia]. Qed.
Lemma num_bits b z : 0 <= z < 2 ^ bw b -> (forall p, 0 <= p < bw b -> bit_at b p = Z.testbit z p) -> num b = z.
Proof.
  intros Hz H. apply Z.bits_inj'. intros p Hp. destruct (Z.ltb_spec p (bw b)).
  - apply H. lia.
  - rewrite (testbit_small z (bw b)) by lia. apply bit_at_high. lia.
Qed.

Lemma num_of_tidy b : tidy b -> bsgn b = false -> num b = stored b.
Proof.
  unfold tidy, num, stored. intros H S. rewrite S in H. cbn [andb] in H. destruct (bval b); apply Z.mod_small; exact H.
Qed.
Lemma num_of_tidy_big b ws : bval b = HB ws -> tidy b -> num b = words_num ws.
Proof. unfold tidy, num, stored. intros -> H. apply Z.mod_small. exact H. Qed.

Lemma twos_range n z : 1 <= n -> 0 <= z < 2 ^ n -> - 2 ^ (n - 1) <= twos n z < 2 ^ (n - 1).
Proof.
  intros Hn Hz. unfold twos. assert (E : 2 ^ n = 2 * 2 ^ (n - 1)) by (rewrite <- Z.pow_succ_r by lia; f_equal; lia).
  destruct (Z.testbit z (n - 1)) eqn:T.
  - destruct (Z.ltb_spec z (2 ^ (n - 1))); [|lia]. rewrite (testbit_small z (n - 1)) in T by lia. discriminate.
  - destruct (Z.ltb_spec z (2 ^ (n - 1))); [lia|].
    assert (Z.testbit z (n - 1) = true); [|congruence].
    replace z with ((z - 2 ^ (n - 1)) + 1 * 2 ^ (n - 1)) by lia.
    rewrite Z.testbit_true by lia. rewrite Z.div_add by (apply Z.pow_nonzero; lia).
    rewrite Z.div_small by lia. reflexivity.
Qed.
Lemma twos_swrap n z : 1 <= n -> twos n (z mod 2 ^ n) = swrap n z.
Proof.
  intros Hn. assert (B : 0 <= z mod 2 ^ n < 2 ^ n) by (apply Z.mod_pos_bound, pow2_pos; lia).
  pose proof (twos_range n _ Hn B) as R. rewrite <- (swrap_id n _ Hn R).
  unfold swrap. f_equal. 
  assert (0 < 2 ^ n) by (apply pow2_pos; lia).
  rewrite <- Zplus_mod_idemp_l. rewrite <- (Zplus_mod_idemp_l z). f_equal. f_equal.
  unfold twos. destruct (Z.testbit (z mod 2 ^ n) (n - 1)).
  - rewrite <- (Z_mod_plus_full _ 1). rewrite <- (Zmod_mod z) at 2. f_equal. lia.
  - apply Zmod_mod.
Qed.

(** a native vector built by conversion *)
Definition nat_bit (msb lsb : Z) (s : bool) (z : Z) : bit := mkBit msb lsb s (HN (conv (hty (width msb lsb) s) z)).
Lemma nat_bit_vec msb lsb s z : int_ok msb -> int_ok lsb -> width msb lsb <= 64 -> vec (nat_bit msb lsb s z).
Proof.
  intros. unfold vec, nat_bit, bit_ok, bw, bsize, vsize. cbn [bval bmsb blsb bsgn]. fold (width msb lsb).
  rewrite conv_in_ity. repeat split; try (unfold int_ok in *; lia). 
Qed.
Lemma nat_bit_num msb lsb s z : 2 <= width msb lsb <= 64 -> num (nat_bit msb lsb s z) = z mod 2 ^ width msb lsb.
Proof.
  intros. unfold num, stored, nat_bit, bw. cbn [bval bmsb blsb bsgn].
  apply conv_mod; [apply hty_nb; lia|]. pose proof (hty_width (width msb lsb) s). lia.
Qed.
Lemma nat_bit_num1 msb lsb s z : width msb lsb = 1 -> num (nat_bit msb lsb s z) = if z =? 0 then 0 else 1.
Proof.
  intros E. unfold num, stored, nat_bit, bw. cbn [bval bmsb blsb bsgn]. rewrite E. cbn. destruct (z =? 0); reflexivity.
Qed.
Lemma nat_bit_num_small msb lsb s z : 1 <= width msb lsb <= 64 -> 0 <= z < 2 ^ width msb lsb ->
  num (nat_bit msb lsb s z) = z.
Proof.
  intros W Hz. destruct (Z.eq_dec (width msb lsb) 1) as [E|N].
  - rewrite nat_bit_num1 by exact E. rewrite E in Hz. destruct (Z.eqb_spec z 0); lia.
  - rewrite nat_bit_num by lia. apply Z.mod_small. exact Hz.
Qed.
Lemma nat_bit_tidy msb lsb z : 1 <= width msb lsb <= 64 -> 0 <= z < 2 ^ width msb lsb -> tidy (nat_bit msb lsb false z).
Proof.
  intros W Hz. unfold tidy, nat_bit, bw. cbn [bval bmsb blsb bsgn andb].
  rewrite conv_id; [exact Hz|]. destruct (Z.eq_dec (width msb lsb) 1) as [E|N].
  - rewrite E in *. apply in_bool. lia.
  - apply in_ity_range. rewrite hty_signed by lia. pose proof (hty_width (width msb lsb) false ltac:(lia)).
    pose proof (pow2_mono (width msb lsb) (iwidth (hty (width msb lsb) false)) ltac:(lia)). lia.
Qed.
Lemma nat_bit_tidy_s msb lsb z : 2 <= width msb lsb <= 64 ->
  - 2 ^ (width msb lsb - 1) <= z < 2 ^ (width msb lsb - 1) -> tidy (nat_bit msb lsb true z).
Proof.
  intros W Hz. unfold tidy, nat_bit, bw. cbn [bval bmsb blsb bsgn].
  replace (1 <? width msb lsb) with true by lia. cbn [andb].
  rewrite conv_id; [exact Hz|].
  apply in_ity_range. rewrite hty_signed by lia. pose proof (hty_width (width msb lsb) true ltac:(lia)).
  pose proof (pow2_mono (width msb lsb - 1) (iwidth (hty (width msb lsb) true) - 1) ltac:(lia)). lia.
Qed.
Lemma width_plain n : 1 <= n -> width (n - 1) 0 = n. Proof. unfold width. lia. Qed.
Lemma bw_plain b n : 1 <= n -> plain b n -> bw b = n.
Proof. intros H [A B]. unfold bw. rewrite A, B. apply width_plain. exact H. Qed.

Lemma big_vec msb lsb s ws : int_ok msb -> int_ok lsb -> 65 <= width msb lsb < 2 ^ 31 -> wfn (width msb lsb) ws ->
  vec (mkBit msb lsb s (HB ws)).
Proof.
  intros A B C D. unfold vec, bit_ok, bw, bsize, vsize. cbn [bval bmsb blsb bsgn]. fold (width msb lsb).
  apply words_ok_wfn in D. rewrite D. repeat split; try (unfold int_ok in *; lia).
Qed.
Lemma big_num_eq msb lsb s ws : num (mkBit msb lsb s (HB ws)) = words_num ws mod 2 ^ width msb lsb.
Proof. reflexivity. Qed.
Lemma big_tidy msb lsb s ws : 0 <= words_num ws < 2 ^ width msb lsb -> tidy (mkBit msb lsb s (HB ws)).
Proof. intros. exact H. Qed.
Lemma int_plain n : 1 <= n < 2 ^ 31 -> int_ok (n - 1) /\ int_ok 0.
Proof. unfold int_ok. lia. Qed.

Lemma holder_1 v b : vec b -> bval b = HN v -> bw b = 1 -> v = 0 \/ v = 1.
Proof.
  intros H E W. destruct (vec_cases b H) as [(w & E1 & _ & I & _) | (ws & E1 & _)]; rewrite E in E1; [|discriminate].
  injection E1 as <-. rewrite W in I. apply in_bool. exact I.
Qed.

(** * single bits *)
(** the physical position read by operator[] and written by set *)
Definition rd_pos (b : bit) (i : Z) : Z := if blsb b <=? bmsb b then i else blsb b - i.
Definition wr_pos (b : bit) (i : Z) : Z := rd_pos b i - Z.min (blsb b) (bmsb b).

Lemma get_native t x : negb (c_and (promote t) TI32 x 1 =? 0) = Z.testbit x 0.
Proof.
  unfold c_and. cbn zeta. replace (conv (uac (promote t) TI32) 1) with 1 by (destruct t; reflexivity).
  rewrite land1_testbit. apply conv_testbit; [apply uac_nb|]. pose proof (uac_32 (promote t) TI32). lia.
Qed.

Lemma bit_get_spec b i : vec b -> 0 <= rd_pos b i < bw b -> bit_get b i = Ok (bit_at b (rd_pos b i)).
Proof.
  intros V Hi. rewrite bit_at_stored by exact Hi. unfold bit_get, big_endian. fold (rd_pos b i).
  destruct (vec_cases b V) as [(v & E & W & I & S) | (ws & E & W & I & S)]; rewrite E, S.
  - unfold c_shr. rewrite <- bw_bsize. pose proof (hty_width (bw b) (bsgn b) ltac:(lia)).
    pose proof (promote_width (hty (bw b) (bsgn b))).
    replace ((0 <=? rd_pos b i) && (rd_pos b i <? iwidth (promote (hty (bw b) (bsgn b))))) with true by lia.
    cbn [bind]. rewrite get_native, Z.shiftr_spec by lia. rewrite Z.add_0_l. reflexivity.
  - rewrite u64_id by lia. rewrite bn_get_spec by (try apply I; lia). rewrite <- bw_bsize.
    replace (rd_pos b i <? bw b) with true by lia. reflexivity.
Qed.

Lemma native_set_spec t v i x : in_ity t v = true -> 0 <= i < iwidth t ->
  exists r, native_set t v i x = Ok r /\ in_ity t r = true /\
    forall p, 0 <= p < iwidth t -> Z.testbit r p = if p =? i then x else Z.testbit v p.
Proof.
  intros Hv Hi. pose proof (iwidth_pos t). unfold native_set, c_shl. change (promote TU64) with TU64.
  change (iwidth TU64) with 64. replace ((0 <=? i) && (i <? 64)) with true by lia. cbn [bind].
  assert (E1 : conv TU64 (Z.shiftl 1 i) = 2 ^ i).
  { rewrite Z.shiftl_1_l. change (2 ^ i mod 2 ^ 64 = 2 ^ i). apply Z.mod_small. split; [apply Z.pow_nonneg; lia | apply Z.pow_lt_mono_r; lia]. }
  rewrite E1.
  assert (Pw : 0 <= 2 ^ i < 2 ^ 64) by (split; [apply Z.pow_nonneg; lia | apply Z.pow_lt_mono_r; lia]).
  destruct (Z.eq_dec (iwidth t) 1) as [B|NB].
  { assert (t = TBool) by (destruct t; cbn in B; congruence || lia). subst t.
    assert (i = 0) by (cbn in Hi; lia). subst i. apply in_bool in Hv.
    destruct x; eexists; split; try reflexivity.
    - destruct Hv as [-> | ->]; (split; [reflexivity|]); intros p Hp; cbn in Hp; replace p with 0 by lia; reflexivity.
    - destruct Hv as [-> | ->]; (split; [reflexivity|]); intros p Hp; cbn in Hp; replace p with 0 by lia; reflexivity. }
  assert (NT : t <> TBool) by (intros ->; apply NB; reflexivity).
  destruct x; eexists; (split; [reflexivity|]); (split; [apply conv_in_ity|]); intros p Hp;
    rewrite conv_testbit by assumption.
  - unfold c_or. rewrite uac_u64. cbn zeta. rewrite Z.lor_spec, !conv_testbit by (discriminate || (cbn; lia)).
    rewrite Z.pow2_bits_eqb by lia. rewrite (Z.eqb_sym i p). destruct (p =? i); [apply orb_true_r | apply orb_false_r].
  - unfold c_and, c_not. rewrite uac_u64. cbn zeta. change (promote TU64) with TU64.
    rewrite Z.land_spec, !conv_testbit by (discriminate || (cbn; lia)).
    rewrite Z.lnot_spec, Z.pow2_bits_eqb by lia. rewrite (Z.eqb_sym i p).
    destruct (p =? i); [apply andb_false_r | apply andb_true_r].
Qed.

Lemma bit_set_phys b i x : vec b -> 0 <= i < bw b ->
  forall get_idx, 0 <= get_idx -> 
  exists b', match bval b with
  | HN v =>
      let! v' := native_set (hty (bsize b) (bsgn b)) v i x in
      Ok (mkBit (bmsb b) (blsb b) (bsgn b) (HN v'))
  | HB ws => Ok (mkBit (bmsb b) (blsb b) (bsgn b) (HB (bn_set (bsize b) ws i x)))
  end = Ok b' /\ vec b' /\ bmsb b' = bmsb b /\ blsb b' = blsb b /\ bsgn b' = bsgn b /\
   (forall p, 0 <= p < bw b -> bit_at b' p = if p =? i then x else bit_at b p) /\
   (bsgn b = false -> tidy b -> tidy b').
Proof.
  intros V Hi _ _. pose proof V as (_ & V1 & V2 & V3).
  destruct (vec_cases b V) as [(v & E & W & I & S) | (ws & E & W & I & S)]; rewrite E.
  - pose proof (hty_width (bw b) (bsgn b) ltac:(lia)).
    destruct (native_set_spec (hty (bw b) (bsgn b)) v i x I ltac:(lia)) as (r & E1 & I1 & B1).
    rewrite <- bw_bsize, E1. cbn [bind]. eexists. split; [reflexivity|].
    assert (V' : vec (mkBit (bmsb b) (blsb b) (bsgn b) (HN r))).
    { unfold vec, bit_ok, bw, bsize, vsize. cbn [bval bmsb blsb bsgn]. fold (width (bmsb b) (blsb b)). fold (bw b).
      rewrite I1. repeat split; try (unfold int_ok in *; lia). }
    split; [exact V'|]. cbn [bmsb blsb bsgn]. do 3 (split; [reflexivity|]). split.
    + intros p Hp. rewrite !bit_at_stored by (exact Hp). rewrite S. unfold stored. cbn [bval]. apply B1. lia.
    + intros Sg T. unfold tidy in *. cbn [bval bsgn]. rewrite E, Sg in *. cbn [andb] in *.
      change (bw (mkBit (bmsb b) (blsb b) false (HN r))) with (bw b).
      assert (R0 : 0 <= r < 2 ^ iwidth (hty (bw b) false)).
      { destruct (Z.eq_dec (bw b) 1) as [B|NB].
        - rewrite B in *. apply in_bool in I1. cbn. lia.
        - apply in_ity_range in I1. rewrite hty_signed in I1 by lia. exact I1. }
      split; [lia|]. apply bits_small; [lia | lia |]. intros p Hp.
      destruct (Z.ltb_spec p (iwidth (hty (bw b) false))).
      * rewrite B1 by lia. replace (p =? i) with false by lia. apply (testbit_small v (bw b)); lia.
      * apply (testbit_small r (iwidth (hty (bw b) false))); lia.
  - rewrite <- bw_bsize. eexists. split; [reflexivity|].
    destruct (wfn_cap (bw b) ws ltac:(lia) I) as (C & _ & _). destruct I as [I1 I2].
    assert (Wn : wfn (bw b) (bn_set (bw b) ws i x)) by (split; [apply bn_set_wf; exact I1 | rewrite bn_set_len; exact I2]).
    assert (V' : vec (mkBit (bmsb b) (blsb b) (bsgn b) (HB (bn_set (bw b) ws i x)))) by (apply big_vec; assumption).
    split; [exact V'|]. cbn [bmsb blsb bsgn]. do 3 (split; [reflexivity|]).
    assert (BB : forall p, 0 <= p -> Z.testbit (words_num (bn_set (bw b) ws i x)) p =
       if p =? i then x else Z.testbit (words_num ws) p).
    { intros p Hp. rewrite bn_set_spec by (assumption || lia). replace (i <? bw b) with true by lia.
      rewrite andb_true_r. reflexivity. }
    split.
    + intros p Hp. rewrite !bit_at_stored by (exact Hp). rewrite S. unfold stored. cbn [bval]. apply BB. lia.
    + intros Sg T. unfold tidy in *. cbn [bval]. rewrite E in T.
      change (bw (mkBit (bmsb b) (blsb b) (bsgn b) (HB (bn_set (bw b) ws i x)))) with (bw b).
      pose proof (words_num_nonneg _ (proj1 Wn)). split; [assumption|].
      apply bits_small; [lia | assumption |]. intros p Hp. rewrite BB by lia. replace (p =? i) with false by lia.
      apply (testbit_small _ (bw b)); lia.
Qed.

Lemma bit_set_spec b i x : vec b -> 0 <= wr_pos b i < bw b ->
  exists b', bit_set b i x = Ok b' /\ vec b' /\ bmsb b' = bmsb b /\ blsb b' = blsb b /\ bsgn b' = bsgn b /\
   (forall p, 0 <= p < bw b -> bit_at b' p = if p =? wr_pos b i then x else bit_at b p) /\
   (bsgn b = false -> tidy b -> tidy b').
Proof.
  intros V Hi. pose proof V as (_ & _ & _ & V3).
  destruct (bit_set_phys b (wr_pos b i) x V Hi 0 ltac:(lia)) as (b' & E & R).
  exists b'. split; [|exact R]. rewrite <- E. unfold bit_set, big_endian. fold (rd_pos b i). fold (wr_pos b i).
  rewrite u64_id by lia. reflexivity.
Qed.
Lemma bit_set_bit0_spec b i x : vec b -> Z.min (blsb b) (bmsb b) = 0 -> 0 <= wr_pos b i < bw b ->
  exists b', bit_set_bit0 b i x = Ok b' /\ vec b' /\ bmsb b' = bmsb b /\ blsb b' = blsb b /\ bsgn b' = bsgn b /\
   (forall p, 0 <= p < bw b -> bit_at b' p = if p =? wr_pos b i then x else bit_at b p) /\
   (bsgn b = false -> tidy b -> tidy b').
Proof.
  intros V Z0 Hi. destruct (bit_set_spec b i x V Hi) as (b' & E & R). exists b'. split; [|exact R].
  rewrite <- E. unfold bit_set_bit0, bit_set. rewrite Z0, Z.sub_0_r. reflexivity.
Qed.

Lemma pos_zero_based b i : Z.min (bmsb b) (blsb b) = 0 -> in_range (bmsb b) (blsb b) i ->
  rd_pos b i = place (bmsb b) (blsb b) i /\ wr_pos b i = place (bmsb b) (blsb b) i /\
  0 <= place (bmsb b) (blsb b) i < bw b.
Proof.
  unfold in_range, wr_pos, rd_pos, place, bw, width. intros. destruct (Z.leb_spec (blsb b) (bmsb b)); lia.
Qed.
Lemma place_inj msb lsb i j : place msb lsb i = place msb lsb j -> i = j.
Proof. unfold place. destruct (lsb <=? msb); lia. Qed.
