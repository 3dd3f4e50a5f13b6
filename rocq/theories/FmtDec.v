(** Lemmas about decimal and 2-state formatting and about reading texts back. *)
From Coq Require Import ZArith List Bool Lia String Ascii.
From Verif Require Import Cpp BigNum Bit Logic Util Spec SpecText ZBits Words BigNumProofs BitProofs BitExt BitOps BigArith BitArith BitSlice BitShift BitCmp BitMain BitMain3 BitMain4 LogicMain TextProofs TextBig FmtProofs FmtMain.
Import ListNotations.
Open Scope Z_scope.

Lemma hty_s_promote n : 2 <= n <= 64 -> uac (promote (hty n true)) TI32 = promote (hty n true) /\ isigned (promote (hty n true)) = true /\ iwidth (promote (hty n true)) = cwidth n.
Proof.
  intros H. assert (Cw : iwidth (promote (hty n true)) = cwidth n) by (rewrite <- uac_same; apply cwidth_uac; lia). rewrite Cw. unfold hty.
  rewrite (proj2 (Z.leb_gt n 1)) by lia. destruct (n <=? 8); [auto|]. destruct (n <=? 16); [auto|]. destruct (n <=? 32); auto.
Qed.
Lemma negate_spec b v : vec b -> bval b = HN v -> bsgn b = true -> 2 <= bw b -> tidy b -> v < 0 -> (bw b = 32 \/ bw b = 64 -> v <> - 2 ^ (bw b - 1)) ->
  exists r, bit_negate b = Ok r /\ bit_to_uint64 r = - v.
Proof.
  intros V E Sg Hn T Neg Mn. destruct (vec_cases b V) as [(v' & E' & Hb & I & S) | (ws & E' & _)]; [|congruence]. assert (v' = v) as -> by congruence. set (n := bw b) in *.
  assert (R : - 2 ^ (n - 1) <= v < 2 ^ (n - 1)). { unfold tidy in T. rewrite E, Sg in T. fold n in T. replace (true && (1 <? n)) with true in T by lia. exact T. }
  destruct (hty_s_promote n ltac:(lia)) as (U & Sp & Cw). unfold bit_negate. rewrite E, Sg. rewrite <- bw_bsize. fold n. cbn zeta.
  assert (P1 : 2 ^ (n - 1) <= 2 ^ (cwidth n - 1)) by (apply Z.pow_le_mono_r; unfold cwidth; destruct (Z.leb_spec n 32); lia).
  assert (P2 : n <> 32 -> n <> 64 -> 2 * 2 ^ (n - 1) <= 2 ^ (cwidth n - 1)). { intros. rewrite <- Z.pow_succ_r by lia. apply Z.pow_le_mono_r; [lia|]. unfold cwidth. destruct (Z.leb_spec n 32); lia. }
  assert (0 < 2 ^ (n - 1)) by (apply Z.pow_pos_nonneg; lia).
  assert (V2 : - v < 2 ^ (cwidth n - 1)). { destruct (Z.eq_dec n 32) as [N|N1]; [specialize (Mn (or_introl N)); lia|]. destruct (Z.eq_dec n 64) as [N|N2]; [specialize (Mn (or_intror N)); lia|]. specialize (P2 N1 N2). lia. }
  assert (Cx : forall z, - 2 ^ (cwidth n - 1) <= z < 2 ^ (cwidth n - 1) -> conv (promote (hty n true)) z = z). { intros z Hz. apply conv_id, in_ity_range. rewrite Sp, Cw. exact Hz. }
  unfold c_not. cbn zeta. assert (Z.lnot v = - v - 1) as -> by (unfold Z.lnot; lia). rewrite Cx by lia. unfold c_add. cbn zeta. rewrite U. assert (Po : 1 < 2 ^ (cwidth n - 1)). { unfold cwidth. destruct (n <=? 32); reflexivity. }
  rewrite !Cx by lia. replace (- v - 1 + 1) with (- v) by lia. unfold arith. rewrite Sp. replace (in_ity (promote (hty n true)) (- v)) with true by (symmetry; apply in_ity_range; rewrite Sp, Cw; lia). cbn [bind]. eexists. split; [reflexivity|].
  assert (P3 : 2 ^ n = 2 * 2 ^ (n - 1)) by (rewrite <- Z.pow_succ_r by lia; f_equal; lia).
  assert (C2 : conv (hty n false) (- v) = - v). { apply conv_id, in_ity_range. pose proof (hty_signed n false ltac:(lia)) as Sf. rewrite Sf. pose proof (hty_width n false ltac:(lia)). assert (2 ^ n <= 2 ^ iwidth (hty n false)) by (apply Z.pow_le_mono_r; lia). lia. }
  pose proof (nat_typed n false (- v) ltac:(lia)) as Tn. destruct (bit_mask_off_spec _ n false ltac:(lia) Tn) as (T1 & N1 & Y1). specialize (Y1 (or_introl eq_refl)).
  rewrite num_plain_nat in N1 by lia. rewrite C2 in *. rewrite (Z.mod_small (- v)) in N1 by lia. rewrite (tidy_num_u _ n ltac:(lia) T1 Y1) in N1. unfold stored in N1. unfold bit_to_uint64. destruct (bval (bit_mask_off (mkBit (n - 1) 0 false (HN (- v))))) eqn:Eb; [|discriminate].
  rewrite N1. apply u64_id. assert (2 ^ n <= 2 ^ 64) by (apply Z.pow_le_mono_r; lia). lia.
Qed.
(** when the library can print a decimal: unsigned or of at least two positions and not the smallest 32- or 64-bit number *)
Lemma tidy_value b : vec b -> tidy b -> bw b <= 64 -> (bsgn b = true -> 2 <= bw b) -> stored b = value b.
Proof.
  intros V T N C. unfold value. destruct (bsgn b) eqn:Sg.
  - apply tidy_s_stored; auto.
  - symmetry. now apply num_of_tidy.
Qed.
Lemma nd_d base : among "dD" base -> ~ among "0123456789" base. Proof. intros B D. apply digit_among in D. chars_cases B; discriminate. Qed.
Lemma dd base : among "dD" base -> is_one_of base "dD" = true. Proof. intros B. now apply among_iff. Qed.
Lemma pow_log n : 1 <= n < 128 -> exists w, usual_width 100 n w.
Proof.
  intros Hn. assert (2 <= 2 ^ n) by (change 2 with (2 ^ 1) at 1; apply Z.pow_le_mono_r; lia). assert (2 ^ n <= 2 ^ Z.of_nat 128) by (apply Z.pow_le_mono_r; lia).
  destruct (digits_spec 10 ltac:(lia) 128 (2 ^ n - 1) ltac:(lia)) as (t & E & V & F & NZ & _). destruct (NZ ltac:(lia)) as [T H48]. exists (len (rev t)). do 4 right. split; [vm_compute; tauto|]. split; [lia|]. rewrite (proj2 (Z.ltb_lt n 128)) by lia. rewrite <- V. split.
  - apply forall_rev in F. destruct (rev t) as [|c r] eqn:R; [apply (f_equal (@rev Z)) in R; rewrite rev_involutive in R; cbn in R; congruence|]. apply numeral_low; [lia|exact F|exact H48].
  - apply numeral_bound; [lia|]. apply forall_rev. revert F. apply Forall_impl. now intros c [_ D].
Qed.
Lemma possible_d base n : among "dD" base -> 1 <= n -> n <> 128 -> exists w, possible base n = Ok w.
Proof.
  intros B Hn N. destruct (Z.lt_ge_cases n 128) as [L|L].
  - destruct (pow_log n ltac:(lia)) as [w U]. exists w. apply possible_usual; [exact Hn|]. destruct U as [[B' _]|[[B' _]|[[B' _]|[[B' _]|(_ & U)]]]]; try (exfalso; vm_compute in B'; intuition discriminate). do 4 right. auto.
  - exists n. unfold possible. assert (128 <? n = true) as E by lia. chars_cases B; cbn [is_one_of existsb chars]; vm_compute is_one_of; rewrite E; reflexivity.
Qed.
Lemma core_neg base ss v : among "dD" base -> v < 0 -> is_numeral 10 (- v) (rev ss) -> decimal_text v (core_of true base ss).
Proof. intros B N I. unfold decimal_text. rewrite (proj2 (Z.ltb_lt v 0) N). exists (rev ss). split; [|exact I]. unfold core_of. rewrite (dd base B). cbn [andb]. now rewrite rev_app_distr. Qed.
Lemma core_pos base ss v : 0 <= v -> is_numeral 10 v (rev ss) -> decimal_text v (core_of false base ss).
Proof. intros N I. unfold decimal_text. rewrite (proj2 (Z.ltb_ge v 0) N). exact I. Qed.
Lemma value_bound b : bw b <= 64 -> 1 <= bw b -> - 2 ^ 63 <= value b < 2 ^ 64.
Proof.
  intros H H1. unfold value. assert (2 ^ bw b <= 2 ^ 64) by (apply Z.pow_le_mono_r; lia). assert (2 ^ (bw b - 1) <= 2 ^ 63) by (apply Z.pow_le_mono_r; lia). destruct (bsgn b).
  - pose proof (snum_range b). lia.
  - pose proof (num_range b). lia.
Qed.
Lemma core4_dec base n v : among "dD" base -> core4 base n v 0 = dec_lsf 64 v. Proof. intros B. chars_cases B; reflexivity. Qed.
Lemma core2_dec base n v : among "dD" base -> core2 base n v = dec_lsf 64 v. Proof. intros B. chars_cases B; reflexivity. Qed.
Lemma known_zero l : lvec l -> known l -> num (l_xz l) = 0.
Proof.
  intros V K. assert (E : bw (l_xz l) = lw l) by (destruct V as (_ & _ & M & Ll & _); unfold lw, bw; now rewrite M, Ll). apply Z.bits_inj'. intros p Hp. rewrite Z.bits_0. destruct (Z.lt_ge_cases p (lw l)) as [L|L].
  - specialize (K p ltac:(lia)). unfold sym_at, bit_at in K. destruct (Z.testbit (num (l_xz l)) p), (Z.testbit (num (l_val l)) p); (discriminate || reflexivity).
  - apply bit_at_high. lia.
Qed.
Lemma known_stored l : lvec l -> known l -> tidy (l_xz l) -> stored (l_xz l) = 0.
Proof. intros V K T. pose proof (known_zero l V K) as Z0. destruct V as (_ & V2 & _ & _ & U). rewrite <- (num_of_tidy _ T U). exact Z0. Qed.

Lemma logic_decimal l base : lvec l -> lw l <= 64 -> known l -> ltidy l -> prints (l_val l) -> among "dD" base ->
  exists core, logic_str l [48; base] = Ok core /\ decimal_text (value (l_val l)) core.
Proof.
  intros V Hn K [T1 T2] Pr B. pose proof (known_stored l V K T2) as Z0. pose proof (lw_pos l) as Hp. destruct (possible_d base (lw l) B Hp ltac:(lia)) as [w P]. unfold lw in P. rewrite bw_bsize in P. change (bsize (l_val l)) with (lsize l) in P.
  rewrite (logic_str_core l _ _ _ _ (fmt0 base (nd_d _ B)) P). destruct (lvec_cases l V) as [(v & x & E1 & E2 & Hb & S1 & S2 & Eb) | (ws & xs & _ & _ & Hb & _)]; [|lia]. rewrite S2 in Z0. subst x.
  assert (V1 : vec (l_val l)) by apply V. assert (Sv : v = value (l_val l)). { rewrite <- S1. apply tidy_value; auto. intros Sg. apply (Pr Sg). } pose proof (value_bound (l_val l) Hn Hp) as VB. rewrite <- Sv in *.
  unfold lcore. rewrite E1, E2. change (u64 0) with 0. unfold lneg. rewrite (dd base B), andb_true_r, E1. destruct (Z.ltb_spec v 0) as [Ng|Ng].
  - destruct (lsgn l) eqn:Sg.
    + cbn [andb]. destruct (negate_spec (l_val l) v V1 E1 Sg) as (r & Er & Ur); [apply (Pr Sg)|exact T1|exact Ng|rewrite Sv; apply (Pr Sg)|]. rewrite Er. cbn [bind]. rewrite Ur, core4_dec by exact B.
      destruct (dec_lsf_spec (- v)) as (t & Et & I); [lia|]. rewrite Et. cbn [bind]. eexists. split; [reflexivity|]. rewrite finish0. now apply core_neg.
    + exfalso. unfold lsgn in Sg. unfold value in Sv. rewrite Sg in Sv. pose proof (num_range (l_val l)). lia.
  - rewrite andb_false_r. rewrite core4_dec by exact B. rewrite u64_id by lia. destruct (dec_lsf_spec v) as (t & Et & I); [lia|]. rewrite Et. cbn [bind]. eexists. split; [reflexivity|]. rewrite finish0. now apply core_pos.
Qed.
Lemma bit_decimal b base : vec b -> bw b <= 64 -> tidy b -> prints b -> among "dD" base ->
  exists core, bit_str b [48; base] = Ok core /\ decimal_text (value b) core.
Proof.
  intros V Hn T1 Pr B. assert (Hp : 1 <= bw b) by (unfold bw, width; lia). destruct (possible_d base (bw b) B Hp ltac:(lia)) as [w P]. rewrite bw_bsize in P.
  destruct (vec_cases b V) as [(v & E1 & Hb & I & S1) | (ws & _ & Hb & _)]; [|lia]. rewrite (bit_str_core b v _ _ _ _ E1 (fmt0 base (nd_d _ B)) P).
  assert (Sv : v = value b). { rewrite <- S1. apply tidy_value; auto. intros Sg. apply (Pr Sg). } pose proof (value_bound b Hn Hp) as VB. rewrite <- Sv in *.
  unfold bcore. rewrite E1. unfold bneg. rewrite (dd base B), andb_true_r, E1. destruct (Z.ltb_spec v 0) as [Ng|Ng].
  - destruct (bsgn b) eqn:Sg.
    + cbn [andb]. destruct (negate_spec b v V E1 Sg) as (r & Er & Ur); [apply (Pr Sg)|exact T1|exact Ng|rewrite Sv; apply (Pr Sg)|]. rewrite Er. cbn [bind]. rewrite Ur, core2_dec by exact B.
      destruct (dec_lsf_spec (- v)) as (t & Et & It); [lia|]. rewrite Et. cbn [bind]. eexists. split; [reflexivity|]. rewrite finish0. now apply core_neg.
    + exfalso. unfold value in Sv. rewrite Sg in Sv. pose proof (num_range b). lia.
  - rewrite andb_false_r. rewrite core2_dec by exact B. rewrite u64_id by lia. destruct (dec_lsf_spec v) as (t & Et & It); [lia|]. rewrite Et. cbn [bind]. eexists. split; [reflexivity|]. rewrite finish0. now apply core_pos.
Qed.

(** * multi-word decimals *)
Lemma low128 ws : wf ws -> 2 <= wlen ws -> word ws 1 * 2 ^ 64 + word ws 0 = words_num ws mod 2 ^ 128.
Proof.
  intros W L. destruct ws as [|a [|b r]]; [unfold wlen in L; cbn in L; lia|unfold wlen in L; cbn in L; lia|]. apply wf_cons in W. destruct W as [Ha W]. apply wf_cons in W. destruct W as [Hb W].
  cbn [words_num]. change (word (a :: b :: r) 1) with b. change (word (a :: b :: r) 0) with a. set (q := words_num r). replace (a + 2 ^ 64 * (b + 2 ^ 64 * q)) with ((b * 2 ^ 64 + a) + q * 2 ^ 128) by ring.
  rewrite Z.mod_add by discriminate. symmetry. apply Z.mod_small. change (2 ^ 128) with (2 ^ 64 * 2 ^ 64). set (M := 2 ^ 64) in *. assert (0 <= b * M) by nia. assert (b * M <= (M - 1) * M) by nia. lia.
Qed.
Lemma core4_big_dec base n ws xs V : among "dD" base -> 65 <= n -> wfn n ws -> wfn n xs -> words_num ws = V -> 0 < V < 2 ^ 128 -> words_num xs = 0 -> exists t, core4_big base n ws xs = Ok t /\ is_numeral 10 V (rev t).
Proof.
  intros B Hn [W Lw] [X Lx] E R Z0. pose proof (nwords_bounds n ltac:(lia)). unfold core4_big. rewrite (dd base B). cbn [negb]. rewrite (proj2 (Z.ltb_lt 64 n)) by lia. rewrite !low128 by (auto; lia). rewrite Z0, E. rewrite Z.mod_0_l by lia. cbn [Z.eqb negb]. rewrite (Z.mod_small V) by lia.
  change 128 with (Z.of_nat 128) in R. apply digits_numeral; lia.
Qed.
Lemma value_pos_top b : 0 < value b -> bsgn b = true -> bit_at b (bw b - 1) = false /\ value b = num b.
Proof.
  intros P S. unfold value in *. rewrite S in *. unfold snum, twos in *. fold (bit_at b (bw b - 1)) in *. destruct (bit_at b (bw b - 1)); [|auto]. pose proof (num_range b). lia.
Qed.
Lemma value_num b : 0 < value b -> value b = num b. Proof. intros P. destruct (bsgn b) eqn:S; [now apply value_pos_top|]. unfold value. now rewrite S. Qed.
Lemma logic_decimal_big l base : lvec l -> 65 <= lw l -> lw l <> 128 -> known l -> ltidy l -> 0 < value (l_val l) < 2 ^ 128 -> among "dD" base ->
  exists core, logic_str l [48; base] = Ok core /\ decimal_text (value (l_val l)) core.
Proof.
  intros V Hn N K [T1 T2] R B. pose proof (known_stored l V K T2) as Z0. destruct (possible_d base (lw l) B ltac:(lia) N) as [w P]. unfold lw in P. rewrite bw_bsize in P. change (bsize (l_val l)) with (lsize l) in P.
  rewrite (logic_str_core l _ _ _ _ (fmt0 base (nd_d _ B)) P). destruct (lvec_cases l V) as [(v & x & _ & _ & Hb & _) | (ws & xs & E1 & E2 & Hb & W & X & S1 & S2 & Eb)]; [lia|]. rewrite S2 in Z0.
  assert (Hz : lsize l = lw l) by (unfold lw; now rewrite bw_bsize). pose proof (value_num _ ltac:(apply R)) as Vn.
  assert (Nu : words_num ws = value (l_val l)). { rewrite Vn. unfold num. rewrite S1. symmetry. apply Z.mod_small. unfold tidy in T1. rewrite E1 in T1. exact T1. }
  unfold lcore. rewrite E1, E2. unfold lneg. rewrite E1, (dd base B), andb_true_r, Hz. rewrite bn_negative_spec by (auto; lia).
  assert (Ng : lsgn l && Z.testbit (words_num ws) (lw l - 1) = false). { destruct (lsgn l) eqn:Sg; [|reflexivity]. cbn [andb]. destruct (value_pos_top (l_val l) ltac:(apply R) Sg) as [Tp _]. rewrite bit_at_stored, S1 in Tp by (fold (lw l); lia). exact Tp. }
  rewrite Ng. destruct (core4_big_dec base (lw l) ws xs (value (l_val l)) B Hn W X Nu R Z0) as (t & Et & It). rewrite Et. cbn [bind]. eexists. split; [reflexivity|]. rewrite finish0. apply core_pos; [lia|exact It].
Qed.
Lemma bit_decimal_big b base : vec b -> 65 <= bw b -> bw b <> 128 -> bsgn b = true -> tidy b -> 0 < value b < 2 ^ 128 -> among "dD" base ->
  exists core, bit_str b [48; base] = Ok core /\ decimal_text (value b) core.
Proof.
  intros V Hn N Sg T1 R B. destruct (possible_d base (bw b) B ltac:(lia) N) as [w P]. destruct (vec_cases b V) as [(v & _ & Hb & _) | (ws & E1 & Hb & W & S1)]; [lia|]. pose proof (value_num _ ltac:(apply R)) as Vn.
  assert (Nu : words_num ws = value b). { rewrite Vn. unfold num. rewrite S1. symmetry. apply Z.mod_small. unfold tidy in T1. rewrite E1 in T1. exact T1. }
  unfold bit_str. rewrite E1, Sg. unfold requires. rewrite <- bw_bsize, bn_negative_spec by (auto; lia). assert (Ng : Z.testbit (words_num ws) (bw b - 1) = false). { destruct (value_pos_top b ltac:(apply R) Sg) as [Tp _]. rewrite bit_at_stored, S1 in Tp by lia. exact Tp. }
  rewrite Ng. cbn [andb]. unfold to_string2_big. rewrite (fmt_parse _ _ _ _ (fmt0 base (nd_d _ B))), P. cbn [bind]. rewrite asked_base. rewrite (dd base B). cbn [negb]. rewrite (proj2 (Z.ltb_lt 64 (bw b))) by lia. pose proof (nwords_bounds (bw b) ltac:(lia)). destruct W as [W Lw]. rewrite low128 by (auto; lia). rewrite Nu, Z.mod_small by lia.
  destruct (digits_numeral 10 128 (value b) ltac:(lia) ltac:(change (Z.of_nat 128) with 128; lia)) as (t & Et & It). rewrite Et. cbn [bind]. eexists. split; [reflexivity|]. fold (finish false (Some 0) base w t). rewrite finish0. apply core_pos; [lia|exact It].
Qed.

(** * unknown decimals *)
Lemma forallb_ones x n : 0 <= n -> 0 <= x < 2 ^ n -> forallb (fun i => Z.testbit x i) (zrange 0 n) = (x =? 2 ^ n - 1).
Proof.
  intros Hn Hx. apply eq_true_iff_eq. rewrite forallb_forall, Z.eqb_eq. split.
  - intros H. replace (2 ^ n - 1) with (Z.ones n) by (rewrite Z.ones_equiv; lia). apply Z.bits_inj'. intros p Hp. destruct (Z.lt_ge_cases p n).
    + rewrite Z.ones_spec_low by lia. apply H. apply in_zrange. lia.
    + rewrite Z.ones_spec_high by lia. now apply (testbit_small _ n).
  - intros -> i Hi. apply in_zrange in Hi. replace (2 ^ n - 1) with (Z.ones n) by (rewrite Z.ones_equiv; lia). apply Z.ones_spec_low. lia.
Qed.
Lemma forallb_map {A B} (f : B -> bool) (g : A -> B) l : forallb f (map g l) = forallb (fun a => f (g a)) l.
Proof. induction l as [|a l IH]; [reflexivity|]. cbn. now rewrite IH. Qed.
Lemma existsb_map {A B} (f : B -> bool) (g : A -> B) l : existsb f (map g l) = existsb (fun a => f (g a)) l.
Proof. induction l as [|a l IH]; [reflexivity|]. cbn. now rewrite IH. Qed.
Lemma forallb_ext_in {A} (f g : A -> bool) l : (forall a, In a l -> f a = g a) -> forallb f l = forallb g l.
Proof. induction l as [|a l IH]; intros H; [reflexivity|]. cbn. rewrite H by now left. now rewrite IH by (intros; apply H; now right). Qed.
Lemma existsb_ext_in {A} (f g : A -> bool) l : (forall a, In a l -> f a = g a) -> existsb f l = existsb g l.
Proof. induction l as [|a l IH]; intros H; [reflexivity|]. cbn. rewrite H by now left. now rewrite IH by (intros; apply H; now right). Qed.
Lemma forallb_and {A} (f g : A -> bool) l : forallb (fun a => f a && g a) l = forallb f l && forallb g l.
Proof. induction l as [|a l IH]; [reflexivity|]. cbn. rewrite IH. destruct (f a), (g a), (forallb f l); reflexivity. Qed.
Lemma sym_decide f v x n : 0 <= n -> 0 <= v < 2 ^ n -> 0 <= x < 2 ^ n -> (forall p, 0 <= p < n -> f p = sym_of (Z.testbit v p) (Z.testbit x p)) -> x <> 0 ->
  group_char (map f (zrange 0 n)) =
    (if x =? 2 ^ n - 1 then if v =? 0 then 120 else if v =? 2 ^ n - 1 then 122 else 88 else if existsb (fun i => Z.testbit x i && negb (Z.testbit v i)) (zrange 0 n) then 88 else 90).
Proof.
  intros Hn Hv Hx H Nz. unfold group_char. rewrite !forallb_map, existsb_map.
  assert (K : forallb (fun a => negb (unknown (f a))) (zrange 0 n) = false).
  { apply not_true_iff_false. rewrite forallb_forall. intros A. apply Nz. apply Z.bits_inj'. intros p Hp. rewrite Z.bits_0. destruct (Z.lt_ge_cases p n); [|now apply (testbit_small _ n)]. specialize (A p (proj2 (in_zrange 0 n p) ltac:(lia))). rewrite H in A by lia. destruct (Z.testbit x p), (Z.testbit v p); (discriminate || reflexivity). }
  rewrite K. set (V' := 2 ^ n - 1 - v).
  assert (V1 : forall p, 0 <= p < n -> Z.testbit V' p = negb (Z.testbit v p)).
  { intros p Hp. unfold V'. replace (2 ^ n - 1 - v) with (Z.lnot v + 2 ^ n) by (unfold Z.lnot; lia). rewrite <- (Z.mod_pow2_bits_low _ n p) by lia. rewrite <- Z.add_mod_idemp_r, Z.mod_same, Z.add_0_r by (pose proof (Z.pow_pos_nonneg 2 n); lia). rewrite Z.mod_pow2_bits_low by lia. now apply Z.lnot_spec. }
  assert (X1 : forallb (fun a => is_x (f a)) (zrange 0 n) = (x =? 2 ^ n - 1) && (v =? 0)).
  { rewrite (forallb_ext_in _ (fun a => Z.testbit x a && Z.testbit V' a)); [|intros p Hp; apply in_zrange in Hp; rewrite H, V1 by lia; destruct (Z.testbit x p), (Z.testbit v p); reflexivity].
    rewrite forallb_and, !forallb_ones by (unfold V'; lia). f_equal. unfold V'. lia. }
  assert (Z1 : forallb (fun a => is_z (f a)) (zrange 0 n) = (x =? 2 ^ n - 1) && (v =? 2 ^ n - 1)).
  { rewrite (forallb_ext_in _ (fun a => Z.testbit x a && Z.testbit v a)); [|intros p Hp; apply in_zrange in Hp; rewrite H by lia; destruct (Z.testbit x p), (Z.testbit v p); reflexivity]. now rewrite forallb_and, !forallb_ones by lia. }
  assert (E1 : existsb (fun a => is_x (f a)) (zrange 0 n) = existsb (fun i => Z.testbit x i && negb (Z.testbit v i)) (zrange 0 n)).
  { apply existsb_ext_in. intros p Hp. apply in_zrange in Hp. rewrite H by lia. destruct (Z.testbit x p), (Z.testbit v p); reflexivity. }
  rewrite X1, Z1, E1. destruct (Z.eqb_spec x (2 ^ n - 1)) as [Ex|Ex]; cbn [andb]; [|reflexivity]. destruct (v =? 0); [reflexivity|]. destruct (Z.eqb_spec v (2 ^ n - 1)) as [Ev|Ev]; [reflexivity|].
  assert (A : existsb (fun i => Z.testbit x i && negb (Z.testbit v i)) (zrange 0 n) = true); [|now rewrite A]. apply not_false_iff_true. intros A. apply Ev. apply Z.eqb_eq. rewrite <- forallb_ones by lia. apply forallb_forall. intros p Hp.
  destruct (Z.testbit v p) eqn:Q; [reflexivity|]. exfalso. assert (existsb (fun i => Z.testbit x i && negb (Z.testbit v i)) (zrange 0 n) = true); [|congruence]. apply existsb_exists. exists p. split; [exact Hp|]. rewrite Q. cbn [negb]. rewrite andb_true_r. rewrite Ex.
  apply in_zrange in Hp. replace (2 ^ n - 1) with (Z.ones n) by (rewrite Z.ones_equiv; lia). apply Z.ones_spec_low. lia.
Qed.
Lemma unknown_nonzero l : lvec l -> tidy (l_xz l) -> ~ known l -> stored (l_xz l) <> 0.
Proof.
  intros V T K E. apply K. intros p Hp. unfold sym_at. assert (Z0 : num (l_xz l) = 0) by (unfold num; rewrite E; apply Z.mod_0_l; pose proof (Z.pow_pos_nonneg 2 (bw (l_xz l))); unfold bw, width in *; lia). unfold bit_at at 2. rewrite Z0, Z.bits_0. now destruct (bit_at _ _).
Qed.
Lemma logic_decimal_x l base : lvec l -> lw l <= 64 -> ~ known l -> clear_top (l_val l) -> tidy (l_xz l) -> among "dD" base ->
  logic_str l [48; base] = Ok [group_char (map (sym_at l) (zrange 0 (lw l)))].
Proof.
  intros V Hn K T1 T2 B. pose proof (unknown_nonzero l V T2 K) as Nz. pose proof (lw_pos l) as Hp. destruct (possible_d base (lw l) B Hp ltac:(lia)) as [w P]. assert (Hz : lsize l = lw l) by (unfold lw; now rewrite bw_bsize). rewrite <- Hz in P.
  rewrite (logic_str_core l _ _ _ _ (fmt0 base (nd_d _ B)) P). destruct (lvec_cases l V) as [(v & x & E1 & E2 & Hb & S1 & S2 & Eb) | (ws & xs & _ & _ & Hb & _)]; [|lia].
  destruct V as (V1 & V2 & _ & _ & Us). pose proof (clear_stored _ V1 T1) as R1. pose proof (tidy_u _ V2 Us T2) as R2. rewrite S1 in R1. rewrite S2, Eb in R2. fold (lw l) in R1. rewrite S2 in Nz. assert (2 ^ lw l <= 2 ^ 64) by (apply Z.pow_le_mono_r; lia).
  unfold lcore. rewrite E1, E2. unfold lneg. rewrite E1. rewrite (proj2 (Z.ltb_ge v 0)) by lia. rewrite andb_false_r. cbn [andb]. rewrite !u64_id by lia. rewrite Hz.
  assert (core4 base (lw l) v x = fmt_decimal (lw l) v x) as -> by (chars_cases B; reflexivity). unfold fmt_decimal. rewrite (proj2 (Z.eqb_neq x 0) Nz). cbn [negb]. unfold c_shr. cbn [promote]. change (iwidth TU64) with 64. replace ((0 <=? 64 - lw l) && (64 - lw l <? 64)) with true by lia. cbn [bind].
  assert (Mk : Z.shiftr u64max (64 - lw l) = 2 ^ lw l - 1). { rewrite Z.shiftr_div_pow2 by lia. change u64max with (2 ^ 64 - 1). replace (2 ^ 64 - 1) with ((2 ^ (64 - lw l) - 1) + (2 ^ lw l - 1) * 2 ^ (64 - lw l)). - rewrite Z.div_add by (pose proof (Z.pow_pos_nonneg 2 (64 - lw l)); lia). rewrite Z.div_small by (pose proof (Z.pow_pos_nonneg 2 (64 - lw l)); lia). lia. - assert (2 ^ lw l * 2 ^ (64 - lw l) = 2 ^ 64) by (rewrite <- Z.pow_add_r by lia; f_equal; lia). lia. }
  rewrite Mk. rewrite (sym_decide (sym_at l) v x (lw l)); try lia.
  - destruct (x =? 2 ^ lw l - 1); cbn [bind]; rewrite finish0; unfold core_of; cbn [andb]; reflexivity.
  - intros p Hpp. unfold sym_at. rewrite !bit_at_stored by (try rewrite Eb; unfold lw in *; lia). now rewrite S1, S2.
Qed.
Lemma logic_decimal_x_big l base : lvec l -> 65 <= lw l < 128 -> ~ known l -> (exists p, 0 <= p < lw l /\ unknown (sym_at l p) = false) -> ltidy l -> (lsgn l = true -> bit_at (l_val l) (lw l - 1) = false) -> among "dD" base ->
  logic_str l [48; base] = Ok [group_char (map (sym_at l) (zrange 0 (lw l)))].
Proof.
  intros V Hn K (q & Hq & Kq) [T1 T2] Sn B. pose proof (unknown_nonzero l V T2 K) as Nz. destruct (possible_d base (lw l) B ltac:(lia) ltac:(lia)) as [w P]. assert (Hz : lsize l = lw l) by (unfold lw; now rewrite bw_bsize). rewrite <- Hz in P.
  rewrite (logic_str_core l _ _ _ _ (fmt0 base (nd_d _ B)) P). destruct (lvec_cases l V) as [(v & x & _ & _ & Hb & _) | (ws & xs & E1 & E2 & Hb & W & X & S1 & S2 & Eb)]; [lia|].
  assert (R1 : 0 <= words_num ws < 2 ^ lw l) by (unfold tidy in T1; rewrite E1 in T1; exact T1). assert (R2 : 0 <= words_num xs < 2 ^ lw l) by (unfold tidy in T2; rewrite E2, Eb in T2; exact T2). rewrite S2 in Nz. assert (L128 : 2 ^ lw l <= 2 ^ 127) by (apply Z.pow_le_mono_r; lia).
  unfold lcore. rewrite E1, E2. unfold lneg. rewrite E1, (dd base B), andb_true_r, Hz. rewrite bn_negative_spec by (auto; lia).
  assert (Ng : lsgn l && Z.testbit (words_num ws) (lw l - 1) = false). { destruct (lsgn l) eqn:Sg; [|reflexivity]. cbn [andb]. specialize (Sn eq_refl). rewrite bit_at_stored, S1 in Sn by (fold (lw l); lia). exact Sn. }
  rewrite Ng. unfold core4_big. rewrite (dd base B). cbn [negb]. rewrite (proj2 (Z.ltb_lt 64 (lw l))) by lia. pose proof (nwords_bounds (lw l) ltac:(lia)). destruct W as [W Lw], X as [X Lx]. rewrite !low128 by (auto; lia). rewrite !Z.mod_small by lia.
  rewrite (proj2 (Z.eqb_neq (words_num xs) 0) Nz). cbn [negb]. rewrite (proj2 (Z.eqb_neq (words_num xs) (2 ^ 128 - 1))) by lia. rewrite Z.min_r by lia. cbn [bind]. rewrite finish0.
  assert (Sy : forall p, 0 <= p < lw l -> sym_at l p = sym_of (Z.testbit (words_num ws) p) (Z.testbit (words_num xs) p)). { intros p Hpp. unfold sym_at. rewrite !bit_at_stored by (try rewrite Eb; unfold lw in *; lia). now rewrite S1, S2. }
  rewrite (sym_decide (sym_at l) (words_num ws) (words_num xs) (lw l)); try lia; [|exact Sy].
  destruct (Z.eqb_spec (words_num xs) (2 ^ lw l - 1)) as [Ex|Ex]; [exfalso|reflexivity]. rewrite (Sy q Hq), Ex in Kq. replace (2 ^ lw l - 1) with (Z.ones (lw l)) in Kq by (rewrite Z.ones_equiv; lia). rewrite Z.ones_spec_low in Kq by lia. now destruct (Z.testbit (words_num ws) q).
Qed.
