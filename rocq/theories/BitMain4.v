(** bit: the final form of the lemmas behind PropsBit.v, fourth part (++/--, conversions, updates, compound
    assignment, queries, literals). *)
From Coq Require Import ZArith List Bool Lia Zify ZifyBool.
From Verif Require Import Cpp BigNum Bit Logic Spec ZBits Words BigNumProofs BigArith BitProofs BitSlice BitExt BitOps
  BitShift BitCmp BitArith BitMain BitMain2 BitMain3.
Import ListNotations.
Open Scope Z_scope.

(** ** ++ and -- *)
Lemma typed_one : typed bit_one 1 false /\ tidy bit_one /\ num bit_one = 1 /\ value bit_one = 1.
Proof. conc. Qed.
Lemma step_spec (up : bool) a n s : 2 <= n -> typed a n s ->
  exists r, (if up then bit_inc a else bit_dec a) = Ok r /\ typed r n s /\
    num r = (num a + (if up then 1 else -1)) mod 2 ^ n.
Proof.
  intros Hn T. destruct typed_one as (T1 & Y1 & N1 & _). pose proof (typed_lt a n s ltac:(lia) T) as Lt.
  destruct (bit_extend_u_tidy bit_one 1 n ltac:(lia) ltac:(lia) T1 Y1) as (o & Eo & To & No & Yo).
  rewrite N1 in No.
  assert (G : forall op, bit_arith op a bit_one = op a o).
  { intros op. unfold bit_arith, bit_mixed. rewrite (typed_bsize a n s ltac:(lia) T).
    change (bsize bit_one) with 1. replace (n =? 1) with false by lia. cbn zeta. rewrite Z.max_l by lia.
    rewrite (bit_extend_same a n s ltac:(lia) T), Eo. reflexivity. }
  assert (Fin : forall x z, typed x n (s && false) -> num x = z mod 2 ^ n ->
     exists r, bit_assign a x = Ok r /\ typed r n s /\ num r = z mod 2 ^ n).
  { intros x z Tx Nx. destruct (Z.leb_spec n 64).
    - destruct (typed_cases x n _ ltac:(lia) Tx) as [(v & Ev & _) | (v & _ & N & _)]; [|lia].
      destruct (bit_assign_native a x n s ltac:(lia) T) as (r & E & Tr & Nr); [rewrite Ev; eexists; reflexivity|].
      exists r. split; [exact E|]. split; [exact Tr|]. rewrite Nr. rewrite <- Nx. unfold num. rewrite (typed_bw x n _ ltac:(lia) Tx). reflexivity.
    - destruct (bit_assign_big a x n s (s && false) ltac:(lia) T Tx) as (r & E & Tr & _ & Nr). exists r. rewrite Nr. auto. }
  assert (Sn : bsgn a && bsgn o = s && false) by (rewrite (typed_sgn _ _ _ T), (typed_sgn _ _ _ To); reflexivity).
  destruct up.
  - unfold bit_inc, bit_add. rewrite G.
    destruct (bit_add_same_spec a o n) as (x & Ex & Tx & Nx);
      try (eapply typed_vec; eassumption); try (eapply typed_bw; [|eassumption]; lia);
      try (eapply plain_be; [eassumption|lia]); try lia.
    { right; right; left. rewrite Sn. apply andb_false_r. }
    rewrite Ex. cbn [bind]. rewrite Sn in Tx. apply Fin; [exact Tx|]. rewrite Nx, No. reflexivity.
  - unfold bit_dec, bit_sub. rewrite G.
    destruct (bit_sub_same_spec a o n) as (x & Ex & Tx & Nx);
      try (eapply typed_vec; eassumption); try (eapply typed_bw; [|eassumption]; lia);
      try (eapply plain_be; [eassumption|lia]); try lia.
    { right; right; left. rewrite Sn. apply andb_false_r. }
    rewrite Ex. cbn [bind]. rewrite Sn in Tx. apply Fin; [exact Tx|]. rewrite Nx, No. reflexivity.
Qed.
Lemma step_typed (up : bool) a n s : 2 <= n -> typed a n s ->
  exists r, (if up then bit_add else bit_sub) a bit_one = Ok r /\ typed r n (s && false).
Proof.
  intros Hn T. destruct typed_one as (T1 & Y1 & N1 & _). pose proof (typed_lt a n s ltac:(lia) T) as Lt.
  destruct (bit_extend_u_tidy bit_one 1 n ltac:(lia) ltac:(lia) T1 Y1) as (o & Eo & To & No & Yo).
  assert (G : forall op, bit_arith op a bit_one = op a o).
  { intros op. unfold bit_arith, bit_mixed. rewrite (typed_bsize a n s ltac:(lia) T).
    change (bsize bit_one) with 1. replace (n =? 1) with false by lia. cbn zeta. rewrite Z.max_l by lia.
    rewrite (bit_extend_same a n s ltac:(lia) T), Eo. reflexivity. }
  assert (Sn : bsgn a && bsgn o = s && false) by (rewrite (typed_sgn _ _ _ T), (typed_sgn _ _ _ To); reflexivity).
  destruct up.
  - unfold bit_add. rewrite G.
    destruct (bit_add_same_spec a o n) as (x & Ex & Tx & Nx);
      try (eapply typed_vec; eassumption); try (eapply typed_bw; [|eassumption]; lia);
      try (eapply plain_be; [eassumption|lia]); try lia.
    { right; right; left. rewrite Sn. apply andb_false_r. }
    exists x. rewrite Sn in Tx. auto.
  - unfold bit_sub. rewrite G.
    destruct (bit_sub_same_spec a o n) as (x & Ex & Tx & Nx);
      try (eapply typed_vec; eassumption); try (eapply typed_bw; [|eassumption]; lia);
      try (eapply plain_be; [eassumption|lia]); try lia.
    { right; right; left. rewrite Sn. apply andb_false_r. }
    exists x. rewrite Sn in Tx. auto.
Qed.
Lemma convert_same a n s : 1 <= n -> typed a n s -> bit_convert (bsize a - 1) 0 (bsgn a) a = Ok a.
Proof.
  intros Hn T. unfold bit_convert. rewrite (typed_bsize a n s Hn T). destruct T as (_ & [-> ->] & ->).
  rewrite !Z.eqb_refl, eqb_reflx. reflexivity.
Qed.
Lemma inc_dec a n s : 2 <= n -> typed a n s ->
  (exists r, bit_inc a = Ok r /\ typed r n s /\ num r = (num a + 1) mod 2 ^ n /\ bit_post bit_inc a = Ok (a, r)) /\
  (exists r, bit_dec a = Ok r /\ typed r n s /\ num r = (num a - 1) mod 2 ^ n /\ bit_post bit_dec a = Ok (a, r)).
Proof.
  intros Hn T. split.
  - destruct (step_spec true a n s Hn T) as (r & E & Tr & N). exists r. cbn iota in E. repeat (split; [assumption|]).
    unfold bit_post. rewrite (convert_same a n s ltac:(lia) T), E. reflexivity.
  - destruct (step_spec false a n s Hn T) as (r & E & Tr & N). exists r. cbn iota in E. repeat (split; [assumption|]).
    unfold bit_post. rewrite (convert_same a n s ltac:(lia) T), E. reflexivity.
Qed.
Lemma inc_counter : exists a r, typed a 1 false /\ bit_inc a = Ok r /\ num r <> (num a + 1) mod 2 ^ 1.
Proof. exists (bit_of_native 0 0 false 1), (bit_of_native 0 0 false 1). conc. Qed.

(** ** re-interpretation of the sign *)
Lemma conv_cong t a b : t <> TBool -> a mod 2 ^ iwidth t = b mod 2 ^ iwidth t -> conv t a = conv t b.
Proof.
  intros Nb M. pose proof (iwidth_pos t). unfold conv. destruct t; [congruence|..]; cbn [isigned] in *;
    rewrite <- ?twos_swrap, ?M by lia; reflexivity.
Qed.
Lemma resign x n s0 : 1 <= n -> typed x n s0 ->
  typed (bit_to_signed x) n true /\ typed (bit_to_unsigned x) n false /\
  (forall p, 0 <= p < n -> bit_at (bit_to_signed x) p = bit_at x p) /\
  (forall p, 0 <= p < n -> bit_at (bit_to_unsigned x) p = bit_at x p) /\
  (s0 = false -> bit_to_unsigned (bit_to_signed x) = x) /\
  (s0 = true -> bit_to_signed (bit_to_unsigned x) = x).
Proof.
  intros Hn T. destruct (bit_resign_spec true x n s0 Hn T) as [T1 N1]. destruct (bit_resign_spec false x n s0 Hn T) as [T2 N2].
  fold bit_to_signed in *. fold (bit_to_signed x) in T1, N1. fold (bit_to_unsigned x) in T2, N2.
  split; [exact T1|]. split; [exact T2|]. unfold bit_at. rewrite N1, N2. repeat (split; [reflexivity|]).
  assert (Back : forall v s s', 1 <= n <= 64 -> in_ity (hty n s) v = true -> conv (hty n s) (conv (hty n s') v) = v).
  { intros v s s' H I. destruct (Z.eq_dec n 1) as [->|N].
    - rewrite !hty_1 in *. rewrite (conv_id TBool (conv _ _)) by apply conv_in_ity. apply conv_id, I.
    - rewrite <- (conv_id _ _ I) at 2. 
      assert (conv (hty n s') v mod 2 ^ iwidth (hty n s) = v mod 2 ^ iwidth (hty n s)) as M.
      { rewrite (hty_iw n s), <- (hty_iw n s'). apply conv_mod; [apply hty_nb; lia|]. pose proof (iwidth_pos (hty n s')). lia. }
      apply conv_cong; [apply hty_nb; lia | exact M]. }
  destruct (typed_cases x n s0 Hn T) as [(v & -> & Nn & I) | (ws & -> & Nn & W)];
    (split; intros ->; unfold bit_to_unsigned, bit_to_signed, bit_resign, bsize, vsize; cbn [bmsb blsb bval];
     replace (Z.abs (n - 1 - 0) + 1) with n by lia; replace (Z.abs (n - 1 - 0) + 1) with n by lia).
  - rewrite Back by assumption. reflexivity.
  - rewrite Back by assumption. reflexivity.
  - reflexivity.
  - reflexivity.
Qed.
Lemma signed_reading x n s0 : 1 <= n <= 64 -> typed x n s0 -> tidy x ->
  (n = 8 \/ n = 16 \/ n = 32 \/ n = 64 \/ (s0 = false /\ bit_at x (n - 1) = false)) ->
  bit_to_num (bit_to_signed x) = Ok (twos n (num x)).
Proof.
  intros Hn T Y C. pose proof (typed_bw x n s0 ltac:(lia) T) as W. pose proof (num_range x) as R. rewrite W in R.
  destruct (typed_cases x n s0 ltac:(lia) T) as [(v & E & Nn & I) | (ws & _ & Nn & _)]; [|lia].
  unfold bit_to_num, bit_to_signed, bit_resign. rewrite (typed_bsize x n s0 ltac:(lia) T).
  assert (Ev : bval x = HN v) by (rewrite E; reflexivity). rewrite Ev. cbn [bval]. apply f_equal.
  assert (Nv : num x = v mod 2 ^ n) by (rewrite E; apply num_plain_nat; lia).
  assert (Full : iwidth (hty n true) = n -> 2 <= n -> conv (hty n true) v = twos n (num x)).
  { intros Wn N2. rewrite Nv, twos_swrap by lia. unfold conv.
    pose proof (hty_signed n true N2) as Sg. pose proof (hty_nb n true N2). destruct (hty n true); cbn in Sg, Wn; try discriminate; cbn [isigned iwidth]; rewrite Wn; reflexivity. }
  destruct C as [-> | [-> | [-> | [-> | [-> B]]]]]; try (apply Full; [reflexivity | lia]).
  unfold tidy in Y. rewrite Ev, W in Y. rewrite (typed_sgn _ _ _ T) in Y. cbn [andb] in Y.
  rewrite Z.mod_small in Nv by exact Y. unfold bit_at in B. unfold twos. rewrite B, Nv.
  apply conv_id. destruct (Z.eq_dec n 1) as [E1|N1].
  - rewrite E1 in *. rewrite hty_1 in *. exact I.
  - apply in_ity_range. rewrite hty_signed by lia. pose proof (hty_width n true Hn).
    assert (L : v < 2 ^ (n - 1)).
    { rewrite <- Nv. apply bits_small; [lia | lia |]. intros p Hp. destruct (Z.eq_dec p (n - 1)) as [->|]; [exact B|].
      apply (testbit_small (num x) n); lia. }
    pose proof (pow2_mono (n - 1) (iwidth (hty n true) - 1) ltac:(lia)). lia.
Qed.
Lemma signed_reading_counter : exists x, typed x 4 false /\ tidy x /\ bit_to_num (bit_to_signed x) = Ok 15 /\ twos 4 (num x) = -1.
Proof. exists (bit_of_native 3 0 false 15). conc. Qed.

(** ** conversion to numbers *)
Lemma to_number b : vec b -> extendable b ->
  (bw b <= 64 -> bit_to_num b = Ok (value b) /\ bit_to_uint64 b = value b mod 2 ^ 64) /\
  (65 <= bw b -> bit_to_num b = IllFormed /\ bit_to_uint64 b = num b mod 2 ^ 64).
Proof.
  intros V X. split; intros Hn.
  - pose proof (ext_value b V Hn X) as S. destruct (vec_cases b V) as [(v & E & _ & _ & Sv) | (ws & _ & N & _)]; [|lia].
    unfold bit_to_num, bit_to_uint64. rewrite E, <- S, Sv. auto.
  - destruct (vec_cases b V) as [(v & _ & N & _) | (ws & E & N & W & _)]; [lia|].
    unfold bit_to_num, bit_to_uint64, bn_to_uint64. rewrite E. split; [reflexivity|].
    rewrite (num_of_tidy_big b ws E (proj1 X)). rewrite <- (words_num_word ws 0) by (apply W || lia).
    change (64 * 0) with 0. rewrite Z.pow_0_r, Z.div_1_r. reflexivity.
Qed.

(** ** assignment *)
Lemma assignment dst src n s m s2 : 1 <= m -> typed dst n s -> typed src m s2 ->
  (2 <= n <= 64 -> m <= 64 -> exists r, bit_assign dst src = Ok r /\ typed r n s /\
     (n <= m -> num r = num src mod 2 ^ n) /\ (m < n -> extendable src -> num r = value src mod 2 ^ n)) /\
  (65 <= n -> m = n -> exists r, bit_assign dst src = Ok r /\ typed r n s /\ num r = num src) /\
  (1 <= n -> m <> n -> 65 <= n \/ 65 <= m -> bit_assign dst src = IllFormed).
Proof.
  intros Hm Td Ts. pose proof (typed_bw src m s2 Hm Ts) as Wm. split; [|split].
  - intros Hn Hm64. destruct (typed_cases src m s2 Hm Ts) as [(v & Ev & _) | (v & _ & N & _)]; [|lia].
    destruct (bit_assign_native dst src n s Hn Td) as (r & E & T & Nr); [rewrite Ev; eexists; reflexivity|].
    exists r. repeat (split; [assumption|]). split.
    + intros. rewrite Nr. unfold num. rewrite Wm, mod_mod_pow2 by lia. reflexivity.
    + intros _ X. rewrite Nr, (ext_value src) by (try (eapply typed_vec; eassumption); try assumption; lia). reflexivity.
  - intros Hn ->. destruct (bit_assign_big dst src n s s2 Hn Td Ts) as (r & E & T & _ & N). eauto.
  - intros Hn Ne C. unfold bit_assign, holder_assign. rewrite (typed_bsize dst n s Hn Td). unfold native_num.
    destruct (typed_cases src m s2 Hm Ts) as [(v & -> & N & _) | (v & -> & N & _)]; cbn [bval];
      destruct (Z.leb_spec n 64); cbn [bind]; try reflexivity; try lia.
    unfold bsize, vsize. cbn [bmsb blsb]. replace (Z.abs (m - 1 - 0) + 1 =? n) with false by lia. reflexivity.
Qed.
Lemma assignment_counter : exists d x r, typed d 1 false /\ typed x 8 false /\ bit_assign d x = Ok r /\ num r <> num x mod 2 ^ 1.
Proof. exists (bit_of_native 0 0 false 0), (bit_of_native 7 0 false 2), (bit_of_native 0 0 false 1). conc. Qed.

(** ** part-select update *)
Lemma rd_plain b n s i : typed b n s -> 1 <= n -> rd_pos b i = i /\ wr_pos b i = i /\ Z.min (blsb b) (bmsb b) = 0.
Proof.
  intros (_ & [E1 E2] & _) Hn. unfold wr_pos, rd_pos. rewrite E1, E2. replace (0 <=? n - 1) with true by lia. lia.
Qed.
Lemma typed_of_fields b b' n s : typed b n s -> vec b' -> bmsb b' = bmsb b -> blsb b' = blsb b -> bsgn b' = bsgn b -> typed b' n s.
Proof. intros (_ & [E1 E2] & E3) V F1 F2 F3. repeat split; try apply V; congruence. Qed.
Lemma update_loop x n s op k so lo hi c : 1 <= n -> 1 <= k -> typed x n s -> typed op k so -> 0 <= lo <= hi -> hi < n ->
  0 <= lo - c -> hi - c < k ->
  exists r, ofold (fun x i => let! v := bit_get op (i - c) in bit_set_bit0 x i v) (zrange lo (hi + 1)) x = Ok r /\ typed r n s /\
    (forall p, 0 <= p < n -> bit_at r p = if (lo <=? p) && (p <=? hi) then bit_at op (p - c) else bit_at x p) /\
    (s = false -> tidy x -> tidy r).
Proof.
  intros Hn Hk Tx To Hlo Hhi Hc1 Hc2.
  pose proof (typed_bw op k so Hk To) as Wo.
  set (Inv := fun i y => typed y n s /\ (forall p, 0 <= p < n -> bit_at y p = if (lo <=? p) && (p <? i) then bit_at op (p - c) else bit_at x p)
     /\ (s = false -> tidy x -> tidy y)).
  destruct (zrange_ofold_ind (fun x i => let! v := bit_get op (i - c) in bit_set_bit0 x i v) Inv lo (hi + 1) x)
    as (r & E & Tr & Br & Yr); [lia | | |].
  - split; [exact Tx|]. split; [|auto]. intros p Hp. replace ((lo <=? p) && (p <? lo)) with false by lia. reflexivity.
  - intros i y Hi (Ty & By & Yy). destruct (rd_plain op k so (i - c) To Hk) as (R1 & _ & _).
    rewrite (bit_get_spec op (i - c)) by (try (eapply typed_vec; eassumption); rewrite R1, Wo; lia). rewrite R1. cbn [bind].
    destruct (rd_plain y n s i Ty Hn) as (_ & R2 & R3). pose proof (typed_bw y n s Hn Ty) as Wy.
    destruct (bit_set_bit0_spec y i (bit_at op (i - c))) as (y' & E' & V' & F1 & F2 & F3 & B' & Y');
      [eapply typed_vec; eassumption | exact R3 | rewrite R2, Wy; lia |].
    exists y'. split; [exact E'|]. split; [eapply typed_of_fields; eassumption|]. split.
    + intros p Hp. rewrite B' by lia. rewrite R2. destruct (Z.eqb_spec p i) as [->|Ne].
      * replace ((lo <=? i) && (i <? i + 1)) with true by lia. reflexivity.
      * rewrite By by lia. replace ((lo <=? p) && (p <? i + 1)) with ((lo <=? p) && (p <? i)) by lia. reflexivity.
    + intros S0 Y0. apply Y'; [rewrite (typed_sgn _ _ _ Ty); exact S0 | auto].
  - exists r. split; [exact E|]. split; [exact Tr|]. split; [|exact Yr]. intros p Hp. rewrite Br by lia.
    replace ((lo <=? p) && (p <? hi + 1)) with ((lo <=? p) && (p <=? hi)) by lia. reflexivity.
Qed.
Lemma ofold_ext {A B} (f g : B -> A -> outcome B) l : (forall b a, f b a = g b a) -> forall b, ofold f l b = ofold g l b.
Proof.
  intros H. induction l as [|a l IH]; intros b; [reflexivity|]. cbn [ofold]. rewrite H.
  destruct (g b a); cbn [bind]; auto.
Qed.
Lemma ofold_ext_in {A B} (P : B -> Prop) (f g : B -> A -> outcome B) l : (forall b a, P b -> f b a = g b a) ->
  (forall b a b', P b -> g b a = Ok b' -> P b') -> forall b, P b -> ofold f l b = ofold g l b.
Proof.
  intros H K. induction l as [|a l IH]; intros b Pb; [reflexivity|]. cbn [ofold]. rewrite (H b a Pb).
  destruct (g b a) eqn:E; cbn [bind]; auto. apply IH. eapply K; eassumption.
Qed.
Lemma set0_fields x i v y : bit_set_bit0 x i v = Ok y -> bmsb y = bmsb x /\ blsb y = blsb x.
Proof.
  unfold bit_set_bit0. destruct (bval x).
  - destruct (native_set _ _ _ _); cbn [bind]; intros E; inversion E; auto.
  - intros E; inversion E; auto.
Qed.
Lemma update_runtime x n s op k so a b : 1 <= n -> 1 <= k -> typed x n s -> typed op k so ->
  0 <= a < n -> 0 <= b < n -> Z.abs (a - b) + 1 <= k ->
  exists r, bit_update_r x a b op = Ok r /\ typed r n s /\
    (forall p, 0 <= p < n -> bit_at r p =
       if (Z.min a b <=? p) && (p <=? Z.max a b) then bit_at op (p - Z.min a b) else bit_at x p) /\
    (s = false -> tidy x -> tidy r).
Proof.
  intros Hn Hk Tx To Ha Hb Hw.
  destruct (update_loop x n s op k so (Z.min a b) (Z.max a b) (Z.min a b)) as (r & E & R); try assumption; try lia.
  exists r. split; [|exact R]. rewrite <- E. unfold bit_update_r. cbn zeta.
  apply (ofold_ext_in (fun y => bmsb y = bmsb x /\ blsb y = blsb x)); [| |auto].
  - intros y i [F1 F2]. rewrite F1, F2. unfold big_endian.
    destruct Tx as (_ & [-> ->] & _). destruct To as (_ & [-> ->] & _).
    replace (0 <=? k - 1) with true by lia. replace (0 <=? n - 1) with true by lia. reflexivity.
  - intros y i y' [F1 F2] G. destruct (bit_get op (i - Z.min a b)); cbn [bind] in G; try discriminate.
    apply set0_fields in G. destruct G. split; congruence.
Qed.
Lemma update_constant x n s op k so hi : 1 <= n -> 1 <= k -> typed x n s -> typed op k so ->
  0 <= hi < n -> hi < k ->
  exists r, bit_update_c x hi 0 op = Ok r /\ typed r n s /\
    (forall p, 0 <= p < n -> bit_at r p = if p <=? hi then bit_at op p else bit_at x p) /\
    (s = false -> tidy x -> tidy r).
Proof.
  intros Hn Hk Tx To Ha Hb.
  destruct (update_loop x n s op k so 0 hi 0) as (r & E & T & R & Y); try assumption; try lia.
  exists r. split; [|split; [exact T|split; [|exact Y]]].
  - rewrite <- E. unfold bit_update_c, requires. rewrite (typed_bsize x n s Hn Tx).
    replace ((hi <? n) && (0 <? n)) with true by lia. rewrite (Z.min_r hi 0), (Z.max_l hi 0) by lia.
    apply (ofold_ext_in (fun y => bmsb y = bmsb x /\ blsb y = blsb x)); [| |auto].
    + intros y i [F1 F2]. rewrite F1, F2. unfold big_endian.
      destruct Tx as (_ & [-> ->] & _). destruct To as (_ & [-> ->] & _).
      replace (0 <=? k - 1) with true by lia. replace (0 <=? n - 1) with true by lia. rewrite Z.sub_0_r. reflexivity.
    + intros y i y' [F1 F2] G. destruct (bit_get op (i - 0)); cbn [bind] in G; try discriminate.
      apply set0_fields in G. destruct G. split; congruence.
  - intros p Hp. rewrite R by lia. replace (0 <=? p) with true by lia. cbn [andb]. rewrite Z.sub_0_r. reflexivity.
Qed.
Lemma update_counter : exists x op r, typed x 8 false /\ typed op 4 false /\ tidy x /\ tidy op /\
  bit_update_c x 7 4 op = Ok r /\ num op = 15 /\ num r = 0.
Proof. exists (bit_of_native 7 0 false 0), (bit_of_native 3 0 false 15), (bit_of_native 7 0 false 0). conc. Qed.

(** ** compound assignment *)
Lemma assign_typed a x n s sx : 1 <= n -> typed a n s -> typed x n sx ->
  exists r, bit_assign a x = Ok r /\ typed r n s /\ num r = num x.
Proof.
  intros Hn Ta Tx. pose proof (num_range x) as R. rewrite (typed_bw x n sx Hn Tx) in R.
  destruct (Z.leb_spec n 64).
  - destruct (typed_cases x n sx Hn Tx) as [(v & Ev & _ & Iv) | (v & _ & Nv & _)]; [|lia].
    destruct (Z.eq_dec n 1) as [E1|N1].
    + exists (mkBit (n - 1) 0 s (HN v)). unfold bit_assign, holder_assign.
      rewrite (typed_bsize a n s Hn Ta). replace (native_num n) with true by (unfold native_num; lia).
      rewrite Ev. cbn [bval bind].
      assert (Iv' : in_ity (hty n s) v = true) by (rewrite E1, hty_1 in *; exact Iv).
      rewrite (typed_sgn _ _ _ Ta), conv_id by exact Iv'. destruct Ta as (VA & [-> ->] & Sa). split; [reflexivity|].
      split; [rewrite <- nat_bit_id by assumption; apply typed_nat; lia|]. rewrite !num_plain_nat by lia. reflexivity.
    + destruct (bit_assign_native a x n s ltac:(lia) Ta) as (r & E & T & Nr); [rewrite Ev; eexists; reflexivity|].
      exists r. split; [exact E|]. split; [exact T|]. rewrite Nr. unfold num. rewrite (typed_bw x n sx Hn Tx). reflexivity.
  - destruct (bit_assign_big a x n s sx ltac:(lia) Ta Tx) as (r & E & T & _ & Nr). eauto.
Qed.
Lemma compound_gen op zop a b n s : bit_spec2 op zop ->
  (forall x y m, 0 <= m -> zop x y mod 2 ^ m = zop (x mod 2 ^ m) (y mod 2 ^ m)) ->
  1 <= n -> typed a n s -> (s = true -> bsgn b = true) ->
  (bw b = n /\ vec b /\ blsb b <= bmsb b \/
   exists nb, 1 <= nb /\ nb <> n /\ typed b nb (bsgn b) /\ extendable a /\ extendable b /\ (2 <= n <= 64 /\ nb <= 64 \/ 65 <= n /\ nb < n)) ->
  exists r, bit_compound op a b = Ok r /\ typed r n s /\ num r = zop (value a) (value b) mod 2 ^ n.
Proof.
  intros [Same Mixed] Zm Hn Ta Sg C.
  assert (Va : value a mod 2 ^ n = num a) by (eapply value_num_mod; eassumption).
  assert (OK : compound_ok a (bsgn b) = true).
  { unfold compound_ok. rewrite (typed_bsize a n s Hn Ta). destruct Ta as (_ & [-> ->] & ->). rewrite !Z.eqb_refl. 
    destruct s; [rewrite Sg by reflexivity|]; reflexivity. }
  assert (Fin : forall x m sx, typed x m sx -> n <= m -> (2 <= n <= 64 /\ m <= 64 \/ m = n) ->
     num x mod 2 ^ n = zop (value a) (value b) mod 2 ^ n ->
     exists r, (let! a' := bit_assign a x in Ok (bit_mask_off a')) = Ok r /\ typed r n s /\ num r = zop (value a) (value b) mod 2 ^ n).
  { intros x m sx Tx Hm D N.
    assert (A : exists r, bit_assign a x = Ok r /\ typed r n s /\ num r = zop (value a) (value b) mod 2 ^ n).
    { destruct (Z.eq_dec m n) as [->|Nm].
      - destruct (assign_typed a x n s sx Hn Ta Tx) as (r & E & T & Nr). exists r. split; [exact E|]. split; [exact T|].
        rewrite Nr, <- N. symmetry. apply Z.mod_small. pose proof (num_range x) as R. rewrite (typed_bw x n sx Hn Tx) in R. exact R.
      - destruct (typed_cases x m sx ltac:(lia) Tx) as [(v & Ev & _ & Iv) | (v & _ & Nv & _)]; [|lia].
        destruct (bit_assign_native a x n s ltac:(lia) Ta) as (r & E & T & Nr); [rewrite Ev; eexists; reflexivity|].
        exists r. split; [exact E|]. split; [exact T|]. rewrite Nr, <- N. unfold num. rewrite (typed_bw x m sx ltac:(lia) Tx).
        symmetry. apply mod_mod_pow2. lia. }
    destruct A as (r & E & T & N'). rewrite E. cbn [bind]. destruct (bit_mask_off_spec r n s Hn T) as (T' & N'' & _).
    eexists. split; [reflexivity|]. split; [exact T'|]. congruence. }
  unfold bit_compound, requires. rewrite OK.
  destruct C as [(Wb & Vb & Be) | (nb & Hb & Ne & Tb & Ea & Eb & D)].
  - destruct (Same a b n (typed_vec _ _ _ Ta) Vb (typed_bw _ _ _ Hn Ta) Wb Be) as (x & E & Tx & Nx & _).
    rewrite E. cbn [bind]. apply (Fin x n _ Tx); [lia | right; reflexivity |].
    rewrite Nx, Zm, (Zm (value a)) by lia. rewrite Va. f_equal. 
    + apply Z.mod_small. pose proof (num_range a) as R. rewrite (typed_bw _ _ _ Hn Ta) in R. exact R.
    + unfold value. destruct (bsgn b); [|reflexivity]. unfold snum, twos. rewrite Wb.
      destruct (Z.testbit (num b) (n - 1)); [|reflexivity].
      symmetry. apply mod_eq_shift with (k := -1); [apply pow2_pos; lia | lia].
  - destruct (Mixed a b n nb s (bsgn b) Hn Hb ltac:(lia) Ta Tb Ea Eb) as (x & E & Tx & Nx & _).
    rewrite E. cbn [bind]. apply (Fin x _ _ Tx); [lia | lia |].
    rewrite Nx, Zm by lia. rewrite !mod_mod_pow2 by lia. symmetry. apply Zm. lia.
Qed.
Lemma compound_bitwise a b n s : 1 <= n -> typed a n s -> (s = true -> bsgn b = true) ->
  (bw b = n /\ vec b /\ blsb b <= bmsb b \/
   exists nb, 1 <= nb /\ nb <> n /\ typed b nb (bsgn b) /\ extendable a /\ extendable b /\ (2 <= n <= 64 /\ nb <= 64 \/ 65 <= n /\ nb < n)) ->
  (exists r, bit_and_assign a b = Ok r /\ typed r n s /\ num r = Z.land (value a) (value b) mod 2 ^ n) /\
  (exists r, bit_or_assign a b = Ok r /\ typed r n s /\ num r = Z.lor (value a) (value b) mod 2 ^ n) /\
  (exists r, bit_xor_assign a b = Ok r /\ typed r n s /\ num r = Z.lxor (value a) (value b) mod 2 ^ n).
Proof.
  intros. repeat split.
  - apply (compound_gen bit_and); auto using bit_and_spec2. intros. apply land_mod_pow2. lia.
  - apply (compound_gen bit_or); auto using bit_or_spec2. intros. apply lor_mod_pow2. lia.
  - apply (compound_gen bit_xor); auto using bit_xor_spec2. intros. apply lxor_mod_pow2. lia.
Qed.
Lemma compound_shift a amt n s : 1 <= n -> typed a n s -> vec amt -> (s = true -> bsgn amt = true) -> tidy amt -> 0 <= value amt ->
  ((n <= 64 -> bw amt <= 64 /\ value amt < n) ->
    exists r, bit_shift_assign bit_shr a amt = Ok r /\ typed r n s /\ num r = num a / 2 ^ value amt) /\
  ((n <= 64 -> bw amt <= 64 /\ (value amt = 0 \/ 2 <= n /\ value amt < (if n <=? 32 then 32 else 64))) ->
    exists r, bit_shift_assign bit_shl a amt = Ok r /\ typed r n s /\ num r = (num a * 2 ^ value amt) mod 2 ^ n).
Proof.
  intros Hn Ta Vk Sg Yk Hk.
  assert (OK : compound_ok a (bsgn amt) = true).
  { unfold compound_ok. rewrite (typed_bsize a n s Hn Ta). destruct Ta as (_ & [-> ->] & ->). rewrite !Z.eqb_refl. 
    destruct s; [rewrite Sg by reflexivity|]; reflexivity. }
  pose proof (typed_bw a n s Hn Ta) as W. unfold bit_shift_assign, requires. rewrite OK. split; intros C.
  - destruct (shift_right a amt (typed_vec _ _ _ Ta) Vk Yk Hk) as (x & E & Tx & Nx); [rewrite W; exact C|].
    rewrite E. cbn [bind]. rewrite W in Tx. destruct (assign_typed a x n s _ Hn Ta Tx) as (r & E' & T' & N').
    exists r. rewrite <- Nx. auto.
  - destruct (shift_left a amt (typed_vec _ _ _ Ta) Vk Yk Hk) as (x & E & Tx & Nx); [rewrite W; exact C|].
    rewrite E. cbn [bind]. rewrite W in Tx, Nx. destruct (assign_typed a x n s _ Hn Ta Tx) as (r & E' & T' & N').
    exists r. rewrite <- Nx. auto.
Qed.
Lemma compound_counter : exists a b r, typed a 1 false /\ typed b 2 false /\ tidy a /\ tidy b /\
  bit_or_assign a b = Ok r /\ num r <> Z.lor (num a) (num b) mod 2 ^ 1.
Proof. exists (bit_of_native 0 0 false 0), (bit_of_native 1 0 false 2), (bit_of_native 0 0 false 1). conc. Qed.

(** ** mixed widths *)
Lemma mixed_is_extended a b na nb : 1 <= na -> 1 <= nb -> typed a na false -> typed b nb false -> tidy a -> tidy b ->
  exists a' b', bit_extend a (Z.max na nb) = Ok a' /\ bit_extend b (Z.max na nb) = Ok b' /\
    typed a' (Z.max na nb) false /\ typed b' (Z.max na nb) false /\ num a' = num a /\ num b' = num b /\
    bit_add a b = bit_add a' b' /\ bit_sub a b = bit_sub a' b' /\ bit_mul a b = bit_mul a' b' /\
    bit_div a b = bit_div a' b' /\ bit_rem a b = bit_rem a' b'.
Proof.
  intros Ha Hb Ta Tb Ya Yb. set (m := Z.max na nb).
  pose proof (typed_lt a na _ Ha Ta). pose proof (typed_lt b nb _ Hb Tb).
  destruct (bit_extend_u_tidy a na m ltac:(lia) ltac:(lia) Ta Ya) as (a' & E1 & T1 & N1 & Y1).
  destruct (bit_extend_u_tidy b nb m ltac:(lia) ltac:(lia) Tb Yb) as (b' & E2 & T2 & N2 & Y2).
  exists a', b'. repeat (split; [assumption|]).
  assert (G : forall op, bit_arith op a b = bit_arith op a' b').
  { intros op. unfold bit_arith at 2. rewrite (typed_bsize a' m _ ltac:(lia) T1), (typed_bsize b' m _ ltac:(lia) T2), Z.eqb_refl.
    unfold bit_arith, bit_mixed. rewrite (typed_bsize a na _ Ha Ta), (typed_bsize b nb _ Hb Tb).
    destruct (Z.eqb_spec na nb) as [E|].
    - assert (na = m /\ nb = m) as [M1 M2] by lia. 
      rewrite <- M1 in E1. rewrite <- M2 in E2. rewrite (bit_extend_same a na false Ha Ta) in E1.
      rewrite (bit_extend_same b nb false Hb Tb) in E2. congruence.
    - cbn zeta. fold m. rewrite E1, E2. reflexivity. }
  unfold bit_add, bit_sub, bit_mul, bit_div, bit_rem. rewrite !G. auto.
Qed.

(** ** queries *)
Lemma highest b : vec b -> bsgn b = false -> tidy b -> num b <> 0 ->
  bit_highest_bit b < bw b /\ bit_at b (bit_highest_bit b) = true /\
  forall p, bit_highest_bit b < p -> bit_at b p = false.
Proof.
  intros V S0 Y Nz. pose proof (num_range b) as R. pose proof (bw_pos b).
  assert (E : bit_highest_bit b = Z.log2 (num b)).
  { pose proof (num_of_tidy b Y S0) as Ns. destruct (vec_cases b V) as [(v & E & N & I & Sv) | (ws & E & N & W & Sv)];
    unfold bit_highest_bit; rewrite E; rewrite Sv in Ns; rewrite Ns in *.
    - replace (v =? 0) with false by lia. rewrite u64_id; [lia|]. pose proof (pow2_mono (bw b) 64 ltac:(lia)). lia.
    - apply bn_highest_scan_spec; try assumption. }
  rewrite E. split; [apply Z.log2_lt_pow2; lia|]. split; [apply Z.bit_log2; lia|].
  intros p Hp. apply Z.bits_above_log2; lia.
Qed.
Lemma queries n ws : 65 <= n -> wfn n ws -> visible (words_num ws / 2 ^ 64) ->
  bn_is_one ws = (words_num ws =? 1) /\ bn_fit_in_64 ws = (words_num ws <? 2 ^ 64).
Proof.
  intros Hn W V. apply halves_tl in V; [|apply W]. split; [eapply bn_is_one_spec; eassumption | apply bn_fit_spec; [apply W | exact V]].
Qed.
Lemma queries_counter : exists ws, words_ok 128 ws = true /\ bn_is_one ws = true /\ words_num ws <> 1 /\
  bn_fit_in_64 ws = true /\ 2 ^ 64 <= words_num ws.
Proof. exists [1; 2 ^ 32]. conc. Qed.
Lemma all_set_counter : exists ws, words_ok 128 ws = true /\ words_num ws = 2 ^ 128 - 1 /\ bn_all_set 128 ws = false.
Proof. exists [u64max; u64max]. conc. Qed.

(** ** literals *)
Lemma literals v : (exists r, lit_bit v = Ok r /\ typed r 32 true /\ num r = v mod 2 ^ 32 /\ tidy r) /\
  (exists r, lit_bit64 v = Ok r /\ typed r 64 true /\ num r = v mod 2 ^ 64 /\ tidy r).
Proof.
  split.
  - exists (nat_bit 31 0 true (conv TI32 v)). pose proof (typed_nat 32 true (conv TI32 v) ltac:(lia)) as T.
    split; [apply (bit_extend_same _ 32 true); [lia | exact T]|]. split; [exact T|].
    rewrite nat_bit_num by (unfold width; lia). change (width 31 0) with 32. split; [apply conv_mod; [discriminate | cbn; lia]|].
    apply nat_bit_tidy_s; [unfold width; lia|]. change (width 31 0) with 32. pose proof (conv_in_ity TI32 v) as I. apply in_ity_range in I. exact I.
  - exists (nat_bit 63 0 true (conv TI64 v)). pose proof (typed_nat 64 true (conv TI64 v) ltac:(lia)) as T.
    split; [apply (bit_extend_same _ 64 true); [lia | exact T]|]. split; [exact T|].
    rewrite nat_bit_num by (unfold width; lia). change (width 63 0) with 64. split; [apply conv_mod; [discriminate | cbn; lia]|].
    apply nat_bit_tidy_s; [unfold width; lia|]. change (width 63 0) with 64. pose proof (conv_in_ity TI64 v) as I. apply in_ity_range in I. exact I.
Qed.
