(** Proof that the members of [big_num] agree with the reference machine of SpecBigRef.v. *)
From Coq Require Import ZArith List Bool Lia Zify ZifyBool.
From Verif Require Import Cpp BigNum Util Bit Spec ZBits Words BigNumProofs BigArith BitCmp BitShift BigObj SpecBig BigObjProofs BigObjProofs2 BigObjProofs3 SpecWide WideProofs WideProofs2 WideProofs3 WideProofs4 SpecBigRef.
Import ListNotations.
Open Scope Z_scope.
Local Ltac Zify.zify_post_hook ::= idtac.

Lemma num_obj_eq n s ws z : 1 <= n -> wfn n ws -> words_num ws = z mod 2 ^ capacity n -> mkNum n s ws = num_obj n s z.
Proof. intros H W Q. unfold num_obj. f_equal. apply big_eq; assumption. Qed.
Lemma num_obj_small n s ws z : 1 <= n -> wfn n ws -> words_num ws = z -> mkNum n s ws = num_obj n s z.
Proof. intros H W Q. apply num_obj_eq; [exact H|exact W|]. rewrite <- Q. symmetry. apply Z.mod_small. apply words_range; assumption. Qed.
Lemma ones_bits n m p : 0 <= n <= m -> 0 <= p -> Z.testbit (2 ^ m - 2 ^ n) p = (n <=? p) && (p <? m).
Proof.
  intros H Hp. replace (2 ^ m - 2 ^ n) with (Z.shiftl (2 ^ (m - n) - 1) n).
  2:{ rewrite Z.shiftl_mul_pow2 by lia. rewrite Z.mul_sub_distr_r, <- Z.pow_add_r, Z.mul_1_l by lia. f_equal. f_equal. lia. }
  rewrite Z.shiftl_spec, testbit_ones by lia. lia.
Qed.
Lemma stretch x n s m : is_num x n s -> n <= m -> exists l, bn_extend n s (n_ws x) m = Ok l /\ wfn m l /\ words_num l = stretched x m.
Proof.
  intros H Hm. unnum H. destruct (bn_extend_spec n s (n_ws x) m ltac:(lia) W) as (l & El & Wl & U & Q). exists l. split; [exact El|]. split; [exact Wl|].
  unfold stretched. rewrite E, G. fold (raw x) in *. destruct (Z.eqb_spec n m) as [D | D]; [apply U; right; exact D|].
  destruct s; [|apply U; left; reflexivity]. apply Z.bits_inj'. intros p Hp. rewrite (Q eq_refl p Hp), Z.lor_spec, ones_bits by lia. apply orb_comm.
Qed.
Lemma join f g x y n s m t : is_num x n s -> is_num y m t -> (forall a b, wfn (Z.max n m) a -> wfn (Z.max n m) b -> words_num a = stretched x (Z.max n m) -> words_num b = stretched y (Z.max n m) ->
    meets (Z.max n m) (f (Z.max n m) a b) (g (Z.max n m) (words_num a) (words_num b))) -> num_binop f x y = joined g x y.
Proof.
  intros H K F. unfold num_binop, joined. cbn zeta. pose proof H as H'. pose proof K as K'. unnum H. unnum K.
  destruct (stretch x n s (Z.max n m) H' ltac:(lia)) as (l & El & Wl & Ql). destruct (stretch y m t (Z.max n m) K' ltac:(lia)) as (r & Er & Wr & Qr).
  unfold bn_widen2. rewrite E, E0, G, G0, El, Er. cbn [bind]. specialize (F l r Wl Wr Ql Qr). rewrite <- Ql, <- Qr.
  destruct (f (Z.max n m) l r) as [z| | | |]; cbn [omap bind meets] in F |- *; try (rewrite <- F; reflexivity).
  destruct F as [Wz (z' & Ez & Qz)]. rewrite Ez. f_equal. apply num_obj_eq; [lia|exact Wz|exact Qz].
Qed.
Lemma meets_ok n ws z : 1 <= n -> wfn n ws -> words_num ws = z -> meets n (Ok ws) (Ok z).
Proof. intros H W Q. split; [exact W|]. exists z. split; [reflexivity|]. rewrite <- Q. symmetry. apply Z.mod_small. apply words_range; assumption. Qed.
Lemma meets_mod n ws z : wfn n ws -> words_num ws = z mod 2 ^ (64 * nwords n) -> meets n (Ok ws) (Ok z).
Proof. intros W Q. split; [exact W|]. exists z. split; [reflexivity|]. rewrite capacity_nwords. exact Q. Qed.
Lemma isn_pos x n s : is_num x n s -> 1 <= n. Proof. intros (B & _). lia. Qed.

Lemma extend_ref x n s m : is_num x n s -> 1 <= m -> num_extend x m = ref_extend x m.
Proof.
  intros H Hm. unfold ref_extend. pose proof H as H'. unnum H. rewrite E, G. destruct (Z.ltb_spec m n) as [L | L]; [exact (extend_bad x n s m H' L)|].
  destruct (stretch x n s m H' L) as (l & El & Wl & Ql). unfold num_extend. rewrite E, G, El. cbn [omap bind]. f_equal. apply num_obj_small; assumption.
Qed.
Lemma and_ref x y n s m t : is_num x n s -> is_num y m t -> num_and x y = ref_and x y.
Proof.
  intros H K. apply (join _ _ x y n s m t H K). intros a b Wa Wb _ _. pose proof (isn_pos _ _ _ H) as P. destruct (bn_and_spec (Z.max n m) a b ltac:(lia) Wa Wb).
  apply meets_ok; (assumption || lia).
Qed.
Lemma or_ref x y n s m t : is_num x n s -> is_num y m t -> num_or x y = ref_or x y.
Proof.
  intros H K. apply (join _ _ x y n s m t H K). intros a b Wa Wb _ _. pose proof (isn_pos _ _ _ H) as P. destruct (bn_or_spec (Z.max n m) a b Wa Wb).
  apply meets_ok; (assumption || lia).
Qed.
Lemma xor_ref x y n s m t : is_num x n s -> is_num y m t -> num_xor x y = ref_xor x y.
Proof.
  intros H K. apply (join _ _ x y n s m t H K). intros a b Wa Wb _ _. pose proof (isn_pos _ _ _ H) as P. destruct (bn_xor_spec (Z.max n m) a b Wa Wb).
  apply meets_ok; (assumption || lia).
Qed.
Lemma add_ref x y n s m t : is_num x n s -> is_num y m t -> num_add x y = ref_add x y.
Proof.
  intros H K. apply (join _ _ x y n s m t H K). intros a b Wa Wb _ _. pose proof (isn_pos _ _ _ H) as P. destruct (bn_add_spec (Z.max n m) a b ltac:(lia) Wa Wb).
  apply meets_mod; assumption.
Qed.
Lemma sub_ref x y n s m t : is_num x n s -> is_num y m t -> num_sub x y = ref_sub x y.
Proof.
  intros H K. apply (join _ _ x y n s m t H K). intros a b Wa Wb _ _. pose proof (isn_pos _ _ _ H) as P. destruct (bn_sub_spec (Z.max n m) a b ltac:(lia) Wa Wb).
  apply meets_mod; assumption.
Qed.
Lemma mul_ref x y n s m t : is_num x n s -> is_num y m t -> n < 2 ^ 31 -> m < 2 ^ 31 -> num_mul x y = ref_mul x y.
Proof.
  intros H K Hn Hm. pose proof (isn_pos _ _ _ H) as P. apply (join _ _ x y n s m t H K). intros a b Wa Wb _ _. destruct (Z.leb_spec (Z.max n m) 64) as [L | L]; [|apply mul_meets; (assumption || lia)].
  assert (U : bn_mul (Z.max n m) a b = UB); [|rewrite U; reflexivity].
  pose proof (mul_small_ub (mkNum (Z.max n m) false a) (mkNum (Z.max n m) false b) (Z.max n m) false (Z.max n m) false ltac:(apply is_num_mk; [lia|assumption]) ltac:(apply is_num_mk; [lia|assumption]) ltac:(lia)) as U.
  unfold num_mul, num_binop, bn_widen2, bn_extend in U. cbn [n_size n_sgn n_ws] in U. rewrite Z.max_id, Z.ltb_irrefl, Z.eqb_refl in U. cbn [bind omap] in U.
  destruct (bn_mul (Z.max n m) a b); (reflexivity || discriminate).
Qed.
Lemma one_word_num n ws : 1 <= n <= 64 -> wfn n ws -> exists w, ws = [w] /\ 0 <= w < 2 ^ 64 /\ words_num ws = w /\ words_of n (words_num ws) = [w].
Proof.
  intros H W. destruct (one_word_inv n ws H W) as (w & -> & R). exists w. split; [reflexivity|]. split; [exact R|]. split; [cbn [words_num]; lia|]. apply words_of_self; (assumption || lia).
Qed.
Lemma div_mod_short n a op : 1 <= n <= 64 -> wfn n a -> wfn n op ->
  match bn_div_mod n false a false op, divided n (words_num a) (words_num op) with
  | Ok qr, Ok z => pair_is n qr z | UB, UB => True | _, _ => False
  end.
Proof.
  intros Hn Wa Wo. pose proof (seems_zero_words n op ltac:(lia) Wo) as SZ. destruct (one_word_num n a Hn Wa) as (u & Eu & Ru & Nu & Ou). destruct (one_word_num n op Hn Wo) as (v & Ev & Rv & Nv & Ov).
  unfold divided, seems_small. rewrite Ou, Ov, SZ. cbn [tl blank forallb]. unfold bn_div_mod.
  destruct (bn_any_set op) eqn:AS; cbn [negb].
  2:{ unfold pair_is. cbn [fst snd]. rewrite bn_zero_num. pose proof (bn_zero_wfn n ltac:(lia)). tauto. }
  assert (NZ : v <> 0) by (intros Q; rewrite (bn_any_set_zero op (proj1 Wo)) in AS by lia; discriminate).
  destruct (bn_of_native_spec n 0 ltac:(lia)) as [W0 E0]. destruct (bn_of_native_spec n 1 ltac:(lia)) as [W1 E1]. change (u64 0) with 0 in E0. change (u64 1) with 1 in E1.
  unfold bn_div_mod_unsigned. assert (IO : bn_is_one op = (v =? 1)) by (rewrite Ev; reflexivity). rewrite IO, Nu, Nv. cbn [andb]. rewrite (Z.mod_small u (2 ^ 64) Ru), (Z.mod_small v (2 ^ 64) Rv).
  destruct (Z.eqb_spec v 1) as [-> | N1]; [unfold pair_is; cbn [fst snd]; tauto|].
  rewrite words_eqb_same by (apply Wa || apply Wo || (destruct Wa, Wo; lia)). rewrite Nu, Nv.
  destruct (Z.eqb_spec u v) as [-> | N2]; [unfold pair_is; cbn [fst snd]; tauto|]. rewrite bn_ugt_spec by assumption. rewrite Nu, Nv.
  destruct (Z.ltb_spec u v) as [L | L]; [unfold pair_is; cbn [fst snd]; tauto|].
  assert (F : forall w, bn_fit_in_64 [w] = true) by reflexivity. rewrite Eu, Ev, !F. cbn [andb]. change (word [v] 0) with v. change (word [u] 0) with u.
  destruct (Z.eqb_spec v 0) as [? | _]; [lia|].
  destruct (bn_of_native_spec n (u / v) ltac:(lia)) as [Wq Eq]. destruct (bn_of_native_spec n (u mod v) ltac:(lia)) as [Wr Er].
  pose proof (Z.mod_pos_bound u v ltac:(lia)). assert (0 <= u / v) by (apply Z.div_pos; lia). assert (u / v <= u) by (apply Z.div_le_upper_bound; nia).
  rewrite u64_id in Eq, Er by lia. unfold pair_is. cbn [fst snd]. tauto.
Qed.
Lemma quot_all (pick : Z * Z -> Z) (wpick : list Z * list Z -> list Z) s1 s2 n x y : (pick = fst /\ wpick = fst \/ pick = snd /\ wpick = snd) ->
  1 <= n < 2 ^ 31 -> wfn n x -> wfn n y ->
  meets n (omap wpick (bn_div_mod n s1 x s2 y)) (if s1 then IllFormed else omap pick (divided n (words_num x) (words_num y))).
Proof.
  intros P H X Y. destruct (Z.leb_spec n 64) as [L | L]; [|apply quot_meets; (assumption || lia)].
  destruct s1; [reflexivity|]. pose proof (div_mod_short n x y ltac:(lia) X Y) as D. change (bn_div_mod n false x s2 y) with (bn_div_mod n false x false y).
  destruct (bn_div_mod n false x false y) as [qr| | | |], (divided n (words_num x) (words_num y)) as [z| | | |]; try contradiction; [|reflexivity].
  destruct D as (W1 & W2 & E1 & E2). unfold omap. cbn [bind]. destruct P as [[-> ->] | [-> ->]]; apply meets_ok; (assumption || lia).
Qed.
Lemma div_ref x y n s m t : is_num x n s -> is_num y m t -> n < 2 ^ 31 -> m < 2 ^ 31 -> num_div x y = ref_div x y.
Proof.
  intros H K Hn Hm. pose proof (isn_pos _ _ _ H) as P. apply (join _ _ x y n s m t H K). intros a b Wa Wb _ _. apply (quot_all fst fst); [left; split; reflexivity|lia|assumption|assumption].
Qed.
Lemma rem_ref x y n s m t : is_num x n s -> is_num y m t -> n < 2 ^ 31 -> m < 2 ^ 31 -> num_rem x y = ref_rem x y.
Proof.
  intros H K Hn Hm. pose proof (isn_pos _ _ _ H) as P. apply (join _ _ x y n s m t H K). intros a b Wa Wb _ _. apply (quot_all snd snd); [right; split; reflexivity|lia|assumption|assumption].
Qed.

(** * one operand *)
Lemma not_ref x n s : is_num x n s -> num_not x = ref_not x.
Proof.
  intros H. pose proof (isn_pos _ _ _ H). unnum H. unfold num_not, ref_not, again. rewrite E, G. destruct W as [W L]. destruct (bn_not_spec n (n_ws x) W) as (W' & L' & Q).
  apply num_obj_eq; [lia|split; [exact W'|lia]|]. rewrite Q, L, capacity_nwords. pose proof (words_num_nonneg _ W). pose proof (words_num_bound _ W) as B. rewrite L in B. unfold raw.
  symmetry. rewrite <- (Z_mod_plus_full _ 1), Z.mul_1_l. rewrite Z.mod_small; lia.
Qed.
Lemma negate_ref x n s : is_num x n s -> num_negate x = ref_negate x.
Proof.
  intros H. pose proof (isn_pos _ _ _ H) as P. unnum H. unfold num_negate, ref_negate, again. rewrite E, G. destruct (bn_negate_spec n (n_ws x) P W) as [W' Q].
  apply num_obj_eq; [lia|exact W'|]. rewrite Q, capacity_nwords. reflexivity.
Qed.
Lemma mask_off_ref x n s : is_num x n s -> num_mask_off x = ref_mask_off x.
Proof.
  intros H. pose proof (isn_pos _ _ _ H) as P. unnum H. unfold num_mask_off, ref_mask_off, again, magn. rewrite E, G. destruct (bn_mask_off_spec n (n_ws x) P W) as [W' Q].
  apply num_obj_small; [lia|exact W'|]. exact Q.
Qed.
Lemma joined_size g x y r : joined g x y = Ok r -> n_size r = Z.max (n_size x) (n_size y) /\ n_sgn r = n_sgn x && n_sgn y /\ exists z, n_ws r = words_of (n_size r) z.
Proof. unfold joined. cbn zeta. destruct (g _ _ _); intros Q; try discriminate. injection Q as <-. cbn. split; [reflexivity|]. split; [reflexivity|]. eexists. reflexivity. Qed.
Lemma assign_ref op g x y n s m t : is_num x n s -> is_num y m t -> op x y = joined g x y -> num_assign_op op x y = ref_assign (op x y) x y.
Proof.
  intros H K Q. pose proof (isn_pos _ _ _ H) as P. unfold num_assign_op, ref_assign, requires. pose proof H as H'. unnum H. unnum K. rewrite E, E0, G, G0.
  destruct (Z.leb_spec m n) as [L | L], (Z.ltb_spec n m) as [L' | L']; try lia; [|reflexivity]. cbn [orb].
  destruct s, t; cbn [andb negb Bool.eqb]; try reflexivity.
  all: destruct (op x y) as [v| | | |] eqn:EV; cbn [bind]; try reflexivity; f_equal; symmetry in Q; destruct (joined_size _ _ _ _ Q) as (S1 & S2 & z & S3).
  all: rewrite E, E0, Z.max_l in S1 by lia; rewrite S1 in S3; rewrite S3.
  all: unfold num_mask_off, again, magn, raw; cbn [n_size n_sgn n_ws]; rewrite E, G, S1, S3; apply num_obj_small; [lia|apply bn_mask_off_spec; [lia|apply words_of_wfn; lia]..].
Qed.
Lemma and_assign_ref x y n s m t : is_num x n s -> is_num y m t -> num_and_assign x y = ref_assign (ref_and x y) x y.
Proof. intros H K. rewrite <- (and_ref x y n s m t H K). apply (assign_ref num_and _ x y n s m t H K (and_ref x y n s m t H K)). Qed.
Lemma xor_assign_ref x y n s m t : is_num x n s -> is_num y m t -> num_xor_assign x y = ref_assign (ref_xor x y) x y.
Proof. intros H K. rewrite <- (xor_ref x y n s m t H K). apply (assign_ref num_xor _ x y n s m t H K (xor_ref x y n s m t H K)). Qed.

(** * shifts *)
Lemma shl_ref x n s k : is_num x n s -> 0 <= k -> num_shl x k = ref_shl x s k.
Proof.
  intros H Hk. pose proof (isn_pos _ _ _ H) as P. unnum H. unfold num_shl, ref_shl. rewrite E, G. destruct (bn_shl_spec n (n_ws x) k P Hk W). apply num_obj_small; assumption.
Qed.
Lemma shr_ref x n s k : is_num x n s -> 0 <= k -> num_shr x k = ref_shr x s k.
Proof.
  intros H Hk. pose proof (isn_pos _ _ _ H) as P. unnum H. unfold num_shr, ref_shr, magn. rewrite E, G. destruct (bn_shr_spec n (n_ws x) k P Hk W). apply num_obj_small; assumption.
Qed.
Lemma ashr_words x n s r k : is_num x n s -> 0 <= k -> mkNum n r (bn_ashr n s (n_ws x) k) = ref_ashr x r k.
Proof.
  intros H Hk. pose proof (isn_pos _ _ _ H) as P. pose proof (magn_range _ _ _ H) as R. pose proof H as H'. unnum H. unfold ref_ashr. rewrite G. destruct s.
  - cbn zeta. rewrite E. destruct (bn_ashr_signed n (n_ws x) k P Hk W) as [Wr B]. apply num_obj_small; [lia|exact Wr|].
    apply Z.bits_inj'. intros p Hp. rewrite (B p Hp). fold (raw x).
    assert (C : Z.testbit ((ival x / 2 ^ k) mod 2 ^ n) p = (p <? n) && pos x (Z.min (p + k) (n - 1))).
    { rewrite testbit_mod_pow2 by lia. f_equal. rewrite Z.div_pow2_bits by lia. apply (ival_bit x n); [exact H'|lia]. }
    assert (D : forall q, 0 <= q < n -> pos x q = Z.testbit (raw x) q) by (intros q Hq; apply (pos_in x n true); assumption).
    destruct (Z.ltb_spec k n) as [L | L].
    + rewrite Z.clearbit_eqb by lia. rewrite C, (Z.eqb_sym (n - 1 - k)). destruct (Z.ltb_spec p n) as [Lp | Lp]; [|reflexivity]. cbn [andb]. rewrite D by lia.
      destruct (Z.ltb_spec p (n - 1 - k)) as [L1 | L1]; [rewrite Z.min_l by lia; replace (p =? n - 1 - k) with false by lia; cbn [negb]; rewrite andb_true_r; reflexivity|].
      rewrite Z.min_r by lia. rewrite andb_true_r. apply andb_comm.
    + rewrite C. destruct (Z.ltb_spec p n) as [Lp | Lp]; [|reflexivity]. cbn [andb]. rewrite D by lia. rewrite andb_false_r. cbn [negb andb]. rewrite Z.min_r by lia.
      replace (p <? n - 1 - k) with false by lia. reflexivity.
  - destruct (bn_shr_spec n (n_ws x) k P Hk W). unfold ref_shr, magn. rewrite E. apply num_obj_small; assumption.
Qed.
Lemma ashr_ref x n s k : is_num x n s -> 0 <= k -> num_ashr x k = ref_ashr x s k.
Proof. intros H Hk. pose proof (ashr_words x n s s k H Hk) as A. unnum H. unfold num_ashr. rewrite E, G. exact A. Qed.
Lemma shl_n_ref x k n s m t : is_num x n s -> is_num k m t -> num_shl_n x k = ref_shl x (s && t) (raw k).
Proof.
  intros H K. pose proof (isn_pos _ _ _ H) as P. unnum H. unnum K. unfold num_shl_n, ref_shl. rewrite E, G, G0. destruct (bn_shl_big_spec n (n_ws x) (n_ws k) ltac:(lia) (proj1 W0) W). apply num_obj_small; assumption.
Qed.
Lemma shr_n_ref x k n s m t : is_num x n s -> is_num k m t -> num_shr_n x k = ref_shr x (s && t) (raw k).
Proof.
  intros H K. pose proof (isn_pos _ _ _ H) as P. unnum H. unnum K. unfold num_shr_n, ref_shr, magn. rewrite E, G, G0. destruct (bn_shr_big_spec n (n_ws x) (n_ws k) ltac:(lia) (proj1 W0) W). apply num_obj_small; assumption.
Qed.
Lemma ashr_n_ref x k n s m t : is_num x n s -> is_num k m t -> num_ashr_n x k = ref_ashr x (s && t) (raw k).
Proof.
  intros H K. pose proof (raw_range _ _ _ K) as R. rewrite <- (ashr_words x n s (s && t) (raw k) H ltac:(lia)). unnum H. unnum K. unfold num_ashr_n. rewrite E, G, G0. rewrite bn_ashr_big_eq by (apply W0 || assumption || lia). reflexivity.
Qed.

(** * comparisons *)
Lemma eq_ref x y n s m t : is_num x n s -> is_num y m t -> num_eq x y = ref_eq x y.
Proof.
  intros H K. unfold num_eq, ref_eq, bn_eq. pose proof (isn_pos _ _ _ H) as P1. pose proof (isn_pos _ _ _ K) as P2. pose proof H as H'. unnum H. unnum K. rewrite E, E0, G, G0. destruct (s && t).
  - destruct (Z.ltb_spec n m) as [L | L]; [|reflexivity]. destruct (stretch x n s m H' ltac:(lia)) as (l & El & Wl & Ql). rewrite El. cbn [bind].
    rewrite words_eqb_same; [|apply Wl|apply W0|destruct Wl, W0; lia]. rewrite Ql. reflexivity.
  - cbn zeta. unfold raw. rewrite !words_of_self by assumption. rewrite !words_in_nwords, !blank_reduce.
    pose proof (nwords_bounds n ltac:(lia)) as NA. pose proof (nwords_bounds m ltac:(lia)) as NBb.
    rewrite words_eqb_prefix by (apply W || apply W0). rewrite !lown_mod by (apply W || apply W0). destruct W as [Wx Lx], W0 as [Wy Ly]. unfold wlen in Lx, Ly.
    replace (64 * Z.of_nat (Nat.min (length (n_ws x)) (length (n_ws y)))) with (64 * Z.min (nwords n) (nwords m)) by lia.
    destruct (_ =? _); cbn [andb]; [|destruct (nwords m <=? nwords n); reflexivity].
    destruct (Z.leb_spec (nwords m) (nwords n)) as [L | L].
    * replace (Z.min (nwords n) (nwords m)) with (nwords m) by lia. rewrite (skipn_all2 (n_ws y)) by lia. cbn [blank forallb]. rewrite andb_true_r.
      destruct (Z.eqb_spec (nwords n) (nwords m)) as [Q | Q]; [|reflexivity]. rewrite (skipn_all2 (n_ws x)) by lia. reflexivity.
    * replace (Z.min (nwords n) (nwords m)) with (nwords n) by lia. rewrite (skipn_all2 (n_ws x)) by lia. reflexivity.
Qed.
Lemma ival_neg x n : is_num x n true -> (ival x <? 0) = Z.testbit (raw x) (n - 1).
Proof.
  intros H. pose proof (isn_pos _ _ _ H) as P. pose proof (magn_range _ _ _ H) as R. rewrite <- (pos_in x n true) by (assumption || lia). unnum H. unfold ival, pos. rewrite E, G. unfold twos. destruct (Z.testbit (magn x) (n - 1)); lia.
Qed.
Lemma gt_ref x y n s m t : is_num x n s -> is_num y m t -> num_gt x y = ref_gt x y.
Proof.
  intros H K. pose proof (isn_pos _ _ _ H) as P1. pose proof (isn_pos _ _ _ K) as P2. pose proof H as H'. pose proof K as K'. unnum H. unnum K. unfold num_gt, ref_gt, lowest, magn. rewrite E, E0, G, G0.
  destruct (s && t) eqn:ST; [|apply bn_gt_u; assumption]. apply andb_true_iff in ST. destruct ST as [-> ->]. rewrite (ival_neg x n), (ival_neg y m) by assumption. unfold raw.
  set (xs := n_ws x) in *. set (ys := n_ws y) in *. unfold bn_gt. change 8%nat with (S (S 6)). remember 6%nat as f eqn:Ef. clear Ef.
  rewrite gt_step by (assumption || lia). cbn zeta.
  destruct (Z.testbit (words_num xs) (n - 1)) eqn:Ba, (Z.testbit (words_num ys) (m - 1)) eqn:Bb; cbn [andb negb]; try reflexivity.
  destruct (bn_negate_spec n xs ltac:(lia) W) as [Wnx Enx]. destruct (bn_negate_spec m ys ltac:(lia) W0) as [Wny Eny].
  destruct (negate_bit n xs ltac:(lia) W Ba) as [NBa NMa]. destruct (negate_bit m ys ltac:(lia) W0 Bb) as [NBb NMb].
  destruct (Z.eqb_spec (words_num xs mod 2 ^ n) (2 ^ (n - 1))) as [Qa | Qa], (Z.eqb_spec (words_num ys mod 2 ^ m) (2 ^ (m - 1))) as [Qb | Qb];
    try (rewrite gt_step by (assumption || lia); cbn zeta; rewrite NBa, NBb; cbn [andb negb]; reflexivity).
  - assert (P : forall k, 1 <= k -> 2 ^ k = 2 * 2 ^ (k - 1)) by (intros k Hk; rewrite <- Z.pow_succ_r by lia; f_equal; lia).
    apply (gt_min_loop n m); try assumption; try lia; [rewrite NMb, Qb, (P m) by lia|rewrite NMa, Qa, (P n) by lia]; lia.
  - rewrite gt_step by (assumption || lia). cbn zeta. rewrite NBa, NBb. cbn [andb negb]. rewrite Enx, Eny, !capacity_nwords. reflexivity.
Qed.
Lemma ge_ref x y n s m t : is_num x n s -> is_num y m t -> num_ge x y = ref_ge x y.
Proof.
  intros H K. unfold ref_ge. rewrite <- (eq_ref x y n s m t), <- (gt_ref x y n s m t) by assumption. unfold num_ge, num_eq, num_gt, bn_ge.
  assert (C : (exists e, num_eq x y = Ok e) \/ num_eq x y = IllFormed).
  { rewrite (eq_ref x y n s m t) by assumption. unfold ref_eq. repeat match goal with |- context [if ?c then _ else _] => destruct c end; try (right; reflexivity); left; eexists; reflexivity. }
  unfold num_eq in C. destruct C as [(e & ->) | ->]; [|reflexivity]. destruct (bn_gt (n_size x) (n_sgn x) (n_ws x) (n_size y) (n_sgn y) (n_ws y)) as [g| | | |]; try reflexivity. cbn [bind]. destruct g; reflexivity.
Qed.

(** * queries *)
Lemma any_ref x n s : is_num x n s -> num_any_set x = ref_any x.
Proof. intros H. pose proof (isn_pos _ _ _ H) as P. unnum H. unfold num_any_set, ref_any, raw. rewrite E, seems_zero_words, negb_involutive by assumption. reflexivity. Qed.
Lemma fit_ref x n s : is_num x n s -> num_fit_in_64 x = seems_small n (raw x).
Proof. intros H. pose proof (isn_pos _ _ _ H) as P. unnum H. unfold num_fit_in_64, raw. rewrite seems_small_words by assumption. reflexivity. Qed.
Lemma one_ref x n s : is_num x n s -> num_is_one x = ref_one x.
Proof.
  intros H. pose proof (isn_pos _ _ _ H) as P. unnum H. unfold num_is_one, ref_one, raw. rewrite E, seems_small_words by assumption. rewrite <- word0_mod by apply W. unfold bn_is_one, bn_fit_in_64.
  destruct (Z.eqb_spec (Z.of_nat (length (n_ws x))) 1) as [Q | Q]; [|apply andb_comm]. destruct (n_ws x) as [|w [|]]; cbn [length] in Q; try lia. reflexivity.
Qed.
Lemma all_ref x n s : is_num x n s -> num_all_set x = ref_all x.
Proof.
  intros H. pose proof (isn_pos _ _ _ H) as P. unfold ref_all. pose proof H as H'. unnum H. rewrite E. destruct (Z.leb_spec n 64) as [L | L]; [|apply (all_multi x n s); (assumption || lia)].
  destruct (one_word_num n (n_ws x) ltac:(lia) W) as (w & Ew & Rw & Nw & _). cbn [andb]. unfold raw. rewrite Nw. unfold num_all_set, bn_all_set. rewrite E. pose proof (nwords_bounds n P) as NB. replace (nwords n) with 1 by lia.
  change (1 =? 1) with true. cbv iota. rewrite Ew. change (word [w] 0) with w. f_equal. unfold u64max. rewrite Z.shiftr_div_pow2 by lia.
  replace (2 ^ 64) with (2 ^ n * 2 ^ (1 * 64 - n)) by (rewrite <- Z.pow_add_r by lia; f_equal; lia). pose proof (pow2_pos n ltac:(lia)). pose proof (pow2_pos (1 * 64 - n) ltac:(lia)).
  symmetry. apply Z.div_unique with (r := 2 ^ (1 * 64 - n) - 1); nia.
Qed.
Lemma highest_ref x n s : is_num x n s -> num_highest_bit x = ref_highest x.
Proof.
  intros H. pose proof (isn_pos _ _ _ H) as P. unnum H. unfold num_highest_bit, ref_highest, raw. rewrite E. destruct (Z.eqb_spec (words_num (n_ws x)) 0) as [Q | Q]; [|apply bn_highest_scan_spec; assumption].
  rewrite words_in_nwords. unfold bn_highest_bit. apply all_zero_num in Q; [|apply W]. rewrite Forall_forall in Q.
  assert (F : forall l, bn_highest_scan (nwords n) (n_ws x) l = nwords n).
  { induction l as [|k l IH]; [reflexivity|]. cbn [bn_highest_scan]. assert (Z0 : word (n_ws x) (nwords n - k - 1) = 0).
    { unfold word. destruct (nth_in_or_default (Z.to_nat (nwords n - k - 1)) (n_ws x) 0) as [IN | ->]; [apply Q; exact IN|reflexivity]. }
    rewrite Z0. exact IH. }
  apply F.
Qed.
Lemma set_ref x n s i v : is_num x n s -> 0 <= i -> num_set x i v = ref_set x i v.
Proof.
  intros H Hi. pose proof (isn_pos _ _ _ H) as P. unnum H. unfold num_set, ref_set, again. rewrite E, G. destruct (wfn_cap n (n_ws x) ltac:(lia) W) as (C & _ & _).
  apply num_obj_small; [lia|split; [apply bn_set_wf; apply W | rewrite bn_set_len; apply W]|]. fold (raw x).
  apply Z.bits_inj'. intros p Hp. rewrite bn_set_spec by (try apply W; lia). fold (raw x). destruct (Z.ltb_spec i n) as [J | J]; [|rewrite andb_false_r; reflexivity]. rewrite andb_true_r.
  destruct v; [rewrite Z.setbit_eqb by lia|rewrite Z.clearbit_eqb by lia]; rewrite (Z.eqb_sym i); destruct (p =? i); cbn; rewrite ?andb_true_r, ?andb_false_r; reflexivity.
Qed.

Lemma ref_two x y n s m t : is_num x n s -> is_num y m t ->
  num_and x y = ref_and x y /\ num_or x y = ref_or x y /\ num_xor x y = ref_xor x y /\
  num_and_assign x y = ref_assign (ref_and x y) x y /\ num_xor_assign x y = ref_assign (ref_xor x y) x y /\
  num_add x y = ref_add x y /\ num_sub x y = ref_sub x y.
Proof.
  intros H K. split; [exact (and_ref x y n s m t H K)|]. split; [exact (or_ref x y n s m t H K)|]. split; [exact (xor_ref x y n s m t H K)|].
  split; [exact (and_assign_ref x y n s m t H K)|]. split; [exact (xor_assign_ref x y n s m t H K)|]. split; [exact (add_ref x y n s m t H K)|exact (sub_ref x y n s m t H K)].
Qed.
Lemma ref_product x y n s m t : is_num x n s -> is_num y m t -> n < 2 ^ 31 -> m < 2 ^ 31 ->
  num_mul x y = ref_mul x y /\ num_div x y = ref_div x y /\ num_rem x y = ref_rem x y.
Proof. intros H K A B. split; [exact (mul_ref x y n s m t H K A B)|]. split; [exact (div_ref x y n s m t H K A B)|exact (rem_ref x y n s m t H K A B)]. Qed.
Lemma ref_compare x y n s m t : is_num x n s -> is_num y m t ->
  num_eq x y = ref_eq x y /\ num_ne x y = omap negb (ref_eq x y) /\ num_gt x y = ref_gt x y /\ num_lt x y = ref_gt y x /\ num_ge x y = ref_ge x y /\ num_le x y = ref_ge y x.
Proof.
  intros H K. split; [exact (eq_ref x y n s m t H K)|]. split; [unfold num_ne; rewrite (eq_ref x y n s m t H K); reflexivity|]. split; [exact (gt_ref x y n s m t H K)|].
  split; [exact (gt_ref y x m t n s K H)|]. split; [exact (ge_ref x y n s m t H K)|exact (ge_ref y x m t n s K H)].
Qed.
Lemma ref_shift x k n s m t : is_num x n s -> is_num k m t ->
  (forall j, 0 <= j -> num_shl x j = ref_shl x s j /\ num_shr x j = ref_shr x s j /\ num_ashr x j = ref_ashr x s j /\ num_ashl x j = ref_shl x s j) /\
  num_shl_n x k = ref_shl x (s && t) (raw k) /\ num_shr_n x k = ref_shr x (s && t) (raw k) /\ num_ashr_n x k = ref_ashr x (s && t) (raw k) /\ num_ashl_n x k = ref_shl x (s && t) (raw k).
Proof.
  intros H K. split; [intros j J; split; [exact (shl_ref x n s j H J)|]; split; [exact (shr_ref x n s j H J)|]; split; [exact (ashr_ref x n s j H J)|exact (shl_ref x n s j H J)]|].
  split; [exact (shl_n_ref x k n s m t H K)|]. split; [exact (shr_n_ref x k n s m t H K)|]. split; [exact (ashr_n_ref x k n s m t H K)|exact (shl_n_ref x k n s m t H K)].
Qed.
Lemma ref_one_operand x n s : is_num x n s ->
  num_not x = ref_not x /\ num_negate x = ref_negate x /\ num_mask_off x = ref_mask_off x /\ (forall m, 1 <= m -> num_extend x m = ref_extend x m) /\
  (forall i v, 0 <= i -> num_set x i v = ref_set x i v) /\ num_any_set x = ref_any x /\ num_fit_in_64 x = seems_small n (raw x) /\ num_is_one x = ref_one x /\
  num_all_set x = ref_all x /\ num_highest_bit x = ref_highest x.
Proof.
  intros H. split; [exact (not_ref x n s H)|]. split; [exact (negate_ref x n s H)|]. split; [exact (mask_off_ref x n s H)|]. split; [intros m M; exact (extend_ref x n s m H M)|].
  split; [intros i v I0; exact (set_ref x n s i v H I0)|]. split; [exact (any_ref x n s H)|]. split; [exact (fit_ref x n s H)|]. split; [exact (one_ref x n s H)|]. split; [exact (all_ref x n s H)|exact (highest_ref x n s H)].
Qed.
