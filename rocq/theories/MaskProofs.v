(** A mask of 65 positions no sequence of calls makes: what a vector keeps above its width is not arbitrary. *)
From Coq Require Import String ZArith List Bool Lia Zify ZifyBool.
From Verif Require Import Cpp BigNum Bit Logic Util More Rest Spec Reach ZBits Words BigNumProofs BigArith BitProofs BitExt LogicProofs ReachProofs ReachProofs2 ReachProofs4.
Import ListNotations.
Open Scope Z_scope.
Local Ltac Zify.zify_post_hook ::= idtac.

(** the top position of a word is set only together with the one below *)
Definition linked (w : Z) : Prop := Z.testbit w 63 = true -> Z.testbit w 62 = true.
Definition sane (b : bit) : Prop := forall ws, bval b = HB ws -> bsize b = 65 -> linked (word ws 1).
Lemma linked_0 : linked 0. Proof. intros H. discriminate. Qed.
Lemma linked_lor a b : linked a -> linked b -> linked (Z.lor a b).
Proof. unfold linked. rewrite !Z.lor_spec, !orb_true_iff. tauto. Qed.
Lemma lupd_nth (l : list Z) : forall i x k, nth k (lupd l i x) 0 = if (k =? i)%nat && (i <? length l)%nat then x else nth k l 0.
Proof.
  induction l as [|h t IH]; intros i x k; cbn [lupd].
  - cbn [length]. replace ((i <? 0)%nat) with false by (symmetry; apply Nat.ltb_ge; lia). rewrite andb_false_r. reflexivity.
  - destruct i as [|i], k as [|k]; cbn [nth length]; try reflexivity. rewrite IH. reflexivity.
Qed.
Lemma word1_set ws i w : word (word_set ws i w) 1 = word ws 1 \/ (i = 1 /\ word (word_set ws i w) 1 = w).
Proof.
  unfold word, word_set. rewrite lupd_nth. destruct (_ && _) eqn:E; [|auto]. apply andb_true_iff in E. destruct E as [E _]. apply Nat.eqb_eq in E. right. split; [|reflexivity]. change (Z.to_nat 1) with 1%nat in E. lia.
Qed.
Lemma bn_set_linked ws i x : linked (word ws 1) -> linked (word (bn_set 65 ws i x) 1).
Proof.
  intros L. unfold bn_set. destruct (Z.ltb_spec i 65) as [H|H]; [|exact L]. cbv zeta. destruct x.
  - destruct (word1_set ws (i / 64) (Z.lor (word ws (i / 64)) (u64 (Z.shiftl 1 (i mod 64))))) as [-> | [E ->]]; [exact L|]. assert (i = 64) as -> by (pose proof (Z.div_mod i 64 ltac:(lia)); pose proof (Z.mod_pos_bound i 64 ltac:(lia)); lia).
    change (64 / 64) with 1. apply linked_lor; [exact L|]. intros Q. vm_compute in Q. discriminate.
  - destruct (word1_set ws (i / 64) (Z.land (word ws (i / 64)) (u64 (Z.lnot (u64 (Z.shiftl 1 (i mod 64))))))) as [-> | [E ->]]; [exact L|]. assert (i = 64) as -> by (pose proof (Z.div_mod i 64 ltac:(lia)); pose proof (Z.mod_pos_bound i 64 ltac:(lia)); lia).
    change (64 / 64) with 1. unfold linked in *. rewrite !Z.land_spec. intros Q. apply andb_true_iff in Q. destruct Q as [Q _]. rewrite (L Q). reflexivity.
Qed.
Lemma fold_linked (f : list Z -> Z -> list Z) is : forall ws, (forall r i, linked (word r 1) -> linked (word (f r i) 1)) -> linked (word ws 1) -> linked (word (fold_left f is ws) 1).
Proof. induction is as [|i is IH]; intros ws F L; cbn [fold_left]; [exact L|]. apply IH; auto. Qed.
Lemma zero_linked n : linked (word (bn_zero n) 1).
Proof. unfold word, bn_zero. rewrite nth_repeat. apply linked_0. Qed.
Lemma mask_off_linked ws : linked (word (bn_mask_off 65 ws) 1).
Proof.
  unfold bn_mask_off. change (nwords 65) with 2. cbv zeta. destruct (word1_set ws (2 - 1) (Z.land (word ws (2 - 1)) (Z.shiftr u64max (2 * 64 - 65)))) as [E | [_ ->]].
  - (* the second word is missing *)
    unfold word, word_set in E. rewrite lupd_nth in E. change (Z.to_nat 1) with 1%nat in E. change (Z.to_nat (2 - 1)) with 1%nat in E. cbn [Nat.eqb andb] in E.
    unfold word, word_set. rewrite lupd_nth. change (Z.to_nat 1) with 1%nat. change (Z.to_nat (2 - 1)) with 1%nat. cbn [Nat.eqb andb]. destruct (Nat.ltb_spec 1 (List.length ws)).
    + intros Q. rewrite Z.land_spec in Q. apply andb_true_iff in Q. destruct Q as [_ Q]. vm_compute in Q. discriminate.
    + rewrite nth_overflow by lia. apply linked_0.
  - intros Q. rewrite Z.land_spec in Q. apply andb_true_iff in Q. destruct Q as [_ Q]. vm_compute in Q. discriminate.
Qed.

Lemma native_sane m l s v : sane (mkBit m l s (HN v)). Proof. intros ws H. discriminate. Qed.
Lemma zero_sane m l s : sane (bit_zero m l s).
Proof. intros ws H _. unfold bit_zero in H. cbn [bval] in H. destruct (native_num _); [discriminate|]. injection H as <-. apply zero_linked. Qed.
Lemma mask_sane m l s : sane (bit_mask m l s).
Proof.
  intros ws H N. unfold bit_mask, bit_mask_holder in H. cbn [bval] in H. unfold bit_mask, bsize in N. cbn [bmsb blsb] in N. change (vsize m l) with (vsize m l) in *. rewrite N in H. cbn in H. injection H as <-. intros Q. vm_compute in Q. discriminate.
Qed.
Lemma set_sane b i x r : sane b -> bit_set b i x = Ok r -> sane r.
Proof.
  intros S H. unfold bit_set in H. cbv zeta in H. destruct (bval b) as [v|ws] eqn:E; [inv_ok H; injection H as <-; apply native_sane|]. injection H as <-. intros ws' Q N. cbn [bval] in Q. injection Q as <-.
  change (bsize b = 65) in N. rewrite N. apply bn_set_linked, (S ws E N).
Qed.
Lemma assign_sane d a r : sane a -> bit_assign d a = Ok r -> sane r.
Proof.
  intros S H. unfold bit_assign, holder_assign in H. inv_ok H. injection H as <-. intros ws Q N. cbn [bval] in Q. subst. change (bsize d = 65) in N. rewrite N in E. cbn [native_num] in E.
  change (native_num 65) with false in E. destruct (bval a) as [v|ws'] eqn:B; [discriminate|]. destruct (Z.eqb_spec (bsize a) 65) as [M|]; [|discriminate]. injection E as <-. apply (S _ B M).
Qed.
Lemma convert_sane m l s a r : sane a -> bit_convert m l s a = Ok r -> sane r.
Proof.
  intros S H. unfold bit_convert in H. destruct (_ && _); [injection H as <-; exact S|]. destruct (bsgn a); [|discriminate]. apply (assign_sane (bit_zero m l s) a r S). exact H.
Qed.
Lemma slice_sane x a b r : bit_slice_c x a b = Ok r -> sane r.
Proof.
  intros H. unfold bit_slice_c in H. inv_ok H. cbv zeta in H. destruct (bval x); [inv_ok H; injection H as <-; apply native_sane|]. inv_ok H. destruct (native_num (Z.abs (a - b))) eqn:N.
  - inv_ok H. injection H as <-. apply native_sane.
  - injection H as <-. intros ws' _ W. unfold bsize, vsize in W. cbn [bmsb blsb] in W. unfold native_num in N. lia.
Qed.
Lemma slice_at_sane x k a b r : bit_slice_r x k a b = Ok r -> 1 <= k -> sane r.
Proof.
  intros H K. unfold bit_slice_r in H. destruct (bval x); [inv_ok H; injection H as <-; apply native_sane|]. inv_ok H. destruct (native_num k) eqn:N; injection H as <-; [apply native_sane|].
  intros ws' Q W. cbn [bval] in Q. injection Q as <-. unfold bsize, vsize in W. cbn [bmsb blsb] in W. assert (k = 65) as -> by lia. unfold bn_slice_r in E. cbv zeta in E. destruct (_ =? _); [discriminate|]. injection E as <-.
  apply fold_linked; [|apply zero_linked]. intros. apply bn_set_linked. assumption.
Qed.
Lemma extend_sane x m r : vec x -> bsgn x = false -> sane x -> 1 <= m -> bit_extend x m = Ok r -> sane r.
Proof.
  intros V U S M H. unfold bit_extend in H. rewrite bsize_bw, U in H. cbv zeta in H. destruct (Z.ltb_spec (bw x) m).
  - vcase x V; rewrite Eb in H.
    + destruct (native_num m) eqn:N; injection H as <-; [apply native_sane|]. intros ws Q _. cbn [bval andb] in Q. injection Q as <-.
      destruct (word1_set (bn_zero m) 0 (u64 v)) as [-> | [C _]]; [apply zero_linked|discriminate].
    + inv_ok H. injection H as <-. intros ws' _ W. unfold bsize, vsize in W. cbn [bmsb blsb] in W. lia.
  - destruct (_ =? _); [apply (convert_sane _ _ _ _ _ S H)|]. inv_ok H. apply (convert_sane _ _ _ _ _ (slice_sane _ _ _ _ E) H).
Qed.
Lemma mask_off_sane b : sane (bit_mask_off b).
Proof. intros ws Q N. unfold bit_mask_off in Q. cbn [bval] in Q. change (bsize b = 65) in N. destruct (bval b); [discriminate|]. injection Q as <-. rewrite N. apply mask_off_linked. Qed.
Lemma compound_sane op a b r : bit_compound op a b = Ok r -> sane r.
Proof. intros H. unfold bit_compound in H. inv_ok H. injection H as <-. apply mask_off_sane. Qed.
Lemma map2_nth f a : forall b k, f 0 0 = 0 -> length a = length b -> nth k (map2 f a b) 0 = f (nth k a 0) (nth k b 0).
Proof.
  induction a as [|x a IH]; intros [|y b] k F L; try discriminate; cbn [map2]; [destruct k; cbn [nth]; auto|]. destruct k; cbn [nth]; [reflexivity|]. apply IH; [exact F|]. cbn [length] in L. lia.
Qed.
Lemma or_sane a b r : vec a -> vec b -> bsize a = bsize b -> sane a -> sane b -> bit_or a b = Ok r -> sane r.
Proof.
  intros V W E Sa Sb H. unfold bit_or in H. rewrite E, Z.eqb_refl in H. unfold bit_or_same, bit_bin in H. inv_ok H. cbv zeta in H. destruct (bval a) as [v|ws] eqn:Ba, (bval b) as [v'|ws'] eqn:Bb; try discriminate; inv_ok H; injection H as <-; [apply native_sane|].
  intros ws2 Q N. cbn [bval] in Q. injection Q as <-. injection E1 as <-. unfold bsize, vsize in N. cbn [bmsb blsb] in N. assert (N2 : bsize a = 65) by (unfold bsize, vsize in *; lia). assert (N3 : bsize b = 65) by lia.
  unfold bn_or, word. rewrite map2_nth; [|reflexivity|].
  - apply linked_lor; [apply (Sa _ Ba N2)|apply (Sb _ Bb N3)].
  - destruct V as (V & _), W as (W & _). unfold bit_ok in V, W. rewrite Ba in V. rewrite Bb in W. rewrite N2 in V. rewrite N3 in W. unfold words_ok in V, W. lia.
Qed.
Lemma shift_sane a amt r : bit_shl a amt = Ok r \/ bit_shr a amt = Ok r \/ (bsgn a = false /\ bit_ashr a amt = Ok r) -> sane r.
Proof.
  assert (L : forall ws k, linked (word (bn_shl 65 ws k) 1)) by (intros; unfold bn_shl; destruct (_ <? _); [apply zero_linked|]; apply fold_linked; [|apply zero_linked]; intros; apply bn_set_linked; assumption).
  assert (R : forall ws k, linked (word (bn_shr 65 ws k) 1)) by (intros; unfold bn_shr; destruct (_ <? _); [apply zero_linked|]; apply fold_linked; [|apply zero_linked]; intros; apply bn_set_linked; assumption).
  assert (S : forall s ws, (bsize a = 65 -> linked (word ws 1)) -> sane (mkBit (bsize a - 1) 0 s (HB ws))).
  { intros s ws K ws' Q N. cbn [bval] in Q. injection Q as <-. apply K. unfold bsize, vsize in *. cbn [bmsb blsb] in N. lia. }
  intros [H | [H | [U H]]]; [unfold bit_shl in H|unfold bit_shr in H|unfold bit_ashr in H; rewrite ?U in H]; cbv zeta in H; destruct (bval a) as [v|ws], (bval amt) as [k|ks]; try discriminate; inv_ok H; injection H as <-; try apply native_sane; apply S; intros N; rewrite N.
  - apply L.
  - unfold bn_shl_big. destruct (bn_amount_high ks); [apply zero_linked|apply L].
  - apply R.
  - unfold bn_shr_big. destruct (bn_amount_high ks); [apply zero_linked|apply R].
  - apply R.
  - unfold bn_ashr_big. destruct (bn_amount_high ks); [apply zero_linked|apply R].
Qed.

(** what a literal can put into the mask *)
Lemma shl_linked i m : 0 <= i <= 15 -> c_shl TU64 15 (i * 4) = Ok m -> linked m.
Proof.
  intros R H. assert (C : i = 0 \/ i = 1 \/ i = 2 \/ i = 3 \/ i = 4 \/ i = 5 \/ i = 6 \/ i = 7 \/ i = 8 \/ i = 9 \/ i = 10 \/ i = 11 \/ i = 12 \/ i = 13 \/ i = 14 \/ i = 15) by lia.
  repeat (destruct C as [-> | C]; [injection H as <-; intros Q; vm_compute in Q; try discriminate; reflexivity|]). subst. injection H as <-. intros _. reflexivity.
Qed.
Lemma shl7_linked i m : 0 <= i <= 20 -> c_shl TU64 7 (i * 3) = Ok m -> linked m.
Proof.
  intros R H. assert (C : i = 0 \/ i = 1 \/ i = 2 \/ i = 3 \/ i = 4 \/ i = 5 \/ i = 6 \/ i = 7 \/ i = 8 \/ i = 9 \/ i = 10 \/ i = 11 \/ i = 12 \/ i = 13 \/ i = 14 \/ i = 15 \/ i = 16 \/ i = 17 \/ i = 18 \/ i = 19 \/ i = 20) by lia.
  repeat (destruct C as [-> | C]; [injection H as <-; intros Q; vm_compute in Q; discriminate|]). subst. injection H as <-. intros Q. vm_compute in Q. discriminate.
Qed.
Lemma shl32_linked k m : c_shl TU32 1 k = Ok m -> linked m.
Proof.
  intros H. unfold c_shl in H. cbv zeta in H. destruct (_ && _); [|discriminate]. injection H as <-. change (promote TU32) with TU32. change (conv TU32 (Z.shiftl 1 k)) with (Z.shiftl 1 k mod 2 ^ 32).
  unfold linked. change (Z.pow_pos 2 32) with (2 ^ 32). intros Q. rewrite testbit_mod_pow2 in Q by lia. discriminate.
Qed.
Lemma fold_chars (step : Z * Z -> Z -> outcome (Z * Z)) bound (OK : forall i r c q, 0 <= i < bound -> linked r -> step (i, r) c = Ok q -> i <= fst q <= i + 1 /\ linked (snd q)) :
  forall cs i r q, 0 <= i -> i + Z.of_nat (List.length cs) <= bound -> linked r -> ofold step cs (i, r) = Ok q -> linked (snd q).
Proof.
  induction cs as [|c cs IH]; intros i r q I B L H; cbn [ofold length] in *; [injection H as <-; exact L|]. inv_ok H. destruct a as [i' r']. destruct (OK i r c _ ltac:(lia) L E) as [J L']. cbn [fst snd] in *. apply (IH i' r' q); [lia|lia|exact L'|exact H].
Qed.
Lemma chunk_linked s base w : Z.of_nat (List.length s) <= 64 / get_stride base -> parse_xz_raw_ s base = Ok w -> linked w.
Proof.
  intros B H. unfold parse_xz_raw_ in H. unfold get_stride in B. destruct (is_one_of base "bB"%string); [|destruct (is_one_of base "oO"%string); [|destruct (is_one_of base "hH"%string) eqn:X]].
  - inv_ok H. injection H as <-. apply (fold_chars parse_xz_bin_step 64) in E; [exact E| |lia|rewrite rev_length; exact B|apply linked_0].
    intros i r c q I L Hq. unfold parse_xz_bin_step in Hq. inv_ok Hq. injection Hq as <-. cbn [fst snd]. split; [destruct (_ =? _); lia|]. destruct (is_one_of c _); [|injection E0 as <-; exact L]. inv_ok E0. injection E0 as <-. apply linked_lor; [exact L|apply (shl32_linked _ _ E1)].
  - inv_ok H. injection H as <-. apply (fold_chars (parse_xz_pow2_step 7 3) 21) in E; [exact E| |lia|rewrite rev_length; exact B|apply linked_0].
    intros i r c q I L Hq. unfold parse_xz_pow2_step in Hq. inv_ok Hq. injection Hq as <-. cbn [fst snd]. split; [destruct (_ =? _); lia|]. destruct (is_one_of c _); [|injection E0 as <-; exact L]. inv_ok E0. injection E0 as <-. apply linked_lor; [exact L|apply (shl7_linked i _ ltac:(lia) E1)].
  - assert (X4 : is_one_of base "hHxX"%string = true) by (unfold is_one_of in *; cbn in *; lia). rewrite X4 in B. inv_ok H. injection H as <-. apply (fold_chars (parse_xz_pow2_step 15 4) 16) in E; [exact E| |lia|rewrite rev_length; exact B|apply linked_0].
    intros i r c q I L Hq. unfold parse_xz_pow2_step in Hq. inv_ok Hq. injection Hq as <-. cbn [fst snd]. split; [destruct (_ =? _); lia|]. destruct (is_one_of c _); [|injection E0 as <-; exact L]. inv_ok E0. injection E0 as <-. apply linked_lor; [exact L|].
    apply (shl_linked i _ ltac:(lia) E1).
  - injection H as <-. apply linked_0.
Qed.
Lemma words_linked one value batch (B : 1 <= batch) (OK : forall s w, Z.of_nat (List.length s) <= batch -> one s = Ok w -> linked w) :
  forall fuel remaining en idx ws r, remaining = en -> linked (word ws 1) -> parse_words one value batch fuel remaining en idx ws = Ok r -> linked (word r 1).
Proof.
  induction fuel as [|f IH]; intros remaining en idx ws r -> L H; cbn [parse_words] in H; [injection H as <-; exact L|]. destruct (Z.ltb_spec 0 en); [|injection H as <-; exact L]. cbv zeta in H. inv_ok H.
  refine (IH _ _ _ _ _ _ _ H).
  - destruct (Z.leb_spec batch en), (Z.ltb_spec batch en); lia.
  - destruct (word1_set ws idx a) as [-> | [_ ->]]; [exact L|]. apply (OK _ _) in E; [exact E|]. rewrite firstn_length. destruct (Z.leb_spec batch en); lia.
Qed.
Lemma text_sane t r : parse_xz_raw_str_big t 65 = Ok r -> linked (word r 1).
Proof.
  unfold parse_xz_raw_str_big, parse_big. destruct (get_input_base t) as [base start]. intros H. apply words_linked in H; [exact H| |intros s w Hs Hw; apply (chunk_linked s base w Hs Hw)|reflexivity|apply zero_linked].
  unfold get_stride. repeat (destruct (is_one_of base _)); cbn; lia.
Qed.
(** every vector a program makes *)
Definition sane4 (l : logic) : Prop := sane (l_xz l).
Definition keeps4 (op : logic -> logic -> outcome logic) : Prop := forall a b r, lvec a -> lvec b -> sane4 a -> sane4 b -> op a b = Ok r -> sane4 r.
Lemma default_sane m l s : sane4 (logic_default m l s). Proof. apply mask_sane. Qed.
Lemma of_bit_sane m l s b r : logic_of_bit m l s b = Ok r -> sane4 r.
Proof. intros H. unfold logic_of_bit in H. inv_ok H. injection H as <-. apply zero_sane. Qed.
Lemma lassign_sane d a r : sane4 a -> logic_assign d a = Ok r -> sane4 r.
Proof. intros S H. unfold logic_assign in H. inv_ok H. injection H as <-. apply (assign_sane _ _ _ S E0). Qed.
Lemma set_x_sane a i r : sane4 a -> logic_set_x a i = Ok r -> sane4 r.
Proof. intros S H. unfold logic_set_x in H. inv_ok H. injection H as <-. apply (set_sane _ _ _ _ S E). Qed.
Lemma set_z_sane a i r : sane4 a -> logic_set_z a i = Ok r -> sane4 r.
Proof. intros S H. unfold logic_set_z in H. inv_ok H. injection H as <-. apply (set_sane _ _ _ _ S E). Qed.
Lemma set_l_sane a i x r : sane4 a -> logic_set_l a i x = Ok r -> sane4 r.
Proof. intros S H. unfold logic_set_l in H. inv_ok H. injection H as <-. apply (set_sane _ _ _ _ S E0). Qed.
Lemma update_sane a i j x r : sane4 a -> logic_update_r a i j x = Ok r -> sane4 r.
Proof.
  intros L H. unfold logic_update_r in H. cbv zeta in H. apply (ofold_inv sane4) in H; [exact H| |exact L]. intros y p z W _ Hz. unfold logic_update_step in Hz. cbv zeta in Hz. inv_ok Hz. apply (set_l_sane _ _ _ _ W Hz).
Qed.
Lemma lextend_sane a m r : lvec a -> sane4 a -> 1 <= m -> logic_extend a m = Ok r -> sane4 r.
Proof. intros L S M H. unfold logic_extend in H. inv_ok H. injection H as <-. apply (extend_sane (l_xz a) m); [apply L|apply L|exact S|exact M|assumption]. Qed.
Lemma unpack_sane l : forall ts base rs r, logic_unpack_ l base ts = Ok rs -> In r rs -> sane4 r.
Proof.
  induction ts as [|t ts IH]; intros base rs r H I; cbn [logic_unpack_] in H; [injection H as <-; contradiction|]. inv_ok H. cbv zeta in H. inv_ok H. injection H as <-. destruct I as [<- | I]; [|eapply IH; eassumption].
  eapply assign_sane; [|eassumption]. eapply slice_sane. eassumption.
Qed.
Lemma bit0_sane a b : sane4 (mkLogic (bit0 a) (bit0 b)). Proof. apply native_sane. Qed.
Lemma lnot_sane a : sane4 (logic_lnot a). Proof. unfold logic_lnot. destruct (bit_any_set _); [apply bit0_sane|]. destruct (bit_any_set _); apply bit0_sane. Qed.
Lemma lsize_pos a : 1 <= lsize a. Proof. unfold lsize, bsize, vsize. lia. Qed.
Lemma mixed_sane op : keeps4 op -> keeps4 (logic_mixed op).
Proof.
  intros G a b r L K S T H. unfold logic_mixed in H. cbv zeta in H. inv_ok H. destruct (vec_facts _ (proj1 L)) as (_ & _ & P). destruct (vec_facts _ (proj1 K)) as (_ & _ & Q).
  assert (M : 1 <= Z.max (lsize a) (lsize b) < 2 ^ 31) by (unfold lsize; rewrite ?(bsize_bw (l_val a)), ?(bsize_bw (l_val b)); lia).
  apply (G _ _ _ (proj1 (extend_lvec _ _ _ L M E)) (proj1 (extend_lvec _ _ _ K M E0)) (lextend_sane _ _ _ L S (proj1 M) E) (lextend_sane _ _ _ K T (proj1 M) E0) H).
Qed.
Lemma and_same_sane : keeps4 logic_and_same.
Proof. intros a b r L K S T H. unfold logic_and_same in H. inv_ok H. injection H as <-. eapply compound_sane. eassumption. Qed.
Lemma or_same_sane : keeps4 logic_or_same.
Proof. intros a b r L K S T H. unfold logic_or_same in H. inv_ok H. injection H as <-. eapply compound_sane. eassumption. Qed.
Lemma xor_same_sane : keeps4 logic_xor_same.
Proof.
  intros a b r L K S T H. unfold logic_xor_same in H. inv_ok H. injection H as <-. refine (or_sane _ _ _ (proj1 (proj2 L)) (proj1 (proj2 K)) _ S T E1).
  pose proof (same_width _ _ E L K) as W. destruct L as (_ & _ & L1 & L2 & _), K as (_ & _ & K1 & K2 & _). unfold bsize. rewrite L1, L2, K1, K2. symmetry. exact W.
Qed.
Lemma sized_sane op op' : keeps4 op -> keeps4 op' -> keeps4 (fun a b => if lsize a =? lsize b then op a b else logic_mixed op' a b).
Proof. intros G G' a b r L K S T H. cbv beta in H. destruct (_ =? _); [apply (G _ _ _ L K S T H)|apply (mixed_sane _ G' _ _ _ L K S T H)]. Qed.
Lemma arith_sane d op : keeps4 (logic_arith d op).
Proof.
  assert (K : keeps4 (logic_arith_same d op)); [|apply (sized_sane _ _ K K)]. intros a b r _ _ _ _ H. unfold logic_arith_same in H. cbv zeta in H. inv_ok H. destruct (_ || _).
  - destruct (op _ _); try discriminate; injection H as <-; apply default_sane.
  - inv_ok H. apply (of_bit_sane _ _ _ _ _ H).
Qed.
Lemma lshift_sane op : op = bit_shl \/ op = bit_shr \/ op = bit_ashr -> keeps4 (logic_shift op).
Proof.
  intros O a b r L _ _ _ H. unfold logic_shift in H. cbv zeta in H. destruct (_ || _).
  - destruct (op _ _); try discriminate; injection H as <-; apply default_sane.
  - inv_ok H. injection H as <-. apply (shift_sane (l_xz a) (l_val b)). assert (bsgn (l_xz a) = false) by apply L. destruct O as [-> | [-> | ->]]; auto.
Qed.
Lemma cmp_sane op : keeps4 (logic_cmp op).
Proof.
  intros a b r _ _ _ _ H. unfold logic_cmp in H. destruct (_ || _).
  - destruct (op _ _); try discriminate; injection H as <-; apply bit0_sane.
  - inv_ok H. injection H as <-. destruct a0; apply bit0_sane.
Qed.
Lemma lcompound_sane op : keeps4 op -> keeps4 (logic_compound op).
Proof. intros G a b r L K S T H. unfold logic_compound in H. inv_ok H. apply (lassign_sane _ _ _ (G _ _ _ L K S T E0) H). Qed.
Lemma concat_sane : keeps4 logic_concat.
Proof.
  intros a b r L K _ _ H. unfold logic_concat in H. cbv zeta in H. inv_ok H. injection H as <-. refine (assign_sane _ _ _ _ E2). unfold bit_concat in E0. cbv zeta in E0. destruct (_ <? _); [|discriminate]. destruct (bval (l_xz a)), (bval (l_xz b)); try discriminate. inv_ok E0. injection E0 as <-. apply native_sane.
Qed.
Lemma made4_sane l : made4 l -> sane4 l.
Proof.
  revert l. fix IH 2. intros l M. destruct M as [msb lsb s D|msb lsb s v D|msb lsb s b r D B E|msb lsb s t r D E|a v r M E|msb lsb s a r D M E|a i x r M E|a i r M E|a i r M E|a i x r M Mx W E
    |a i r M E|a i j r M E|a k i j r M K E|a m r M K E|a b r M B E|a ts rs r M F E I|a i j x r M Mx E|a i j x r M Mx E|f a r I M E|f a b r I M Mb E].
  - apply default_sane.
  - apply zero_sane.
  - apply (of_bit_sane _ _ _ _ _ E).
  - unfold logic_of_str in E. destruct (native_num _); inv_ok E; injection E as <-; [apply native_sane|]. intros ws Q N. cbn [l_xz bval] in Q. injection Q as <-. unfold bsize in N. cbn [l_xz bmsb blsb] in N. rewrite N in E1. apply (text_sane _ _ E1).
  - unfold logic_assign_arith in E. inv_ok E. injection E as <-. unfold bit_assign_arith in E1. destruct (bval (l_xz a)); [|discriminate]. injection E1 as <-. apply native_sane.
  - unfold logic_convert in E. destruct (_ && _); [injection E as <-; apply (IH _ M)|]. destruct (lsgn a); [|discriminate]. apply (lassign_sane _ _ _ (IH _ M) E).
  - unfold logic_set in E. inv_ok E. injection E as <-. apply (set_sane _ _ _ _ (IH _ M) E1).
  - apply (set_x_sane _ _ _ (IH _ M) E).
  - apply (set_z_sane _ _ _ (IH _ M) E).
  - apply (set_l_sane _ _ _ _ (IH _ M) E).
  - unfold logic_get in E. destruct (_ && _); [|injection E as <-; apply default_sane]. cbv zeta in E. inv_ok E. destruct a0; [apply (set_x_sane _ _ _ (default_sane 0 0 false) E)|]. inv_ok E. destruct a0; [apply (set_z_sane _ _ _ (default_sane 0 0 false) E)|]. inv_ok E. injection E as <-. apply bit0_sane.
  - unfold logic_slice_c in E. inv_ok E. injection E as <-. eapply slice_sane. eassumption.
  - unfold logic_slice_r in E. inv_ok E. injection E as <-. apply (slice_at_sane _ _ _ _ _ E1). lia.
  - apply (lextend_sane _ _ _ (made4_lvec _ M) (IH _ M) (proj1 K) E).
  - unfold logic_concat_bit in E. cbv zeta in E. inv_ok E. injection E as <-. refine (assign_sane _ _ _ _ E3). refine (extend_sane _ _ _ _ _ (IH _ M) _ E1); try apply (made4_lvec _ M). pose proof (lsize_pos a). unfold bsize, vsize. lia.
  - unfold logic_unpack in E. destruct (big_endian _ _).
    + inv_ok E. injection E as <-. apply in_rev in I. apply (unpack_sane _ _ _ _ _ E0 I).
    + apply (unpack_sane _ _ _ _ _ E I).
  - unfold logic_update_c in E. destruct (_ && _); [|discriminate]. apply (update_sane _ _ _ _ _ (IH _ M) E).
  - apply (update_sane _ _ _ _ _ (IH _ M) E).
  - pose proof (IH _ M) as S. pose proof (made4_lvec _ M) as L. cbn [In unary4] in I. repeat (destruct I as [<- | I]); [..|contradiction]; cbv beta in E; try (injection E as <-).
    + unfold logic_not in E. cbv zeta in E. inv_ok E. injection E as <-. apply (assign_sane _ _ _ S E1).
    + unfold logic_neg in E. destruct (bit_any_set _).
      * destruct (bit_neg _); try discriminate; injection E as <-; apply default_sane.
      * cbv zeta in E. inv_ok E. injection E as <-. apply zero_sane.
    + unfold logic_plus. destruct (bit_any_set _); [apply default_sane|exact S].
    + apply lnot_sane.
    + unfold logic_inc in E. inv_ok E. apply (lassign_sane _ _ _ (arith_sane _ _ _ _ _ L one_lvec S (bit0_sane _ _) E0) E).
    + unfold logic_dec in E. inv_ok E. apply (lassign_sane _ _ _ (arith_sane _ _ _ _ _ L one_lvec S (bit0_sane _ _) E0) E).
    + unfold logic_resign in E. cbv zeta in E. inv_ok E. injection E as <-. apply (assign_sane _ _ _ S E1).
    + unfold logic_resign in E. cbv zeta in E. inv_ok E. injection E as <-. apply (assign_sane _ _ _ S E1).
    + revert E. unfold logic_r_and. generalize (zrange 0 (lsize a)). induction l as [|i is IHl]; intros E; cbn [logic_r_and_scan] in E; [injection E as <-; apply bit0_sane|]. inv_ok E. destruct (_ && _); [injection E as <-; apply bit0_sane|]. destruct a1; [injection E as <-; apply bit0_sane|apply IHl, E].
    + revert E. unfold logic_r_or. generalize (zrange 0 (lsize a)). induction l as [|i is IHl]; intros E; cbn [logic_r_or_scan] in E; [injection E as <-; apply bit0_sane|]. inv_ok E. destruct (_ && _); [injection E as <-; apply bit0_sane|]. destruct a1; [injection E as <-; apply bit0_sane|apply IHl, E].
    + unfold logic_r_xor in E. inv_ok E. destruct (bit_any_set _); [injection E as <-; apply bit0_sane|]. cbv zeta in E. injection E as <-. destruct (negb _); apply bit0_sane.
    + unfold logic_r_nand in E. inv_ok E. injection E as <-. apply lnot_sane.
    + unfold logic_r_nor in E. inv_ok E. injection E as <-. apply lnot_sane.
    + unfold logic_r_xnor in E. inv_ok E. injection E as <-. apply lnot_sane.
  - pose proof (IH _ M) as S. pose proof (made4_lvec _ M) as L. pose proof (IH _ Mb) as T. pose proof (made4_lvec _ Mb) as K.
    assert (KA : keeps4 logic_and) by (apply (sized_sane logic_and_same logic_and_same); apply and_same_sane). assert (KO : keeps4 logic_or) by (apply (sized_sane logic_or_same logic_or_same); apply or_same_sane).
    assert (KX : keeps4 logic_xor) by (apply (sized_sane logic_xor_same logic_or_same); [apply xor_same_sane|apply or_same_sane]).
    assert (KL : keeps4 logic_shl) by (apply lshift_sane; auto). assert (KR : keeps4 logic_shr) by (apply lshift_sane; auto). assert (KS : keeps4 logic_ashr) by (apply lshift_sane; auto).
    refine ((_ : keeps4 f) _ _ _ L K S T E). clear - I KA KO KX KL KR KS. cbn [In binary4] in I.
    repeat (destruct I as [<- | I]); [..|contradiction]; try assumption; try apply arith_sane; try apply cmp_sane; try (apply lcompound_sane; assumption); [apply concat_sane|]. intros a b r _ _ _ T H. apply (lassign_sane _ _ _ T H).
Qed.
(** a mask of 65 positions with nothing but the top bit of its storage *)
Definition lonely : logic := mkLogic (mkBit 64 0 false (HB [0; 0])) (mkBit 64 0 false (HB [0; 2 ^ 63])).
Lemma lonely_lvec : lvec lonely. Proof. repeat split; vm_compute; congruence. Qed.
Lemma lonely_unmade : ~ made4 lonely.
Proof. intros M. pose proof (made4_sane _ M [0; 2 ^ 63] eq_refl eq_refl ltac:(vm_compute; reflexivity)) as Q. vm_compute in Q. discriminate. Qed.
