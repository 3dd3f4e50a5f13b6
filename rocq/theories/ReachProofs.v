(** Every object a program can make is well formed. *)
From Coq Require Import ZArith List Bool Lia Zify ZifyBool.
From Verif Require Import Cpp BigNum Bit Logic Util More Rest Spec Reach ZBits Words BigNumProofs BigArith BitProofs BitExt.
Import ListNotations.
Open Scope Z_scope.
Local Ltac Zify.zify_post_hook ::= idtac.

Ltac inv_ok H :=
  repeat match type of H with
  | bind ?m _ = Ok _ => let E := fresh "E" in destruct m eqn:E; cbn [bind omap] in H; try discriminate H
  | omap _ ?m = Ok _ => let E := fresh "E" in destruct m eqn:E; cbn [omap bind] in H; try discriminate H
  | requires ?c _ = Ok _ => let E := fresh "E" in destruct c eqn:E; cbn [requires] in H; try discriminate H
  end.

(** * word arrays *)
Lemma nwords_nonneg n : 0 <= n -> 0 <= nwords n.
Proof. intros. unfold nwords. pose proof (Z.div_pos n 64). destruct (n mod 64 =? 0); lia. Qed.
Lemma zero_wfn n : 1 <= n -> wfn n (bn_zero n). Proof. apply bn_zero_wfn. Qed.
Lemma set_wfn n k ws i v : wfn n ws -> wfn n (bn_set k ws i v).
Proof.
  intros [W L]. split; [apply bn_set_wf; exact W|]. unfold wlen, bn_set, word_set in *. destruct (i <? k); [|exact L].
  destruct v; rewrite lupd_length; exact L.
Qed.
Lemma fold_wfn {A} n (f : list Z -> A -> list Z) l : (forall r i, wfn n r -> wfn n (f r i)) -> forall r, wfn n r -> wfn n (fold_left f l r).
Proof. intros H. induction l as [|i l IH]; intros r W; [exact W|]. cbn [fold_left]. apply IH, H, W. Qed.
Lemma word_set_wfn n ws i w : wfn n ws -> 0 <= w < 2 ^ 64 -> wfn n (word_set ws i w).
Proof. intros [W L] Hw. split; [apply word_set_wf; assumption|]. unfold wlen, word_set in *. rewrite lupd_length. exact L. Qed.
Lemma u64_range z : 0 <= u64 z < 2 ^ 64. Proof. unfold u64. apply Z.mod_pos_bound. reflexivity. Qed.
Lemma mask_off_wfn n ws : 1 <= n -> wfn n ws -> wfn n (bn_mask_off n ws).
Proof. intros. apply bn_mask_off_spec; assumption. Qed.
Lemma slice_c_wfn n ws a b r : bn_slice_c n ws a b = Ok r -> wfn (Z.abs (a - b) + 1) r.
Proof. unfold bn_slice_c. intros H. inv_ok H. injection H as <-. apply fold_wfn; [intros; apply set_wfn; assumption|]. apply zero_wfn. lia. Qed.
Lemma slice_r_wfn n ws ts a b r : 1 <= ts -> bn_slice_r n ws ts a b = Ok r -> wfn ts r.
Proof. unfold bn_slice_r. intros Hts H. destruct (_ =? _); [discriminate|]. injection H as <-. apply fold_wfn; [intros; apply set_wfn; assumption|]. apply zero_wfn. lia. Qed.
Lemma extend_wfn n s ws m r : 1 <= n -> wfn n ws -> bn_extend n s ws m = Ok r -> wfn m r.
Proof.
  intros Hn W H. unfold bn_extend in H. destruct (Z.ltb_spec n m).
  - injection H as <-. assert (P : wfn m (ws ++ repeat 0 (Z.to_nat (nwords m - nwords n)))).
    { destruct W as [W L]. split; [apply wf_app; split; [exact W|apply wf_repeat; lia]|].
      unfold wlen in *. rewrite app_length, repeat_length. pose proof (nwords_mono n m). lia. }
    destruct s; [apply fold_wfn; [intros; apply set_wfn; assumption|]|]; exact P.
  - destruct (Z.eqb_spec m n); [|discriminate]. injection H as <-. subst. exact W.
Qed.
Lemma not_wfn n ws : wfn n ws -> wfn n (bn_not n ws).
Proof.
  intros [W L]. unfold bn_not. apply fold_wfn; [intros; apply set_wfn; assumption|]. split.
  - clear L. induction W; cbn [map]; [constructor|]. apply wf_cons. split; [apply u64_range|assumption].
  - unfold wlen in *. rewrite map_length. exact L.
Qed.

Lemma and_wfn n a b : 1 <= n -> wfn n a -> wfn n b -> wfn n (bn_and n a b). Proof. apply bn_and_spec. Qed.
Lemma or_wfn n a b : wfn n a -> wfn n b -> wfn n (bn_or a b). Proof. apply bn_or_spec. Qed.
Lemma xor_wfn n a b : wfn n a -> wfn n b -> wfn n (bn_xor a b). Proof. apply bn_xor_spec. Qed.
Lemma add_wfn n a b : 1 <= n -> wfn n a -> wfn n b -> wfn n (bn_add a b). Proof. apply bn_add_spec. Qed.
Lemma of_native_wfn n v : 1 <= n -> wfn n (bn_of_native n v). Proof. apply bn_of_native_spec. Qed.
Lemma negate_wfn n a : 1 <= n -> wfn n a -> wfn n (bn_negate n a).
Proof. intros. apply add_wfn; [assumption|apply not_wfn; assumption|apply of_native_wfn; assumption]. Qed.
Lemma sub_wfn n a b : 1 <= n -> wfn n a -> wfn n b -> wfn n (bn_sub n a b).
Proof. intros. apply add_wfn; [assumption..|apply negate_wfn; assumption]. Qed.
Lemma shr_wfn n ws k : 1 <= n -> wfn n (bn_shr n ws k).
Proof. intros. unfold bn_shr. destruct (n <? k); [apply zero_wfn; assumption|]. apply fold_wfn; [intros; apply set_wfn; assumption|apply zero_wfn; assumption]. Qed.
Lemma shl_wfn n ws k : 1 <= n -> wfn n (bn_shl n ws k).
Proof. intros. unfold bn_shl. destruct (n <? k); [apply zero_wfn; assumption|]. apply fold_wfn; [intros; apply set_wfn; assumption|apply zero_wfn; assumption]. Qed.
Lemma mask_wfn n : 1 <= n -> wfn n (bn_mask n). Proof. intros. apply bn_mask_spec. assumption. Qed.
Lemma ashr_wfn n s ws k : 1 <= n -> wfn n (bn_ashr n s ws k).
Proof.
  intros. unfold bn_ashr. destruct s; [|apply shr_wfn; assumption]. destruct (n - 1 <? k).
  - destruct (bn_negative n ws); [apply mask_wfn|apply zero_wfn]; assumption.
  - repeat (apply fold_wfn; [intros; apply set_wfn; assumption|]). apply zero_wfn; assumption.
Qed.
Lemma shr_big_wfn n ws k : 1 <= n -> wfn n (bn_shr_big n ws k).
Proof. intros. unfold bn_shr_big. destruct (bn_amount_high k); [apply zero_wfn|apply shr_wfn]; assumption. Qed.
Lemma shl_big_wfn n ws k : 1 <= n -> wfn n (bn_shl_big n ws k).
Proof. intros. unfold bn_shl_big. destruct (bn_amount_high k); [apply zero_wfn|apply shl_wfn]; assumption. Qed.
Lemma ashr_big_wfn n s ws k : 1 <= n -> wfn n (bn_ashr_big n s ws k).
Proof.
  intros. unfold bn_ashr_big. destruct (bn_amount_high k); [|apply ashr_wfn; assumption].
  destruct s; [destruct (bn_negative n ws)|]; try apply zero_wfn; try apply mask_wfn; assumption.
Qed.
Lemma put_wfn n ws i w r : wfn n ws -> 0 <= w < 2 ^ 64 -> word_put ws i w = Ok r -> wfn n r.
Proof. intros W Hw H. unfold word_put in H. destruct (_ && _); [|discriminate]. injection H as <-. apply word_set_wfn; assumption. Qed.
Lemma ofold_inv {A B} (P : A -> Prop) (f : A -> B -> outcome A) l : (forall a b r, P a -> In b l -> f a b = Ok r -> P r) -> forall a r, P a -> ofold f l a = Ok r -> P r.
Proof.
  induction l as [|b l IH]; intros F a r Pa H; cbn [ofold] in H.
  - injection H as <-. exact Pa.
  - inv_ok H. apply (IH (fun a b r Pa I => F a b r Pa (or_intror I)) a0 r); [|exact H]. apply (F a b a0); [exact Pa|left; reflexivity|exact E].
Qed.
Lemma mul_wfn n a b r : 1 <= n -> bn_mul n a b = Ok r -> wfn n r.
Proof.
  intros Hn H. unfold bn_mul in H. destruct (_ && _).
  - inv_ok H. exact (put_wfn n a0 1 _ r (put_wfn n _ _ _ _ (zero_wfn n Hn) (u64_range _) E) (u64_range _) H).
  - apply (ofold_inv (wfn n)) in H; [exact H| |apply zero_wfn; exact Hn]. clear H r. intros r i r' W _ H. destruct (word a i =? 0).
    + injection H as <-. exact W.
    + apply (ofold_inv (wfn n)) in H; [exact H| |exact W]. clear r r' W H. intros r j r' W _ H. unfold bn_mul_step in H. destruct (word b j =? 0); [injection H as <-; exact W|].
      inv_ok H. assert (W1 : wfn n a0).
      { destruct (i + j <? n); [|injection E as <-; exact W]. inv_ok E. injection E as <-. apply add_wfn; [exact Hn|exact W|]. apply (put_wfn n _ _ _ _ (zero_wfn n Hn) (u64_range _) E0). }
      destruct (i + j + 1 <? n); [|injection H as <-; exact W1]. inv_ok H. injection H as <-. apply add_wfn; [exact Hn|exact W1|]. apply (put_wfn n _ _ _ _ (zero_wfn n Hn) (u64_range _) E0).
Qed.
Lemma div_wfn n s a t b q r : 1 <= n -> wfn n a -> bn_div_mod n s a t b = Ok (q, r) -> wfn n q /\ wfn n r.
Proof.
  intros Hn W H. unfold bn_div_mod in H. destruct s; [discriminate|]. destruct (negb _).
  - injection H as <- <-. split; apply zero_wfn; exact Hn.
  - unfold bn_div_mod_unsigned in H. pose proof (fun v => of_native_wfn n v Hn) as N. destruct (bn_is_one b); [injection H as <- <-; auto|].
    destruct (words_eqb a b); [injection H as <- <-; auto|]. destruct (bn_ugt n b n a); [injection H as <- <-; auto|].
    destruct (bn_fit_in_64 a && bn_fit_in_64 b); [destruct (word b 0 =? 0); [discriminate|injection H as <- <-; auto]|].
    assert (G : forall l st, wfn n (fst st) /\ wfn n (snd st) -> wfn n (fst (fold_left (bn_div_loop n b (u64 (bn_highest_bit n a - bn_highest_bit n b))) l st)) /\
      wfn n (snd (fold_left (bn_div_loop n b (u64 (bn_highest_bit n a - bn_highest_bit n b))) l st))).
    { induction l as [|i l IH]; intros st S; [exact S|]. cbn [fold_left]. apply IH. destruct st as [q0 r0]. unfold bn_div_loop. destruct S as [S1 S2]. cbn [fst snd] in *.
      destruct (bn_uge _ _ _); cbn [fst snd]; [|split; assumption]. split; [apply set_wfn; exact S1|apply sub_wfn; [exact Hn|exact S2|apply shl_wfn; exact Hn]]. }
    injection H as H. specialize (G (zrange 0 (u64 (bn_highest_bit n a - bn_highest_bit n b) + 1)) (bn_zero n, a)). rewrite H in G. apply G. split; [apply zero_wfn; exact Hn|exact W].
Qed.

(** * vectors *)
Lemma vec_nat msb lsb s v : int_ok msb -> int_ok lsb -> width msb lsb <= 64 -> in_ity (hty (width msb lsb) s) v = true -> vec (mkBit msb lsb s (HN v)).
Proof.
  intros. unfold vec, bit_ok, bw, bsize, vsize. cbn [bval bmsb blsb bsgn]. fold (width msb lsb). rewrite H2. repeat split; try (unfold int_ok in *; lia).
Qed.
Lemma vec_conv msb lsb s t v : int_ok msb -> int_ok lsb -> width msb lsb <= 64 -> t = hty (width msb lsb) s -> vec (mkBit msb lsb s (HN (conv t v))).
Proof. intros ? ? ? ->. apply vec_nat; try assumption. apply conv_in_ity. Qed.
Lemma vec_plain_conv n s t v : 1 <= n <= 64 -> t = hty n s -> vec (mkBit (n - 1) 0 s (HN (conv t v))).
Proof. intros ? ->. apply vec_conv; try (unfold int_ok; lia); unfold width; [lia|]. f_equal. lia. Qed.
Lemma vec_plain_big n s ws : 65 <= n < 2 ^ 31 -> wfn n ws -> vec (mkBit (n - 1) 0 s (HB ws)).
Proof. intros ? W. assert (E : width (n - 1) 0 = n) by (unfold width; lia). apply big_vec; try (unfold int_ok; lia); rewrite E; exact W. Qed.
Lemma bsize_bw b : bsize b = bw b. Proof. reflexivity. Qed.
Lemma vec_facts b : vec b -> int_ok (bmsb b) /\ int_ok (blsb b) /\ 1 <= bw b < 2 ^ 31.
Proof. intros (_ & A & B & C). pose proof (bw_pos b). auto. Qed.

(** case analysis on the holder of a well-formed vector *)
Ltac vcase b V :=
  let v := fresh "v" in let ws := fresh "ws" in let E := fresh "Eb" in let R := fresh "Rb" in let I := fresh "Ib" in let S := fresh "Sb" in
  destruct (vec_cases b V) as [(v & E & R & I & S) | (ws & E & R & I & S)].

Lemma in_ity_zero t : in_ity t 0 = true. Proof. destruct t; reflexivity. Qed.
Lemma zero_vec2 msb lsb s : declarable msb lsb -> vec (bit_zero msb lsb s).
Proof.
  intros (A & B & C). assert (1 <= width msb lsb) by (unfold width; lia). unfold bit_zero, native_num. change (vsize msb lsb) with (width msb lsb). destruct (Z.leb_spec (width msb lsb) 64).
  - apply vec_nat; try assumption. apply in_ity_zero.
  - apply big_vec; try assumption; [lia|]. apply zero_wfn. lia.
Qed.

Lemma mask_vec msb lsb s : declarable msb lsb -> vec (bit_mask msb lsb s).
Proof.
  intros (A & B & C). assert (1 <= width msb lsb) by (unfold width; lia). unfold bit_mask, bit_mask_holder, native_num. change (vsize msb lsb) with (width msb lsb).
  destruct (Z.leb_spec (width msb lsb) 64).
  - destruct (Z.eqb_spec (width msb lsb) 1) as [E|E].
    + apply vec_nat; try assumption. rewrite E. reflexivity.
    + apply vec_conv; try assumption. reflexivity.
  - apply big_vec; try assumption; [lia|]. apply mask_wfn. lia.
Qed.
Lemma fill_wfn n w : 1 <= n -> 0 <= w < 2 ^ 64 -> wfn n (w :: repeat u64max (Z.to_nat (nwords n - 1))).
Proof.
  intros Hn Hw. split.
  - apply wf_cons. split; [exact Hw|]. apply wf_repeat. unfold u64max. lia.
  - unfold wlen. cbn [length]. rewrite repeat_length. pose proof (nwords_bounds n Hn). lia.
Qed.
Lemma hd_range n ws : wfn n ws -> 0 <= hd 0 ws < 2 ^ 64.
Proof. intros [W _]. destruct ws; cbn; [lia|]. apply wf_cons in W. apply W. Qed.
Lemma arith_vec msb lsb s v : declarable msb lsb -> vec (bit_of_arith msb lsb s v).
Proof.
  intros (A & B & C). assert (1 <= width msb lsb) by (unfold width; lia). unfold bit_of_arith, bit_of_native, bit_of_arith_big, native_num. change (vsize msb lsb) with (width msb lsb).
  destruct (Z.leb_spec (width msb lsb) 64).
  - apply vec_conv; try assumption. reflexivity.
  - apply big_vec; try assumption; [lia|]. pose proof (of_native_wfn (width msb lsb) v ltac:(lia)) as N. destruct (_ && _); [|exact N].
    apply mask_off_wfn; [lia|]. apply fill_wfn; [lia|]. apply (hd_range _ _ N).
Qed.
Lemma words_wfn one v batch fuel n : (forall s w, one s = Ok w -> 0 <= w < 2 ^ 64) -> forall rem en idx ws r, wfn n ws -> parse_words one v batch fuel rem en idx ws = Ok r -> wfn n r.
Proof.
  intros O. induction fuel as [|f IH]; intros rem en idx ws r W H; cbn [parse_words] in H; [injection H as <-; exact W|].
  destruct (0 <? rem); [|injection H as <-; exact W]. inv_ok H. apply IH in H; [exact H|]. apply word_set_wfn; [exact W|]. apply (O _ _ E).
Qed.
Lemma lor_r a b : 0 <= a < 2 ^ 64 -> 0 <= b < 2 ^ 64 -> 0 <= Z.lor a b < 2 ^ 64. Proof. intros. apply lor_range; lia. Qed.

Lemma shl_in t v k r : c_shl t v k = Ok r -> in_ity (promote t) r = true.
Proof. unfold c_shl. cbn zeta. destruct (_ && _); [|discriminate]. injection 1 as <-. apply conv_in_ity. Qed.
Lemma shl_u64 v k r : c_shl TU64 v k = Ok r -> 0 <= r < 2 ^ 64.
Proof. intros H. apply shl_in in H. apply in_ity_range in H. exact H. Qed.
Lemma shl_u32 v k r : c_shl TU32 v k = Ok r -> 0 <= r < 2 ^ 64.
Proof. intros H. apply shl_in in H. apply in_ity_range in H. cbn in H. lia. Qed.
Lemma fold_inv {A B} (P : A -> Prop) (f : A -> B -> A) l : (forall a b, P a -> P (f a b)) -> forall a, P a -> P (fold_left f l a).
Proof. intros F. induction l as [|b l IH]; intros a Pa; [exact Pa|]. cbn [fold_left]. apply IH, F, Pa. Qed.
Definition small64 (z : Z) : Prop := 0 <= z < 2 ^ 64.
Lemma small64_0 : small64 0. Proof. unfold small64. lia. Qed.
Lemma fold_snd_small (f : Z * Z -> Z -> outcome (Z * Z)) l r : (forall i z c q, small64 z -> f (i, z) c = Ok q -> small64 (snd q)) -> omap snd (ofold f l (0, 0)) = Ok r -> small64 r.
Proof.
  intros F H. inv_ok H. injection H as <-. apply (ofold_inv (fun q : Z * Z => small64 (snd q))) in E; [exact E| |apply small64_0].
  intros [i z] c q Hz _ Hq. exact (F i z c q Hz Hq).
Qed.
Lemma parse_small v base r : parse_raw_ v base = Ok r -> small64 r.
Proof.
  unfold parse_raw_. intros H.
  destruct (is_one_of base _).
  { injection H as <-. apply (fold_inv (fun q : Z * Z => small64 (snd q))); [|apply small64_0]. intros [i z] c Hz. unfold parse_dec_step. destruct (is_digit c); cbn [snd]; [apply u64_range|exact Hz]. }
  destruct (is_one_of base _).
  { apply fold_snd_small in H; [exact H|]. intros i z c q Hz Hq. unfold parse_bin_step in Hq. destruct (is_one_of c _); inv_ok Hq; try (injection Hq as <-; cbn [snd]).
    - inv_ok E. injection E as <-. apply lor_r; [exact Hz|apply (shl_u64 _ _ _ E0)].
    - injection E as <-. exact Hz. }
  destruct (is_one_of base _).
  { apply fold_snd_small in H; [exact H|]. intros i z c q Hz Hq. unfold parse_pow2_step in Hq. inv_ok Hq. injection Hq as <-. cbn [snd]. apply lor_r; [exact Hz|apply (shl_u64 _ _ _ E)]. }
  destruct (is_one_of base _).
  { apply fold_snd_small in H; [exact H|]. intros i z c q Hz Hq. unfold parse_pow2_step in Hq. inv_ok Hq. injection Hq as <-. cbn [snd]. apply lor_r; [exact Hz|apply (shl_u64 _ _ _ E)]. }
  destruct (is_one_of base _); injection H as <-; [|apply small64_0].
  unfold parse_str. apply (fold_inv (fun q : Z * Z => small64 (fst q))); [|apply small64_0]. intros [z i] c Hz. cbn [fst] in *. apply lor_r; [exact Hz|apply u64_range].
Qed.
Lemma parse_xz_small v base r : parse_xz_raw_ v base = Ok r -> small64 r.
Proof.
  unfold parse_xz_raw_. intros H.
  destruct (is_one_of base _).
  { apply fold_snd_small in H; [exact H|]. intros i z c q Hz Hq. unfold parse_xz_bin_step in Hq. destruct (is_one_of c _); inv_ok Hq; try (injection Hq as <-; cbn [snd]).
    - inv_ok E. injection E as <-. apply lor_r; [exact Hz|apply (shl_u32 _ _ _ E0)].
    - injection E as <-. exact Hz. }
  destruct (is_one_of base _).
  { apply fold_snd_small in H; [exact H|]. intros i z c q Hz Hq. unfold parse_xz_pow2_step in Hq. destruct (is_one_of c _); inv_ok Hq; try (injection Hq as <-; cbn [snd]).
    - inv_ok E. injection E as <-. apply lor_r; [exact Hz|apply (shl_u64 _ _ _ E0)].
    - injection E as <-. exact Hz. }
  destruct (is_one_of base _).
  { apply fold_snd_small in H; [exact H|]. intros i z c q Hz Hq. unfold parse_xz_pow2_step in Hq. destruct (is_one_of c _); inv_ok Hq; try (injection Hq as <-; cbn [snd]).
    - inv_ok E. injection E as <-. apply lor_r; [exact Hz|apply (shl_u64 _ _ _ E0)].
    - injection E as <-. exact Hz. }
  injection H as <-. apply small64_0.
Qed.
Lemma parse_big_wfn one v n r : 1 <= n -> (forall s b w, one s b = Ok w -> small64 w) -> parse_big one v n = Ok r -> wfn n r.
Proof.
  intros Hn O H. unfold parse_big in H. destruct (get_input_base v) as [base start]. apply (words_wfn _ _ _ _ n) in H; [exact H| |apply zero_wfn; exact Hn]. intros s w. apply O.
Qed.
Lemma text_vec msb lsb s t r : declarable msb lsb -> bit_of_str msb lsb s t = Ok r -> vec r.
Proof.
  intros (A & B & C) H. assert (1 <= width msb lsb) by (unfold width; lia). unfold bit_of_str, native_num in H. change (vsize msb lsb) with (width msb lsb) in H.
  destruct (Z.leb_spec (width msb lsb) 64); inv_ok H; injection H as <-.
  - apply vec_conv; try assumption. reflexivity.
  - apply big_vec; try assumption; [lia|]. apply (parse_big_wfn parse_raw_ t); [lia|apply parse_small|exact E].
Qed.
