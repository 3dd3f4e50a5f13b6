(** Multi-word products, quotients, bitwise operators and shifts against the reference machine of SpecWide.v. *)
From Coq Require Import ZArith List Bool Lia Zify ZifyBool.
From Verif Require Import Cpp BigNum Bit Logic Spec SpecExact SpecMachine SpecWide ZBits Words BigNumProofs BigArith BitProofs BitSlice BitExt BitOps BitShift BitArith BitCmp MachineProofs MachineProofs2 MachineProofs3 MachineProofs4 WideProofs.
Import ListNotations.
Open Scope Z_scope.
Local Ltac Zify.zify_post_hook ::= idtac.

Definition meets (n : Z) (r : outcome (list Z)) (z : outcome Z) : Prop :=
  match r with Ok r => wfn n r /\ exists z', z = Ok z' /\ words_num r = z' mod 2 ^ capacity n | e => omap (fun _ => 0) e = z end.
Lemma bin_wide_s f g h : (forall s1 s2 n x y, 65 <= n < 2 ^ 31 -> wfn n x -> wfn n y ->
    meets n (g s1 s2 n x y) (h s1 n (words_num x) (words_num y))) ->
  same_ok (fun a b => bit_bin f (g (bsgn a) (bsgn b)) a b) h.
Proof.
  intros G a b n Va Vb Wa Wb H. unfold bit_bin. cbn zeta. rewrite (bsize_bw a n Wa).
  destruct (vec_cases a Va) as [(x & Ea & Na & _) | (x & Ea & Na & Ia & Sa)]; [lia|].
  destruct (vec_cases b Vb) as [(y & Eb & Nb & _) | (y & Eb & Nb & Ib & Sb)]; [lia|].
  rewrite Ea, Eb, Sa, Sb. unfold requires, same_size_op. rewrite (bsize_bw b n Wb), Z.eqb_refl. cbn [andb].
  destruct (blsb b <=? bmsb b); [|reflexivity]. rewrite Wa in Ia, Na. rewrite Wb in Ib. specialize (G (bsgn a) (bsgn b) n x y Na Ia Ib).
  unfold meets in G. destruct (g _ _ n x y) as [r| | | |]; unfold omap in *; cbn [bind] in *; try (rewrite <- G; reflexivity).
  destruct G as (W & z & -> & E). unfold wide_result, omap. cbn [bind]. rewrite vec_of_wide by lia. rewrite (big_eq n r z ltac:(lia) W E). reflexivity.
Qed.

(** * tests on the lower halves *)
Lemma blank_reduce ws : (reduce_or ws =? 0) = blank ws.
Proof.
  apply Bool.eq_iff_eq_true. rewrite Z.eqb_eq, reduce_or_zero. unfold blank. rewrite forallb_forall, Forall_forall.
  split; intros H w Hw; specialize (H w Hw); unfold low32 in *; lia.
Qed.
Lemma seems_zero_words n ws : 1 <= n -> wfn n ws -> seems_zero n (words_num ws) = negb (bn_any_set ws).
Proof. intros H W. unfold seems_zero, bn_any_set. rewrite words_of_self, blank_reduce, negb_involutive by assumption. reflexivity. Qed.
Lemma seems_small_words n ws : 1 <= n -> wfn n ws -> seems_small n (words_num ws) = bn_fit_in_64 ws.
Proof. intros H W. unfold seems_small, bn_fit_in_64. rewrite words_of_self, blank_reduce by assumption. reflexivity. Qed.
Lemma word0_mod ws : wf ws -> word ws 0 = words_num ws mod 2 ^ 64.
Proof. intros W. rewrite words_num_tl, Z.mul_comm, Z.mod_add by lia. symmetry. apply Z.mod_small. apply word_range. exact W. Qed.

(** * products *)
Lemma ofold_ub {A B} (f : B -> A -> outcome B) (P : B -> Prop) l i : (forall r j, P r -> In j l -> f r j = UB \/ exists r', f r j = Ok r' /\ P r') ->
  In i l -> (forall r, P r -> f r i = UB) -> forall r, P r -> ofold f l r = UB.
Proof.
  intros St IN U. induction l as [|j l IH]; intros r R; [destruct IN|]. cbn [ofold].
  destruct (St r j R ltac:(left; reflexivity)) as [-> | (r' & E & R')]; [reflexivity|]. destruct IN as [-> | IN]; [rewrite (U r R) in E; discriminate|].
  rewrite E. cbn [bind]. apply IH; [|exact IN|exact R']. intros q k Q K. apply St; [exact Q|right; exact K].
Qed.
Lemma ofold_step {A B} (f : B -> A -> outcome B) (P : B -> Prop) l : (forall r j, P r -> In j l -> f r j = UB \/ exists r', f r j = Ok r' /\ P r') ->
  forall r, P r -> ofold f l r = UB \/ exists r', ofold f l r = Ok r' /\ P r'.
Proof.
  induction l as [|j l IH]; intros St r R; [right; exists r; split; [reflexivity|exact R]|]. cbn [ofold].
  destruct (St r j R ltac:(left; reflexivity)) as [-> | (r' & -> & R')]; [left; reflexivity|]. cbn [bind]. apply IH; [|exact R'].
  intros q k Q K. apply St; [exact Q|right; exact K].
Qed.
Lemma top_word n ws : 1 <= n -> wfn n ws -> words_num ws <> 0 ->
  exists k, 0 <= k < nwords n /\ below ws (k + 1) /\ word ws k <> 0 /\ Z.log2 (words_num ws) / 64 = k.
Proof.
  intros H [W L] N. pose proof (nwords_bounds n H) as NB.
  assert (G : forall m, below ws (Z.of_nat m) -> Z.of_nat m <= nwords n -> exists k, 0 <= k < nwords n /\ below ws (k + 1) /\ word ws k <> 0).
  { induction m as [|m IH]; intros B Hm.
    - exfalso. apply N. apply all_zero_num; [exact W|]. apply Forall_forall. intros v Hv. apply In_nth with (d := 0) in Hv.
      destruct Hv as (i & Hi & <-). specialize (B (Z.of_nat i) ltac:(lia)). unfold word in B. rewrite Nat2Z.id in B. exact B.
    - destruct (Z.eq_dec (word ws (Z.of_nat m)) 0) as [E | E].
      + apply IH; [|lia]. intros i Hi. destruct (Z.eq_dec i (Z.of_nat m)) as [-> | D]; [exact E|]. apply B. lia.
      + exists (Z.of_nat m). split; [lia|]. split; [|exact E]. intros i Hi. apply B. lia. }
  destruct (G (Z.to_nat (nwords n))) as (k & K1 & K2 & K3); [intros i Hi; apply word_out; lia|lia|].
  exists k. repeat (split; [assumption|]). rewrite (words_num_top ws k) by (assumption || lia).
  pose proof (word_range ws k W) as R. pose proof (Z.log2_nonneg (word ws k)). assert (Z.log2 (word ws k) < 64) by (apply Z.log2_lt_pow2; lia).
  symmetry. apply Z.div_unique with (r := Z.log2 (word ws k)); lia.
Qed.
Lemma step_ok n a b i r j : 1 <= n -> wf a -> wf b -> wfn n r -> 0 <= i < nwords n -> 0 <= j < nwords n -> 65 <= n ->
  bn_mul_step n a b i r j = UB \/ exists r', bn_mul_step n a b i r j = Ok r' /\ wfn n r'.
Proof.
  intros H Wa Wb Wr Hi Hj H65. destruct (Z.eq_dec (word b j) 0) as [E | E].
  - right. exists r. split; [|exact Wr]. unfold bn_mul_step. replace (word b j =? 0) with true by lia. reflexivity.
  - destruct (Z.ltb_spec (i + j + 1) (nwords n)) as [C | C].
    + right. destruct (bn_mul_step_spec n a b i r j H Wa Wb Wr ltac:(lia) ltac:(lia) ltac:(lia)) as (r' & R1 & R2 & _). exists r'. split; assumption.
    + left. pose proof (nwords_bounds n H). apply bn_mul_step_ub; try assumption; try lia. apply Wr.
Qed.
Lemma mul_meets n x y : 65 <= n < 2 ^ 31 -> wfn n x -> wfn n y ->
  meets n (bn_mul n x y) (let X := words_num x in let Y := words_num y in
    if seems_small n X && seems_small n Y then Ok ((X mod 2 ^ 64) * (Y mod 2 ^ 64))
    else if (X =? 0) || (Y =? 0) then Ok 0
    else if Z.log2 X / 64 + Z.log2 Y / 64 + 1 <? words_in n then Ok (X * Y)
    else UB).
Proof.
  intros H X Y. cbn zeta. pose proof (nwords_bounds n ltac:(lia)) as NB. pose proof (capacity_nwords n) as CN.
  rewrite !seems_small_words by (assumption || lia). rewrite words_in_nwords. destruct (bn_fit_in_64 x && bn_fit_in_64 y) eqn:F.
  - unfold bn_mul. rewrite F. rewrite <- !word0_mod by (apply X || apply Y).
    pose proof (word_range x 0 (proj1 X)). pose proof (word_range y 0 (proj1 Y)).
    assert (C : 0 <= word x 0 * word y 0 < 2 ^ 128) by nia.
    assert (E128 : u128 (word x 0 * word y 0) = word x 0 * word y 0) by (apply Z.mod_small; lia).
    rewrite E128, carry_low by lia. set (c := word x 0 * word y 0) in *.
    destruct (one_word n 0 (c mod 2 ^ 64) ltac:(lia) ltac:(lia) ltac:(apply Z.mod_pos_bound; lia)) as (P1 & W1 & E1).
    rewrite P1. cbn [bind]. rewrite Z.shiftr_div_pow2 by lia.
    assert (Q : 0 <= c / 2 ^ 64 < 2 ^ 64) by (split; [apply Z.div_pos; lia | apply Z.div_lt_upper_bound; lia]).
    rewrite (u64_id _ Q). set (r0 := word_set (bn_zero n) 0 (c mod 2 ^ 64)) in *. destruct W1 as [W1 L1].
    rewrite word_put_spec, L1. replace ((0 <=? 1) && (1 <? nwords n)) with true by lia.
    split; [split; [apply word_set_wf; assumption | rewrite word_set_len; exact L1]|]. exists c. split; [reflexivity|].
    assert (Z1 : word r0 1 = 0).
    { unfold r0. destruct (bn_zero_wfn n ltac:(lia)) as [Wz Lz]. rewrite word_set_word by lia.
      change (1 =? 0) with false. apply bn_zero_word. }
    rewrite words_num_word_set by (assumption || lia). rewrite E1, CN.
    change (64 * 0) with 0. change (64 * 1) with 64. rewrite Z.pow_0_r. pose proof (Z.div_mod c (2 ^ 64) ltac:(lia)) as DM.
    pose proof (pow2_mono 128 (64 * nwords n) ltac:(lia)) as HM.
    rewrite (Z.mod_small c (2 ^ (64 * nwords n))) by (split; [apply C | eapply Z.lt_le_trans; [apply C | exact HM]]). lia.
  - unfold bn_mul. rewrite F. destruct (Z.eqb_spec (words_num x) 0) as [Ex | Ex]; [|destruct (Z.eqb_spec (words_num y) 0) as [Ey | Ey]]; cbn [orb].
    + assert (B : below x 0).
      { intros i Hi. apply all_zero_num in Ex; [|apply X]. rewrite Forall_forall in Ex. unfold word.
        destruct (nth_in_or_default (Z.to_nat i) x 0) as [IN | ->]; [apply Ex; exact IN|reflexivity]. }
      destruct (bn_mul_school n x y 0 (nwords n) ltac:(lia) X Y B) as (r & -> & W & E); [intros i Hi; apply word_out; destruct Y; lia|lia|].
      split; [exact W|]. exists 0. split; [reflexivity|]. rewrite E, Ex, CN. reflexivity.
    + assert (B : below y 0).
      { intros i Hi. apply all_zero_num in Ey; [|apply Y]. rewrite Forall_forall in Ey. unfold word.
        destruct (nth_in_or_default (Z.to_nat i) y 0) as [IN | ->]; [apply Ey; exact IN|reflexivity]. }
      destruct (bn_mul_school n x y (nwords n) 0 ltac:(lia) X Y) as (r & -> & W & E); [intros i Hi; apply word_out; destruct X; lia|exact B|lia|].
      split; [exact W|]. exists 0. split; [reflexivity|]. rewrite E, Ey, CN, Z.mul_0_r. reflexivity.
    + destruct (top_word n x ltac:(lia) X Ex) as (i & I1 & I2 & I3 & ->). destruct (top_word n y ltac:(lia) Y Ey) as (j & J1 & J2 & J3 & ->).
      destruct (Z.ltb_spec (i + j + 1) (nwords n)) as [C | C].
      * destruct (bn_mul_school n x y (i + 1) (j + 1) ltac:(lia) X Y I2 J2 ltac:(lia)) as (r & -> & W & E).
        split; [exact W|]. eexists. split; [reflexivity|]. rewrite E, CN. reflexivity.
      * rewrite (ofold_ub _ (wfn n) _ i); [reflexivity| | | |apply bn_zero_wfn; lia].
        -- intros r k Wr Hk. apply in_zrange in Hk. destruct (Z.eqb_spec (word x k) 0) as [K | K]; [right; exists r; split; [reflexivity|exact Wr]|].
           apply ofold_step; [|exact Wr]. intros q m Wq Hm. apply in_zrange in Hm. apply step_ok; try assumption; try lia; (apply X || apply Y).
        -- apply in_zrange. lia.
        -- intros r Wr. replace (word x i =? 0) with false by lia.
           apply (ofold_ub _ (wfn n) _ j); [|apply in_zrange; lia| |exact Wr].
           ++ intros q m Wq Hm. apply in_zrange in Hm. apply step_ok; try assumption; try lia; (apply X || apply Y).
           ++ intros q Wq. apply bn_mul_step_ub; try assumption; try lia. apply Wq.
Qed.
Lemma mul_same_wide : same_ok bit_mul_same (fun _ n X Y =>
    if seems_small n X && seems_small n Y then Ok ((X mod 2 ^ 64) * (Y mod 2 ^ 64))
    else if (X =? 0) || (Y =? 0) then Ok 0
    else if Z.log2 X / 64 + Z.log2 Y / 64 + 1 <? words_in n then Ok (X * Y)
    else UB).
Proof. exact (bin_wide_s c_mul (fun _ _ => bn_mul) _ (fun _ _ => mul_meets)). Qed.
Lemma mul_any a b : vec a -> vec b -> bit_mul a b = any_product a b.
Proof.
  intros Va Vb. unfold any_product. cbn zeta. destruct (small a && small b) eqn:Q; [apply small_true in Q; apply mul_machine; tauto|].
  apply small_cases in Q. exact (arith_wide _ _ a b mul_same_wide Va Vb Q).
Qed.

(** * quotients and remainders *)
Definition pair_is (n : Z) (qr : list Z * list Z) (z : Z * Z) : Prop :=
  wfn n (fst qr) /\ wfn n (snd qr) /\ words_num (fst qr) = fst z /\ words_num (snd qr) = snd z.
Lemma long_meets n op : 65 <= n -> wfn n op -> forall j d q r, wfn n q -> wfn n r ->
  pair_is n (fold_left (bn_div_loop n op d) (zrange (d + 1 - Z.of_nat j) (d + 1)) (q, r)) (long_division n (words_num op) j (words_num q) (words_num r)).
Proof.
  intros H Wop. induction j as [|j IH]; intros d q r Wq Wr.
  - rewrite zrange_empty by lia. cbn [fold_left long_division]. repeat (split; try assumption).
  - rewrite zrange_cons by lia. cbn [fold_left long_division]. replace (d + 1 - Z.of_nat (S j) + 1) with (d + 1 - Z.of_nat j) by lia.
    unfold bn_div_loop at 2. replace (d - (d + 1 - Z.of_nat (S j))) with (Z.of_nat j) by lia.
    destruct (bn_shl_spec n op (Z.of_nat j) ltac:(lia) ltac:(lia) Wop) as [Wt Et]. rewrite bn_uge_spec by assumption. rewrite Et.
    set (t := (words_num op * 2 ^ Z.of_nat j) mod 2 ^ n) in *. assert (T0 : 0 <= t) by (apply Z.mod_pos_bound; apply pow2_pos; lia).
    destruct (Z.leb_spec t (words_num r)) as [L | L]; [|apply IH; assumption].
    destruct (bn_sub_spec n r _ ltac:(lia) Wr Wt) as [Ws Es]. rewrite Et in Es.
    rewrite Z.mod_small in Es by (pose proof (words_range n r ltac:(lia) Wr) as R; rewrite capacity_nwords in R; lia). rewrite <- Es.
    assert (Wq' : wfn n (bn_set n q (Z.of_nat j) true)) by (split; [apply bn_set_wf; apply Wq | rewrite bn_set_len; apply Wq]).
    assert (Eq : words_num (bn_set n q (Z.of_nat j) true) = if Z.of_nat j <? n then Z.setbit (words_num q) (Z.of_nat j) else words_num q).
    { destruct (wfn_cap n q ltac:(lia) Wq) as (C & _ & _). destruct (Z.ltb_spec (Z.of_nat j) n) as [J | J]; apply Z.bits_inj'; intros p Hp; rewrite bn_set_spec by (try apply Wq; lia).
      - rewrite Z.setbit_eqb by lia. rewrite (Z.eqb_sym (Z.of_nat j)). replace (Z.of_nat j <? n) with true by lia. rewrite andb_true_r. destruct (p =? Z.of_nat j); reflexivity.
      - replace (Z.of_nat j <? n) with false by lia. rewrite andb_false_r. reflexivity. }
    rewrite <- Eq. apply IH; assumption.
Qed.
Lemma native_pair n v : 65 <= n -> 0 <= v < 2 ^ 64 -> wfn n (bn_of_native n v) /\ words_num (bn_of_native n v) = v.
Proof. intros H R. destruct (bn_of_native_spec n v ltac:(lia)) as [W E]. rewrite u64_id in E by exact R. split; assumption. Qed.
Lemma div_mod_meets n a op : 65 <= n < 2 ^ 31 -> wfn n a -> wfn n op ->
  match bn_div_mod n false a false op, divided n (words_num a) (words_num op) with
  | Ok qr, Ok z => pair_is n qr z | UB, UB => True | _, _ => False
  end.
Proof.
  intros H Wa Wop. unfold bn_div_mod, divided. rewrite (seems_zero_words n op) by (assumption || lia).
  destruct (native_pair n 0 ltac:(lia) ltac:(lia)) as [W0 E0]. destruct (native_pair n 1 ltac:(lia) ltac:(lia)) as [W1 E1].
  pose proof (words_num_nonneg op (proj1 Wop)) as P0.
  assert (NZ : bn_any_set op = true -> words_num op <> 0) by (intros S0 Q; rewrite (bn_any_set_zero op (proj1 Wop) Q) in S0; discriminate).
  destruct (bn_any_set op); cbn [negb].
  2:{ unfold pair_is. cbn [fst snd]. rewrite bn_zero_num. pose proof (bn_zero_wfn n ltac:(lia)). tauto. }
  specialize (NZ eq_refl). unfold bn_div_mod_unsigned. pose proof (nwords_bounds n ltac:(lia)) as NB.
  assert (IO : bn_is_one op = seems_small n (words_num op) && (words_num op mod 2 ^ 64 =? 1)).
  { rewrite seems_small_words by (assumption || lia). rewrite <- word0_mod by apply Wop. unfold bn_is_one, bn_fit_in_64.
    destruct Wop as [_ L]. unfold wlen in L. replace (Z.of_nat (length op) =? 1) with false by lia. apply andb_comm. }
  rewrite <- IO. destruct (bn_is_one op); [unfold pair_is; cbn [fst snd]; repeat (split; try assumption; try reflexivity)|].
  rewrite words_eqb_same by (apply Wa || apply Wop || (destruct Wa, Wop; lia)).
  destruct (words_num a =? words_num op); [unfold pair_is; cbn [fst snd]; tauto|].
  rewrite bn_ugt_spec by assumption. destruct (Z.ltb_spec (words_num a) (words_num op)) as [L | L]; [unfold pair_is; cbn [fst snd]; tauto|].
  rewrite !seems_small_words by (assumption || lia). rewrite <- !word0_mod by (apply Wa || apply Wop).
  destruct (bn_fit_in_64 a && bn_fit_in_64 op).
  - pose proof (word_range a 0 (proj1 Wa)) as Ra. pose proof (word_range op 0 (proj1 Wop)) as Ro. destruct (Z.eqb_spec (word op 0) 0) as [E | E]; [exact Logic.I|].
    assert (Q1 : 0 <= word a 0 / word op 0 < 2 ^ 64) by (split; [apply Z.div_pos; lia|apply Z.div_lt_upper_bound; nia]).
    assert (Q2 : 0 <= word a 0 mod word op 0 < 2 ^ 64) by (pose proof (Z.mod_pos_bound (word a 0) (word op 0)); lia).
    destruct (native_pair n _ ltac:(lia) Q1), (native_pair n _ ltac:(lia) Q2). unfold pair_is. cbn [fst snd]. tauto.
  - rewrite (bn_highest_scan_spec n a), (bn_highest_scan_spec n op) by (assumption || lia).
    pose proof (Z.log2_le_mono (words_num op) (words_num a) ltac:(lia)) as LM. pose proof (Z.log2_nonneg (words_num op)) as LN.
    pose proof (words_range n a ltac:(lia) Wa) as R.
    assert (LC : Z.log2 (words_num a) < capacity n) by (apply Z.log2_lt_pow2; lia). rewrite capacity_nwords in LC.
    rewrite u64_id by lia. set (d := Z.log2 (words_num a) - Z.log2 (words_num op)) in *.
    pose proof (long_meets n op ltac:(lia) Wop (Z.to_nat (d + 1)) d (bn_zero n) a (bn_zero_wfn n ltac:(lia)) Wa) as LD.
    replace (d + 1 - Z.of_nat (Z.to_nat (d + 1))) with 0 in LD by lia. rewrite bn_zero_num in LD. exact LD.
Qed.
Lemma quot_meets (pick : Z * Z -> Z) (wpick : list Z * list Z -> list Z) s1 s2 n x y : (pick = fst /\ wpick = fst \/ pick = snd /\ wpick = snd) ->
  65 <= n < 2 ^ 31 -> wfn n x -> wfn n y ->
  meets n (omap wpick (bn_div_mod n s1 x s2 y)) (if s1 then IllFormed else omap pick (divided n (words_num x) (words_num y))).
Proof.
  intros P H X Y. destruct s1; [reflexivity|]. pose proof (div_mod_meets n x y H X Y) as D. change (bn_div_mod n false x s2 y) with (bn_div_mod n false x false y).
  destruct (bn_div_mod n false x false y) as [qr| | | |], (divided n (words_num x) (words_num y)) as [z| | | |]; try contradiction; [|reflexivity].
  destruct D as (W1 & W2 & E1 & E2). pose proof (words_range n _ ltac:(lia) W1). pose proof (words_range n _ ltac:(lia) W2). unfold omap. cbn [bind meets].
  destruct P as [[-> ->] | [-> ->]]; (split; [assumption|]; eexists; split; [reflexivity|]); rewrite <- ?E1, <- ?E2; symmetry; apply Z.mod_small; assumption.
Qed.
Lemma div_same_wide : same_ok bit_div_same (fun s n x y => if s then IllFormed else omap fst (divided n x y)).
Proof. refine (bin_wide_s c_div (fun s1 s2 n x y => omap fst (bn_div_mod n s1 x s2 y)) _ _). intros s1 s2 n x y. apply (quot_meets fst fst). left. split; reflexivity. Qed.
Lemma rem_same_wide : same_ok bit_rem_same (fun s n x y => if s then IllFormed else omap snd (divided n x y)).
Proof. refine (bin_wide_s c_rem (fun s1 s2 n x y => omap snd (bn_div_mod n s1 x s2 y)) _ _). intros s1 s2 n x y. apply (quot_meets snd snd). right. split; reflexivity. Qed.
Lemma div_any a b : vec a -> vec b -> bit_div a b = any_quotient a b.
Proof.
  intros Va Vb. unfold any_quotient. destruct (small a && small b) eqn:Q; [apply small_true in Q; apply div_machine; tauto|].
  apply small_cases in Q. exact (arith_wide _ _ a b div_same_wide Va Vb Q).
Qed.
Lemma rem_any a b : vec a -> vec b -> bit_rem a b = any_remainder a b.
Proof.
  intros Va Vb. unfold any_remainder. destruct (small a && small b) eqn:Q; [apply small_true in Q; apply rem_machine; tauto|].
  apply small_cases in Q. exact (arith_wide _ _ a b rem_same_wide Va Vb Q).
Qed.

(** * bitwise operators *)
Lemma mask_off_wide a : vec a -> 65 <= bw a -> bit_mask_off a = rewritten a (stored a mod 2 ^ bw a).
Proof.
  intros V H. wide a x Ea Na Ia Sa. unfold bit_mask_off. rewrite rewritten_wide by exact H. rewrite Ea, (bsize_bw a _ eq_refl), Sa.
  destruct (bn_mask_off_spec (bw a) x ltac:(lia) Ia) as [W E]. do 2 apply f_equal. apply big_eq; [lia|exact W|]. rewrite E. symmetry. apply Z.mod_small.
  pose proof (Z.mod_pos_bound (words_num x) (2 ^ bw a) (pow2_pos (bw a) ltac:(lia))). pose proof (pow_mono2 _ _ (capacity_ge (bw a) ltac:(lia))). lia.
Qed.

Lemma mask_off_every a : vec a -> bit_mask_off a = rewritten a (stored a mod 2 ^ bw a).
Proof.
  intros V. destruct (Z.leb_spec (bw a) 64) as [C | C]; [|apply mask_off_wide; [exact V|lia]].
  rewrite rewritten_small by exact C. apply mask_off_any; assumption.
Qed.
Lemma and_same_wide : same_ok bit_and_same (fun _ n x y => Ok (Z.land x y mod 2 ^ n)).
Proof.
  apply (bin_wide _ _ (fun n x y => Ok (Z.land x y mod 2 ^ n))). intros n x y H X Y. destruct (bn_and_spec n x y ltac:(lia) X Y) as [W E].
  split; [exact W|]. eexists. split; [reflexivity|]. rewrite <- E. symmetry. apply Z.mod_small. apply words_range; [lia|exact W].
Qed.
Lemma or_same_wide : same_ok bit_or_same (fun _ _ x y => Ok (Z.lor x y)).
Proof.
  apply (bin_wide _ _ (fun _ x y => Ok (Z.lor x y))). intros n x y H X Y. destruct (bn_or_spec n x y X Y) as [W E].
  split; [exact W|]. eexists. split; [reflexivity|]. rewrite <- E. symmetry. apply Z.mod_small. apply words_range; [lia|exact W].
Qed.
Lemma xor_same_wide : same_ok bit_xor_same (fun _ _ x y => Ok (Z.lxor x y)).
Proof.
  apply (bin_wide _ _ (fun _ x y => Ok (Z.lxor x y))). intros n x y H X Y. destruct (bn_xor_spec n x y X Y) as [W E].
  split; [exact W|]. eexists. split; [reflexivity|]. rewrite <- E. symmetry. apply Z.mod_small. apply words_range; [lia|exact W].
Qed.
Lemma vec_of_mod n s z z' : 65 <= n -> z mod 2 ^ capacity n = z' mod 2 ^ capacity n -> vec_of n s z = vec_of n s z'.
Proof. intros H E. rewrite !vec_of_wide by lia. rewrite (words_of_eq n z z') by (assumption || lia). reflexivity. Qed.
Lemma rewritten_vec_of n s z w : 1 <= n -> rewritten (vec_of n s z) w = vec_of n s w.
Proof. reflexivity. Qed.
Lemma mod_cap n z : 1 <= n -> z mod 2 ^ capacity n mod 2 ^ n = z mod 2 ^ n.
Proof. intros H. apply mod_mod_pow2. pose proof (capacity_ge n H). lia. Qed.
Lemma mask_vec_of n s z : 65 <= n < 2 ^ 31 -> bit_mask_off (vec_of n s z) = vec_of n s (z mod 2 ^ n).
Proof.
  intros H. rewrite mask_off_every by (apply vec_of_vec; lia). rewrite rewritten_vec_of, vec_of_bw, stored_vec_of by lia. rewrite mod_cap by lia. reflexivity.
Qed.
Lemma bitwise_wide same (op : Z -> Z -> Z) (cutting : bool) a b :
  same_ok same (fun _ n x y => Ok (if cutting then op x y mod 2 ^ n else op x y)) -> vec a -> vec b -> 65 <= wider a b ->
  (if bsize a =? bsize b then same a b else omap bit_mask_off (bit_mixed same a b)) =
  combined (fun x y => Ok (if cutting || negb (bw a =? bw b) then op x y mod 2 ^ wider a b else op x y)) a b.
Proof.
  intros O Va Vb H. change (bsize a) with (bw a). change (bsize b) with (bw b). pose proof (wide_bound a b Va Vb) as WB.
  destruct (Z.eqb_spec (bw a) (bw b)) as [E | E]; cbn [negb].
  - rewrite (same_wide same _ a b O Va Vb E H), orb_false_r. reflexivity.
  - rewrite (mixed_wide same _ a b O Va Vb E H). rewrite !combined_match. destruct (negb (pairs_up a b)); [reflexivity|].
    unfold wide_result, omap. cbn [bind]. rewrite orb_true_r. apply f_equal. rewrite mask_vec_of by lia. apply f_equal.
    destruct cutting; [apply Z.mod_mod; apply Z.pow_nonzero; lia|reflexivity].
Qed.
Lemma and_any a b : vec a -> vec b -> bit_and a b = any_bitwise Z.land true a b.
Proof.
  intros Va Vb. unfold any_bitwise. destruct (small a && small b) eqn:Q; [apply small_true in Q; apply and_machine; tauto|].
  apply small_cases in Q. exact (bitwise_wide bit_and_same Z.land true a b and_same_wide Va Vb Q).
Qed.
Lemma or_any a b : vec a -> vec b -> bit_or a b = any_bitwise Z.lor false a b.
Proof.
  intros Va Vb. unfold any_bitwise. destruct (small a && small b) eqn:Q; [apply small_true in Q; apply or_machine; tauto|].
  apply small_cases in Q. exact (bitwise_wide bit_or_same Z.lor false a b or_same_wide Va Vb Q).
Qed.
Lemma xor_any a b : vec a -> vec b -> bit_xor a b = any_bitwise Z.lxor false a b.
Proof.
  intros Va Vb. unfold any_bitwise. destruct (small a && small b) eqn:Q; [apply small_true in Q; apply xor_machine; tauto|].
  apply small_cases in Q. exact (bitwise_wide bit_xor_same Z.lxor false a b xor_same_wide Va Vb Q).
Qed.

(** * shifts *)
Lemma wide_holder n ws z : 65 <= n -> wfn n ws -> words_num ws = z -> HB ws = HB (words_of n z).
Proof. intros H W <-. rewrite words_of_self by (assumption || lia). reflexivity. Qed.
Lemma shift_any narrow op gn gb f a k :
  (forall x y, op (mkBit (bmsb a) (blsb a) (bsgn a) (HB x)) (mkBit (bmsb k) (blsb k) (bsgn k) (HN y)) = Ok (mkBit (bw a - 1) 0 (both_signed a k) (HB (gn x (u64 y))))) ->
  (forall x y, op (mkBit (bmsb a) (blsb a) (bsgn a) (HB x)) (mkBit (bmsb k) (blsb k) (bsgn k) (HB y)) = Ok (mkBit (bw a - 1) 0 (both_signed a k) (HB (gb x y)))) ->
  (forall x y, op (mkBit (bmsb a) (blsb a) (bsgn a) (HN x)) (mkBit (bmsb k) (blsb k) (bsgn k) (HB y)) = IllFormed) ->
  (bw a <= 64 -> bw k <= 64 -> op a k = narrow a k) ->
  (forall x z, 65 <= bw a < 2 ^ 31 -> stored a = words_num x -> wfn (bw a) x -> 0 <= z -> wfn (bw a) (gn x z) /\ words_num (gn x z) = f z) ->
  (forall x y, 65 <= bw a < 2 ^ 31 -> stored a = words_num x -> wfn (bw a) x -> wf y -> wfn (bw a) (gb x y) /\ words_num (gb x y) = f (words_num y)) ->
  vec a -> vec k -> op a k = any_shift narrow f a k.
Proof.
  intros O1 O2 O3 O4 F1 F2 Va Vk. unfold any_shift, any_amount, small.
  destruct (vec_cases a Va) as [(x & Ea & Na & _) | (x & Ea & Na & Ia & Sa)].
  - replace (bw a <=? 64) with true by lia. destruct (vec_cases k Vk) as [(y & Ek & Nk & _) | (y & Ek & Nk & Ik & Sk)].
    + replace (bw k <=? 64) with true by lia. apply O4; lia.
    + replace (bw k <=? 64) with false by lia. destruct a as [m l s h], k as [m' l' s' h']. cbn [bval bmsb blsb bsgn] in *. subst h h'. apply O3.
  - replace (bw a <=? 64) with false by lia. rewrite vec_of_wide by lia. destruct (vec_cases k Vk) as [(y & Ek & Nk & Ik & Sk) | (y & Ek & Nk & Ik & Sk)].
    + replace (bw k <=? 64) with true by lia. rewrite Sk. change (y mod 2 ^ 64) with (u64 y). pose proof (u64_range y) as R. destruct (F1 x (u64 y) Na Sa Ia ltac:(lia)) as [W E].
      rewrite <- (wide_holder (bw a) _ _ ltac:(lia) W E). destruct a as [m l s h], k as [m' l' s' h']. cbn [bval bmsb blsb bsgn] in *. subst h h'. apply O1.
    + replace (bw k <=? 64) with false by lia. rewrite Sk. destruct (F2 x y Na Sa Ia (proj1 Ik)) as [W E].
      rewrite <- (wide_holder (bw a) _ _ ltac:(lia) W E). destruct a as [m l s h], k as [m' l' s' h']. cbn [bval bmsb blsb bsgn] in *. subst h h'. apply O2.
Qed.
Lemma shl_any a k : vec a -> vec k -> bit_shl a k = any_left a k.
Proof.
  intros Va Vk. apply (shift_any shifted_left bit_shl (bn_shl (bw a)) (bn_shl_big (bw a))); try assumption; try reflexivity.
  - intros. apply shl_machine; assumption.
  - intros x z H E W Hz. rewrite E. apply bn_shl_spec; (assumption || lia).
  - intros x y H E W Wy. rewrite E. apply bn_shl_big_spec; (assumption || lia).
Qed.
Lemma shr_any a k : vec a -> vec k -> bit_shr a k = any_right a k.
Proof.
  intros Va Vk. apply (shift_any shifted_right bit_shr (bn_shr (bw a)) (bn_shr_big (bw a))); try assumption; try reflexivity.
  - intros. apply shr_machine; assumption.
  - intros x z H E W Hz. unfold num. rewrite E. apply bn_shr_spec; (assumption || lia).
  - intros x y H E W Wy. unfold num. rewrite E. apply bn_shr_big_spec; (assumption || lia).
Qed.
Lemma snum_neg a : (snum a <? 0) = Z.testbit (stored a) (bw a - 1).
Proof.
  pose proof (num_range a) as R. pose proof (bw_pos a) as P. unfold snum. rewrite twos_sign by assumption. unfold num. rewrite testbit_mod_pow2 by lia.
  replace (bw a - 1 <? bw a) with true by lia. reflexivity.
Qed.
Lemma snum_bit a p : 0 <= p -> Z.testbit (snum a) p = if p <? bw a then Z.testbit (stored a) p else Z.testbit (stored a) (bw a - 1).
Proof.
  intros H. pose proof (num_range a) as R. pose proof (bw_pos a) as P. unfold snum. rewrite snum_testbit by assumption. unfold num.
  rewrite !testbit_mod_pow2 by lia. replace (bw a - 1 <? bw a) with true by lia. destruct (p <? bw a); reflexivity.
Qed.
Lemma ashr_any a k : vec a -> vec k -> bit_ashr a k = any_arith a k.
Proof.
  intros Va Vk.
  assert (F : forall x z, 65 <= bw a < 2 ^ 31 -> stored a = words_num x -> wfn (bw a) x -> 0 <= z -> wfn (bw a) (bn_ashr (bw a) (bsgn a) x z) /\
    words_num (bn_ashr (bw a) (bsgn a) x z) = if bsgn a then
      let r := (snum a / 2 ^ z) mod 2 ^ bw a in if z <? bw a then Z.clearbit r (bw a - 1 - z) else r
    else num a / 2 ^ z).
  { intros x z H E W Hz. destruct (bsgn a).
    - destruct (bn_ashr_signed (bw a) x z ltac:(lia) Hz W) as [W' B]. split; [exact W'|]. cbn zeta. rewrite <- E in B. apply Z.bits_inj'. intros p Hp. rewrite B by exact Hp.
      assert (R : Z.testbit ((snum a / 2 ^ z) mod 2 ^ bw a) p = (p <? bw a) && (if p + z <? bw a then Z.testbit (stored a) (p + z) else Z.testbit (stored a) (bw a - 1))).
      { rewrite testbit_mod_pow2, Z.div_pow2_bits, snum_bit by lia. reflexivity. }
      destruct (Z.ltb_spec z (bw a)) as [L | L].
      + rewrite Z.clearbit_eqb, R by lia. rewrite andb_true_r. rewrite (Z.eqb_sym (bw a - 1 - z)). destruct (p <? bw a); [|reflexivity]. cbn [andb].
        destruct (Z.ltb_spec p (bw a - 1 - z)) as [C | C].
        * replace (p =? bw a - 1 - z) with false by lia. replace (p + z <? bw a) with true by lia. rewrite andb_true_r. reflexivity.
        * destruct (Z.eqb_spec p (bw a - 1 - z)) as [D | D]; cbn [negb andb]; [rewrite andb_false_r; reflexivity|].
          replace (p + z <? bw a) with false by lia. rewrite andb_true_r. reflexivity.
      + rewrite R. replace (p <? bw a - 1 - z) with false by lia. replace (p + z <? bw a) with false by lia. rewrite andb_false_r. reflexivity.
    - unfold bn_ashr, num. rewrite E. apply bn_shr_spec; (assumption || lia). }
  apply (shift_any shifted_arith bit_ashr (bn_ashr (bw a) (bsgn a)) (bn_ashr_big (bw a) (bsgn a))); try assumption; try reflexivity.
  - intros. apply ashr_machine; assumption.
  - intros x y H E W Wy. rewrite bn_ashr_big_eq by (assumption || lia). apply F; try assumption. apply words_num_nonneg. exact Wy.
Qed.
