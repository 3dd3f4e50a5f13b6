(** Lemmas about formatting: the statements behind the property theorems. *)
From Coq Require Import ZArith List Bool Lia String Ascii.
From Verif Require Import Cpp BigNum Bit Logic Util Spec SpecText ZBits Words BigNumProofs BitProofs BitExt BitOps BigArith BitArith BitShift BitCmp BitMain BitMain4 LogicMain TextProofs TextBig FmtProofs.
Import ListNotations.
Open Scope Z_scope.

Lemma nd_fmt base k : pow2_fmt base k -> ~ among "0123456789" base.
Proof. intros B D. apply digit_among in D. destruct B as [[B _]|[[B _]|[B _]]]; chars_cases B; discriminate. Qed.
Lemma usual_pow2 base k n : pow2_fmt base k -> 1 <= n -> usual_width base n (ceil_div n k).
Proof.
  intros B Hn. pose proof (ceil_bounds n k) as C. destruct B as [[B ->]|[[B ->]|[B ->]]]; specialize (C ltac:(lia)); unfold usual_width.
  - left. split; [exact B|]. lia.
  - right; left. auto.
  - do 2 right; left. auto.
Qed.
Lemma lw_pos l : 1 <= lw l. Proof. unfold lw, bw, width. lia. Qed.
Lemma pow2_pad base k : pow2_fmt base k -> pad_char base = 48 /\ forall c, minus base c = 0.
Proof. intros [[B _]|[[B _]|[B _]]]; chars_cases B; split; reflexivity. Qed.
Lemma map_len {A} (f : Z -> A) n : 0 <= n -> Z.of_nat (List.length (map f (zrange 0 n))) = n.
Proof. intros H. rewrite map_length. now apply (len_zrange n). Qed.
Lemma logic_out l base k : lvec l -> pow2_fmt base k -> top_ok l k -> (lw l <= 64 \/ (k <> 3 /\ lw l mod 64 <> 0)) ->
  exists core, logic_str l [base] = Ok core /\ logic_str l [48; base] = Ok core /\ usual_width base (lw l) (len core) /\ forall i, 0 <= i < len core -> from_right core i = Some (group_char (group l k i)).
Proof.
  intros V B T C. pose proof (logic_digits l base k V B T C) as E. pose proof (usual_pow2 base k (lw l) B (lw_pos l)) as U. set (ss := map (fun i => group_char (group l k i)) (zrange 0 (ceil_div (lw l) k))) in *.
  destruct (stride_fmt base k B) as (_ & Hk & D). assert (Hc : 0 <= ceil_div (lw l) k) by (pose proof (ceil_bounds (lw l) k ltac:(lia)); pose proof (lw_pos l); nia).
  assert (L : len (rev ss) = ceil_div (lw l) k) by (unfold len, ss; rewrite rev_length; now apply map_len).
  assert (P : possible base (lsize l) = Ok (ceil_div (lw l) k)) by (apply possible_usual; [apply bsize_pos|]; unfold lw in *; rewrite bw_bsize in *; exact U).
  assert (E0 : logic_str l [48; base] = Ok (rev ss)). { rewrite (logic_str_core l _ _ _ _ (fmt0 base (nd_fmt _ _ B)) P), E. cbn [bind]. rewrite finish0. unfold core_of. now rewrite D, andb_false_r. }
  exists (rev ss). split; [|split; [exact E0|]].
  - destruct (logic_padding l [base] None base _ _ (fmt1 base (nd_fmt _ _ B)) U E0) as (s & Es & Ps). rewrite Es. f_equal. unfold padded, field_width in Ps. rewrite (proj2 (pow2_pad base k B)), L in Ps. rewrite Ps. replace (Z.to_nat (ceil_div (lw l) k + 0 - ceil_div (lw l) k)) with 0%nat by lia. reflexivity.
  - rewrite L. split; [exact U|]. intros i Hi. unfold from_right. rewrite rev_involutive. unfold ss. now apply (nth_zrange_map (fun i => group_char (group l k i))).
Qed.

(** * known vectors *)
Lemma group_val k f v : 1 <= k -> (forall j, 0 <= j < k -> f j = sym_of_bool (Z.testbit v j)) -> group_value (map f (zrange 0 k)) = v mod 2 ^ k.
Proof.
  intros Hk. revert f v. pattern k. apply (Zlt_lower_bound_ind _ 1); [|exact Hk]. clear k Hk. intros k IH Hk f v H.
  assert (E : zrange 0 k = 0 :: map Z.succ (zrange 0 (k - 1))).
  { unfold zrange. rewrite !Z.sub_0_r. replace (Z.to_nat k) with (S (Z.to_nat (k - 1))) by lia. cbn [seq map]. f_equal. rewrite <- seq_shift, !map_map. apply map_ext. intros a. lia. }
  rewrite E. cbn [map]. rewrite map_map. unfold group_value. cbn [fold_right]. fold (group_value (map (fun x => f (Z.succ x)) (zrange 0 (k - 1)))).
  assert (Q : group_value (map (fun x => f (Z.succ x)) (zrange 0 (k - 1))) = (v / 2) mod 2 ^ (k - 1)).
  { destruct (Z.eq_dec k 1) as [->|N]; [cbn; symmetry; apply Z.mod_1_r|]. apply IH; [lia|]. intros j Hj. rewrite H by lia. f_equal. rewrite <- Z.div2_div, Z.div2_spec, Z.shiftr_spec by lia. f_equal. }
  rewrite Q, H by lia. replace (2 ^ k) with (2 * 2 ^ (k - 1)) by (rewrite <- Z.pow_succ_r by lia; f_equal; lia). assert (0 < 2 ^ (k - 1)) by (apply Z.pow_pos_nonneg; lia). rewrite Z.rem_mul_r by lia.
  assert (B : b2z (sym_val (sym_of_bool (Z.testbit v 0))) = v mod 2). { rewrite Zmod_odd. rewrite <- Z.bit0_odd. destruct (Z.testbit v 0); reflexivity. } lia.
Qed.
Lemma hexchar d : 0 <= d < 16 -> nth (Z.to_nat d) (chars "0123456789abcdef") 0 = dchar d.
Proof.
  intros H. assert (E : d = 0 \/ d = 1 \/ d = 2 \/ d = 3 \/ d = 4 \/ d = 5 \/ d = 6 \/ d = 7 \/ d = 8 \/ d = 9 \/ d = 10 \/ d = 11 \/ d = 12 \/ d = 13 \/ d = 14 \/ d = 15) by lia.
  repeat (destruct E as [-> | E]; [reflexivity|]). now subst.
Qed.
Lemma group_known k f v : 1 <= k <= 4 -> (forall j, 0 <= j < k -> f j = sym_of_bool (Z.testbit v j)) -> group_char (map f (zrange 0 k)) = dchar (v mod 2 ^ k).
Proof.
  intros Hk H. unfold group_char. assert (A : forallb (fun s => negb (unknown s)) (map f (zrange 0 k)) = true).
  { apply forallb_forall. intros s Hs. apply in_map_iff in Hs. destruct Hs as (j & <- & Hj). apply in_zrange in Hj. rewrite H by exact Hj. now destruct (Z.testbit v j). }
  rewrite A, (group_val k f v) by (auto; lia). apply hexchar. assert (0 < 2 ^ k) by (apply Z.pow_pos_nonneg; lia). pose proof (Z.mod_pos_bound v (2 ^ k) ltac:(lia)). assert (2 ^ k <= 2 ^ 4) by (apply Z.pow_le_mono_r; lia). change (2 ^ 4) with 16 in *. lia.
Qed.
Lemma known_group l k i : lvec l -> known l -> 0 <= i -> 0 <= k -> forall j, 0 <= j < k -> sym_at l (k * i + j) = sym_of_bool (Z.testbit (num (l_val l) / 2 ^ (k * i)) j).
Proof.
  intros V K Hi Hk j Hj. rewrite <- Z.shiftr_div_pow2 by nia. rewrite Z.shiftr_spec by lia. rewrite (Z.add_comm j). set (p := k * i + j). assert (Hp : 0 <= p) by (unfold p; nia). destruct (Z.lt_ge_cases p (lw l)) as [L|L].
  - specialize (K p ltac:(lia)). unfold sym_at in *. unfold bit_at in *. destruct (Z.testbit (num (l_xz l)) p), (Z.testbit (num (l_val l)) p); try discriminate; reflexivity.
  - assert (E : bw (l_xz l) = lw l) by (destruct V as (_ & _ & M & Ll & _); unfold lw, bw; now rewrite M, Ll). unfold sym_at. rewrite !bit_at_high by (try rewrite E; unfold lw in *; lia). pose proof (bit_at_high (l_val l) p L) as H. unfold bit_at in H. rewrite H. reflexivity.
Qed.
(** a text is determined by its digits *)
Lemma from_right_value b s V : 2 <= b -> 0 <= V < b ^ len s -> (forall i, 0 <= i < len s -> exists c, from_right s i = Some c /\ c <> 95 /\ digit_value c = (V / b ^ i) mod b) -> numeral_value b s = V.
Proof.
  intros Hb. revert V. induction s as [|c s IH] using rev_ind; intros V R H.
  - unfold len in R. cbn in R. cbn. lia.
  - assert (L : len (s ++ [c]) = len s + 1) by (unfold len; rewrite app_length; cbn [List.length]; lia). pose proof (len_nonneg s).
    destruct (H 0 ltac:(lia)) as (c' & E & N & D). unfold from_right in E. rewrite rev_app_distr in E. cbn in E. injection E as <-. rewrite numeral_snoc by exact N. rewrite Z.pow_0_r, Z.div_1_r in D.
    rewrite (IH (V / b)).
    + rewrite D. rewrite (Z.mul_comm (V / b)). symmetry. apply Z.div_mod. lia.
    + split; [apply Z.div_pos; lia|]. apply Z.div_lt_upper_bound; [lia|]. rewrite L, Z.pow_add_r, Z.pow_1_r in R by lia. lia.
    + intros i Hi. destruct (H (i + 1) ltac:(lia)) as (d & E & Nd & Dd). exists d. split; [|split; [exact Nd|]].
      * unfold from_right in *. rewrite rev_app_distr in E. replace (Z.to_nat (i + 1)) with (S (Z.to_nat i)) in E by lia. exact E.
      * rewrite Dd. f_equal. rewrite Z.div_div by (try apply Z.pow_pos_nonneg; lia). f_equal. rewrite Z.pow_add_r, Z.pow_1_r by lia. apply Z.mul_comm.
Qed.
Lemma logic_known_out l base k : lvec l -> known l -> pow2_fmt base k -> top_ok l k -> (lw l <= 64 \/ (k <> 3 /\ lw l mod 64 <> 0)) ->
  exists core, logic_str l [base] = Ok core /\ logic_str l [48; base] = Ok core /\ usual_width base (lw l) (len core) /\ Forall (among "0123456789abcdef") core /\ numeral_value (2 ^ k) core = num (l_val l).
Proof.
  intros V K B T C. destruct (logic_out l base k V B T C) as (core & E1 & E2 & U & H). exists core. split; [exact E1|]. split; [exact E2|]. split; [exact U|]. destruct (stride_fmt base k B) as (_ & Hk & _).
  assert (G : forall i, 0 <= i < len core -> from_right core i = Some (dchar ((num (l_val l) / (2 ^ k) ^ i) mod 2 ^ k))).
  { intros i Hi. rewrite (H i Hi). f_equal. unfold group. rewrite <- Z.pow_mul_r by lia. apply group_known; [lia|]. apply known_group; auto; lia. }
  assert (Q : forall i, 0 <= (num (l_val l) / (2 ^ k) ^ i) mod 2 ^ k < 16).
  { intros i. assert (0 < 2 ^ k) by (apply Z.pow_pos_nonneg; lia). pose proof (Z.mod_pos_bound (num (l_val l) / (2 ^ k) ^ i) (2 ^ k) ltac:(lia)). assert (2 ^ k <= 2 ^ 4) by (apply Z.pow_le_mono_r; lia). change (2 ^ 4) with 16 in *. lia. }
  split.
  - apply Forall_forall. intros c Hc. apply in_rev in Hc. apply In_nth_error in Hc. destruct Hc as (i & Hi). assert (0 <= Z.of_nat i < len core). { split; [lia|]. assert (i < List.length (rev core))%nat by (apply nth_error_Some; congruence). rewrite rev_length in *. unfold len. lia. }
    specialize (G (Z.of_nat i) ltac:(assumption)). unfold from_right in G. rewrite Nat2Z.id in G. rewrite G in Hi. injection Hi as <-. apply dchar_value. apply Q.
  - assert (2 <= 2 ^ k) by (change 2 with (2 ^ 1) at 1; apply Z.pow_le_mono_r; lia). apply from_right_value; [lia| |].
    + pose proof (num_range (l_val l)). fold (lw l) in *. pose proof (len_nonneg core). rewrite <- Z.pow_mul_r by lia. split; [lia|]. apply (Z.lt_le_trans _ (2 ^ lw l)); [lia|]. apply Z.pow_le_mono_r; [lia|].
      pose proof (possible_usual base (lw l) _ (lw_pos l) U) as P1. pose proof (possible_usual base (lw l) _ (lw_pos l) (usual_pow2 base k (lw l) B (lw_pos l))) as P2. rewrite P1 in P2. injection P2 as ->. pose proof (ceil_bounds (lw l) k ltac:(lia)). lia.
    + intros i Hi. eexists. split; [apply G; exact Hi|]. destruct (dchar_value _ (Q i)) as (_ & DV & _ & N). auto.
Qed.
