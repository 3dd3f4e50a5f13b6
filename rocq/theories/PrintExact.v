(** Which vectors are printed right: consequences of the reference printer. *)
From Coq Require Import ZArith List Bool Lia Ascii String Btauto.
From Verif Require Import Cpp BigNum Bit Logic Util Spec SpecText SpecExact SpecMachine SpecWide SpecRead SpecPrint BitExt ZBits Words BigNumProofs BigArith BitProofs TextProofs FmtProofs FmtMain BitMain BitMain3 FmtDec FmtRound TextBig ReadExact MachineProofs MachineProofs2 MachineProofs3 WideProofs ReadProofs ReadExact PrintProofs.
Import ListNotations.
Open Scope Z_scope.
Local Ltac Zify.zify_post_hook ::= idtac.

(** * digits and positions *)
Lemma len_map_zrange {A} (f : Z -> A) n : 0 <= n -> Z.of_nat (List.length (map f (zrange 0 n))) = n.
Proof. apply map_len. Qed.
Lemma zrange_split a b c : a <= b <= c -> zrange a c = zrange a b ++ zrange b c.
Proof.
  intros H. unfold zrange. replace (Z.to_nat (c - a)) with (Z.to_nat (b - a) + Z.to_nat (c - b))%nat by lia. rewrite seq_app, map_app. f_equal. cbn [Nat.add].
  assert (G : forall q s, map (fun k => a + Z.of_nat k) (seq (Z.to_nat (b - a) + s) q) = map (fun k => b + Z.of_nat k) (seq s q)).
  { induction q as [|q IH]; intros s; [reflexivity|]. cbn [seq map]. rewrite <- Nat.add_succ_r, IH. f_equal. lia. }
  rewrite <- (G _ 0%nat). now rewrite Nat.add_0_r.
Qed.
Lemma map_const {A} (f : Z -> A) c a b : (forall i, a <= i < b -> f i = c) -> map f (zrange a b) = repeat c (Z.to_nat (b - a)).
Proof.
  intros H. assert (E : forall l, (forall i, In i l -> f i = c) -> map f l = repeat c (List.length l)). { induction l as [|x l IH]; intros G; [reflexivity|]. cbn [map List.length repeat]. rewrite G by now left. rewrite IH; [reflexivity|]. intros i Hi. apply G. now right. }
  rewrite E by (intros i Hi; apply ZBits.in_zrange in Hi; apply H; lia). f_equal. unfold zrange. now rewrite map_length, seq_length.
Qed.
Lemma rev_repeat {A} (c : A) n : rev (repeat c n) = repeat c n.
Proof. induction n as [|n IH]; [reflexivity|]. cbn [repeat rev]. rewrite IH. symmetry. apply (repeat_cons n c). Qed.
Lemma digits_bits k c A B : 1 <= k -> 0 <= c ->
  (forall i, 0 <= i < c -> A / 2 ^ (k * i) mod 2 ^ k = B / 2 ^ (k * i) mod 2 ^ k) <-> (forall p, 0 <= p < k * c -> Z.testbit A p = Z.testbit B p).
Proof.
  intros Hk Hc. split; intros H.
  - intros p Hp. pose proof (Z.div_mod p k ltac:(lia)) as DM. pose proof (Z.mod_pos_bound p k ltac:(lia)) as MB. assert (0 <= p / k < c) by (split; [apply Z.div_pos; lia|apply Z.div_lt_upper_bound; lia]). specialize (H (p / k) ltac:(lia)).
    assert (E : forall Z0, Z.testbit Z0 p = Z.testbit (Z0 / 2 ^ (k * (p / k)) mod 2 ^ k) (p mod k)). { intros Z0. rewrite Z.mod_pow2_bits_low by lia. rewrite Z.div_pow2_bits by nia. f_equal. lia. }
    rewrite (E A), (E B), H. reflexivity.
  - intros i Hi. apply Z.bits_inj'. intros j Hj. rewrite !testbit_mod_pow2 by lia. destruct (Z.ltb_spec j k) as [G | G]; [|reflexivity]. cbn [andb]. rewrite !Z.div_pow2_bits by nia. apply H. nia.
Qed.
Lemma gsyms_digit V X k i : 1 <= k -> 0 <= i -> gsyms V X k i = gsyms (V / 2 ^ (k * i) mod 2 ^ k) (X / 2 ^ (k * i) mod 2 ^ k) k 0.
Proof.
  intros Hk Hi. unfold gsyms. apply map_ext_in. intros j Hj. apply ZBits.in_zrange in Hj. rewrite Z.mul_0_r, Z.add_0_l. rewrite !Z.mod_pow2_bits_low by lia. rewrite !Z.div_pow2_bits by nia. now replace (j + k * i) with (k * i + j) by lia.
Qed.
Lemma numeral_digit b : 2 <= b -> forall s i c, Forall (fun d => d <> 95 /\ 0 <= digit_value d < b) s -> 0 <= i -> from_right s i = Some c -> digit_value c = numeral_value b s / b ^ i mod b.
Proof.
  intros Hb s. induction s as [|d s IH] using rev_ind; intros i c F Hi H.
  - unfold from_right in H. cbn in H. destruct (Z.to_nat i); discriminate.
  - apply Forall_app in F. destruct F as [Fs Fd]. inversion Fd as [|? ? [N R] _]; subst. rewrite numeral_snoc by exact N. unfold from_right in H. rewrite rev_app_distr in H. cbn [rev app] in H.
    destruct (Z.eq_dec i 0) as [-> | Ni].
    + cbn in H. injection H as <-. rewrite Z.pow_0_r, Z.div_1_r. rewrite Z.add_comm, Z.mod_add, Z.mod_small by lia. reflexivity.
    + replace (Z.to_nat i) with (S (Z.to_nat (i - 1))) in H by lia. cbn [nth_error] in H. rewrite (IH (i - 1) c Fs ltac:(lia) H). f_equal.
      replace (b ^ i) with (b * b ^ (i - 1)) by (rewrite <- Z.pow_succ_r by lia; f_equal; lia). rewrite <- Z.div_div by (try apply Z.pow_pos_nonneg; lia). f_equal. rewrite Z.div_add_l by lia. rewrite (Z.div_small (digit_value d)) by lia. lia.
Qed.
Lemma group_hex f g k : 1 <= k <= 4 -> 0 <= f < 2 ^ k -> 0 <= g < 2 ^ k ->
  (g = 0 -> group_char (gsyms f g k 0) = dchar f) /\ (g <> 0 -> ~ among "0123456789abcdef" (group_char (gsyms f g k 0))).
Proof.
  intros Hk Hf Hg. split.
  - intros ->. unfold gsyms. rewrite (group_known k _ f) by (try lia; intros j Hj; rewrite Z.mul_0_r, Z.add_0_l, Z.testbit_0_l; now destruct (Z.testbit f j)). now rewrite Z.mod_small by lia.
  - intros N H. unfold group_char in H. assert (U : forallb (fun s => negb (unknown s)) (gsyms f g k 0) = false).
    { apply not_true_is_false. intros T. rewrite forallb_forall in T. apply N. apply Z.bits_inj'. intros p Hp. rewrite Z.testbit_0_l. destruct (Z.ltb_spec p k) as [L | L]; [|apply (testbit_small _ k); lia].
      specialize (T (sym_of (Z.testbit f p) (Z.testbit g p))). assert (I : In (sym_of (Z.testbit f p) (Z.testbit g p)) (gsyms f g k 0)). { unfold gsyms. apply in_map_iff. exists p. rewrite Z.mul_0_r, Z.add_0_l. split; [reflexivity|]. apply ZBits.in_zrange. lia. }
      specialize (T I). destruct (Z.testbit f p), (Z.testbit g p); try discriminate; reflexivity. }
    rewrite U in H. destruct (forallb is_x _); [|destruct (forallb is_z _); [|destruct (existsb is_x _)]]; vm_compute in H; intuition discriminate.
Qed.
Lemma cells_right k c (f g : Z -> Z) N : 1 <= k <= 4 -> 0 <= c -> 0 <= N < 2 ^ (k * c) -> (forall i, 0 <= i < c -> 0 <= f i < 2 ^ k /\ 0 <= g i < 2 ^ k) ->
  let s := rev (map (fun i => group_char (gsyms (f i) (g i) k 0)) (zrange 0 c)) in
  (Forall (among "0123456789abcdef") s /\ numeral_value (2 ^ k) s = N) <-> (forall i, 0 <= i < c -> g i = 0 /\ f i = N / 2 ^ (k * i) mod 2 ^ k).
Proof.
  intros Hk Hc HN R s. assert (P : 2 <= 2 ^ k <= 16) by (split; [change 2 with (2 ^ 1) at 1|change 16 with (2 ^ 4)]; apply Z.pow_le_mono_r; lia).
  assert (Ls : len s = c) by (unfold s, len; rewrite rev_length; now apply len_map_zrange).
  assert (At : forall i, 0 <= i < c -> from_right s i = Some (group_char (gsyms (f i) (g i) k 0))). { intros i Hi. unfold from_right, s. rewrite rev_involutive. exact (nth_zrange_map (fun i => group_char (gsyms (f i) (g i) k 0)) c i Hi). }
  split.
  - intros [F E] i Hi. destruct (R i Hi) as [Rf Rg]. destruct (group_hex (f i) (g i) k Hk Rf Rg) as [G0 G1].
    assert (In1 : forall j, 0 <= j < c -> In (group_char (gsyms (f j) (g j) k 0)) s). { intros j Hj. specialize (At j Hj). unfold from_right in At. apply nth_error_In in At. now apply in_rev in At. }
    assert (GZ : forall j, 0 <= j < c -> g j = 0). { intros j Hj. destruct (R j Hj) as [Rf' Rg']. destruct (group_hex (f j) (g j) k Hk Rf' Rg') as [_ G1']. destruct (Z.eq_dec (g j) 0) as [Z0|Z0]; [exact Z0|]. elim (G1' Z0). apply (proj1 (Forall_forall _ _) F). now apply In1. }
    split; [now apply GZ|]. specialize (At i Hi). rewrite (G0 (GZ i Hi)) in At.
    assert (Fv : Forall (fun d => d <> 95 /\ 0 <= digit_value d < 2 ^ k) s).
    { apply Forall_forall. intros d Hd. unfold s in Hd. apply in_rev in Hd. apply in_map_iff in Hd. destruct Hd as (j & <- & Hj). apply ZBits.in_zrange in Hj. destruct (R j Hj) as [Rf' Rg']. destruct (group_hex (f j) (g j) k Hk Rf' Rg') as [G0' _]. rewrite (G0' (GZ j Hj)). destruct (dchar_value (f j) ltac:(lia)) as (_ & -> & _ & N95). auto. }
    pose proof (numeral_digit (2 ^ k) ltac:(lia) s i _ Fv ltac:(lia) At) as ND. destruct (dchar_value (f i) ltac:(lia)) as (_ & DV & _). rewrite DV, E, <- Z.pow_mul_r in ND by lia. exact ND.
  - intros H. assert (Ch : forall i, 0 <= i < c -> group_char (gsyms (f i) (g i) k 0) = dchar (f i)). { intros i Hi. destruct (R i Hi) as [Rf Rg]. apply (group_hex (f i) (g i) k Hk Rf Rg). apply H. exact Hi. }
    split.
    + apply Forall_forall. intros d Hd. unfold s in Hd. apply in_rev in Hd. apply in_map_iff in Hd. destruct Hd as (j & <- & Hj). apply ZBits.in_zrange in Hj. rewrite Ch by lia. apply dchar_value. destruct (R j Hj). lia.
    + apply from_right_value; [lia|rewrite Ls, <- Z.pow_mul_r by lia; exact HN|]. rewrite Ls. intros i Hi. exists (dchar (f i)). rewrite (At i Hi), (Ch i Hi). split; [reflexivity|]. destruct (R i Hi). destruct (dchar_value (f i) ltac:(lia)) as (_ & DV & _ & N95). split; [exact N95|]. rewrite DV, (proj2 (H i Hi)). now rewrite <- Z.pow_mul_r by lia.
Qed.

(** * the digits of binary, octal and hexadecimal texts of 4-state vectors *)
Definition seen_num (n : Z) (b : bit) : Z := if n <=? 64 then stored b mod 2 ^ 64 else if n mod 64 =? 0 then stored b mod 2 ^ (n - 64) else stored b.
Lemma pow2_ask base k : pow2_fmt base k -> asks [base] Natural base.
Proof. intros B. apply Bare. now apply (nd_fmt base k). Qed.
Lemma pow2_nat base k n : pow2_fmt base k -> 1 <= n -> natural base n = Ok (ceil_div n k).
Proof. intros B Hn. rewrite <- possible_natural by exact Hn. apply possible_usual; [exact Hn|]. now apply usual_pow2. Qed.
Lemma pow2_plain base k : pow2_fmt base k -> member "dD" base = false /\ member "dDsS" base = false.
Proof. intros [[B _]|[[B _]|[B _]]]; chars_cases B; split; reflexivity. Qed.
Lemma layout_zeros base w cs : member "dDsS" base = false -> layout Natural base w false cs = repeat 48 (Z.to_nat (w - len cs)) ++ rev cs.
Proof. intros M. unfold layout. rewrite M. cbn [app]. rewrite Z.add_0_r. unfold len. now rewrite rev_length. Qed.
Lemma logic_cells l base k : lvec l -> pow2_fmt base k -> lw l <= 64 \/ k <> 3 ->
  logic_str l [base] = Ok (rev (map (fun i => group_char (gsyms (seen_num (lw l) (l_val l)) (seen_num (lw l) (l_xz l)) k i)) (zrange 0 (ceil_div (lw l) k)))).
Proof.
  intros L B C. destruct (stride_fmt base k B) as (St & Hk & D). destruct (pow2_plain base k B) as [D1 D2]. pose proof (lw_pos l) as Hn. pose proof (ceil_bounds (lw l) k ltac:(lia)) as CB.
  rewrite (logic_str_core l [base] None base (ceil_div (lw l) k)); [|apply fmt1; now apply (nd_fmt base k)|apply possible_usual; [exact Hn|now apply usual_pow2]].
  assert (Nn : lneg l base = false) by (unfold lneg; rewrite D; apply andb_false_r). assert (Hz : lsize l = lw l) by reflexivity. rewrite Nn. unfold lcore. rewrite Nn, Hz. unfold seen_num.
  assert (Fin : forall cs, finish false None base (ceil_div (lw l) k) cs = repeat 48 (Z.to_nat (ceil_div (lw l) k - len cs)) ++ rev cs). { intros cs. rewrite <- (layout_zeros base) by exact D2. exact (layout_finish Natural base (ceil_div (lw l) k) false cs ltac:(discriminate)). }
  destruct (lvec_cases l L) as [(v & x & E1 & E2 & N & S1 & S2 & Eb) | (ws & xs & E1 & E2 & N & W & X & S1 & S2 & Eb)]; rewrite E1, E2, S1, S2.
  - rewrite (core4_digits base k) by auto. cbn [bind]. rewrite Fin. unfold len. rewrite len_map_zrange by nia. rewrite Z.sub_diag. cbn [Z.to_nat repeat app]. replace (lw l <=? 64) with true by lia. reflexivity.
  - destruct C as [C|K3]; [lia|]. rewrite (core4_big_digits base k) by (auto; lia). cbn [bind]. rewrite Fin. replace (lw l <=? 64) with false by lia. destruct (Z.eqb_spec (lw l mod 64) 0) as [M | M].
    + assert (Hk' : k = 1 \/ k = 4) by (destruct B as [[_ ->]|[[_ ->]|[_ ->]]]; lia). pose proof (Z.div_mod (lw l) 64 ltac:(lia)) as DM. rewrite M, Z.add_0_r in DM. set (q := lw l / 64) in *.
      assert (HQ : (lw l - 64) / k * k = lw l - 64 /\ ceil_div (lw l) k * k = lw l). { split; [destruct Hk' as [-> | ->]; [rewrite Z.div_1_r; lia|]; replace (lw l - 64) with ((q - 1) * 16 * 4) by lia; rewrite Z.div_mul by lia; lia|]. destruct Hk' as [-> | ->]; nia. }
      destruct HQ as [Q1 Q2]. set (c := ceil_div (lw l) k) in *. set (c' := (lw l - 64) / k) in *. assert (0 <= c' <= c) by nia. unfold len. rewrite len_map_zrange by lia.
      rewrite (zrange_split 0 c' c) by lia. rewrite map_app, rev_app_distr. do 2 f_equal.
      * rewrite (map_const _ 48 c' c); [now rewrite rev_repeat|]. intros i Hi. assert (Z0 : forall a, 0 <= a < 2 ^ (lw l - 64) -> a / 2 ^ (k * i) mod 2 ^ k = 0). { intros a Ha. rewrite Z.div_small; [apply Z.mod_0_l; apply Z.pow_nonzero; lia|]. assert (2 ^ (lw l - 64) <= 2 ^ (k * i)) by (apply Z.pow_le_mono_r; nia). lia. }
        rewrite gsyms_digit by lia. rewrite !Z0 by (apply Z.mod_pos_bound, Z.pow_pos_nonneg; lia). destruct Hk' as [-> | ->]; reflexivity.
      * f_equal. apply map_ext_in. intros i Hi. apply ZBits.in_zrange in Hi. f_equal. unfold gsyms. apply map_ext_in. intros j Hj. apply ZBits.in_zrange in Hj. rewrite !testbit_mod_pow2 by lia. replace (k * i + j <? lw l - 64) with true by nia. reflexivity.
    + unfold len. rewrite len_map_zrange by nia. rewrite Z.sub_diag. reflexivity.
Qed.
Lemma from_right_cells {A} (f : Z -> A) c i : 0 <= i < c -> nth_error (rev (rev (map f (zrange 0 c)))) (Z.to_nat i) = Some (f i).
Proof. intros H. rewrite rev_involutive. now apply nth_zrange_map. Qed.
Lemma mask_width l : lvec l -> bw (l_xz l) = lw l.
Proof. intros (_ & _ & M & L & _). unfold lw, bw. now rewrite M, L. Qed.
Lemma seen_bit n b p : bw b = n -> 0 <= p -> (n <= 64 \/ n mod 64 <> 0 \/ p < n - 64) -> p < n -> Z.testbit (seen_num n b) p = bit_at b p.
Proof.
  intros W Hp H L. rewrite bit_at_stored by lia. unfold seen_num. destruct (Z.leb_spec n 64); [rewrite testbit_mod_pow2 by lia; now replace (p <? 64) with true by lia|]. destruct (Z.eqb_spec (n mod 64) 0); [|reflexivity].
  rewrite testbit_mod_pow2 by lia. now replace (p <? n - 64) with true by lia.
Qed.
Lemma seen_top n b p : 65 <= n -> n mod 64 = 0 -> n - 64 <= p -> Z.testbit (seen_num n b) p = false.
Proof. intros Hn M H. unfold seen_num. replace (n <=? 64) with false by lia. rewrite M. cbn [Z.eqb]. rewrite testbit_mod_pow2 by lia. now replace (p <? n - 64) with false by lia. Qed.
Lemma ceil1 n : ceil_div n 1 = n. Proof. apply ceil_unique; lia. Qed.
Lemma sym_at_bits l p : sym_at l p = sym_of (bit_at (l_val l) p) (bit_at (l_xz l) p). Proof. reflexivity. Qed.
Lemma gsyms1 V X i : group_char (gsyms V X 1 i) = sym_char (sym_of (Z.testbit V i) (Z.testbit X i)).
Proof. unfold gsyms. change (zrange 0 1) with [0]. cbn [map]. rewrite group1. now replace (1 * i + 0) with i by lia. Qed.

(** binary *)
Lemma logic_binary_exact l base : lvec l -> among "bB" base ->
  (exists s, logic_str l [base] = Ok s /\ len s = lw l /\ forall i, 0 <= i < lw l -> from_right s i = Some (sym_char (sym_at l i))) <->
  (lw l <= 64 \/ lw l mod 64 <> 0 \/ forall i, lw l - 64 <= i < lw l -> sym_at l i = S0).
Proof.
  intros L B. assert (B1 : pow2_fmt base 1) by (left; auto). pose proof (lw_pos l) as Hn. pose proof (logic_cells l base 1 L B1 ltac:(right; lia)) as E. rewrite ceil1 in E. pose proof (mask_width l L) as MW.
  assert (Cell : forall i, 0 <= i < lw l -> (lw l <= 64 \/ lw l mod 64 <> 0 \/ i < lw l - 64) -> group_char (gsyms (seen_num (lw l) (l_val l)) (seen_num (lw l) (l_xz l)) 1 i) = sym_char (sym_at l i)).
  { intros i Hi C. rewrite gsyms1, sym_at_bits. rewrite !seen_bit by (auto; lia). reflexivity. }
  split.
  - intros (s & Es & _ & H). rewrite E in Es. injection Es as <-. destruct (Z.le_gt_cases (lw l) 64) as [S|S]; [now left|]. destruct (Z.eq_dec (lw l mod 64) 0) as [M|M]; [|right; now left]. right; right. intros i Hi. assert (64 <= lw l - 64) by (pose proof (Z.div_mod (lw l) 64 ltac:(lia)); lia).
    specialize (H i ltac:(lia)). unfold from_right in H. rewrite from_right_cells in H by lia. rewrite gsyms1 in H. rewrite !seen_top in H by lia. destruct (sym_at l i); (reflexivity || discriminate H).
  - intros C. eexists. split; [exact E|]. split; [unfold len; rewrite rev_length; apply len_map_zrange; lia|]. intros i Hi. unfold from_right. rewrite from_right_cells by lia. f_equal.
    destruct (Z.le_gt_cases (lw l) 64) as [S|S]; [apply Cell; auto; lia|]. destruct (Z.eq_dec (lw l mod 64) 0) as [M|M]; [|apply Cell; auto; lia]. destruct (Z.lt_ge_cases i (lw l - 64)) as [G|G]; [apply Cell; auto; lia|].
    destruct C as [C|[C|C]]; [lia|contradiction|]. rewrite gsyms1, !seen_top by lia. now rewrite (C i) by lia.
Qed.
(** hexadecimal and octal, known vectors *)
Lemma known_mask l : lvec l -> known l -> num (l_xz l) = 0.
Proof.
  intros L K. pose proof (mask_width l L) as MW. apply Z.bits_inj'. intros p Hp. rewrite Z.testbit_0_l. destruct (Z.lt_ge_cases p (lw l)) as [G|G].
  - specialize (K p ltac:(lia)). unfold sym_at, bit_at in K. destruct (Z.testbit (num (l_xz l)) p); [|reflexivity]. destruct (Z.testbit (num (l_val l)) p); discriminate.
  - apply (bit_at_high (l_xz l) p). lia.
Qed.
Lemma logic_numeral_exact l base k : lvec l -> known l -> pow2_fmt base k -> lw l <= 64 \/ k <> 3 ->
  right_numeral l base k <-> ends_clear l k /\ (lw l <= 64 \/ lw l mod 64 <> 0 \/ forall p, lw l - 64 <= p < lw l -> bit_at (l_val l) p = false).
Proof.
  intros L K B C. pose proof (lw_pos l) as Hn. pose proof (logic_cells l base k L B C) as E. destruct (stride_fmt base k B) as (_ & Hk & _). pose proof (mask_width l L) as MW. pose proof (ceil_bounds (lw l) k ltac:(lia)) as CB.
  set (V := seen_num (lw l) (l_val l)) in *. set (X := seen_num (lw l) (l_xz l)) in *. assert (Cc : (lw l + k - 1) / k = ceil_div (lw l) k) by reflexivity.
  assert (R : right_numeral l base k <-> (forall p, 0 <= p < k * ceil_div (lw l) k -> Z.testbit X p = false /\ Z.testbit V p = Z.testbit (num (l_val l)) p)).
  { set (c := ceil_div (lw l) k) in *. assert (NR : 0 <= num (l_val l) < 2 ^ (k * c)). { pose proof (num_range (l_val l)) as NR. fold (lw l) in NR. assert (2 ^ lw l <= 2 ^ (k * c)) by (apply Z.pow_le_mono_r; lia). lia. }
    assert (P0 : 0 < 2 ^ k) by (apply Z.pow_pos_nonneg; lia).
    pose proof (cells_right k c (fun i => V / 2 ^ (k * i) mod 2 ^ k) (fun i => X / 2 ^ (k * i) mod 2 ^ k) (num (l_val l)) Hk ltac:(nia) NR ltac:(intros i Hi; split; apply Z.mod_pos_bound; lia)) as CR. cbv zeta beta in CR.
    assert (Em : map (fun i => group_char (gsyms V X k i)) (zrange 0 c) = map (fun i => group_char (gsyms (V / 2 ^ (k * i) mod 2 ^ k) (X / 2 ^ (k * i) mod 2 ^ k) k 0)) (zrange 0 c)). { apply map_ext_in. intros i Hi. apply ZBits.in_zrange in Hi. now rewrite (gsyms_digit V X k i) by lia. }
    rewrite <- Em in CR. assert (DX : (forall i, 0 <= i < c -> X / 2 ^ (k * i) mod 2 ^ k = 0) <-> (forall p, 0 <= p < k * c -> Z.testbit X p = false)).
    { pose proof (digits_bits k c X 0 ltac:(lia) ltac:(nia)) as DB. split; intros H.
      - intros p Hp. rewrite <- (Z.testbit_0_l p). apply DB; [|exact Hp]. intros i Hi. rewrite (H i Hi), Z.div_0_l, Z.mod_0_l by (apply Z.pow_nonzero; nia). reflexivity.
      - intros i Hi. rewrite (proj2 DB); [rewrite Z.div_0_l, Z.mod_0_l by (apply Z.pow_nonzero; nia); reflexivity| |exact Hi]. intros p Hp. rewrite Z.testbit_0_l. now apply H. }
    pose proof (digits_bits k c V (num (l_val l)) ltac:(lia) ltac:(nia)) as DV. split.
    - intros (s & Es & _ & F & N). rewrite E in Es. injection Es as <-. pose proof (proj1 CR (conj F N)) as G. intros p Hp. split; [apply DX; [|exact Hp]; intros i Hi; apply G; exact Hi|]. apply DV; [|exact Hp]. intros i Hi. apply G. exact Hi.
    - intros G. eexists. split; [exact E|]. split.
      + assert (Ll : forall (f : Z -> Z), len (rev (map f (zrange 0 c))) = c) by (intros f; unfold len; rewrite rev_length; apply len_map_zrange; nia). rewrite Ll. now apply usual_pow2.
      + apply CR. intros i Hi. split; [apply (proj2 DX); [|exact Hi]; intros p Hp; now apply G|]. apply (proj2 DV); [|exact Hi]. intros p Hp. now apply G. }
  rewrite R. clear R. pose proof (known_mask l L K) as KM. unfold ends_clear. rewrite Cc. split.
  - intros H. assert (T : forall p, lw l <= p < k * ceil_div (lw l) k -> Z.testbit X p = false /\ Z.testbit V p = false). { intros p Hp. destruct (H p ltac:(lia)) as [H1 H2]. split; [exact H1|]. rewrite H2. apply (bit_at_high (l_val l) p). fold (lw l). lia. }
    assert (DM : lw l = 64 * (lw l / 64) + lw l mod 64) by (apply Z.div_mod; lia). pose proof (Z.mod_pos_bound (lw l) 64 ltac:(lia)) as MB. split.
    + intros p Hp Cp. destruct (T p Hp) as [T1 T2]. unfold V, X, seen_num in T1, T2. rewrite capacity_nwords in Cp. pose proof (nwords_bounds (lw l) ltac:(lia)) as NB. destruct (Z.leb_spec (lw l) 64) as [S|S].
      * assert (nwords (lw l) = 1) by lia. rewrite testbit_mod_pow2 in T1, T2 by lia. replace (p <? 64) with true in T1, T2 by lia. auto.
      * destruct (Z.eqb_spec (lw l mod 64) 0) as [M|M]; [|auto]. exfalso. nia.
    + destruct (Z.le_gt_cases (lw l) 64) as [S|S]; [now left|]. destruct (Z.eq_dec (lw l mod 64) 0) as [M|M]; [|right; now left]. right; right. intros p Hp. destruct (H p ltac:(nia)) as [_ H2]. unfold bit_at. rewrite <- H2. unfold V. apply seen_top; lia.
  - intros [H1 H2] p Hp. destruct (Z.lt_ge_cases p (lw l)) as [G|G].
    + destruct (Z.le_gt_cases (lw l) 64) as [S|S]; [|destruct (Z.eq_dec (lw l mod 64) 0) as [M|M]; [destruct (Z.lt_ge_cases p (lw l - 64)) as [G'|G']|]].
      1,2,4: unfold V, X; rewrite !seen_bit by (auto; lia); unfold bit_at; rewrite KM, Z.testbit_0_l; auto.
      destruct H2 as [H2|[H2|H2]]; [lia|contradiction|]. unfold V, X. rewrite !seen_top by lia. split; [reflexivity|]. symmetry. apply H2. lia.
    + pose proof (bit_at_high (l_val l) p ltac:(fold (lw l); lia)) as BH. unfold bit_at in BH. rewrite BH. unfold V, X, seen_num. pose proof (nwords_bounds (lw l) ltac:(lia)) as NB. rewrite capacity_nwords in H1. destruct (Z.leb_spec (lw l) 64) as [S|S].
      * assert (nwords (lw l) = 1) by lia. rewrite !testbit_mod_pow2 by lia. destruct (Z.ltb_spec p 64) as [P|P]; [|auto]. cbn [andb]. destruct (H1 p ltac:(lia) ltac:(lia)) as [-> ->]. auto.
      * assert (Kk : k = 1 \/ k = 4) by (destruct B as [[_ ->]|[[_ ->]|[_ ->]]]; lia). destruct (Z.eqb_spec (lw l mod 64) 0) as [M|M]; [rewrite !testbit_mod_pow2 by lia; replace (p <? lw l - 64) with false by lia; auto|].
        assert (Pc : p < 64 * nwords (lw l)). { destruct Kk as [-> | ->]; nia. }
        destruct (H1 p ltac:(lia) Pc) as [-> ->]. auto.
Qed.
(** octal of more than one word *)
Definition octal_at (v i : Z) : Z :=
  let p := 3 * i in let low := word_at v (p / 64) / 2 ^ (p mod 64) mod 8 in
  if p mod 64 <=? 61 then low else Z.lor low (word_at v (p / 64 + 1) mod 2 ^ (p mod 64 - 61)).
Lemma octal_ok n v i : 1 <= n -> 0 <= i -> 3 * i + 3 <= capacity n -> octal_piece n v i = Ok (octal_at v i).
Proof.
  intros Hn Hi C. unfold octal_piece, octal_at. cbn zeta. rewrite words_in_nwords. rewrite capacity_nwords in C. set (p := 3 * i) in *. pose proof (Z.div_mod p 64 ltac:(lia)). pose proof (Z.mod_pos_bound p 64 ltac:(lia)).
  destruct (Z.leb_spec (p mod 64) 61); [reflexivity|]. now replace (p / 64 + 1 <? nwords n) with true by lia.
Qed.
Lemma octal_bad n v i : 1 <= n -> 0 <= i -> 3 * i < capacity n < 3 * i + 3 -> octal_piece n v i = UB.
Proof.
  intros Hn Hi C. unfold octal_piece. cbn zeta. rewrite words_in_nwords. rewrite capacity_nwords in C. set (p := 3 * i) in *. pose proof (Z.div_mod p 64 ltac:(lia)). pose proof (Z.mod_pos_bound p 64 ltac:(lia)).
  replace (p mod 64 <=? 61) with false by lia. now replace (p / 64 + 1 <? nwords n) with false by lia.
Qed.
Lemma joined_all {A} (f : A -> outcome (list Z)) g l : (forall i, In i l -> f i = Ok (g i)) -> joined (map f l) = Ok (List.concat (map g l)).
Proof.
  induction l as [|x l IH]; intros H; [reflexivity|]. cbn [map joined List.concat]. rewrite (H x (or_introl eq_refl)). cbn [bind]. rewrite IH by (intros i Hi; apply H; now right). reflexivity.
Qed.
Lemma octal_low v p t : 0 <= p -> p mod 64 + t <= 64 -> 0 <= t <= 3 -> word_at v (p / 64) / 2 ^ (p mod 64) mod 2 ^ t = v / 2 ^ p mod 2 ^ t.
Proof.
  intros Hp Ht H3. pose proof (Z.div_mod p 64 ltac:(lia)). pose proof (Z.mod_pos_bound p 64 ltac:(lia)). pose proof (Z.div_pos p 64 ltac:(lia) ltac:(lia)). apply Z.bits_inj'. intros q Hq. rewrite !testbit_mod_pow2 by lia. destruct (Z.ltb_spec q t); [|reflexivity]. cbn [andb].
  rewrite !Z.div_pow2_bits by lia. unfold word_at. rewrite Z.mod_pow2_bits_low by lia. rewrite Z.div_pow2_bits by lia. f_equal. lia.
Qed.
Definition octal_check : bool :=
  forallb (fun t => forallb (fun lo => forallb (fun hi => Bool.eqb (Z.lor lo hi =? lo + 2 ^ t * hi) (hi =? 0)) (zrange 0 (2 ^ (3 - t)))) (zrange 0 (2 ^ t))) [1; 2].
Lemma octal_cross t lo hi : t = 1 \/ t = 2 -> 0 <= lo < 2 ^ t -> 0 <= hi < 2 ^ (3 - t) -> Z.lor lo hi = lo + 2 ^ t * hi <-> hi = 0.
Proof.
  intros T Hl Hh. assert (C : octal_check = true) by (vm_compute; reflexivity). unfold octal_check in C. rewrite forallb_forall in C. specialize (C t ltac:(cbn; intuition)). rewrite forallb_forall in C. specialize (C lo (proj2 (ZBits.in_zrange 0 (2 ^ t) lo) Hl)).
  rewrite forallb_forall in C. specialize (C hi (proj2 (ZBits.in_zrange 0 (2 ^ (3 - t)) hi) Hh)). apply eqb_prop in C. split; intros H.
  - apply Z.eqb_eq in H. rewrite H in C. symmetry in C. now apply Z.eqb_eq in C.
  - apply Z.eqb_eq in H. rewrite H in C. now apply Z.eqb_eq in C.
Qed.
Lemma octal_digit v i : 0 <= i -> octal_at v i = v / 2 ^ (3 * i) mod 2 ^ 3 <-> (forall p, 3 * i <= p < 3 * i + 3 -> 3 * i / 64 < p / 64 -> Z.testbit v p = false).
Proof.
  intros Hi. unfold octal_at. set (p := 3 * i) in *. cbn zeta. pose proof (Z.div_mod p 64 ltac:(lia)) as DM. pose proof (Z.mod_pos_bound p 64 ltac:(lia)) as MB. pose proof (Z.div_pos p 64 ltac:(lia) ltac:(lia)) as DP. change 8 with (2 ^ 3). destruct (Z.leb_spec (p mod 64) 61) as [G|G].
  - rewrite octal_low by lia. split; [|reflexivity]. intros _ q Hq C. exfalso. assert (q / 64 = p / 64). { symmetry. apply Z.div_unique with (q - 64 * (p / 64)); lia. } lia.
  - set (t := 64 - p mod 64). assert (T : t = 1 \/ t = 2) by (unfold t; lia). assert (P8 : forall a, a mod 2 ^ 3 = a mod 2 ^ t + 2 ^ t * (a / 2 ^ t mod 2 ^ (3 - t))). { intros a. replace 3 with (t + (3 - t)) at 1 by lia. rewrite Z.pow_add_r by lia. apply Z.rem_mul_r; [apply Z.pow_nonzero; lia|apply Z.pow_pos_nonneg; lia]. }
    assert (LO : word_at v (p / 64) / 2 ^ (p mod 64) mod 2 ^ 3 = v / 2 ^ p mod 2 ^ t).
    { rewrite <- (octal_low v p t) by (unfold t; lia). rewrite P8. assert (Z0 : word_at v (p / 64) / 2 ^ (p mod 64) / 2 ^ t = 0).
      { rewrite Z.div_div by (try apply Z.pow_pos_nonneg; try apply Z.pow_nonzero; unfold t; lia). rewrite <- Z.pow_add_r by (unfold t; lia). replace (p mod 64 + t) with 64 by (unfold t; lia). apply Z.div_small. unfold word_at. apply Z.mod_pos_bound. lia. }
      rewrite Z0, Z.mod_0_l by (apply Z.pow_nonzero; lia). lia. }
    assert (HI : word_at v (p / 64 + 1) mod 2 ^ (p mod 64 - 61) = v / 2 ^ p / 2 ^ t mod 2 ^ (3 - t)).
    { replace (p mod 64 - 61) with (3 - t) by (unfold t; lia). rewrite Z.div_div by (try apply Z.pow_pos_nonneg; try apply Z.pow_nonzero; unfold t; lia). rewrite <- Z.pow_add_r by (unfold t; lia). replace (p + t) with (64 * (p / 64 + 1)) by (unfold t; lia).
      unfold word_at. apply Z.bits_inj'. intros q Hq. rewrite !testbit_mod_pow2 by lia. destruct (Z.ltb_spec q (3 - t)); [|reflexivity]. now replace (q <? 64) with true by lia. }
    rewrite LO, HI, P8. set (lo := v / 2 ^ p mod 2 ^ t). set (hi := v / 2 ^ p / 2 ^ t mod 2 ^ (3 - t)). rewrite (octal_cross t lo hi T) by (apply Z.mod_pos_bound, Z.pow_pos_nonneg; lia).
    assert (HB : forall q, 0 <= q -> Z.testbit hi q = (q <? 3 - t) && Z.testbit v (q + (p + t))). { intros q Hq. unfold hi. rewrite testbit_mod_pow2 by lia. destruct (q <? 3 - t); [|reflexivity]. cbn [andb]. rewrite !Z.div_pow2_bits by lia. f_equal. lia. }
    split.
    + intros Z0 q Hq C. assert (64 * (q / 64) <= q) by (apply Z.mul_div_le; lia). assert (p + t <= q) by (unfold t; lia). specialize (HB (q - (p + t)) ltac:(lia)). rewrite Z0, Z.testbit_0_l in HB. replace (q - (p + t) <? 3 - t) with true in HB by lia. cbn [andb] in HB. replace (q - (p + t) + (p + t)) with q in HB by lia. now symmetry.
    + intros H. apply Z.bits_inj'. intros q Hq. rewrite HB, Z.testbit_0_l by lia. destruct (Z.ltb_spec q (3 - t)) as [Q|Q]; [|reflexivity]. cbn [andb]. apply H; [lia|]. assert (p / 64 + 1 <= (q + (p + t)) / 64) by (apply Z.div_le_lower_bound; unfold t in *; lia). lia.
Qed.
Lemma octal_range_at v i : 0 <= i -> 0 <= octal_at v i < 2 ^ 3.
Proof.
  intros Hi. assert (W : 0 <= capacity (3 * i + 3)) by (rewrite capacity_nwords; pose proof (nwords_bounds (3 * i + 3) ltac:(lia)); lia).
  unfold octal_at. cbn zeta. generalize (3 * i). intros p. set (a := word_at v (p / 64) / 2 ^ (p mod 64) mod 8). assert (Ha : 0 <= a < 2 ^ 3) by (apply Z.mod_pos_bound; lia). pose proof (Z.mod_pos_bound p 64 ltac:(lia)). destruct (Z.leb_spec (p mod 64) 61) as [G | G]; [exact Ha|].
  set (b := word_at v (p / 64 + 1) mod 2 ^ (p mod 64 - 61)). assert (Hb : 0 <= b < 2 ^ 3).
  { assert (0 <= b < 2 ^ (p mod 64 - 61)) by (apply Z.mod_pos_bound; apply Z.pow_pos_nonneg; lia). assert (2 ^ (p mod 64 - 61) <= 2 ^ 3) by (apply Z.pow_le_mono_r; lia). lia. }
  clearbody a b. assert (N : 0 <= Z.lor a b) by (apply Z.lor_nonneg; split; [apply Ha|apply Hb]). split; [exact N|]. apply bits_small; [lia|exact N|]. intros q Hq. rewrite Z.lor_spec, (testbit_small a 3), (testbit_small b 3) by lia. reflexivity.
Qed.
Lemma octal_zero i : octal_at 0 i = 0.
Proof. unfold octal_at, word_at. cbn zeta. repeat (rewrite ?Zdiv_0_l, ?Zmod_0_l; try (progress rewrite ?Zdiv_0_l)). now destruct (_ <=? _). Qed.
Definition octal_text (l : logic) : list Z :=
  rev (map (fun i => group_char (gsyms (octal_at (stored (l_val l)) i) (octal_at (stored (l_xz l)) i) 3 0)) (zrange 0 (ceil_div (lw l) 3))).
Lemma wide_octal l base : lvec l -> among "oO" base -> 65 <= lw l -> logic_str l [base] = if 3 * ceil_div (lw l) 3 <=? capacity (lw l) then Ok (octal_text l) else UB.
Proof.
  intros L B Hw. assert (B3 : pow2_fmt base 3) by (right; left; auto). rewrite (logic_str_print l [base] Natural base L (pow2_ask base 3 B3)). destruct (pow2_plain base 3 B3) as [D1 D2]. pose proof (ceil_bounds (lw l) 3 ltac:(lia)) as CB. pose proof (nwords_bounds (lw l) ltac:(lia)) as NB.
  unfold logic_print, negative_decimal. rewrite D1. cbn [andb valid]. rewrite (pow2_nat base 3) by (auto; lia). cbn [bind]. replace (lw l <=? 64) with false by lia.
  assert (O : member "oO" base = true) by (apply member_among; exact B). assert (Bb : member "bB" base = false) by (chars_cases B; reflexivity).
  assert (Mg : magnitude base (l_val l) = stored (l_val l)). { unfold magnitude, negative_decimal. rewrite D1. cbn [andb]. change (bw (l_val l)) with (lw l). replace (lw l <=? 64) with false by lia. apply Z.mod_small. apply stored_range; [apply L|exact Hw]. }
  rewrite Mg. unfold four_wide. rewrite D1, O. replace ((lw l + 2) / 3) with (ceil_div (lw l) 3) by (unfold ceil_div; f_equal; lia). set (c := ceil_div (lw l) 3) in *.
  set (f := fun i => let! z := octal_piece (lw l) (stored (l_val l)) i in let! y := octal_piece (lw l) (stored (l_xz l)) i in Ok (four_chars base 3 z y)).
  set (g := fun i => [group_char (gsyms (octal_at (stored (l_val l)) i) (octal_at (stored (l_xz l)) i) 3 0)]).
  assert (FG : forall i, 0 <= i -> 3 * i + 3 <= capacity (lw l) -> f i = Ok (g i)). { intros i Hi C. unfold f, g. rewrite !octal_ok by lia. cbn [bind]. unfold four_chars. rewrite Bb, O. reflexivity. }
  destruct (Z.leb_spec (3 * c) (capacity (lw l))) as [C|C].
  - rewrite (joined_all f g) by (intros i Hi; apply ZBits.in_zrange in Hi; apply FG; lia). cbn [bind]. unfold g. rewrite concat_single. rewrite layout_zeros by exact D2. unfold len. rewrite len_map_zrange by lia. rewrite Z.sub_diag. reflexivity.
  - rewrite capacity_nwords in C. replace c with (c - 1 + 1) by lia. rewrite zrange_snoc by lia. rewrite map_app. cbn [map]. rewrite joined_snoc. rewrite (joined_all f g) by (intros i Hi; apply ZBits.in_zrange in Hi; apply FG; [lia|rewrite capacity_nwords; lia]). cbn [bind].
    unfold f at 1. rewrite octal_bad by (try rewrite capacity_nwords; lia). reflexivity.
Qed.
Lemma logic_octal_exact l base : lvec l -> known l -> ltidy l -> among "oO" base -> 65 <= lw l ->
  right_numeral l base 3 <-> 3 * ((lw l + 2) / 3) <= capacity (lw l) /\ forall p, 0 <= p < lw l -> 3 * (p / 3) / 64 < p / 64 -> bit_at (l_val l) p = false.
Proof.
  intros L K T B Hw. unfold right_numeral. rewrite (wide_octal l base L B Hw). replace ((lw l + 2) / 3) with (ceil_div (lw l) 3) by (unfold ceil_div; f_equal; lia). pose proof (ceil_bounds (lw l) 3 ltac:(lia)) as CB. set (c := ceil_div (lw l) 3) in *.
  destruct (Z.leb_spec (3 * c) (capacity (lw l))) as [C|C].
  2: { split; [intros (s & Es & _); discriminate|intros [H _]; lia]. }
  assert (NS : num (l_val l) = stored (l_val l) /\ stored (l_xz l) = 0).
  { pose proof (known_mask l L K) as KM. pose proof (mask_width l L) as MW. destruct T as [T1 T2]. destruct (lvec_cases l L) as [(v & x & E1 & E2 & N & _) | (ws & xs & E1 & E2 & N & W & X & S1 & S2 & Eb)]; [lia|].
    unfold tidy in T1, T2. rewrite E1 in T1. rewrite E2 in T2. unfold num in *. rewrite S1, S2 in *. split; [apply Z.mod_small; exact T1|]. rewrite Z.mod_small in KM; auto. }
  destruct NS as [NS XS]. pose proof (num_range (l_val l)) as NR. fold (lw l) in NR.
  pose proof (cells_right 3 c (octal_at (stored (l_val l))) (octal_at (stored (l_xz l))) (num (l_val l)) ltac:(lia) ltac:(lia)) as CR.
  specialize (CR ltac:(assert (2 ^ lw l <= 2 ^ (3 * c)) by (apply Z.pow_le_mono_r; lia); lia) ltac:(intros i Hi; split; apply octal_range_at; lia)). cbv zeta in CR. fold c in CR. fold (octal_text l) in CR.
  assert (OD : (forall i, 0 <= i < c -> octal_at (stored (l_xz l)) i = 0 /\ octal_at (stored (l_val l)) i = num (l_val l) / 2 ^ (3 * i) mod 2 ^ 3) <-> (forall p, 0 <= p < lw l -> 3 * (p / 3) / 64 < p / 64 -> bit_at (l_val l) p = false)).
  { unfold bit_at. rewrite NS, XS. split.
    - intros H p Hp Q. pose proof (Z.div_mod p 3 ltac:(lia)). pose proof (Z.mod_pos_bound p 3 ltac:(lia)). destruct (H (p / 3) ltac:(split; [apply Z.div_pos; lia|apply Z.div_lt_upper_bound; lia])) as [_ H2]. apply (proj1 (octal_digit (stored (l_val l)) (p / 3) ltac:(apply Z.div_pos; lia)) H2); [lia|exact Q].
    - intros H i Hi. split; [apply octal_zero|]. apply octal_digit; [lia|]. intros p Hp Q. destruct (Z.lt_ge_cases p (lw l)) as [G|G].
      + apply H; [lia|]. assert (p / 3 = i) as ->; [symmetry; apply Z.div_unique with (p - 3 * i); lia|exact Q].
      + rewrite <- NS. apply (bit_at_high (l_val l) p). fold (lw l). lia. }
  split.
  - intros (s & Es & _ & F & N). injection Es as <-. split; [exact C|]. apply OD, CR. split; assumption.
  - intros [_ H]. exists (octal_text l). split; [reflexivity|]. split; [|apply CR, OD; exact H]. unfold octal_text. unfold len. rewrite rev_length, len_map_zrange by (fold c; lia). apply usual_pow2; [right; left; auto|lia].
Qed.
(** * binary texts of wide 2-state vectors *)
Lemma rev_zrange {A} (f : Z -> A) m : 0 <= m -> rev (map f (zrange 0 m)) = map (fun j => f (m - 1 - j)) (zrange 0 m).
Proof.
  intros H. rewrite <- (Z2Nat.id m H). generalize (Z.to_nat m). clear m H. intros m. revert f. induction m as [|m IH]; intros f; [reflexivity|].
  rewrite Nat2Z.inj_succ, <- Z.add_1_r. rewrite (zrange_snoc (Z.of_nat m)) at 1 by lia. rewrite map_app, rev_app_distr. cbn [map rev app]. rewrite IH. rewrite (zrange_split 0 1 (Z.of_nat m + 1)) by lia. change (zrange 0 1) with [0]. cbn [map app]. f_equal; [f_equal; lia|].
  replace (zrange 1 (Z.of_nat m + 1)) with (map (fun k => k + 1) (zrange 0 (Z.of_nat m))). 
  - rewrite map_map. apply map_ext. intros j. f_equal. lia.
  - unfold zrange. rewrite map_map. replace (Z.to_nat (Z.of_nat m + 1 - 1)) with (Z.to_nat (Z.of_nat m - 0)) by lia. apply map_ext. intros j. lia.
Qed.
Definition bit_char (b : bool) : Z := if b then 49 else 48.
Lemma wide_binary b base : vec b -> among "bB" base -> 65 <= bw b -> bsgn b = true ->
  bit_str b [base] = Ok (rev (map (fun i => bit_char ((i <? if bw b mod 64 =? 0 then bw b - 64 else bw b) && Z.testbit (stored b) (mirrored (bw b) i))) (zrange 0 (bw b)))).
Proof.
  intros V B Hw S. assert (B1 : pow2_fmt base 1) by (left; auto). rewrite (bit_str_print b [base] Natural base V (pow2_ask base 1 B1)). destruct (pow2_plain base 1 B1) as [D1 D2]. set (n := bw b) in *. pose proof (nwords_bounds n ltac:(lia)) as NB.
  unfold bit_print, negative_decimal. fold n. rewrite D1, S. cbn [andb negb]. rewrite andb_false_r. cbn [valid]. rewrite (pow2_nat base 1), ceil1 by (auto; lia). cbn [bind]. replace (n <=? 64) with false by lia.
  assert (Bb : member "bB" base = true) by (apply member_among; exact B). assert (O : member "oO" base = false) by (chars_cases B; reflexivity).
  assert (Mg : magnitude base b = stored b). { unfold magnitude, negative_decimal. rewrite D1. cbn [andb]. fold n. replace (n <=? 64) with false by lia. apply Z.mod_small. apply stored_range; [exact V|exact Hw]. }
  rewrite Mg. unfold two_wide. rewrite D1, O. set (v := stored b). set (h := fun q => bit_char (Z.testbit v (mirrored n q))). rewrite <- (pieces_fold n).
  assert (Pc : forall m i, 1 <= m <= 64 -> 0 <= i -> m = Z.min 64 (n - 64 * i) -> (let! w := natural base m in let! cs := two_chars base m (word_at v i) in Ok (layout Natural base w false cs)) = Ok (map (fun j => h (64 * i + j)) (zrange 0 m))).
  { intros m i Hm Hi Em. rewrite (pow2_nat base 1), ceil1 by (auto; lia). cbn [bind]. unfold two_chars. rewrite Bb. cbn [bind]. rewrite layout_zeros by exact D2. unfold len. rewrite len_map_zrange by lia. rewrite Z.sub_diag. cbn [Z.to_nat repeat app]. rewrite rev_zrange by lia. f_equal. apply map_ext_in. intros j Hj. apply ZBits.in_zrange in Hj.
    unfold h, bit_char. assert (Q : (64 * i + j) / 64 = i /\ (64 * i + j) mod 64 = j). { split; [symmetry; apply Z.div_unique with j; lia|symmetry; apply Z.mod_unique with i; lia]. } unfold mirrored. destruct Q as [-> ->]. rewrite <- Em. unfold word_at. rewrite Z.mod_pow2_bits_low by lia. rewrite Z.div_pow2_bits by lia. replace (m - 1 - j + 64 * i) with (64 * i + (m - 1 - j)) by lia. reflexivity. }
  rewrite (ofold_joined (A := Z)). rewrite (joined_all _ (fun i => map (fun j => h (64 * i + j)) (zrange 0 64))) by (intros i Hi; apply ZBits.in_zrange in Hi; apply Pc; lia). cbn [bind app]. rewrite concat_blocks by lia.
  pose proof (Z.div_mod n 64 ltac:(lia)) as DM. pose proof (Z.mod_pos_bound n 64 ltac:(lia)) as MB. destruct (Z.eqb_spec (n mod 64) 0) as [M|M]; cbn [negb].
  - cbn [bind]. rewrite layout_zeros by exact D2. unfold len. rewrite len_map_zrange by lia. assert (EN : 64 * (nwords n - 1) = n - 64) by lia. rewrite EN. rewrite (zrange_split 0 (n - 64) n) by lia. rewrite map_app, rev_app_distr. do 2 f_equal.
    + rewrite (map_const _ 48 (n - 64) n); [now rewrite rev_repeat|]. intros i Hi. now replace (i <? n - 64) with false by lia.
    + f_equal. apply map_ext_in. intros i Hi. apply ZBits.in_zrange in Hi. unfold h. now replace (i <? n - 64) with true by lia.
  - rewrite Pc by lia. cbn [bind]. rewrite layout_zeros by exact D2. assert (Nn : n = 64 * (nwords n - 1) + n mod 64) by lia.
    assert (Ap : map h (zrange 0 (64 * (nwords n - 1))) ++ map (fun j => h (64 * (nwords n - 1) + j)) (zrange 0 (n mod 64)) = map h (zrange 0 n)).
    { rewrite (zrange_split 0 (64 * (nwords n - 1)) n) by lia. rewrite map_app. f_equal. assert (G : zrange (64 * (nwords n - 1)) n = map (fun j => 64 * (nwords n - 1) + j) (zrange 0 (n mod 64))). { unfold zrange. rewrite map_map. replace (Z.to_nat (n - 64 * (nwords n - 1))) with (Z.to_nat (n mod 64 - 0)) by lia. apply map_ext. intros j. lia. } rewrite G, map_map. reflexivity. }
    rewrite Ap. unfold len. rewrite len_map_zrange by lia. rewrite Z.sub_diag. cbn [Z.to_nat repeat app]. do 2 f_equal. apply map_ext_in. intros i Hi. apply ZBits.in_zrange in Hi. unfold h. now replace (i <? n) with true by lia.
Qed.
Lemma mirrored_in n i : 65 <= n -> 0 <= i < n -> 0 <= mirrored n i < n.
Proof.
  intros Hn Hi. unfold mirrored. pose proof (Z.div_mod i 64 ltac:(lia)). pose proof (Z.mod_pos_bound i 64 ltac:(lia)). assert (0 <= i / 64) by (apply Z.div_pos; lia). lia.
Qed.
Lemma bit_binary_exact b base : vec b -> among "bB" base ->
  (exists s, bit_str b [base] = Ok s /\ len s = bw b /\ forall i, 0 <= i < bw b -> from_right s i = Some (if bit_at b i then 49 else 48)) <->
  (bw b <= 64 \/ bsgn b = true /\ (bw b mod 64 = 0 -> forall i, bw b - 64 <= i < bw b -> bit_at b i = false) /\ forall i, 0 <= i < bw b -> bit_at b i = bit_at b (mirrored (bw b) i)).
Proof.
  intros V B. destruct (Z.le_gt_cases (bw b) 64) as [S|S].
  - split; [now left|]. intros _. destruct (bit_bin_out b base V S B) as (s & E & _ & L & H). now exists s.
  - destruct (bsgn b) eqn:Sg.
    + rewrite (wide_binary b base V B ltac:(lia) Sg). set (n := bw b) in *. assert (BA : forall i, 0 <= i < n -> bit_at b i = Z.testbit (stored b) i) by (intros i Hi; apply bit_at_stored; fold n; lia).
      assert (Inj : forall x y, bit_char x = bit_char y -> x = y) by (intros [] []; (reflexivity || discriminate)).
      pose proof (Z.div_mod n 64 ltac:(lia)) as DM. pose proof (Z.mod_pos_bound n 64 ltac:(lia)) as MB. split.
      * intros (s & Es & _ & H). injection Es as <-. right. split; [reflexivity|].
        assert (Q : forall i, 0 <= i < n -> bit_at b i = (i <? if n mod 64 =? 0 then n - 64 else n) && Z.testbit (stored b) (mirrored n i)). { intros i Hi. specialize (H i Hi). unfold from_right in H. rewrite from_right_cells in H by lia. injection H as H. symmetry. apply Inj. exact H. }
        assert (T : n mod 64 = 0 -> forall i, n - 64 <= i < n -> bit_at b i = false). { intros M i Hi. rewrite Q by lia. rewrite M. cbn [Z.eqb]. now replace (i <? n - 64) with false by lia. }
        split; [exact T|]. intros i Hi. pose proof (mirrored_in n i ltac:(lia) Hi) as MI. rewrite (BA (mirrored n i) MI). destruct (Z.eqb_spec (n mod 64) 0) as [M|M].
        { destruct (Z.lt_ge_cases i (n - 64)) as [G|G]; [rewrite Q by lia; rewrite ?M; cbn [Z.eqb]; now replace (i <? n - 64) with true by lia|]. rewrite (T M i) by lia. rewrite <- (BA (mirrored n i) MI). symmetry. apply T; [exact M|]. unfold mirrored in *. pose proof (Z.div_mod i 64 ltac:(lia)). pose proof (Z.mod_pos_bound i 64 ltac:(lia)). assert (i / 64 = n / 64 - 1) by nia. lia. }
        { rewrite Q by lia. rewrite ?(proj2 (Z.eqb_neq _ _) M). now replace (i <? n) with true by lia. }
      * intros [C|(_ & T & H)]; [lia|]. eexists. split; [reflexivity|]. split; [unfold len; rewrite rev_length; apply len_map_zrange; lia|]. intros i Hi. unfold from_right. rewrite from_right_cells by lia. f_equal. fold (bit_char (bit_at b i)). f_equal. pose proof (mirrored_in n i ltac:(lia) Hi) as MI.
        destruct (Z.eqb_spec (n mod 64) 0) as [M|M]; [destruct (Z.ltb_spec i (n - 64)) as [G|G]|replace (i <? n) with true by lia]; cbn [andb].
        1,3: rewrite <- BA by exact MI; symmetry; now apply H.
        symmetry. apply T; [exact M|lia].
    + split; [|intros [C|[C _]]; [lia|discriminate]]. intros (s & E & _). exfalso. assert (B1 : pow2_fmt base 1) by (left; auto). rewrite (bit_str_print b [base] Natural base V (pow2_ask base 1 B1)) in E. unfold bit_print in E. rewrite Sg in E. replace (64 <? bw b) with true in E by lia. discriminate.
Qed.
(** * decimals *)
Lemma digits_is m : 0 <= m < 2 ^ 128 -> is_numeral 10 m (rev (digits 10 m)).
Proof.
  intros H. destruct (Z.eq_dec m 0) as [-> | N]; [change (rev (digits 10 0)) with [48]; apply numeral0; lia|].
  destruct (digits_numeral 10 128 m ltac:(lia)) as (t & E & I); [change (Z.of_nat 128) with 128; lia|]. rewrite (lsf_digits 10 ltac:(lia) 128 m) in E by (change (Z.of_nat 128) with 128; lia). injection E as <-. exact I.
Qed.
Lemma numeral_not_minus v t : ~ is_numeral 10 v (45 :: t).
Proof. intros (_ & _ & _ & F). inversion F as [|? ? [A _] _]; subst. vm_compute in A. intuition discriminate. Qed.
Definition signed_text (neg : bool) (cs : list Z) : list Z := (if neg then [45] else []) ++ rev cs.
Lemma decimal_iff v m (neg : bool) : 0 <= m < 2 ^ 128 -> decimal_text v (signed_text neg (digits 10 m)) <-> (if neg then v = - m /\ 0 < m else v = m).
Proof.
  intros Hm. pose proof (digits_is m Hm) as D. unfold signed_text, decimal_text. destruct neg; cbn [app].
  - destruct (Z.ltb_spec v 0) as [G|G].
    + split; [|intros [-> P]; exists (rev (digits 10 m)); rewrite Z.opp_involutive; auto]. intros (t & E & I). injection E as <-. destruct I as [I _]. destruct D as [D _]. rewrite D in I. lia.
    + split; [|lia]. intros I. now apply numeral_not_minus in I.
  - destruct (Z.ltb_spec v 0) as [G|G].
    + split; [|lia]. intros (t & E & _). rewrite E in D. now apply numeral_not_minus in D.
    + split; [|now intros ->]. intros [I _]. destruct D as [D _]. congruence.
Qed.
Lemma decimal_none v neg : ~ decimal_text v (signed_text neg []).
Proof.
  unfold signed_text, decimal_text. destruct neg, (v <? 0); cbn [app rev].
  - intros (t & E & _ & N & _). injection E as <-. now elim N.
  - intros I. now apply numeral_not_minus in I.
  - intros (t & E & _). discriminate.
  - intros (_ & N & _). now elim N.
Qed.
Lemma native_decimal b base : vec b -> bw b <= 64 -> tidy b -> among "dD" base ->
  0 <= magnitude base b < 2 ^ 64 /\
  (negative_decimal base b && no_magnitude b = false /\ decimal_text (value b) (signed_text (negative_decimal base b) (digits 10 (magnitude base b))) <-> prints_native b).
Proof.
  intros V H T B. assert (D : member "dD" base = true) by (apply member_among; exact B). native b x Eb Nb Ib Sb. assert (P64 : 2 ^ bw b <= 2 ^ 64) by (apply Z.pow_le_mono_r; lia). assert (P0 : 0 < 2 ^ bw b) by (apply Z.pow_pos_nonneg; lia).
  assert (MR : 0 <= magnitude base b < 2 ^ 64). { unfold magnitude. replace (bw b <=? 64) with true by lia. destruct (negative_decimal base b); [pose proof (Z.mod_pos_bound (- stored b) (2 ^ bw b) P0); lia|apply Z.mod_pos_bound; lia]. }
  split; [exact MR|]. rewrite decimal_iff by (assert (2 ^ 64 < 2 ^ 128) by reflexivity; lia). unfold magnitude, prints_native in *. unfold negative_decimal in *. replace (bw b <=? 64) with true in * by lia. rewrite D, Sb in *. cbn [andb] in *.
  pose proof (value_bound b H ltac:(lia)) as VB. destruct (bsgn b) eqn:Sg; cbn [andb].
  - destruct (Z.eq_dec (bw b) 1) as [N1|N1].
    + unfold tidy in T. rewrite Eb, Sg, N1 in T. cbn [andb Z.ltb Z.compare Pos.compare Pos.compare_cont] in T. change (2 ^ 1) with 2 in T. replace (x <? 0) with false by lia. cbn [andb].
      assert (VX : value b = - x). { unfold value, snum, num. rewrite Sg, Sb, N1. change (2 ^ 1) with 2. assert (C : x = 0 \/ x = 1) by lia. destruct C as [-> | ->]; reflexivity. }
      rewrite VX. rewrite Z.mod_small by lia. split; [intros [_ E] _; split; lia|]. intros G. destruct (G eq_refl) as [G1 _]. split; [reflexivity|]. lia.
    + assert (Sv : x = value b) by (rewrite <- Sb; apply tidy_value; auto; intros; lia). rewrite <- Sv in *. assert (TX : - 2 ^ (bw b - 1) <= x < 2 ^ (bw b - 1)). { unfold tidy in T. rewrite Eb, Sg in T. replace (1 <? bw b) with true in T by lia. exact T. }
      assert (P2 : 2 ^ bw b = 2 * 2 ^ (bw b - 1)) by (rewrite <- Z.pow_succ_r by lia; f_equal; lia).
      destruct (Z.ltb_spec x 0) as [G|G]; cbn [andb].
      * rewrite (Z.mod_small (- x)) by lia. unfold no_magnitude. rewrite Sb. replace (bw b <=? 64) with true by lia. split.
        { intros [NM _] _. split; [lia|]. intros C E. rewrite E in NM. assert (CC : computing (bw b) = bw b) by (unfold computing; destruct C as [-> | ->]; reflexivity). rewrite CC, Z.eqb_refl in NM. replace (16 <? bw b) with true in NM by lia. discriminate. }
        { intros Q. destruct (Q eq_refl) as [_ Q2]. split; [|lia]. destruct (Z.ltb_spec 16 (bw b)) as [W|W]; [|reflexivity]. cbn [andb]. apply Z.eqb_neq. intros E. assert (CC : bw b = computing (bw b)). { assert (computing (bw b) - 1 <= bw b - 1); [apply (Z.pow_le_mono_r_iff 2); lia|]. unfold computing in *. destruct (Z.leb_spec (bw b) 32); lia. }
          rewrite <- CC in E. apply Q2; [|exact E]. unfold computing in CC. destruct (bw b <=? 32); lia. }
      * rewrite Z.mod_small by lia. split; [intros _ _; split; [lia|intros C E; pose proof (Z.pow_pos_nonneg 2 (bw b - 1)); lia]|]. intros _. split; [reflexivity|]. reflexivity.
  - assert (Sv : x = value b) by (rewrite <- Sb; apply tidy_value; auto; intros; congruence). rewrite <- Sv. assert (0 <= x < 2 ^ bw b). { unfold tidy in T. rewrite Eb, Sg in T. exact T. } rewrite Z.mod_small by lia. split; [intros _ C; discriminate|]. intros _. split; reflexivity.
Qed.
Lemma wide_decimal b base : vec b -> 65 <= bw b -> tidy b -> among "dD" base ->
  bw b <> 128 /\ decimal_text (value b) (signed_text (negative_decimal base b) (if magnitude base b mod 2 ^ 128 =? 0 then [] else digits 10 (magnitude base b mod 2 ^ 128))) <-> prints_wide b.
Proof.
  intros V H T B. assert (D : member "dD" base = true) by (apply member_among; exact B). wide b ws Eb Nb Ib Sb. assert (TX : 0 <= stored b < 2 ^ bw b) by (unfold tidy in T; rewrite Eb in T; rewrite Sb; exact T).
  assert (NS : num b = stored b) by (unfold num; apply Z.mod_small; exact TX). unfold prints_wide. set (n := bw b) in *. set (x := stored b) in *.
  pose proof (nwords_bounds n ltac:(lia)) as NW. assert (CN : n <= capacity n) by (rewrite capacity_nwords; lia). assert (PC : 2 ^ n <= 2 ^ capacity n) by (apply Z.pow_le_mono_r; lia).
  assert (P2 : 2 ^ n = 2 * 2 ^ (n - 1)) by (rewrite <- Z.pow_succ_r by lia; f_equal; lia). assert (Pn : 0 < 2 ^ (n - 1)) by (apply Z.pow_pos_nonneg; lia).
  assert (VX : value b = if bsgn b && Z.testbit x (n - 1) then x - 2 ^ n else x). { unfold value, snum, twos. fold n. rewrite NS. fold x. destruct (bsgn b); reflexivity. }
  unfold magnitude. replace (negative_decimal base b) with (bsgn b && Z.testbit x (n - 1)) by (unfold negative_decimal; fold n; replace (n <=? 64) with false by lia; now rewrite D). fold n. replace (n <=? 64) with false by lia. fold x. rewrite VX.
  destruct (bsgn b && Z.testbit x (n - 1)) eqn:Sg.
  - assert (X1 : 2 ^ (n - 1) <= x). { apply andb_true_iff in Sg. destruct Sg as [_ Sg]. destruct (Z.le_gt_cases (2 ^ (n - 1)) x) as [Q|Q]; [exact Q|]. rewrite (testbit_small x (n - 1) (n - 1)) in Sg by lia. discriminate. }
    assert (M : - x mod 2 ^ capacity n = 2 ^ capacity n - x). { symmetry. apply Z.mod_unique with (-1); lia. } rewrite M.
    destruct (Z.lt_ge_cases n 129) as [Q|Q].
    + split; [|lia]. intros [N E]. exfalso. assert (n < 128) by lia. assert (CQ : capacity n = 128) by (rewrite capacity_nwords; lia). rewrite CQ in E. rewrite (Z.mod_small (2 ^ 128 - x)) in E by (rewrite CQ in PC; lia).
      destruct (Z.eqb_spec (2 ^ 128 - x) 0) as [Z0|Z0]; [now apply decimal_none in E|]. apply decimal_iff in E; [|rewrite CQ in PC; lia]. assert (2 ^ n < 2 ^ 128) by (apply Z.pow_lt_mono_r; lia). lia.
    + assert (MM : (2 ^ capacity n - x) mod 2 ^ 128 = (2 ^ n - x) mod 2 ^ 128). { assert (E : forall q, 128 <= q -> 2 ^ q = 2 ^ (q - 128) * 2 ^ 128) by (intros q Hq; rewrite <- Z.pow_add_r by lia; f_equal; lia). rewrite (E (capacity n)), (E n) by lia. set (A := 2 ^ (capacity n - 128)). set (B0 := 2 ^ (n - 128)). replace (A * 2 ^ 128 - x) with (- x + A * 2 ^ 128) by ring. replace (B0 * 2 ^ 128 - x) with (- x + B0 * 2 ^ 128) by ring. now rewrite !Z.mod_add by lia. }
      rewrite MM. pose proof (Z.mod_pos_bound (2 ^ n - x) (2 ^ 128) ltac:(lia)) as MB. destruct (Z.eqb_spec ((2 ^ n - x) mod 2 ^ 128) 0) as [Z0|Z0].
      * split; [intros [_ E]; now apply decimal_none in E|]. intros (_ & A & _). exfalso. rewrite Z.mod_small in Z0 by lia. lia.
      * rewrite decimal_iff by exact MB. split; [intros [N [E G]]; split; [exact N|]; split; lia|]. intros (N & A & _). split; [exact N|]. rewrite Z.mod_small in * by lia. lia.
  - assert (M : x mod 2 ^ capacity n = x) by (apply Z.mod_small; lia). rewrite M. pose proof (Z.mod_pos_bound x (2 ^ 128) ltac:(lia)) as MB. destruct (Z.eqb_spec (x mod 2 ^ 128) 0) as [Z0|Z0].
    + split; [intros [_ E]; now apply decimal_none in E|]. intros (_ & A & _). exfalso. rewrite Z.mod_small in Z0 by lia. lia.
    + rewrite decimal_iff by exact MB. split; [intros [N E]; split; [exact N|]; split; lia|]. intros (N & A & _). split; [exact N|]. rewrite Z.mod_small by lia. reflexivity.
Qed.
Lemma ask0 base : among "dD" base -> asks [48; base] (Columns 0) base.
Proof. intros B. exact (Sized [48] base [] ltac:(discriminate) ltac:(constructor; [vm_compute; tauto|constructor]) (nd_d base B)). Qed.
Lemma layout0 base w neg cs : layout (Columns 0) base w neg cs = signed_text neg cs.
Proof. unfold layout, signed_text. cbn zeta. set (body := (if neg then [45] else []) ++ rev cs). assert (0 <= len body) by (unfold len; lia). replace (Z.to_nat (0 - len body)) with 0%nat by lia. reflexivity. Qed.
Lemma natural_d base n : among "dD" base -> 1 <= n -> if n =? 128 then natural base n = UB else exists w, natural base n = Ok w.
Proof.
  intros B Hn. destruct (Z.eqb_spec n 128) as [-> | N]; [chars_cases B; vm_compute; reflexivity|]. rewrite <- possible_natural by exact Hn. now apply possible_d.
Qed.
Lemma logic_decimal_exact l base : lvec l -> known l -> ltidy l -> among "dD" base ->
  (exists s, logic_str l [48; base] = Ok s /\ decimal_text (value (l_val l)) s) <-> (if lw l <=? 64 then prints_native (l_val l) else prints_wide (l_val l)).
Proof.
  intros L K [T1 T2] B. pose proof (known_stored l L K T2) as Z0. pose proof (lw_pos l) as Hn. rewrite (logic_str_print l [48; base] (Columns 0) base L (ask0 base B)). unfold logic_print. rewrite Z0. cbn [valid]. cbn zeta.
  assert (D : member "dD" base = true) by (apply member_among; exact B). assert (Nd : member "bB" base = false /\ member "oO" base = false /\ member "xXhH" base = false /\ member "sS" base = false) by (chars_cases B; repeat split; reflexivity). destruct Nd as (Nb & No & Nx & Ns).
  pose proof (natural_d base (lw l) B Hn) as ND. assert (V1 : vec (l_val l)) by apply L. destruct (Z.leb_spec (lw l) 64) as [S|S].
  - replace (lw l =? 128) with false in ND by lia. destruct ND as [w ->]. cbn [bind]. unfold four_chars. rewrite Nb, No, Nx, Ns, D. cbn [Z.eqb]. rewrite layout0. destruct (native_decimal (l_val l) base V1 S T1 B) as [_ Q]. rewrite <- Q. destruct (negative_decimal base (l_val l) && no_magnitude (l_val l)) eqn:E.
    + split; [intros (s & C & _); discriminate|intros [C _]; discriminate].
    + split; [intros (s & C & H); injection C as <-; auto|]. intros [_ H]. eexists. split; [reflexivity|exact H].
  - assert (NM : no_magnitude (l_val l) = false) by (unfold no_magnitude; fold (lw l); replace (lw l <=? 64) with false by lia; now rewrite andb_false_r). rewrite NM, andb_false_r. rewrite <- (wide_decimal (l_val l) base V1 ltac:(fold (lw l); lia) T1 B). fold (lw l). destruct (Z.eqb_spec (lw l) 128) as [E|E].
    + rewrite ND. cbn [bind]. split; [intros (s & C & _); discriminate|intros [C _]; contradiction].
    + destruct ND as [w ->]. cbn [bind]. unfold four_wide. rewrite D, Zmod_0_l. cbn [Z.eqb bind]. rewrite layout0. split; [intros (s & C & H); injection C as <-; auto|]. intros [_ H]. eexists. split; [reflexivity|exact H].
Qed.
Lemma bit_decimal_exact b base : vec b -> tidy b -> among "dD" base ->
  (exists s, bit_str b [48; base] = Ok s /\ decimal_text (value b) s) <-> (if bw b <=? 64 then prints_native b else bsgn b = true /\ prints_wide b).
Proof.
  intros V T B. assert (Hn : 1 <= bw b) by (unfold bw, width; lia). rewrite (bit_str_print b [48; base] (Columns 0) base V (ask0 base B)). unfold bit_print. cbn [valid]. cbn zeta.
  assert (D : member "dD" base = true) by (apply member_among; exact B). assert (Nd : member "bB" base = false /\ member "oO" base = false /\ member "xXhH" base = false /\ member "sS" base = false) by (chars_cases B; repeat split; reflexivity). destruct Nd as (Nb & No & Nx & Ns).
  pose proof (natural_d base (bw b) B Hn) as ND. destruct (Z.leb_spec (bw b) 64) as [S|S].
  - replace (64 <? bw b) with false by lia. cbn [andb]. replace (bw b =? 128) with false in ND by lia. destruct ND as [w ->]. cbn [bind]. unfold two_chars. rewrite Nb, No, Nx, Ns, D. cbn [bind]. rewrite layout0. destruct (native_decimal b base V S T B) as [_ Q]. rewrite <- Q. destruct (negative_decimal base b && no_magnitude b) eqn:E.
    + split; [intros (s & C & _); discriminate|intros [C _]; discriminate].
    + split; [intros (s & C & H); injection C as <-; auto|]. intros [_ H]. eexists. split; [reflexivity|exact H].
  - replace (64 <? bw b) with true by lia. cbn [andb]. destruct (bsgn b) eqn:Sg; cbn [negb]; [|split; [intros (s & C & _); discriminate|intros [C _]; discriminate]].
    assert (NM : no_magnitude b = false) by (unfold no_magnitude; replace (bw b <=? 64) with false by lia; now rewrite andb_false_r). rewrite NM, andb_false_r. rewrite <- (wide_decimal b base V ltac:(lia) T B). destruct (Z.eqb_spec (bw b) 128) as [E|E].
    + rewrite ND. cbn [bind]. split; [intros (s & C & _); discriminate|intros (_ & C & _); contradiction].
    + destruct ND as [w ->]. cbn [bind]. unfold two_wide. rewrite D. cbn [bind]. rewrite layout0. split; [intros (s & C & H); injection C as <-; auto|]. intros (_ & _ & H). eexists. split; [reflexivity|exact H].
Qed.
(** * reading a binary text back *)
Lemma read_symbols n sg t s : 1 <= n < 2 ^ 31 -> len s = n -> (forall i, 0 <= i < n -> from_right s i = Some (sym_char (t i))) -> (forall p, 0 <= p < n -> 32 <= p mod 64 -> unknown (t p) = false) ->
  exists l, logic_of_str (n - 1) 0 sg (chars "'b" ++ s) = Ok l /\ ltyped l n sg /\ forall p, 0 <= p < n -> sym_at l p = t p.
Proof.
  intros Hn L H U. assert (D : Forall (among "01xz_") s) by (apply (right_forall _ s _ n L H); intros i Hi; destruct (t i); vm_compute; tauto).
  assert (N : no_underscore s) by (apply (right_forall _ s _ n L H); intros i Hi; destruct (t i); discriminate).
  assert (S : forall p, 0 <= p < n -> text_sym 1 s p = t p). { intros p Hp. rewrite (text_of_right 1 s _ n p ltac:(lia) ltac:(lia) L H N). rewrite Z.div_1_r, Z.mod_1_r. replace (p <? n) with true by lia. destruct (t p); reflexivity. }
  assert (Lt : chars "'b" ++ s = literal [] [] 98 s) by reflexivity. assert (B' : pow2_base 98 1) by (left; split; [vm_compute; tauto|reflexivity]). assert (Cl : clean s = s) by now apply clean_id.
  rewrite Lt. destruct (Z.leb_spec n 64) as [N64|N64].
  - destruct (logic_text n sg [] [] 98 1 s ltac:(lia) pfx_ok B' D) as (l' & E' & T' & Q & Y).
    + split; [rewrite Cl; lia|now apply hd_no].
    + intros N1 p Hp. apply text_bound; [lia|lia|]. rewrite Cl. lia.
    + intros _ p Hp. destruct (Z.lt_ge_cases p n); [rewrite S by lia; apply U; [lia|rewrite Z.mod_small by lia; lia]|]. rewrite text_bound; [reflexivity|lia|lia|]. rewrite Cl. lia.
    + exists l'. split; [exact E'|]. split; [exact T'|]. intros p Hp. rewrite Q by lia. now apply S.
  - destruct (logic_text_big n sg [] [] 98 1 s ltac:(lia) pfx_ok B' ltac:(lia) D N) as (l' & E' & T' & Q & Y).
    + intros _ p Hp Hm. destruct (Z.lt_ge_cases p n); [rewrite S by lia; apply U; lia|]. rewrite text_bound; [reflexivity|lia|lia|]. rewrite Cl. lia.
    + exists l'. split; [exact E'|]. split; [exact T'|]. intros p Hp. rewrite Q by lia. now apply S.
Qed.
Lemma nth_firstn {A} (l : list A) k i : (i < k)%nat -> nth_error (firstn k l) i = nth_error l i.
Proof. revert l i. induction k as [|k IH]; intros l i H; [lia|]. destruct l as [|x l]; [reflexivity|]. destruct i as [|i]; [reflexivity|]. cbn [firstn nth_error]. apply IH. lia. Qed.
Lemma nth_skipn {A} (l : list A) k i : nth_error (skipn k l) i = nth_error l (k + i).
Proof. revert l. induction k as [|k IH]; intros l; [reflexivity|]. destruct l as [|x l]; [now destruct i|]. cbn [skipn Nat.add nth_error]. apply IH. Qed.
Lemma read_unknown n sg t s p : 1 <= n < 2 ^ 31 -> len s = n -> (forall i, 0 <= i < n -> from_right s i = Some (sym_char (t i))) -> 0 <= p < n -> 32 <= p mod 64 -> unknown (t p) = true ->
  logic_of_str (n - 1) 0 sg (chars "'b" ++ s) = UB.
Proof.
  intros Hn L H Hp P32 U. assert (N : no_underscore s) by (apply (right_forall _ s _ n L H); intros i Hi; destruct (t i); discriminate). assert (Cl : clean s = s) by now apply clean_id.
  assert (Lt : chars "'b" ++ s = literal [] [] 98 s) by reflexivity. assert (B' : pow2_base 98 1) by (left; split; [vm_compute; tauto|reflexivity]).
  rewrite Lt, (logic_of_str_exact (n - 1) 0 sg _ 98 s); [|rewrite width_n; lia|apply (literal_parts _ _ _ 1); [exact pfx_ok|exact B']]. unfold logic_read. cbn zeta. rewrite width_n by lia.
  assert (X : among "xz" (sym_char (t p))) by (destruct (t p); try discriminate; vm_compute; tauto). specialize (H p Hp). unfold from_right in H.
  assert (MR : forall s', mask_readable 98 s' = negb (existsb (member "xz") (skipn 32 (places s')))) by reflexivity. destruct (Z.leb_spec n 64) as [G|G].
  - replace (mask_readable 98 s) with false; [now rewrite andb_false_r|]. symmetry. rewrite MR. apply not_true_iff_false. intros Q. rewrite none_from in Q. unfold places in Q. rewrite Cl in Q. specialize (Q _ _ H X). rewrite Z.mod_small in P32 by lia. lia.
  - replace (forallb _ _) with false; [reflexivity|]. symmetry. apply not_true_iff_false. intros Q. rewrite forallb_forall in Q. pose proof (nwords_bounds n ltac:(lia)) as NB. pose proof (Z.div_mod p 64 ltac:(lia)) as DM. pose proof (Z.mod_pos_bound p 64 ltac:(lia)) as MB.
    specialize (Q (p / 64)). rewrite MR in Q. specialize (Q ltac:(apply ZBits.in_zrange; rewrite words_in_nwords; split; [apply Z.div_pos; lia|apply Z.div_lt_upper_bound; lia])). rewrite none_from in Q.
    assert (E : nth_error (places (piece 98 s (p / 64))) (Z.to_nat (p mod 64)) = Some (sym_char (t p))).
    { unfold places, piece. change (per_word 98) with 64. rewrite clean_id; [rewrite rev_involutive|].
      - rewrite nth_firstn by lia. rewrite nth_skipn. replace (Z.to_nat (p / 64 * 64) + Z.to_nat (p mod 64))%nat with (Z.to_nat p); [exact H|]. assert (0 <= p / 64) by (apply Z.div_pos; lia). lia.
      - unfold no_underscore in *. apply Forall_forall. intros c Hc. apply in_rev in Hc. apply (proj1 (Forall_forall _ _) N). apply in_rev. rewrite <- (firstn_skipn (Z.to_nat (p / 64 * 64)) (rev s)). apply in_or_app. right. rewrite <- (firstn_skipn (Z.to_nat 64) (skipn _ _)). apply in_or_app. now left. }
    specialize (Q _ _ E X). lia.
Qed.
Lemma binary_round_exact l n sg : 1 <= n -> ltyped l n sg ->
  (exists s l', logic_str l (chars "b") = Ok s /\ logic_of_str (n - 1) 0 sg (chars "'b" ++ s) = Ok l' /\ forall p, 0 <= p < n -> sym_at l' p = sym_at l p) <->
  (forall p, 0 <= p < n -> 32 <= p mod 64 -> unknown (sym_at l p) = false) /\ (n <= 64 \/ n mod 64 <> 0 \/ forall p, n - 64 <= p < n -> sym_at l p = S0).
Proof.
  intros Hn T. destruct (ltyped_lvec l n sg Hn T) as [V W]. pose proof (typed_lt _ _ _ Hn (proj1 T)) as Hlt. assert (B : among "bB" 98) by (vm_compute; tauto). split.
  - intros (s & l' & E & E' & H). pose proof (logic_cells l 98 1 V ltac:(left; auto) ltac:(right; lia)) as EC. change (chars "b") with [98] in E. rewrite E in EC. injection EC as Es. rewrite W, ceil1 in Es.
    set (t := fun i => sym_of (Z.testbit (seen_num n (l_val l)) i) (Z.testbit (seen_num n (l_xz l)) i)).
    assert (Ls : len s = n) by (rewrite Es; unfold len; rewrite rev_length; apply len_map_zrange; lia).
    assert (Ht : forall i, 0 <= i < n -> from_right s i = Some (sym_char (t i))). { intros i Hi. rewrite Es. unfold from_right. rewrite from_right_cells by lia. now rewrite gsyms1. }
    assert (Up : forall p, 0 <= p < n -> 32 <= p mod 64 -> unknown (t p) = false). { intros p Hp P32. destruct (unknown (t p)) eqn:U; [|reflexivity]. rewrite (read_unknown n sg t s p) in E' by (auto; lia). discriminate. }
    destruct (read_symbols n sg t s ltac:(lia) Ls Ht Up) as (l2 & E2 & _ & H2). rewrite E2 in E'. injection E' as <-.
    assert (TS : forall p, 0 <= p < n -> t p = sym_at l p) by (intros p Hp; rewrite <- H2, H by lia; reflexivity). split; [intros p Hp P32; rewrite <- TS by lia; now apply Up|].
    destruct (Z.le_gt_cases n 64) as [S|S]; [now left|]. destruct (Z.eq_dec (n mod 64) 0) as [M|M]; [|right; now left]. right; right. intros p Hp. assert (64 <= n - 64) by (pose proof (Z.div_mod n 64 ltac:(lia)); lia). rewrite <- TS by lia. unfold t. now rewrite !seen_top by lia.
  - intros [U C]. assert (C' : lw l <= 64 \/ lw l mod 64 <> 0 \/ forall i, lw l - 64 <= i < lw l -> sym_at l i = S0) by (rewrite W; exact C). apply (logic_binary_exact l 98 V B) in C'. destruct C' as (s & E & Ls & H). rewrite W in Ls, H.
    destruct (read_symbols n sg (sym_at l) s ltac:(lia) Ls H U) as (l' & E' & _ & H'). exists s, l'. auto.
Qed.
Lemma asks_one fmt : exists req base, asks fmt req base /\ forall req' base', asks fmt req' base' -> req' = req /\ base' = base.
Proof. destruct (asks_exist fmt) as (req & base & A). exists req, base. split; [exact A|]. intros r b B. apply (asks_unique fmt r b req base B A). Qed.
