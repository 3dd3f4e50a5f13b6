(** Exactly when x and z are printed right. *)
From Coq Require Import ZArith String Ascii List Bool Lia.
From Verif Require Import Cpp BigNum Bit Logic Util Spec SpecText SpecExact SpecMachine SpecWide SpecRead SpecPrint SpecIff6 BitExt ZBits Words BitProofs TextProofs FmtProofs FmtMain BitMain FmtDec FmtRound WideProofs ReadProofs ReadExact PrintProofs PrintExact.
Import ListNotations.
Open Scope Z_scope.
Local Ltac Zify.zify_post_hook ::= idtac.

(** a digit with zeros instead of missing symbols *)
Lemma cut_digit (g : list sym) m : (1 <= length g)%nat -> (length g + m <= 4)%nat -> (1 <= m)%nat ->
  group_char (g ++ repeat S0 m) = group_char g <-> ~ (forall s, In s g -> s = SX) /\ ~ (forall s, In s g -> s = SZ).
Proof.
  intros L1 L2 L3.
  assert (D : (group_char (g ++ repeat S0 m) =? group_char g) = negb (forallb is_x g) && negb (forallb is_z g)).
  { destruct g as [|a [|b [|c [|d g]]]]; cbn [length] in *; [lia| | | |lia].
    - assert (C : m = 1%nat \/ m = 2%nat \/ m = 3%nat) by lia. destruct C as [-> | [-> | ->]]; destruct a; reflexivity.
    - assert (C : m = 1%nat \/ m = 2%nat) by lia. destruct C as [-> | ->]; destruct a, b; reflexivity.
    - assert (C : m = 1%nat) by lia. subst m. destruct a, b, c; reflexivity. }
  assert (X : forallb is_x g = true <-> forall s, In s g -> s = SX). { rewrite forallb_forall. split; intros H s Hs; specialize (H s Hs); [destruct s; (reflexivity || discriminate)|now rewrite H]. }
  assert (Z : forallb is_z g = true <-> forall s, In s g -> s = SZ). { rewrite forallb_forall. split; intros H s Hs; specialize (H s Hs); [destruct s; (reflexivity || discriminate)|now rewrite H]. }
  rewrite <- X, <- Z, <- Z.eqb_eq, D. destruct (forallb is_x g), (forallb is_z g); cbn; intuition congruence.
Qed.
Lemma zero_digit a b c d : group_char [a; b; c; d] = 48 <-> a = S0 /\ b = S0 /\ c = S0 /\ d = S0.
Proof. split; [|intros (-> & -> & -> & ->); reflexivity]. destruct a, b, c, d; intros H; try discriminate H; auto. Qed.
Lemma zero_digit1 a : group_char [a] = 48 <-> a = S0.
Proof. split; [|intros ->; reflexivity]. destruct a; intros H; try discriminate H; auto. Qed.

Lemma top_digits n k : 1 <= n -> 1 <= k -> n mod k <> 0 -> ceil_div n k = n / k + 1.
Proof. intros Hn Hk M. apply ceil_unique; [lia|]. pose proof (Z.div_mod n k ltac:(lia)). pose proof (Z.mod_pos_bound n k ltac:(lia)). nia. Qed.
Lemma even_digits n k : 1 <= n -> 1 <= k -> n mod k = 0 -> ceil_div n k = n / k.
Proof. intros Hn Hk M. apply ceil_unique; [lia|]. pose proof (Z.div_mod n k ltac:(lia)). nia. Qed.

Lemma digits_exact l base k : lvec l -> pow2_fmt base k -> lw l <= 64 \/ k <> 3 -> ends_clear l k ->
  right_digits l base k <->
  (lw l mod k <> 0 -> ~ every l (k * (lw l / k)) (lw l) SX /\ ~ every l (k * (lw l / k)) (lw l) SZ) /\ (65 <= lw l -> lw l mod 64 = 0 -> every l (lw l - 64) (lw l) S0).
Proof.
  intros L B C EC. destruct (stride_fmt base k B) as (_ & Hk & _). pose proof (lw_pos l) as Hn. pose proof (mask_width l L) as MW. set (n := lw l) in *.
  assert (Hk' : k = 1 \/ k = 3 \/ k = 4) by (destruct B as [[_ ->]|[[_ ->]|[_ ->]]]; auto).
  pose proof (logic_cells l base k L B C) as E. fold n in E. set (V := seen_num n (l_val l)) in *. set (X := seen_num n (l_xz l)) in *. pose proof (ceil_bounds n k ltac:(lia)) as CB. set (c := ceil_div n k) in *.
  assert (UW : usual_width base n c) by (unfold c; now apply usual_pow2).
  assert (ST : right_digits l base k <-> forall i, 0 <= i < c -> group_char (gsyms V X k i) = group_char (own_group l k i)).
  { unfold right_digits. rewrite E. split.
    - intros (s & Es & _ & H) i Hi. injection Es as <-. assert (Ls : len (rev (map (fun i => group_char (gsyms V X k i)) (zrange 0 c))) = c) by (unfold len; rewrite rev_length; apply len_map_zrange; lia).
      rewrite Ls in H. specialize (H i Hi). unfold from_right in H. rewrite from_right_cells in H by lia. now injection H.
    - intros H. eexists. split; [reflexivity|]. assert (Ls : len (rev (map (fun i => group_char (gsyms V X k i)) (zrange 0 c))) = c) by (unfold len; rewrite rev_length; apply len_map_zrange; lia).
      rewrite Ls. split; [exact UW|]. intros i Hi. unfold from_right. rewrite from_right_cells by lia. now rewrite H. }
  rewrite ST. clear ST E.
  assert (See : forall p, 0 <= p < n -> (n <= 64 \/ n mod 64 <> 0 \/ p < n - 64) -> sym_of (Z.testbit V p) (Z.testbit X p) = sym_at l p). { intros p Hp Q. unfold V, X. rewrite !seen_bit by (auto; lia). reflexivity. }
  assert (Whole : forall i, 0 <= i -> k * i + k <= n -> own_group l k i = map (fun j => sym_at l (k * i + j)) (zrange 0 k)). { intros i Hi Q. unfold own_group. fold n. now rewrite Z.min_l by lia. }
  assert (Full : forall i, 0 <= i -> k * i + k <= n -> (n <= 64 \/ n mod 64 <> 0 \/ k * i + k <= n - 64) -> gsyms V X k i = own_group l k i).
  { intros i Hi Q Q2. rewrite Whole by lia. unfold gsyms. apply map_ext_in. intros j Hj. apply ZBits.in_zrange in Hj. apply See; [lia|]. destruct Q2 as [Q2|[Q2|Q2]]; [now left|right; now left|right; right; lia]. }
  destruct (Z.eq_dec (n mod k) 0) as [M|M].
  - (* every digit is complete *)
    assert (Ec : c = n / k) by (unfold c; now apply even_digits). pose proof (Z.div_mod n k ltac:(lia)) as DM. rewrite M, Z.add_0_r in DM.
    split.
    + intros H. split; [intros Q; contradiction|]. intros N65 M64 p Hp. assert (K3 : k = 1 \/ k = 4) by (destruct C; lia). assert (N128 : 64 <= n - 64) by (pose proof (Z.div_mod n 64 ltac:(lia)); lia).
      assert (Pi : 0 <= p / k < c). { split; [apply Z.div_pos; lia|]. rewrite Ec. apply Z.div_lt_upper_bound; [lia|]. nia. }
      assert (Lo : n - 64 <= k * (p / k) /\ k * (p / k) + k <= n). { pose proof (Z.div_mod p k ltac:(lia)). pose proof (Z.mod_pos_bound p k ltac:(lia)). assert (k * (n / k) = n) by lia. assert ((n - 64) mod k = 0). { destruct K3 as [-> | ->]; [apply Z.mod_1_r|]. rewrite Zminus_mod, M. reflexivity. }
        pose proof (Z.div_mod (n - 64) k ltac:(lia)). destruct K3 as [-> | ->]; [rewrite Z.div_1_r in *; lia|]. nia. }
      specialize (H (p / k) Pi). rewrite Whole in H by lia.
      assert (GZ : group_char (gsyms V X k (p / k)) = 48). { unfold gsyms. rewrite (map_const _ S0 0 k); [destruct K3 as [-> | ->]; reflexivity|]. intros j Hj. unfold V, X. rewrite !seen_top by lia. reflexivity. }
      rewrite GZ in H. symmetry in H. pose proof (Z.div_mod p k ltac:(lia)) as PD. pose proof (Z.mod_pos_bound p k ltac:(lia)) as PM. destruct K3 as [-> | ->].
      * change (zrange 0 1) with [0] in H. cbn [map] in H. apply zero_digit1 in H. rewrite Z.mod_1_r in PD. replace (1 * (p / 1) + 0) with p in H by lia. exact H.
      * change (zrange 0 4) with [0; 1; 2; 3] in H. cbn [map] in H. apply zero_digit in H. destruct H as (H0 & H1 & H2 & H3). assert (D : p mod 4 = 0 \/ p mod 4 = 1 \/ p mod 4 = 2 \/ p mod 4 = 3) by lia. rewrite PD. destruct D as [-> | [-> | [-> | ->]]]; assumption.
    + intros [_ H] i Hi. assert (Qi : k * i + k <= n) by nia. destruct (Z.le_gt_cases n 64) as [S|S]; [now rewrite Full by (auto; lia)|]. destruct (Z.eq_dec (n mod 64) 0) as [M64|M64]; [|now rewrite Full by (auto; lia)].
      assert (K3 : k = 1 \/ k = 4) by (destruct C; lia). assert (Q3 : (n - 64) mod k = 0). { destruct K3 as [-> | ->]; [apply Z.mod_1_r|]. rewrite Zminus_mod, M. reflexivity. } pose proof (Z.div_mod (n - 64) k ltac:(lia)) as DM2. rewrite Q3, Z.add_0_r in DM2.
      destruct (Z.le_gt_cases (k * i + k) (n - 64)) as [Q|Q]; [now rewrite Full by (auto; lia)|]. assert (Lo : n - 64 <= k * i) by nia. specialize (H ltac:(lia) M64). rewrite Whole by lia. f_equal. unfold gsyms.
      apply map_ext_in. intros j Hj. apply ZBits.in_zrange in Hj. rewrite (H (k * i + j)) by lia. unfold V, X. rewrite !seen_top by lia. reflexivity.
  - (* the top digit is cut *)
    assert (Ec : c = n / k + 1) by (unfold c; now apply top_digits). pose proof (Z.div_mod n k ltac:(lia)) as DM. pose proof (Z.mod_pos_bound n k ltac:(lia)) as MB. set (q := n / k) in *. set (r := n mod k) in *.
    assert (N64 : n <= 64 \/ n mod 64 <> 0). { destruct (Z.le_gt_cases n 64); [now left|]. right. intros Q. assert (K3 : k = 1 \/ k = 4) by (destruct C; lia). apply M. unfold r. pose proof (Z.div_mod n 64 ltac:(lia)) as D6. rewrite Q, Z.add_0_r in D6. destruct K3 as [-> | ->]; [apply Z.mod_1_r|]. rewrite D6. replace (64 * (n / 64)) with (n / 64 * 16 * 4) by lia. now apply Z.mod_mul. }
    assert (Q0 : 0 <= q) by (apply Z.div_pos; lia).
    assert (Top : gsyms V X k q = own_group l k q ++ repeat S0 (Z.to_nat (k - r))).
    { unfold gsyms, own_group. fold n. rewrite Z.min_r by lia. replace (n - k * q) with r by lia. rewrite (zrange_split 0 r k), map_app by lia. f_equal.
      - apply map_ext_in. intros j Hj. apply ZBits.in_zrange in Hj. apply See; [lia|tauto].
      - apply map_const. intros j Hj. specialize (EC (k * q + j)). fold n in EC. assert (T : (n + k - 1) / k = c). { fold (ceil_div n k). reflexivity. }
        rewrite T in EC. unfold V, X, seen_num. destruct (Z.leb_spec n 64) as [S|S].
        + rewrite !testbit_mod_pow2 by lia. destruct (Z.ltb_spec (k * q + j) 64) as [P|P]; [|reflexivity]. destruct EC as [-> ->]; [nia| |reflexivity]. unfold capacity, words_in. pose proof (Z.div_mod (n + 63) 64 ltac:(lia)). pose proof (Z.mod_pos_bound (n + 63) 64 ltac:(lia)). lia.
        + destruct (Z.eqb_spec (n mod 64) 0) as [Q|Q]; [destruct N64; lia|]. destruct EC as [-> ->]; [nia| |reflexivity]. unfold capacity, words_in. pose proof (Z.div_mod (n + 63) 64 ltac:(lia)) as D6. pose proof (Z.mod_pos_bound (n + 63) 64 ltac:(lia)) as M6.
          assert (K3 : k = 1 \/ k = 4) by (destruct C; lia). destruct K3 as [-> | ->]; lia. }
    assert (Lg : length (own_group l k q) = Z.to_nat r). { unfold own_group. fold n. rewrite Z.min_r by lia. rewrite map_length. unfold zrange. rewrite map_length, seq_length. lia. }
    assert (AllS : forall s, (forall t, In t (own_group l k q) -> t = s) <-> every l (k * q) n s).
    { intros s. unfold own_group, every. fold n. rewrite Z.min_r by lia. split.
      - intros H p Hp. apply H. apply in_map_iff. exists (p - k * q). split; [f_equal; lia|]. apply ZBits.in_zrange. lia.
      - intros H t Ht. apply in_map_iff in Ht. destruct Ht as (j & <- & Hj). apply ZBits.in_zrange in Hj. apply H. lia. }
    pose proof (cut_digit (own_group l k q) (Z.to_nat (k - r)) ltac:(lia) ltac:(lia) ltac:(lia)) as CD. rewrite !AllS in CD. split.
    + intros H. split; [|intros N65 M64; destruct N64; lia]. intros _. apply CD. rewrite <- Top. apply H. lia.
    + intros [H _] i Hi. destruct (Z.eq_dec i q) as [-> | Ni]; [rewrite Top; apply CD, H; exact M|]. rewrite Full; [reflexivity|lia|nia|tauto].
Qed.

(** * decimals *)
Definition shape (l : logic) (m : Z) : Z := group_char (map (sym_at l) (zrange 0 m)).
Lemma shape_decimal l m v x : 0 <= m -> 0 <= v < 2 ^ m -> 0 <= x < 2 ^ m -> (forall p, 0 <= p < m -> sym_at l p = sym_of (Z.testbit v p) (Z.testbit x p)) -> x <> 0 -> shape l m = unknown_decimal m m v x.
Proof.
  intros Hm Hv Hx H Nz. unfold shape. rewrite (sym_decide (sym_at l) v x m Hm Hv Hx H Nz). unfold unknown_decimal. destruct (x =? 2 ^ m - 1); [reflexivity|].
  replace (existsb (fun i => is_x (symbol v x i)) (zrange 0 m)) with (existsb (fun i => Z.testbit x i && negb (Z.testbit v i)) (zrange 0 m)); [reflexivity|].
  induction (zrange 0 m) as [|a r IH]; [reflexivity|]. cbn [existsb]. rewrite IH. f_equal. unfold symbol. destruct (Z.testbit v a), (Z.testbit x a); reflexivity.
Qed.
Lemma shape_known l m : (forall p, 0 <= p < m -> unknown (sym_at l p) = false) -> ~ In (shape l m) [120; 122; 88; 90].
Proof.
  intros H. unfold shape, group_char. replace (forallb (fun s => negb (unknown s)) (map (sym_at l) (zrange 0 m))) with true.
  2: { symmetry. apply forallb_forall. intros s Hs. apply in_map_iff in Hs. destruct Hs as (p & <- & Hp). apply ZBits.in_zrange in Hp. now rewrite H. }
  set (i := Z.to_nat _). clearbody i. intros Q. do 16 (destruct i as [|i]; [cbn in Q; intuition discriminate|]). cbn in Q. destruct i; intuition discriminate.
Qed.
Lemma shape_unknown l m : 0 <= m -> ~ (forall p, 0 <= p < m -> unknown (sym_at l p) = false) -> In (shape l m) [120; 122; 88; 90].
Proof.
  intros Hm H. unfold shape, group_char. destruct (forallb (fun s => negb (unknown s)) (map (sym_at l) (zrange 0 m))) eqn:F.
  - elim H. intros p Hp. rewrite forallb_forall in F. specialize (F (sym_at l p)). assert (I : In (sym_at l p) (map (sym_at l) (zrange 0 m))) by (apply in_map; apply ZBits.in_zrange; lia). specialize (F I). now destruct (unknown (sym_at l p)).
  - repeat match goal with |- context [if ?c then _ else _] => destruct c end; cbn; tauto.
Qed.
Lemma one_char (neg : bool) a b : signed_text neg [a] = [b] <-> neg = false /\ a = b.
Proof. unfold signed_text. destruct neg; cbn; split; [discriminate|intros [C _]; discriminate|intros [= ->]; auto|intros [_ ->]; reflexivity]. Qed.

Lemma decimal_exact l base : lvec l -> ltidy l -> ~ known l -> among "dD" base ->
  logic_str l [48; base] = Ok [group_char (map (sym_at l) (zrange 0 (lw l)))] <->
  ~ (lsgn l = true /\ 2 <= lw l /\ bit_at (l_val l) (lw l - 1) = true) /\ lw l <> 128 /\
  (65 <= lw l < 128 -> ~ every l 0 (lw l) SX /\ ~ every l 0 (lw l) SZ) /\
  (128 < lw l -> group_char (map (sym_at l) (zrange 0 128)) = group_char (map (sym_at l) (zrange 0 (lw l)))).
Proof.
  intros L [T1 T2] K B. pose proof (unknown_nonzero l L T2 K) as Nz. pose proof (lw_pos l) as Hn. pose proof (mask_width l L) as MW. rewrite (logic_str_print l [48; base] (Columns 0) base L (ask0 base B)). unfold logic_print. cbn [valid]. cbn zeta.
  assert (D : member "dD" base = true) by (apply member_among; exact B). assert (Nd : member "bB" base = false /\ member "oO" base = false /\ member "xXhH" base = false /\ member "sS" base = false) by (chars_cases B; repeat split; reflexivity). destruct Nd as (Nb & No & Nx & Ns).
  pose proof (natural_d base (lw l) B Hn) as ND. destruct L as (V1 & V2 & EM & EL & Us). set (n := lw l) in *. fold (shape l n). fold (shape l 128). assert (Bn : bw (l_val l) = n) by reflexivity.
  assert (Xr : 0 <= stored (l_xz l) < 2 ^ n). { unfold tidy in T2. rewrite Us, MW in T2. cbn [andb] in T2. unfold stored. destruct (bval (l_xz l)); exact T2. }
  assert (Sy : forall p, 0 <= p < n -> sym_at l p = sym_of (Z.testbit (stored (l_val l)) p) (Z.testbit (stored (l_xz l)) p)). { intros p Hp. unfold sym_at. rewrite !bit_at_stored by (try rewrite MW; unfold n, lw in *; lia). reflexivity. }
  assert (Pn : 0 < 2 ^ (n - 1)) by (apply Z.pow_pos_nonneg; lia). assert (P2 : 2 ^ n = 2 * 2 ^ (n - 1)) by (rewrite <- Z.pow_succ_r by lia; f_equal; lia).
  destruct (Z.leb_spec n 64) as [S|S].
  - (* one word *)
    replace (n =? 128) with false in ND by lia. destruct ND as [w ->]. cbn [bind]. unfold four_chars. rewrite Nb, No, Nx, Ns, D. rewrite (proj2 (Z.eqb_neq _ _) Nz), layout0. assert (P64 : 2 ^ n <= 2 ^ 64) by (apply Z.pow_le_mono_r; lia).
    destruct (vec_cases (l_val l) V1) as [(v & Ev & Nv & _ & Sv)|(ws & _ & X & _)]; [|unfold n, lw in *; lia]. rewrite Bn in Nv.
    unfold tidy in T1. rewrite Ev, Bn in T1. rewrite <- Sv in T1.
    assert (NG : negative_decimal base (l_val l) = true <-> lsgn l = true /\ 2 <= n /\ bit_at (l_val l) (n - 1) = true).
    { unfold negative_decimal. rewrite Bn, D. cbn [andb]. replace (n <=? 64) with true by lia. rewrite andb_true_iff, Z.ltb_lt. fold (lsgn l). unfold bit_at, num. rewrite Bn. rewrite Z.mod_pow2_bits_low by lia. destruct (lsgn l) eqn:Sg; [|split; intros [? ?]; discriminate].
      change (bsgn (l_val l)) with (lsgn l) in T1. rewrite Sg in T1. cbn [andb] in T1. destruct (Z.ltb_spec 1 n) as [L1|L1].
      - split; intros [_ H]; split; auto; [split; [lia|]|destruct H as [_ H]].
        + rewrite <- (Z.mod_pow2_bits_low (stored (l_val l)) n) by lia. assert (M : stored (l_val l) mod 2 ^ n = stored (l_val l) + 2 ^ n). { symmetry. apply Z.mod_unique with (-1); lia. } rewrite M.
          replace (stored (l_val l) + 2 ^ n) with (stored (l_val l) + 2 ^ (n - 1) + 1 * 2 ^ (n - 1)) by lia. apply Z.testbit_true; [lia|]. rewrite Z.div_add, Z.div_small by lia. reflexivity.
        + destruct (Z.lt_ge_cases (stored (l_val l)) 0) as [Q|Q]; [exact Q|]. rewrite (testbit_small _ (n - 1) (n - 1)) in H by lia. discriminate.
      - split; intros [_ H]; lia. }
    destruct (negative_decimal base (l_val l)) eqn:Eg.
    + assert (G := proj1 NG eq_refl). split; [|intros [Q _]; contradiction]. destruct (true && no_magnitude (l_val l)); [discriminate|]. intros Q. discriminate.
    + cbn [andb]. assert (G : ~ (lsgn l = true /\ 2 <= n /\ bit_at (l_val l) (n - 1) = true)) by (intros Q; apply NG in Q; discriminate).
      assert (Vr : 0 <= stored (l_val l) < 2 ^ n). { destruct (bsgn (l_val l) && (1 <? n)) eqn:Q; [|exact T1]. apply andb_true_iff in Q. destruct Q as [Q1 Q2]. unfold negative_decimal in Eg. rewrite D, Q1, Bn in Eg. replace (n <=? 64) with true in Eg by lia. cbn [andb] in Eg. lia. }
      assert (Mg : magnitude base (l_val l) = stored (l_val l)). { unfold magnitude. rewrite Eg, Bn. replace (n <=? 64) with true by lia. apply Z.mod_small. lia. } rewrite Mg. rewrite <- (shape_decimal l n) by (auto; lia).
      split; [intros _; repeat split; auto; lia|]. intros _. unfold signed_text. reflexivity.
  - (* several words *)
    assert (NM : no_magnitude (l_val l) = false) by (unfold no_magnitude; rewrite Bn; replace (n <=? 64) with false by lia; now rewrite andb_false_r). rewrite NM, andb_false_r.
    destruct (Z.eqb_spec n 128) as [N128|N128]. { rewrite ND. cbn [bind]. split; [discriminate|intros (_ & Q & _); contradiction]. }
    destruct ND as [w ->]. cbn [bind]. unfold four_wide. rewrite D.
    assert (Vr : 0 <= stored (l_val l) < 2 ^ n). { destruct (vec_cases (l_val l) V1) as [(v & Ev & Nv & _)|(ws & Ev & Nv & _ & Sv)]; [unfold n, lw in *; lia|]. unfold tidy in T1. rewrite Ev, Bn in T1. rewrite Sv. exact T1. }
    assert (NG : negative_decimal base (l_val l) = true <-> lsgn l = true /\ 2 <= n /\ bit_at (l_val l) (n - 1) = true).
    { unfold negative_decimal. rewrite Bn, D. cbn [andb]. replace (n <=? 64) with false by lia. rewrite andb_true_iff. fold (lsgn l). unfold bit_at, num. rewrite Bn. rewrite Z.mod_pow2_bits_low by lia. intuition lia. }
    destruct (Z.eqb_spec (stored (l_xz l) mod 2 ^ 128) 0) as [X0|X0].
    + (* the low 128 positions are known *)
      assert (N' : 128 < n). { destruct (Z.lt_ge_cases 128 n); [assumption|]. exfalso. apply Nz. assert (2 ^ n <= 2 ^ 128) by (apply Z.pow_le_mono_r; lia). rewrite Z.mod_small in X0 by lia. exact X0. }
      assert (KL : forall p, 0 <= p < 128 -> unknown (sym_at l p) = false). { intros p Hp. rewrite Sy by lia. rewrite <- (Z.mod_pow2_bits_low (stored (l_xz l)) 128) by lia. rewrite X0, Z.bits_0. now destruct (Z.testbit _ p). }
      pose proof (shape_known l 128 KL) as N1. assert (N2 : In (shape l n) [120; 122; 88; 90]) by (apply shape_unknown; [lia|exact K]).
      split; [|intros (_ & _ & _ & Q); specialize (Q N'); rewrite <- Q in N2; contradiction].
      intros Q. exfalso. cbn [bind] in Q. rewrite layout0 in Q. unfold signed_text in Q. apply (f_equal (fun o => match o with Ok a => a | _ => [] end)) in Q. cbv beta iota in Q. set (v := magnitude base (l_val l) mod 2 ^ 128) in *. generalize dependent (negative_decimal base (l_val l)). intros neg _ Q.
      destruct (Z.eqb_spec v 0) as [V0|V0].
      * destruct neg; cbn in Q; [|discriminate]. assert (Q' : shape l n = 45) by congruence. rewrite Q' in N2. cbn in N2. intuition discriminate.
      * assert (Vd : 0 <= v < 2 ^ 128) by (apply Z.mod_pos_bound; reflexivity). pose proof (digits_is v Vd) as (_ & _ & _ & F). assert (In (shape l n) ((if neg then [45] else []) ++ rev (digits 10 v))) as I by (rewrite Q; now left). apply in_app_or in I. destruct I as [I|I].
        { destruct neg; [|destruct I]. destruct I as [I|[]]. rewrite <- I in N2. cbn in N2. intuition discriminate. }
        rewrite Forall_forall in F. specialize (F _ I). destruct N2 as [E|[E|[E|[E|[]]]]]; rewrite <- E in F; vm_compute in F; intuition discriminate.
    + cbn [bind]. rewrite layout0. set (neg := negative_decimal base (l_val l)) in *.
      assert (EQ : forall c, Ok (signed_text neg [c]) = Ok [shape l n] <-> neg = false /\ c = shape l n) by (intros c; rewrite <- one_char; split; [now intros [=]|now intros ->]). rewrite EQ. clear EQ.
      assert (NG' : neg = false <-> ~ (lsgn l = true /\ 2 <= n /\ bit_at (l_val l) (n - 1) = true)). { rewrite <- NG. destruct neg; split; congruence. } rewrite <- NG'. clear NG NG'.
      destruct neg eqn:Eg; [split; [intros [C _]; discriminate|intros [C _]; discriminate]|].
      assert (Cap : n <= capacity n). { unfold capacity, words_in. pose proof (Z.div_mod (n + 63) 64 ltac:(lia)). pose proof (Z.mod_pos_bound (n + 63) 64 ltac:(lia)). lia. } assert (PC : 2 ^ n <= 2 ^ capacity n) by (apply Z.pow_le_mono_r; lia).
      assert (Mg : magnitude base (l_val l) = stored (l_val l)). { unfold magnitude. fold neg. rewrite Eg, Bn. replace (n <=? 64) with false by lia. apply Z.mod_small. lia. } rewrite Mg. destruct (Z.lt_ge_cases n 128) as [Q|Q].
      * assert (P128 : 2 ^ n < 2 ^ 128) by (apply Z.pow_lt_mono_r; lia). rewrite !(Z.mod_small _ (2 ^ 128)) by lia. rewrite Z.min_r by lia. rewrite (shape_decimal l n (stored (l_val l)) (stored (l_xz l))) by (auto; lia).
        unfold unknown_decimal at 1. assert (P127 : 2 ^ n <= 2 ^ 127) by (apply Z.pow_le_mono_r; lia). replace (stored (l_xz l) =? 2 ^ 128 - 1) with false by (symmetry; apply Z.eqb_neq; change (2 ^ 128) with (2 * 2 ^ 127); lia).
        assert (XA : every l 0 n SX <-> stored (l_xz l) = 2 ^ n - 1 /\ stored (l_val l) = 0).
        { replace (2 ^ n - 1) with (Z.ones n) by (rewrite Z.ones_equiv; lia). split.
          - intros H. split.
            + apply Z.bits_inj'. intros p Hp. destruct (Z.lt_ge_cases p n) as [A|A]; [|rewrite Z.ones_spec_high by lia; apply (testbit_small _ n); lia]. rewrite Z.ones_spec_low by lia. specialize (H p ltac:(lia)). rewrite Sy in H by lia. destruct (Z.testbit (stored (l_val l)) p), (Z.testbit (stored (l_xz l)) p); (discriminate || reflexivity).
            + apply Z.bits_inj'. intros p Hp. destruct (Z.lt_ge_cases p n) as [A|A]; [|rewrite Z.bits_0; apply (testbit_small _ n); lia]. rewrite Z.bits_0. specialize (H p ltac:(lia)). rewrite Sy in H by lia. destruct (Z.testbit (stored (l_val l)) p), (Z.testbit (stored (l_xz l)) p); (discriminate || reflexivity).
          - intros [E1 E2] p Hp. rewrite Sy, E1, E2, Z.bits_0, Z.ones_spec_low by lia. reflexivity. }
        assert (ZA : every l 0 n SZ <-> stored (l_xz l) = 2 ^ n - 1 /\ stored (l_val l) = 2 ^ n - 1).
        { replace (2 ^ n - 1) with (Z.ones n) by (rewrite Z.ones_equiv; lia). split.
          - intros H. split.
            + apply Z.bits_inj'. intros p Hp. destruct (Z.lt_ge_cases p n) as [A|A]; [|rewrite Z.ones_spec_high by lia; apply (testbit_small _ n); lia]. rewrite Z.ones_spec_low by lia. specialize (H p ltac:(lia)). rewrite Sy in H by lia. destruct (Z.testbit (stored (l_val l)) p), (Z.testbit (stored (l_xz l)) p); (discriminate || reflexivity).
            + apply Z.bits_inj'. intros p Hp. destruct (Z.lt_ge_cases p n) as [A|A]; [|rewrite Z.ones_spec_high by lia; apply (testbit_small _ n); lia]. rewrite Z.ones_spec_low by lia. specialize (H p ltac:(lia)). rewrite Sy in H by lia. destruct (Z.testbit (stored (l_val l)) p), (Z.testbit (stored (l_xz l)) p); (discriminate || reflexivity).
          - intros [E1 E2] p Hp. rewrite Sy, E1, E2, Z.ones_spec_low by lia. reflexivity. }
        rewrite XA, ZA. unfold unknown_decimal. destruct (Z.eqb_spec (stored (l_xz l)) (2 ^ n - 1)) as [XE|XE].
        -- destruct (Z.eqb_spec (stored (l_val l)) 0) as [V0|V0].
           ++ split; [intros [_ H]; destruct (existsb _ _); discriminate|]. intros (_ & _ & H & _). exfalso. destruct (H ltac:(lia)) as [H1 _]. apply H1. auto.
           ++ destruct (Z.eqb_spec (stored (l_val l)) (2 ^ n - 1)) as [V1'|V1'].
              ** split; [intros [_ H]; destruct (existsb _ _); discriminate|]. intros (_ & _ & H & _). exfalso. destruct (H ltac:(lia)) as [_ H1]. apply H1. auto.
              ** split; [intros _; split; [reflexivity|]; split; [lia|]; split; [intros _; split; intros []; contradiction|lia]|]. intros _. split; [reflexivity|].
                 replace (existsb _ _) with true; [reflexivity|]. symmetry. apply existsb_exists.
                 destruct (forallb (fun p => Z.testbit (stored (l_val l)) p) (zrange 0 n)) eqn:FA.
                 --- exfalso. apply V1'. rewrite forallb_forall in FA. replace (2 ^ n - 1) with (Z.ones n) by (rewrite Z.ones_equiv; lia). apply Z.bits_inj'. intros p Hp. destruct (Z.lt_ge_cases p n) as [A|A]; [|rewrite Z.ones_spec_high by lia; apply (testbit_small _ n); lia]. rewrite Z.ones_spec_low by lia. apply FA. apply ZBits.in_zrange. lia.
                 --- assert (EX : exists p, In p (zrange 0 n) /\ Z.testbit (stored (l_val l)) p = false). { clear - FA. induction (zrange 0 n) as [|a r IH]; [discriminate|]. cbn [forallb] in FA. destruct (Z.testbit (stored (l_val l)) a) eqn:Ta; [destruct (IH FA) as (p & I & E); exists p; split; [now right|exact E]|]. exists a. split; [now left|exact Ta]. }
                     destruct EX as (p & Ip & Ep). exists p. split; [exact Ip|]. apply ZBits.in_zrange in Ip. unfold symbol. rewrite Ep, XE. replace (2 ^ n - 1) with (Z.ones n) by (rewrite Z.ones_equiv; lia). rewrite Z.ones_spec_low by lia. reflexivity.
        -- split; [intros _; split; [reflexivity|]; split; [lia|]; split; [intros _; split; intros []; contradiction|lia]|]. intros _. split; reflexivity.
      * rewrite Z.min_l by lia. rewrite <- (shape_decimal l 128).
        -- split; [intros [_ H]; repeat split; auto; lia|]. intros (_ & _ & _ & H). split; [reflexivity|]. apply H. lia.
        -- lia.
        -- apply Z.mod_pos_bound. reflexivity.
        -- apply Z.mod_pos_bound. reflexivity.
        -- intros p Hp. rewrite !Z.mod_pow2_bits_low by lia. apply Sy. lia.
        -- exact X0.
Qed.
