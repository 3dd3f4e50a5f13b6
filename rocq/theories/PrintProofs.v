(** str() equals the reference printer of [SpecPrint.v] on every vector and format. *)
From Coq Require Import ZArith List Bool Lia Ascii String Btauto.
From Verif Require Import Cpp BigNum Bit Logic Util Spec SpecText SpecExact SpecMachine SpecWide SpecRead SpecPrint BitExt ZBits Words BigNumProofs BigArith BitProofs TextProofs FmtProofs FmtMain MachineProofs MachineProofs2 MachineProofs3 WideProofs ReadProofs ReadExact.
Import ListNotations.
Open Scope Z_scope.
Local Ltac Zify.zify_post_hook ::= idtac.

(** * numerals *)
Lemma filter_upto m a b : a <= m + 1 -> m < b -> len (filter (fun i => i <=? m) (zrange a b)) = m + 1 - a.
Proof.
  intros H1 H2. assert (E : zrange a b = zrange a (m + 1) ++ zrange (m + 1) b).
  { unfold zrange. replace (Z.to_nat (b - a)) with (Z.to_nat (m + 1 - a) + Z.to_nat (b - (m + 1)))%nat by lia. rewrite seq_app, map_app. f_equal. cbn [Nat.add].
    assert (G : forall q s, map (fun k => a + Z.of_nat k) (seq (Z.to_nat (m + 1 - a) + s) q) = map (fun k => m + 1 + Z.of_nat k) (seq s q)).
    { induction q as [|q IH]; intros s; [reflexivity|]. cbn [seq map]. rewrite <- Nat.add_succ_r, IH. f_equal. lia. }
    rewrite <- (G _ 0%nat). now rewrite Nat.add_0_r. }
  rewrite E, filter_app. assert (E1 : filter (fun i => i <=? m) (zrange a (m + 1)) = zrange a (m + 1)).
  { assert (F : forall l, (forall i, In i l -> i <= m) -> filter (fun i => i <=? m) l = l). { induction l as [|x l IH]; intros Hl; [reflexivity|]. cbn [filter]. rewrite (proj2 (Z.leb_le x m)) by (apply Hl; now left). rewrite IH; [reflexivity|]. intros i Hi. apply Hl. now right. }
    apply F. intros i Hi. apply ZBits.in_zrange in Hi. lia. }
  assert (E2 : filter (fun i => i <=? m) (zrange (m + 1) b) = []).
  { assert (F : forall l, (forall i, In i l -> m < i) -> filter (fun i => i <=? m) l = []). { induction l as [|x l IH]; intros Hl; [reflexivity|]. cbn [filter]. replace (x <=? m) with false by (specialize (Hl x (or_introl eq_refl)); lia). apply IH. intros i Hi. apply Hl. now right. }
    apply F. intros i Hi. apply ZBits.in_zrange in Hi. lia. }
  rewrite E1, E2, app_nil_r. unfold len, zrange. rewrite map_length, seq_length. lia.
Qed.
Lemma count_unique b v w : 2 <= b -> 1 <= w -> b ^ (w - 1) <= v < b ^ w -> digit_count b v = w.
Proof.
  intros B W H. unfold digit_count. assert (P1 : 2 ^ (w - 1) <= b ^ (w - 1)) by (apply Z.pow_le_mono_l; lia). assert (P0 : 0 < 2 ^ (w - 1)) by (apply Z.pow_pos_nonneg; lia).
  assert (L : w - 1 <= Z.log2 v). { apply Z.log2_le_pow2; lia. }
  rewrite (filter_ext_in _ (fun i => i <=? w - 1)).
  - rewrite filter_upto by lia. lia.
  - intros i Hi. apply ZBits.in_zrange in Hi. destruct (Z.leb_spec i (w - 1)) as [G | G].
    + apply Z.leb_le. apply Z.le_trans with (b ^ (w - 1)); [|lia]. apply Z.pow_le_mono_r; lia.
    + apply Z.leb_gt. apply Z.lt_le_trans with (b ^ w); [lia|]. apply Z.pow_le_mono_r; lia.
Qed.
Lemma count_small b v : 2 <= b -> 0 <= v < b -> digit_count b v = 1.
Proof.
  intros B H. destruct (Z.eq_dec v 0) as [-> | N]; [reflexivity|]. apply count_unique; [lia|lia|]. rewrite Z.pow_1_r. change (1 - 1) with 0. rewrite Z.pow_0_r. lia.
Qed.
Lemma count_exists b : 2 <= b -> forall q, 1 <= q -> exists w, 1 <= w /\ b ^ (w - 1) <= q < b ^ w.
Proof.
  intros B q Hq. assert (P : forall k, 0 <= k -> forall q, 1 <= q < b ^ k -> exists w, 1 <= w /\ b ^ (w - 1) <= q < b ^ w).
  { intros k Hk. pattern k. apply natlike_ind; [|clear k Hk|exact Hk].
    - intros p Hp. rewrite Z.pow_0_r in Hp. lia.
    - intros k Hk IH p Hp. destruct (Z.lt_ge_cases p (b ^ k)) as [G | G]; [apply IH; lia|]. exists (Z.succ k). replace (Z.succ k - 1) with k by lia. lia. }
  apply (P q); [lia|]. split; [exact Hq|]. apply Z.lt_le_trans with (2 ^ q); [apply Z.pow_gt_lin_r; lia|apply Z.pow_le_mono_l; lia].
Qed.
Lemma count_div b v : 2 <= b -> b <= v -> digit_count b v = 1 + digit_count b (v / b).
Proof.
  intros B H. assert (Q : 1 <= v / b) by (apply Z.div_le_lower_bound; lia). destruct (count_exists b B (v / b) Q) as (w & W & R).
  rewrite (count_unique b (v / b) w) by assumption. pose proof (Z.div_mod v b ltac:(lia)) as D. pose proof (Z.mod_pos_bound v b ltac:(lia)) as M.
  apply count_unique; [lia|lia|]. replace (1 + w - 1) with (Z.succ (w - 1)) by lia. replace (1 + w) with (Z.succ w) by lia. rewrite !Z.pow_succ_r by lia. nia.
Qed.
Lemma zrange_cons n : 0 <= n -> zrange 0 (1 + n) = 0 :: map (fun i => i + 1) (zrange 0 n).
Proof.
  intros H. unfold zrange. rewrite !Z.sub_0_r. replace (Z.to_nat (1 + n)) with (S (Z.to_nat n)) by lia. cbn [seq map]. f_equal. rewrite <- seq_shift, !map_map. apply map_ext. intros i. lia.
Qed.
Lemma count_pos b v : 1 <= digit_count b v.
Proof. unfold digit_count. pose proof (len_nonneg (filter (fun i => b ^ i <=? v) (zrange 1 (Z.log2 v + 1)))). lia. Qed.
Lemma digits_div b v : 2 <= b -> b <= v -> digits b v = digit_char (v mod b) :: digits b (v / b).
Proof.
  intros B H. unfold digits. rewrite (count_div b v) by assumption. pose proof (count_pos b (v / b)). rewrite zrange_cons by lia. cbn [map]. rewrite Z.pow_0_r, Z.div_1_r. f_equal. rewrite map_map. apply map_ext_in. intros i Hi.
  apply ZBits.in_zrange in Hi. rewrite Z.pow_add_r, Z.pow_1_r by lia. rewrite (Z.mul_comm (b ^ i)), <- Z.div_div; [reflexivity|lia|]. apply Z.pow_pos_nonneg; lia.
Qed.
Lemma digits_small b v : 2 <= b -> 0 <= v < b -> digits b v = [digit_char v].
Proof. intros B H. unfold digits. rewrite count_small by assumption. change (zrange 0 1) with [0]. cbn [map]. rewrite Z.pow_0_r, Z.div_1_r, Z.mod_small by lia. reflexivity. Qed.
Lemma digit_dchar d : 0 <= d < 16 -> digit_char d = dchar d.
Proof. apply hexchar. Qed.
Lemma lsf_digits b : 2 <= b <= 16 -> forall fuel v, 0 < v < 2 ^ Z.of_nat fuel -> digits_lsf fuel b v = Ok (digits b v).
Proof.
  intros B. induction fuel as [|f IH]; intros v H; [change (2 ^ Z.of_nat 0) with 1 in H; lia|]. cbn [digits_lsf]. replace (v =? 0) with false by lia.
  pose proof (Z.mod_pos_bound v b ltac:(lia)) as M. destruct (Z.lt_ge_cases v b) as [G | G].
  - rewrite Z.div_small by lia. assert (E : digits_lsf f b 0 = Ok []) by (destruct f; reflexivity). rewrite E. cbn [bind]. rewrite digits_small by lia. rewrite Z.mod_small by lia. now rewrite digit_dchar by lia.
  - rewrite IH; [cbn [bind]; rewrite (digits_div b v) by lia; now rewrite digit_dchar by lia|].
    assert (P : 2 ^ Z.of_nat (S f) = 2 * 2 ^ Z.of_nat f) by (rewrite Nat2Z.inj_succ; apply Z.pow_succ_r; lia). split; [apply Z.div_str_pos; lia|]. apply Z.div_lt_upper_bound; nia.
Qed.
Lemma numeral_digits b v : 2 <= b <= 16 -> 0 <= v < 2 ^ 64 -> numeral b v = Ok (rev (digits b v)).
Proof.
  intros B H. unfold numeral. destruct (Z.eqb_spec v 0) as [-> | N]; [rewrite digits_small by lia; reflexivity|]. rewrite lsf_digits by (try change (Z.of_nat 64) with 64; lia). reflexivity.
Qed.
Lemma dec_digits v : 0 <= v < 2 ^ 64 -> dec_lsf 64 v = Ok (digits 10 v).
Proof. intros H. unfold dec_lsf. destruct (Z.eqb_spec v 0) as [-> | N]; [reflexivity|]. apply lsf_digits; [lia|change (Z.of_nat 64) with 64; lia]. Qed.
Lemma wide_dec_digits v : 0 <= v < 2 ^ 128 -> digits_lsf 128 10 v = Ok (if v =? 0 then [] else digits 10 v).
Proof. intros H. destruct (Z.eqb_spec v 0) as [-> | N]; [reflexivity|]. apply lsf_digits; [lia|]. change (Z.of_nat 128) with 128. lia. Qed.
Lemma digits_len b v : len (digits b v) = digit_count b v.
Proof. unfold digits, len. rewrite map_length. pose proof (count_pos b v). unfold zrange. rewrite map_length, seq_length. lia. Qed.

(** * formats *)
Lemma possible_natural base n : 1 <= n -> possible base n = natural base n.
Proof.
  intros H. unfold possible, natural, ceil_div. change (is_one_of base "bB") with (member "bB" base). change (is_one_of base "oO") with (member "oO" base). change (is_one_of base "dD") with (member "dD" base).
  change (is_one_of base "xXhH") with (member "xXhH" base). change (is_one_of base "sS") with (member "sS" base).
  replace (n + 3 - 1) with (n + 2) by lia. replace (n + 4 - 1) with (n + 3) by lia. replace (n + 8 - 1) with (n + 7) by lia.
  destruct (member "bB" base) eqn:B. { apply (proj1 (member_among _ _)) in B. chars_cases B; reflexivity. }
  destruct (member "oO" base); [reflexivity|]. destruct (member "dD" base) eqn:D; [|destruct (member "xXhH" base); [reflexivity|destruct (member "sS" base); reflexivity]].
  assert (X : member "xXhH" base = false /\ member "sS" base = false) by (apply (proj1 (member_among _ _)) in D; chars_cases D; split; reflexivity). destruct X as [-> ->].
  destruct (Z.ltb_spec 128 n) as [G | G]; [replace (n <? 128) with false by lia; replace (n =? 128) with false by lia; reflexivity|].
  unfold decimal_size. destruct (Z.ltb_spec n 128) as [G' | G'].
  - replace (0 <=? n) with true by lia. replace (n =? 0) with false by lia. cbn [andb]. assert (P1 : 1 < 2 ^ n) by (apply (Z.pow_gt_1 2 n); lia). assert (P2 : 2 ^ n < 2 ^ 128) by (apply Z.pow_lt_mono_r; lia).
    rewrite lsf_digits; [|lia|change (Z.of_nat 128) with 128; lia]. unfold omap. cbn [bind]. f_equal. apply digits_len.
  - replace (n =? 128) with true by lia. rewrite andb_false_r. reflexivity.
Qed.
Definition width_of (req : request) : option Z := match req with Columns r => Some r | _ => None end.
Lemma stoul_asked ds : Forall (among "0123456789") ds -> stoul ds = match asked_for ds with Columns r => Ok r | _ => Exn end.
Proof.
  intros F. destruct ds as [|c ds]; [reflexivity|]. unfold stoul, asked_for.
  assert (E : forall l a, Forall (among "0123456789") l -> fold_left (fun a c => a * 10 + (c - 48)) l a = fold_left (fun a c => a * 10 + digit_value c) (clean l) a).
  { induction l as [|d l IH]; intros a Fl; [reflexivity|]. inversion Fl as [|? ? Hd Hl]; subst. cbn [fold_left clean filter].
    assert (D : d <> 95 /\ d - 48 = digit_value d) by (chars_cases Hd; split; try discriminate; reflexivity). destruct D as [D1 D2].
    rewrite (proj2 (Z.eqb_neq d 95) D1). cbn [negb fold_left]. rewrite D2. now apply IH. }
  rewrite E by exact F. change (fold_left (fun a c => a * 10 + digit_value c) (clean (c :: ds)) 0) with (numeral_value 10 (c :: ds)). cbn zeta. destruct (numeral_value 10 (c :: ds) <? 2 ^ 64); reflexivity.
Qed.
Lemma asks_parse fmt req base size : asks fmt req base -> parse_fmt fmt size = valid req (let! w := possible base size in Ok (asked (width_of req) base w)).
Proof.
  intros A. destruct A as [base rest B | ds base rest N F B | ds F]; unfold parse_fmt.
  - cbn [find_first]. rewrite (not_digit_among base B). cbn [negb bind valid width_of]. change (char_at (base :: rest) 0) with base. fold (possible base size). destruct (possible base size); reflexivity.
  - rewrite (fmt_find ds base rest F B), fmt_base.
    assert (E : firstn (Z.to_nat (len ds)) (ds ++ base :: rest) = ds). { unfold len. rewrite Nat2Z.id. rewrite firstn_app, Nat.sub_diag, firstn_all. cbn [firstn]. apply app_nil_r. }
    destruct (len ds) as [|p|p] eqn:Le; [destruct ds; [now elim N|unfold len in Le; cbn in Le; lia]| |unfold len in Le; lia]. rewrite E, stoul_asked by exact F. fold (possible base size).
    destruct ds as [|c ds]; [now elim N|]. unfold asked_for. destruct (numeral_value 10 (c :: ds) <? 2 ^ 64); [|reflexivity]. cbn [omap bind valid width_of]. destruct (possible base size); reflexivity.
  - rewrite find_first_none. 2: { eapply Forall_impl; [|exact F]. intros c Hc. apply among_digit in Hc. now rewrite Hc. }
    change (chr "s"%char) with 115. rewrite stoul_asked by exact F. fold (possible 115 size). destruct ds as [|c ds]; [reflexivity|]. unfold asked_for.
    destruct (numeral_value 10 (c :: ds) <? 2 ^ 64); [|reflexivity]. cbn [omap bind valid width_of]. destruct (possible 115 size); reflexivity.
Qed.
Lemma asks_decimal fmt req base : asks fmt req base -> decimal_fmt fmt = member "dD" base.
Proof.
  intros A. unfold decimal_fmt, get_output_base. destruct A as [base rest B | ds base rest N F B | ds F].
  - cbn [find_first]. rewrite (not_digit_among base B). reflexivity.
  - rewrite (fmt_find ds base rest F B), fmt_base. reflexivity.
  - rewrite find_first_none; [reflexivity|]. eapply Forall_impl; [|exact F]. intros c Hc. apply among_digit in Hc. now rewrite Hc.
Qed.
Lemma asks_exist fmt : exists req base, asks fmt req base.
Proof.
  destruct (split_at (fun c => negb (is_digit c)) fmt) as [H | (a & c & b & -> & Fa & Fc)].
  - exists (asked_for fmt), 115. apply Digits. eapply Forall_impl; [|exact H]. cbn beta. intros x Hx. apply among_digit. now destruct (is_digit x).
  - assert (Nc : ~ among "0123456789" c) by (intros H; apply among_digit in H; rewrite H in Fc; discriminate Fc).
    assert (Fa' : Forall (among "0123456789") a) by (eapply Forall_impl; [|exact Fa]; cbn beta; intros x Hx; apply among_digit; now destruct (is_digit x)).
    destruct a as [|x a]; [exists Natural, c; now apply Bare|]. exists (asked_for (x :: a)), c. apply Sized; auto. discriminate.
Qed.
Lemma layout_finish req base w neg ss : req <> Bad -> finish neg (width_of req) base w ss = layout req base w (neg && member "dD" base) ss.
Proof.
  intros NB. unfold finish, pad_result, layout. change (is_one_of base "dD") with (member "dD" base). change (is_one_of base "dDsS") with (member "dDsS" base). change (chr "-"%char) with 45.
  set (m := neg && member "dD" base). set (core := if m then ss ++ [45] else ss). cbn zeta.
  assert (EC : (if m then [45] else []) ++ rev ss = rev core) by (unfold core; destruct m; [rewrite rev_app_distr|]; reflexivity). rewrite EC.
  assert (Lr : len (rev core) = slen core) by (unfold len, slen; now rewrite rev_length). rewrite Lr. assert (0 <= slen core) by (unfold slen; lia).
  assert (Rr : forall (c : Z) k, rev (repeat c k) = repeat c k). { intros c k. induction k as [|k IH]; [reflexivity|]. cbn [repeat rev]. rewrite IH. symmetry. apply (repeat_cons k c). }
  set (pc := if member "dDsS" base then 32 else 48).
  destruct req as [|r|]; [| |now elim NB]; cbn [width_of asked fst snd].
  - rewrite rev_app_distr, Rr. destruct m; [reflexivity|now rewrite Z.add_0_r].
  - destruct r as [|r|r]; cbn [Z.eqb fst snd]; try (rewrite rev_app_distr, Rr; destruct m; [reflexivity|now rewrite Z.add_0_r]).
    replace (Z.to_nat (0 - slen core)) with 0%nat by lia. reflexivity.
Qed.

(** * pieces of at most 64 positions *)
Lemma land255 v : Z.land v 255 = v mod 256.
Proof. change 255 with (Z.ones 8). rewrite Z.land_ones by lia. reflexivity. Qed.
Lemma two_core base n v : 1 <= n <= 64 -> 0 <= v < 2 ^ 64 -> core2 base n v = two_chars base n v.
Proof.
  intros Hn Hv. unfold core2, two_chars. change (is_one_of base "bB") with (member "bB" base). change (is_one_of base "dD") with (member "dD" base). change (is_one_of base "sS") with (member "sS" base).
  destruct (member "bB" base); [reflexivity|]. destruct (member "oO" base) eqn:O.
  { assert (E : is_one_of base "oOxhXH" = true /\ format_value_2power base v = numeral 8 v) by (apply (proj1 (member_among _ _)) in O; chars_cases O; split; reflexivity). destruct E as [-> ->]. apply numeral_digits; lia. }
  destruct (member "xXhH" base) eqn:X.
  { assert (E : is_one_of base "oOxhXH" = true /\ format_value_2power base v = numeral 16 v) by (apply (proj1 (member_among _ _)) in X; chars_cases X; split; reflexivity). destruct E as [-> ->]. apply numeral_digits; lia. }
  assert (E : is_one_of base "oOxhXH" = false). { destruct (is_one_of base "oOxhXH") eqn:E; [exfalso|reflexivity]. apply among_iff in E. chars_cases E; discriminate. }
  rewrite E. destruct (member "sS" base).
  - destruct (Z.leb_spec n 8) as [G | G].
    + assert (C : ceil_div n 8 = 1) by (apply ceil_unique; lia). rewrite C. change (zrange 0 1) with [0]. cbn [ofold]. unfold c_shr. cbn [promote]. change (iwidth TU64) with 64. change (8 * 0 * 8) with 0. cbn [Z.leb Z.ltb Z.compare andb bind].
      rewrite Z.shiftr_0_r, land255. pose proof (Z.mod_pos_bound v 256 ltac:(lia)). rewrite numeral_digits by lia. reflexivity.
    + assert (C : 2 <= ceil_div n 8). { pose proof (ceil_bounds n 8 ltac:(lia)). nia. }
      replace (ceil_div n 8) with (1 + (1 + (ceil_div n 8 - 2))) by lia. rewrite zrange_cons by lia. rewrite zrange_cons by lia. cbn [map ofold]. unfold c_shr. cbn [promote]. change (iwidth TU64) with 64. change (8 * 0 * 8) with 0. change (8 * (0 + 1) * 8) with 64.
      cbn [Z.leb Z.ltb Z.compare andb bind]. rewrite Z.shiftr_0_r, land255. pose proof (Z.mod_pos_bound v 256 ltac:(lia)). rewrite numeral_digits by lia. reflexivity.
  - destruct (member "dD" base); [now apply dec_digits|reflexivity].
Qed.
Lemma four_core base n v x : 1 <= n <= 64 -> 0 <= v < 2 ^ 64 -> core4 base n v x = Ok (four_chars base n v x).
Proof.
  intros Hn Hv. unfold four_chars. destruct (member "bB" base) eqn:B.
  { apply (proj1 (member_among _ _)) in B. rewrite (core4_digits base 1) by (auto; left; auto). f_equal. assert (C : ceil_div n 1 = n) by (apply ceil_unique; lia). rewrite C. apply map_ext. intros i. unfold gsyms. change (zrange 0 1) with [0]. cbn [map]. rewrite group1. unfold symbol. now replace (1 * i + 0) with i by lia. }
  destruct (member "oO" base) eqn:O.
  { apply (proj1 (member_among _ _)) in O. rewrite (core4_digits base 3) by (auto; right; left; auto). unfold ceil_div. now replace (n + 3 - 1) with (n + 2) by lia. }
  destruct (member "xXhH" base) eqn:X.
  { apply (proj1 (member_among _ _)) in X. rewrite (core4_digits base 4) by (auto; right; right; auto). unfold ceil_div. now replace (n + 4 - 1) with (n + 3) by lia. }
  unfold core4. change (is_one_of base "bB") with (member "bB" base). rewrite B. assert (E : is_one_of base "oOhHxX" = false). { destruct (is_one_of base "oOhHxX") eqn:E; [exfalso|reflexivity]. apply among_iff in E. chars_cases E; discriminate. }
  rewrite E. change (is_one_of base "dD") with (member "dD" base). change (is_one_of base "sS") with (member "sS" base). destruct (member "dD" base) eqn:D.
  - assert (S : member "sS" base = false) by (apply (proj1 (member_among _ _)) in D; chars_cases D; reflexivity). rewrite S. unfold fmt_decimal. destruct (Z.eqb_spec x 0) as [-> | N]; cbn [negb]; [now apply dec_digits|].
    unfold c_shr. cbn [promote]. change (iwidth TU64) with 64. replace ((0 <=? 64 - n) && (64 - n <? 64)) with true by lia. cbn [bind].
    assert (M : Z.shiftr u64max (64 - n) = 2 ^ n - 1). { unfold u64max. replace 64 with (n + (64 - n)) at 1 by lia. rewrite Z.shiftr_div_pow2 by lia. rewrite Z.pow_add_r by lia. symmetry. apply Z.div_unique with (2 ^ (64 - n) - 1); [|ring]. pose proof (Z.pow_pos_nonneg 2 (64 - n)). lia. }
    rewrite M. unfold unknown_decimal. change (chr "x"%char) with 120. change (chr "z"%char) with 122. change (chr "X"%char) with 88. change (chr "Z"%char) with 90. destruct (x =? 2 ^ n - 1); [reflexivity|]. do 3 f_equal.
    assert (EX : forall l, existsb (fun i => Z.testbit x i && negb (Z.testbit v i)) l = existsb (fun i => is_x (symbol v x i)) l).
    { induction l as [|i l IH]; [reflexivity|]. cbn [existsb]. rewrite IH. unfold symbol. now destruct (Z.testbit x i), (Z.testbit v i). }
    now rewrite EX.
  - destruct (member "sS" base); [|reflexivity]. unfold fmt_char.
    assert (Hc : 0 <= ceil_div n 8) by (unfold ceil_div; apply Z.div_pos; lia).
    rewrite (ofold_ext _ (fun acc i => let! t := (let! c := c_shr TU64 v (8 * i) in Ok [swrap 8 (Z.land c 255)]) in Ok (acc ++ t))).
    2: { intros acc i. destruct (c_shr TU64 v (8 * i)); reflexivity. }
    rewrite (ofold_concat _ (fun i => [signed_char (v / 2 ^ (8 * i) mod 256)])); [rewrite concat_single; unfold ceil_div; now replace (n + 8 - 1) with (n + 7) by lia|exact Hc|].
    intros i Hi. pose proof (ceil_bounds n 8 ltac:(lia)). unfold c_shr. cbn [promote]. change (iwidth TU64) with 64. replace ((0 <=? 8 * i) && (8 * i <? 64)) with true by lia. cbn [bind]. rewrite land255, Z.shiftr_div_pow2 by lia.
    do 2 f_equal. pose proof (Z.mod_pos_bound (v / 2 ^ (8 * i)) 256 ltac:(lia)) as M. set (c := v / 2 ^ (8 * i) mod 256) in *. unfold swrap, signed_char. change (2 ^ 8) with 256. change (2 ^ (8 - 1)) with 128.
    destruct (Z.ltb_spec c 128) as [G | G].
    + rewrite (Z.mod_small (c + 128)) by lia. lia.
    + replace (c + 128) with ((c - 128) + 1 * 256) by lia. rewrite Z.mod_add, Z.mod_small by lia. lia.
Qed.

(** * wide vectors *)
Lemma ofold_joined {A} (g : A -> outcome (list Z)) l acc : ofold (fun acc i => let! t := g i in Ok (acc ++ t)) l acc = let! r := joined (map g l) in Ok (acc ++ r).
Proof.
  revert acc. induction l as [|i l IH]; intros acc; cbn [ofold map joined].
  - cbn [bind]. now rewrite app_nil_r.
  - destruct (g i) as [t| | | |]; try reflexivity. cbn [bind]. rewrite IH. destruct (joined (map g l)) as [r| | | |]; try reflexivity. cbn [bind]. now rewrite app_assoc.
Qed.
Lemma joined_snoc l c : joined (l ++ [c]) = let! a := joined l in let! b := c in Ok (a ++ b).
Proof.
  induction l as [|d l IH]; cbn [app joined].
  - cbn [bind]. destruct c as [b| | | |]; try reflexivity. cbn [bind app]. now rewrite app_nil_r.
  - destruct d as [a| | | |]; try reflexivity. cbn [bind]. rewrite IH. destruct (joined l) as [b| | | |]; try reflexivity. cbn [bind]. destruct c as [e| | | |]; try reflexivity. cbn [bind]. now rewrite app_assoc.
Qed.
Lemma joined_ext {A} (f g : A -> outcome (list Z)) l : (forall i, In i l -> f i = g i) -> joined (map f l) = joined (map g l).
Proof.
  induction l as [|x l IH]; intros H; [reflexivity|]. cbn [map joined]. rewrite (H x (or_introl eq_refl)), IH; [reflexivity|]. intros i Hi. apply H. now right.
Qed.
Lemma pieces_fold n (g : Z -> Z -> outcome (list Z)) :
  (let! lo := ofold (fun acc i => let! t := g 64 i in Ok (acc ++ t)) (zrange 0 (nwords n - 1)) [] in
   if negb (n mod 64 =? 0) then let! t := g (n mod 64) (nwords n - 1) in Ok (lo ++ t) else Ok lo) = in_pieces n g.
Proof.
  unfold in_pieces. rewrite words_in_nwords. rewrite ofold_joined. destruct (n mod 64 =? 0); cbn [negb].
  - rewrite app_nil_r. destruct (joined _) as [r| | | |]; reflexivity.
  - rewrite joined_snoc. destruct (joined _) as [r| | | |]; reflexivity.
Qed.
Lemma word_word_at ws i : wf ws -> 0 <= i -> word ws i = word_at (words_num ws) i.
Proof.
  intros W Hi. apply Z.bits_inj'. intros p Hp. unfold word_at. destruct (Z.ltb_spec p 64) as [G | G].
  - rewrite Z.mod_pow2_bits_low by lia. rewrite Z.div_pow2_bits by lia. rewrite words_num_testbit by (auto; lia).
    replace (p + 64 * i) with (p + i * 64) by lia. rewrite Z.div_add, Z.mod_add, (Z.div_small p 64), (Z.mod_small p 64) by lia. reflexivity.
  - rewrite Z.mod_pow2_bits_high by lia. apply (testbit_small _ 64); [apply word_range; exact W|lia].
Qed.
Lemma land_low v k : 0 <= k -> Z.land v (2 ^ k - 1) = v mod 2 ^ k.
Proof. intros H. replace (2 ^ k - 1) with (Z.ones k) by (rewrite Z.ones_equiv; lia). now apply Z.land_ones. Qed.
Lemma octal_chunk n ws i : 1 <= n -> wfn n ws -> 0 <= i < ceil_div n 3 -> oct_chunk ws i = octal_piece n (words_num ws) i.
Proof.
  intros Hn [W L] Hi. pose proof (nwords_bounds n Hn) as NB. pose proof (ceil_bounds n 3 ltac:(lia)) as CB. unfold oct_chunk, octal_piece, ptr_get. rewrite words_in_nwords. replace (i * 3) with (3 * i) by lia. set (p := 3 * i) in *. cbn zeta.
  assert (Hp : 0 <= p < n) by (unfold p; lia). pose proof (Z.div_mod p 64 ltac:(lia)) as DM. pose proof (Z.mod_pos_bound p 64 ltac:(lia)) as MB. pose proof (Z.div_pos p 64 ltac:(lia) ltac:(lia)) as DP.
  unfold wlen in L. rewrite L. replace ((0 <=? p / 64) && (p / 64 <? nwords n)) with true by lia. cbn [bind]. rewrite !word_word_at by (auto; lia).
  rewrite Z.shiftr_div_pow2 by lia. assert (L7 : forall a, Z.land a 7 = a mod 8) by (intros a; exact (land_low a 3 ltac:(lia))). rewrite L7. destruct (Z.leb_spec (p mod 64) 61) as [G | G].
  - replace (64 - p mod 64 <? 3) with false by lia. reflexivity.
  - replace (64 - p mod 64 <? 3) with true by lia. replace (0 <=? p / 64 + 1) with true by lia. cbn [andb]. destruct (p / 64 + 1 <? nwords n); [|reflexivity]. cbn [bind]. do 2 f_equal.
    assert (S : Z.shiftr 7 (64 - p mod 64) = 2 ^ (p mod 64 - 61) - 1). { assert (C : p mod 64 = 62 \/ p mod 64 = 63) by lia. destruct C as [-> | ->]; reflexivity. }
    rewrite S. apply land_low. lia.
Qed.
Lemma octal_range n v i z : octal_piece n v i = Ok z -> 0 <= z < 2 ^ 64.
Proof.
  unfold octal_piece. cbn zeta. generalize (3 * i). intros p. set (a := word_at v (p / 64) / 2 ^ (p mod 64) mod 8). assert (Ha : 0 <= a < 2 ^ 3) by (apply Z.mod_pos_bound; lia). destruct (Z.leb_spec (p mod 64) 61) as [G | G]; [intros E; injection E as <-; lia|].
  destruct (_ <? _); [|discriminate]. intros E; injection E as <-. pose proof (Z.mod_pos_bound p 64 ltac:(lia)).
  set (b := word_at v (p / 64 + 1) mod 2 ^ (p mod 64 - 61)). assert (Hb : 0 <= b < 2 ^ 3).
  { assert (0 <= b < 2 ^ (p mod 64 - 61)) by (apply Z.mod_pos_bound; apply Z.pow_pos_nonneg; lia). assert (2 ^ (p mod 64 - 61) <= 2 ^ 3) by (apply Z.pow_le_mono_r; lia). lia. }
  clearbody a b. change (2 ^ 3) with 8 in Ha, Hb. assert (N : 0 <= Z.lor a b) by (apply Z.lor_nonneg; split; [apply Ha|apply Hb]). split; [exact N|]. assert (Z.lor a b < 2 ^ 3); [|lia]. apply bits_small; [lia|exact N|]. intros q Hq. rewrite Z.lor_spec, (testbit_small a 3), (testbit_small b 3) by lia. reflexivity.
Qed.
Lemma two_words n ws : 65 <= n -> wfn n ws -> word ws 1 * 2 ^ 64 + word ws 0 = words_num ws mod 2 ^ 128.
Proof.
  intros Hn [W L]. rewrite !word_word_at by (auto; lia). unfold word_at. set (v := words_num ws). change (64 * 0) with 0. change (64 * 1) with 64. rewrite Z.pow_0_r, Z.div_1_r.
  change (2 ^ 128) with (2 ^ 64 * 2 ^ 64). rewrite Z.rem_mul_r by lia. lia.
Qed.
Lemma four_core_big base n ws xs : 65 <= n -> wfn n ws -> wfn n xs -> core4_big base n ws xs = four_wide base n (words_num ws) (words_num xs).
Proof.
  intros Hn W X. unfold core4_big, four_wide. change (is_one_of base "dD") with (member "dD" base). change (is_one_of base "oO") with (member "oO" base). destruct (member "dD" base) eqn:D; cbn [negb].
  - replace (64 <? n) with true by lia. rewrite !(two_words n) by auto. set (v := words_num ws mod 2 ^ 128). set (x := words_num xs mod 2 ^ 128).
    assert (Hv : 0 <= v < 2 ^ 128) by (apply Z.mod_pos_bound; lia).
    destruct (x =? 0); cbn [negb]; [now apply wide_dec_digits|]. unfold unknown_decimal. destruct (x =? 2 ^ 128 - 1); [reflexivity|]. do 3 f_equal.
    assert (EX : forall l, existsb (fun i => Z.testbit x i && negb (Z.testbit v i)) l = existsb (fun i => is_x (symbol v x i)) l).
    { induction l as [|i l IH]; [reflexivity|]. cbn [existsb]. rewrite IH. unfold symbol. now destruct (Z.testbit x i), (Z.testbit v i). }
    now rewrite EX.
  - destruct (member "oO" base).
    + rewrite (ofold_ext _ (fun acc i => let! t := (let! v := oct_chunk ws i in let! x := oct_chunk xs i in core4 base 3 v x) in Ok (acc ++ t))).
      2: { intros acc i. destruct (oct_chunk ws i); try reflexivity. cbn [bind]. destruct (oct_chunk xs i); reflexivity. }
      rewrite ofold_joined. assert (CD : ceil_div n 3 = (n + 2) / 3) by (unfold ceil_div; f_equal; lia). rewrite <- CD.
      rewrite (joined_ext _ (fun i => let! z := octal_piece n (words_num ws) i in let! y := octal_piece n (words_num xs) i in Ok (four_chars base 3 z y))).
      2: { intros i Hi. apply ZBits.in_zrange in Hi. rewrite !(octal_chunk n) by (auto; lia). destruct (octal_piece n (words_num ws) i) as [z| | | |] eqn:Z1; try reflexivity. cbn [bind]. destruct (octal_piece n (words_num xs) i) as [y| | | |]; try reflexivity. cbn [bind]. apply four_core; [lia|].
           now apply octal_range in Z1. }
      destruct (joined _); reflexivity.
    + rewrite <- (pieces_fold n). destruct W as [W Lw], X as [X Lx]. pose proof (nwords_bounds n ltac:(lia)).
      rewrite !(ofold_joined (A := Z)). rewrite (joined_ext (fun i => core4 base 64 (word ws i) (word xs i)) (fun i => Ok (four_chars base 64 (word_at (words_num ws) i) (word_at (words_num xs) i)))).
      2: { intros i Hi. apply ZBits.in_zrange in Hi. rewrite four_core by (try lia; now apply word_range). now rewrite !word_word_at by (auto; lia). }
      destruct (joined _) as [r| | | |]; try reflexivity. cbn [bind]. destruct (Z.eqb_spec (n mod 64) 0) as [M | M]; cbn [negb]; [reflexivity|]. pose proof (Z.mod_pos_bound n 64 ltac:(lia)).
      rewrite four_core by (try lia; now apply word_range). now rewrite !word_word_at by (auto; lia).
Qed.

(** * the whole text *)
Definition reads (fmt : list Z) (width : option Z) (base : Z) : Prop := forall size, parse_fmt fmt size = let! w := possible base size in Ok (asked width base w).
Lemma print2 fmt width base size v neg : reads fmt width base -> to_string2 fmt size v neg = let! w := possible base size in let! ss := core2 base size v in Ok (finish neg width base w ss).
Proof. intros F. unfold to_string2. rewrite (F size). destruct (possible base size) as [w| | | |]; try reflexivity. cbn [bind]. rewrite asked_base. reflexivity. Qed.
Lemma print4_ fmt width base size v x neg up : reads fmt width base ->
  to_string4_ fmt size v x neg up = let! w := possible base size in let! ss := core4 base size v x in Ok (if up then finish neg width base w ss else ss).
Proof. intros F. unfold to_string4_. rewrite (F size). destruct (possible base size) as [w| | | |]; try reflexivity. cbn [bind]. rewrite asked_base. reflexivity. Qed.
Lemma print4_core fmt width base size v x neg : reads fmt width base -> is_one_of base "dD" = false -> to_string4_ fmt size v x neg false = core4 base size v x.
Proof. intros F D. rewrite (print4_ _ _ _ _ _ _ _ _ F). destruct (possible_ok base size D) as [w ->]. cbn [bind]. now destruct (core4 base size v x). Qed.
Lemma print4_big fmt width base size ws xs neg : reads fmt width base ->
  to_string4_big fmt size ws xs neg = let! w := possible base size in let! ss := core4_big base size ws xs in Ok (finish neg width base w ss).
Proof.
  intros F. unfold to_string4_big. rewrite (F size). destruct (possible base size) as [w| | | |]; try reflexivity. cbn [bind]. rewrite asked_base. unfold core4_big. fold (finish neg width base w).
  destruct (is_one_of base "dD") eqn:D; cbn [negb]; [reflexivity|]. destruct (is_one_of base "oO") eqn:O.
  - rewrite (ofold_ext _ (fun acc i => let! v := oct_chunk ws i in let! x := oct_chunk xs i in let! t := core4 base 3 v x in Ok (acc ++ t))); [reflexivity|].
    intros acc i. destruct (oct_chunk ws i); try reflexivity. cbn [bind]. destruct (oct_chunk xs i); try reflexivity. cbn [bind]. now rewrite (print4_core _ _ _ _ _ _ _ F D).
  - rewrite (ofold_ext _ (fun acc i => let! t := core4 base 64 (word ws i) (word xs i) in Ok (acc ++ t))); [rewrite (print4_core _ _ _ _ _ _ _ F D); reflexivity|].
    intros acc i. now rewrite (print4_core _ _ _ _ _ _ _ F D).
Qed.
Lemma print_piece fmt req base m v : reads fmt (width_of req) base -> req <> Bad -> 1 <= m <= 64 -> 0 <= v < 2 ^ 64 ->
  to_string2 fmt m v false = let! w := natural base m in let! cs := two_chars base m v in Ok (layout req base w false cs).
Proof.
  intros F N Hm Hv. rewrite (print2 _ _ _ _ _ _ F), possible_natural, two_core by lia. destruct (natural base m); try reflexivity. cbn [bind]. destruct (two_chars base m v); try reflexivity. cbn [bind]. now rewrite layout_finish.
Qed.
Lemma print2_big fmt req base n ws neg : reads fmt (width_of req) base -> req <> Bad -> 65 <= n -> wfn n ws ->
  to_string2_big fmt n ws neg = let! w := natural base n in let! cs := two_wide req base n (words_num ws) in Ok (layout req base w (neg && member "dD" base) cs).
Proof.
  intros F NB Hn W. unfold to_string2_big. rewrite (F n), <- possible_natural by lia. destruct (possible base n) as [w| | | |]; try reflexivity. cbn [bind]. rewrite asked_base. fold (finish neg (width_of req) base w).
  match goal with |- bind ?m _ = _ => assert (E : m = two_wide req base n (words_num ws)) end.
  { unfold two_wide. change (is_one_of base "dD") with (member "dD" base). change (is_one_of base "oO") with (member "oO" base). destruct (member "dD" base) eqn:D; cbn [negb].
    - replace (64 <? n) with true by lia. rewrite (two_words n) by auto. apply wide_dec_digits. apply Z.mod_pos_bound. lia.
    - destruct (member "oO" base).
      + rewrite (ofold_ext _ (fun acc i => let! t := (let! v := oct_chunk ws i in to_string2 fmt 3 v false) in Ok (acc ++ t))).
        2: { intros acc i. destruct (oct_chunk ws i); reflexivity. }
        rewrite ofold_joined. assert (CD : ceil_div n 3 = (n + 2) / 3) by (unfold ceil_div; f_equal; lia). rewrite <- CD.
        rewrite (joined_ext _ (fun i => let! z := octal_piece n (words_num ws) i in let! w := natural base 3 in let! cs := two_chars base 3 z in Ok (layout req base w false cs))).
        2: { intros i Hi. apply ZBits.in_zrange in Hi. rewrite !(octal_chunk n) by (auto; lia). destruct (octal_piece n (words_num ws) i) as [z| | | |] eqn:Z1; try reflexivity. cbn [bind]. apply print_piece; auto; [lia|]. now apply octal_range in Z1. }
        destruct (joined _); reflexivity.
      + rewrite <- (pieces_fold n). destruct W as [W Lw]. pose proof (nwords_bounds n ltac:(lia)). rewrite !(ofold_joined (A := Z)).
        rewrite (joined_ext (fun i => to_string2 fmt 64 (word ws i) false) (fun i => let! w := natural base 64 in let! cs := two_chars base 64 (word_at (words_num ws) i) in Ok (layout req base w false cs))).
        2: { intros i Hi. apply ZBits.in_zrange in Hi. rewrite (print_piece fmt req base) by (auto; try lia; now apply word_range). now rewrite !word_word_at by (auto; lia). }
        destruct (joined _) as [r| | | |]; try reflexivity. cbn [bind]. destruct (Z.eqb_spec (n mod 64) 0) as [M | M]; cbn [negb]; [reflexivity|]. pose proof (Z.mod_pos_bound n 64 ltac:(lia)).
        rewrite (print_piece fmt req base) by (auto; try lia; now apply word_range). now rewrite !word_word_at by (auto; lia). }
  rewrite E. destruct (two_wide req base n (words_num ws)); try reflexivity. cbn [bind]. rewrite <- layout_finish by exact NB. reflexivity.
Qed.
Lemma bad_parse fmt base size : asks fmt Bad base -> parse_fmt fmt size = Exn.
Proof. intros A. exact (asks_parse fmt Bad base size A). Qed.
Lemma asks_reads fmt req base : asks fmt req base -> req <> Bad -> reads fmt (width_of req) base.
Proof. intros A N size. rewrite (asks_parse fmt req base size A). destruct req; [reflexivity|reflexivity|now elim N]. Qed.
(** the magnitude of negative numbers *)
Lemma negate_native b : vec b -> bw b <= 64 -> bsgn b = true -> stored b < 0 ->
  bit_negate b = if no_magnitude b then UB else Ok (vector (bw b) false (- stored b mod 2 ^ bw b)).
Proof.
  intros V H S N. rewrite negate_machine by auto. unfold two_complement, no_magnitude. rewrite S. native b x Eb Nb Ib Sb. replace (bw b <=? 64) with true by lia. rewrite !andb_true_r.
  destruct (Z.ltb_spec 16 (bw b)) as [G | G]; cbn [andb]; [|reflexivity]. apply in_values in Ib; [|lia]. rewrite S in Ib. rewrite Sb in *. replace (bw b =? 1) with false in Ib by lia.
  assert (SC : storage (bw b) = computing (bw b)). { unfold storage, computing. replace (bw b <=? 8) with false by lia. replace (bw b <=? 16) with false by lia. reflexivity. }
  rewrite SC in Ib. unfold fitting. set (P := 2 ^ (computing (bw b) - 1)) in *. destruct (Z.eqb_spec x (- P)) as [-> | D].
  - replace ((- P <=? - - P) && (- - P <? P)) with false by lia. reflexivity.
  - replace ((- P <=? - x) && (- x <? P)) with true by lia. reflexivity.
Qed.
Lemma uint_vector n z : 1 <= n <= 64 -> 0 <= z < 2 ^ n -> bit_to_uint64 (vector n false z) = z.
Proof.
  intros H Z0. unfold bit_to_uint64, vector. cbn [bval]. assert (2 ^ n <= 2 ^ 64) by (apply Z.pow_le_mono_r; lia). assert (E : store n false z = z).
  { unfold store. destruct (Z.eqb_spec n 1) as [-> | N1]; [change (2 ^ 1) with 2 in Z0; destruct (Z.eqb_spec z 0); lia|]. unfold wrap. apply Z.mod_small. destruct (storage_cases n ltac:(lia)) as (S1 & _). assert (2 ^ n <= 2 ^ storage n) by (apply Z.pow_le_mono_r; lia). lia. }
  rewrite E. apply u64_id. lia.
Qed.
Lemma u64_range z : 0 <= u64 z < 2 ^ 64.
Proof. unfold u64. apply Z.mod_pos_bound. lia. Qed.
Lemma negative_bit n ws : 65 <= n -> wfn n ws -> bn_negative n ws = Z.testbit (words_num ws) (n - 1).
Proof. intros Hn [W L]. unfold bn_negative. rewrite bn_get_spec by (auto; lia). now replace (n - 1 <? n) with true by lia. Qed.

Theorem bit_str_print b fmt req base : vec b -> asks fmt req base -> bit_str b fmt = bit_print req base b.
Proof.
  intros V A. unfold bit_str, bit_print, negative_decimal. change (bsize b) with (bw b). rewrite (asks_decimal _ _ _ A). destruct (vec_cases b V) as [(v & E & N & Ib & Sv) | (ws & E & N & Wb & Sv)]; rewrite E.
  - replace (64 <? bw b) with false by lia. cbn [andb]. replace (bw b <=? 64) with true by lia. rewrite Sv. replace (member "dD" base && bsgn b && (v <? 0)) with (bsgn b && (v <? 0) && member "dD" base) by btauto.
    destruct (bsgn b && (v <? 0) && member "dD" base) eqn:B; cbn [andb].
    + apply andb_true_iff in B. destruct B as [B D]. apply andb_true_iff in B. destruct B as [S B]. rewrite negate_native by (auto; lia). destruct (no_magnitude b); [reflexivity|]. cbn [bind].
      assert (M : magnitude base b = - stored b mod 2 ^ bw b). { unfold magnitude, negative_decimal. replace (bw b <=? 64) with true by lia. rewrite D, S, Sv, B. reflexivity. }
      assert (Z0 : 0 <= - stored b mod 2 ^ bw b < 2 ^ bw b) by (apply Z.mod_pos_bound, Z.pow_pos_nonneg; lia). assert (2 ^ bw b <= 2 ^ 64) by (apply Z.pow_le_mono_r; lia).
      rewrite uint_vector, <- M by lia. rewrite <- M in Z0. destruct req as [|r|].
      3: { unfold to_string2. now rewrite (bad_parse _ _ _ A). }
      all: rewrite (print2 _ _ _ _ _ _ (asks_reads _ _ _ A ltac:(discriminate))), possible_natural, two_core by lia; unfold valid; destruct (natural base (bw b)); try reflexivity; cbn [bind]; destruct (two_chars base (bw b) (magnitude base b)); try reflexivity; cbn [bind]; rewrite layout_finish by discriminate; rewrite D; reflexivity.
    + assert (M : magnitude base b = u64 v). { unfold magnitude, negative_decimal. replace (bw b <=? 64) with true by lia. rewrite Sv. replace (member "dD" base && bsgn b && (v <? 0)) with (bsgn b && (v <? 0) && member "dD" base) by btauto. rewrite B. reflexivity. }
      pose proof (u64_range v) as R. rewrite <- M in R |- *. destruct req as [|r|].
      3: { unfold to_string2. now rewrite (bad_parse _ _ _ A). }
      all: rewrite (print2 _ _ _ _ _ _ (asks_reads _ _ _ A ltac:(discriminate))), possible_natural, two_core by lia; unfold valid; destruct (natural base (bw b)); try reflexivity; cbn [bind]; destruct (two_chars base (bw b) (magnitude base b)); try reflexivity; cbn [bind]; rewrite layout_finish by discriminate; reflexivity.
  - replace (64 <? bw b) with true by lia. destruct (bsgn b) eqn:S; cbn [andb negb requires]; [|reflexivity]. replace (bw b <=? 64) with false by lia. rewrite negative_bit, Sv by (auto; lia).
    assert (NM : no_magnitude b = false) by (unfold no_magnitude; replace (bw b <=? 64) with false by lia; now rewrite andb_false_r). rewrite NM, andb_false_r.
    replace (member "dD" base && true && Z.testbit (words_num ws) (bw b - 1)) with (Z.testbit (words_num ws) (bw b - 1) && member "dD" base) by btauto.
    assert (M : magnitude base b = (if Z.testbit (words_num ws) (bw b - 1) && member "dD" base then - words_num ws else words_num ws) mod 2 ^ capacity (bw b)).
    { unfold magnitude, negative_decimal. replace (bw b <=? 64) with false by lia. rewrite S, Sv. now replace (member "dD" base && true && Z.testbit (words_num ws) (bw b - 1)) with (Z.testbit (words_num ws) (bw b - 1) && member "dD" base) by btauto. }
    rewrite M, capacity_nwords. destruct (Z.testbit (words_num ws) (bw b - 1) && member "dD" base) eqn:B.
    + apply andb_true_iff in B. destruct B as [B D]. destruct (bn_negate_spec (bw b) ws ltac:(lia) Wb) as [Wn En]. rewrite <- En. destruct req as [|r|].
      3: { unfold to_string2_big. now rewrite (bad_parse _ _ _ A). }
      all: rewrite (print2_big _ _ _ (bw b) _ _ (asks_reads _ _ _ A ltac:(discriminate)) ltac:(discriminate) ltac:(lia) Wn); rewrite D; reflexivity.
    + assert (Em : words_num ws mod 2 ^ (64 * nwords (bw b)) = words_num ws). { apply Z.mod_small. rewrite <- capacity_nwords. apply words_range; [lia|exact Wb]. }
      rewrite Em. destruct req as [|r|].
      3: { unfold to_string2_big. now rewrite (bad_parse _ _ _ A). }
      all: rewrite (print2_big _ _ _ (bw b) _ _ (asks_reads _ _ _ A ltac:(discriminate)) ltac:(discriminate) ltac:(lia) Wb); reflexivity.
Qed.
Theorem logic_str_print l fmt req base : lvec l -> asks fmt req base -> logic_str l fmt = logic_print req base l.
Proof.
  intros L A. assert (V : vec (l_val l)) by apply L. assert (Ls : lsize l = lw l) by reflexivity. unfold logic_str, logic_print, negative_decimal. rewrite (asks_decimal _ _ _ A), Ls. cbn zeta. change (bw (l_val l)) with (lw l). change (lsgn l) with (bsgn (l_val l)).
  destruct (lvec_cases l L) as [(v & x & E & Ex & N & Sv & Sx & Wx) | (ws & xs & E & Ex & N & Ww & Wx & Sv & Sx & _)]; rewrite E, Ex.
  - replace (lw l <=? 64) with true by lia. rewrite Sv, Sx. assert (X : in_ity (hty (lw l) false) x = true). { destruct (vec_cases (l_xz l) (proj1 (proj2 L))) as [(y & Ey & _ & Iy & _) | (y & Ey & _)]; rewrite Ex in Ey; [|discriminate]. injection Ey as <-. rewrite Wx in Iy. now rewrite (proj2 (proj2 (proj2 (proj2 L)))) in Iy. }
    assert (X0 : u64 x = x). { apply u64_id. pose proof (BitExt.unsigned_range (lw l) x N X) as XR. assert (2 ^ iwidth (hty (lw l) false) <= 2 ^ 64) by (apply Z.pow_le_mono_r; [lia|]; hty_cases (lw l); cbn [iwidth]; lia). lia. }
    rewrite X0. replace (member "dD" base && bsgn (l_val l) && (v <? 0)) with (bsgn (l_val l) && (v <? 0) && member "dD" base) by btauto.
    destruct (bsgn (l_val l) && (v <? 0) && member "dD" base) eqn:B; cbn [andb].
    + apply andb_true_iff in B. destruct B as [B D]. apply andb_true_iff in B. destruct B as [S B]. rewrite negate_native by (auto; change (bw (l_val l)) with (lw l); lia). destruct (no_magnitude (l_val l)); [reflexivity|]. cbn [bind].
      assert (M : magnitude base (l_val l) = - stored (l_val l) mod 2 ^ lw l). { unfold magnitude, negative_decimal. change (bw (l_val l)) with (lw l). replace (lw l <=? 64) with true by lia. rewrite D, S, Sv, B. reflexivity. }
      change (bw (l_val l)) with (lw l). assert (Z0 : 0 <= - stored (l_val l) mod 2 ^ lw l < 2 ^ lw l) by (apply Z.mod_pos_bound, Z.pow_pos_nonneg; lia). assert (2 ^ lw l <= 2 ^ 64) by (apply Z.pow_le_mono_r; lia).
      rewrite uint_vector, <- M by lia. rewrite <- M in Z0. unfold to_string4. destruct req as [|r|].
      3: { unfold to_string4_. now rewrite (bad_parse _ _ _ A). }
      all: rewrite (print4_ _ _ _ _ _ _ _ _ (asks_reads _ _ _ A ltac:(discriminate))), possible_natural, four_core by lia; unfold valid; destruct (natural base (lw l)); try reflexivity; cbn [bind]; rewrite layout_finish by discriminate; rewrite D; reflexivity.
    + assert (M : magnitude base (l_val l) = u64 v). { unfold magnitude, negative_decimal. change (bw (l_val l)) with (lw l). replace (lw l <=? 64) with true by lia. rewrite Sv. replace (member "dD" base && bsgn (l_val l) && (v <? 0)) with (bsgn (l_val l) && (v <? 0) && member "dD" base) by btauto. rewrite B. reflexivity. }
      pose proof (u64_range v) as R. rewrite <- M in R |- *. unfold to_string4. destruct req as [|r|].
      3: { unfold to_string4_. now rewrite (bad_parse _ _ _ A). }
      all: rewrite (print4_ _ _ _ _ _ _ _ _ (asks_reads _ _ _ A ltac:(discriminate))), possible_natural, four_core by lia; unfold valid; destruct (natural base (lw l)); try reflexivity; cbn [bind]; rewrite layout_finish by discriminate; reflexivity.
  - replace (lw l <=? 64) with false by lia. rewrite negative_bit, Sv, Sx by (auto; lia).
    assert (NM : no_magnitude (l_val l) = false) by (unfold no_magnitude; change (bw (l_val l)) with (lw l); replace (lw l <=? 64) with false by lia; now rewrite andb_false_r). rewrite NM, andb_false_r.
    replace (member "dD" base && bsgn (l_val l) && Z.testbit (words_num ws) (lw l - 1)) with (bsgn (l_val l) && Z.testbit (words_num ws) (lw l - 1) && member "dD" base) by btauto.
    assert (M : magnitude base (l_val l) = (if bsgn (l_val l) && Z.testbit (words_num ws) (lw l - 1) && member "dD" base then - words_num ws else words_num ws) mod 2 ^ capacity (lw l)).
    { unfold magnitude, negative_decimal. change (bw (l_val l)) with (lw l). replace (lw l <=? 64) with false by lia. rewrite Sv. now replace (member "dD" base && bsgn (l_val l) && Z.testbit (words_num ws) (lw l - 1)) with (bsgn (l_val l) && Z.testbit (words_num ws) (lw l - 1) && member "dD" base) by btauto. }
    rewrite M, capacity_nwords. destruct (bsgn (l_val l) && Z.testbit (words_num ws) (lw l - 1) && member "dD" base) eqn:B.
    + apply andb_true_iff in B. destruct B as [B D]. destruct (bn_negate_spec (lw l) ws ltac:(lia) Ww) as [Wn En]. rewrite <- En. destruct req as [|r|].
      3: { unfold to_string4_big. now rewrite (bad_parse _ _ _ A). }
      all: rewrite (print4_big _ _ _ _ _ _ _ (asks_reads _ _ _ A ltac:(discriminate))), possible_natural, four_core_big by (auto; lia); unfold valid; destruct (natural base (lw l)); try reflexivity; cbn [bind]; destruct (four_wide base (lw l) _ _); try reflexivity; cbn [bind]; rewrite layout_finish by discriminate; rewrite D; reflexivity.
    + assert (Em : words_num ws mod 2 ^ (64 * nwords (lw l)) = words_num ws). { apply Z.mod_small. rewrite <- capacity_nwords. apply words_range; [lia|exact Ww]. }
      rewrite Em. destruct req as [|r|].
      3: { unfold to_string4_big. now rewrite (bad_parse _ _ _ A). }
      all: rewrite (print4_big _ _ _ _ _ _ _ (asks_reads _ _ _ A ltac:(discriminate))), possible_natural, four_core_big by (auto; lia); unfold valid; destruct (natural base (lw l)); try reflexivity; cbn [bind]; destruct (four_wide base (lw l) _ _); try reflexivity; cbn [bind]; rewrite layout_finish by discriminate; reflexivity.
Qed.
Lemma asks_unique fmt r1 b1 r2 b2 : asks fmt r1 b1 -> asks fmt r2 b2 -> r1 = r2 /\ b1 = b2.
Proof.
  intros A B. assert (D : forall c, among "0123456789" c -> ~ ~ among "0123456789" c) by tauto.
  assert (Dg : forall d1 c1 t1 d2 c2 t2, Forall (among "0123456789") d1 -> Forall (among "0123456789") d2 -> ~ among "0123456789" c1 -> ~ among "0123456789" c2 -> d1 ++ c1 :: t1 = d2 ++ c2 :: t2 -> d1 = d2 /\ c1 = c2).
  { induction d1 as [|x d1 IH]; intros c1 t1 [|y d2] c2 t2 F1 F2 N1 N2 H; cbn [app] in H.
    - injection H as -> _. auto.
    - injection H as -> _. inversion F2; subst. contradiction.
    - injection H as -> _. inversion F1; subst. contradiction.
    - injection H as -> H. inversion F1; subst. inversion F2; subst. destruct (IH c1 t1 d2 c2 t2) as [-> ->]; auto. }
  assert (Al : forall d1 c1 t1, ~ among "0123456789" c1 -> ~ Forall (among "0123456789") (d1 ++ c1 :: t1)).
  { intros d1 c1 t1 Hc F. apply Forall_app in F. destruct F as [_ F]. inversion F; subst. contradiction. }
  inversion A as [c1 t1 N1 E1 | d1 c1 t1 M1 F1 N1 E1 | d1 F1 E1]; subst; inversion B as [c2 t2 N2 E2 | d2 c2 t2 M2 F2 N2 E2 | d2 F2 E2]; subst; auto.
  - destruct d2 as [|y d2]; [now elim M2|]. cbn [app] in E2. injection E2 as -> _. inversion F2; subst. contradiction.
  - now elim (Al [] b1 t1 N1).
  - destruct d1 as [|y d1]; [now elim M1|]. cbn [app] in E2. injection E2 as <- _. inversion F1; subst. contradiction.
  - destruct (Dg d2 b2 t2 d1 b1 t1 F2 F1 N2 N1 E2) as [-> ->]. auto.
  - now elim (Al d1 b1 t1 N1).
  - now elim (Al [] b2 t2 N2).
  - now elim (Al d2 b2 t2 N2).
Qed.
