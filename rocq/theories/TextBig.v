(** Lemmas about parsing multi-word vectors. *)
From Coq Require Import ZArith List Bool Lia String.
From Verif Require Import Cpp BigNum Bit Logic Util Spec SpecText ZBits Words BigNumProofs BitProofs BitExt BitMain4 TextProofs.
Import ListNotations.
Open Scope Z_scope.
Lemma big_of_words n sg ws (g : Z -> bool) : 65 <= n < 2 ^ 31 -> wfn n ws -> (forall p, 0 <= p < 64 * nwords n -> Z.testbit (words_num ws) p = g p) ->
  typed (mkBit (n - 1) 0 sg (HB ws)) n sg /\ (forall p, 0 <= p < n -> bit_at (mkBit (n - 1) 0 sg (HB ws)) p = g p) /\
  ((forall p, n <= p -> g p = false) -> tidy (mkBit (n - 1) 0 sg (HB ws))).
Proof.
  intros Hn W Q. pose proof (typed_big n sg ws Hn W) as T. pose proof (nwords_bounds n ltac:(lia)) as Nw. assert (H1 : 1 <= n) by lia. split; [exact T|]. split.
  - intros p Hp. rewrite bit_at_stored by (rewrite (typed_bw _ _ _ H1 T); exact Hp). unfold stored. cbn [bval]. apply Q. lia.
  - intros Z0. unfold tidy. cbn [bval]. rewrite (typed_bw _ _ _ H1 T). destruct W as [W L]. pose proof (words_num_nonneg ws W). split; [assumption|].
    apply lt_pow2_bits; [lia|assumption|]. intros p Hp. destruct (Z.lt_ge_cases p (64 * nwords n)); [rewrite Q by lia; now apply Z0|]. apply words_num_high; [exact W|lia].
Qed.
Lemma bit_text_big n sg pre size base k s : 65 <= n < 2 ^ 31 -> prefix_ok pre size -> pow2_base base k -> k <> 3 -> digits_ok k s -> no_underscore s ->
  exists b, bit_of_str (n - 1) 0 sg (literal pre size base s) = Ok b /\ typed b n sg /\ (forall p, 0 <= p < n -> bit_at b p = sym_val (text_sym k s p)) /\
    (k * len s <= n -> tidy b).
Proof.
  intros Hn P B K3 D N. pose proof (base_k base k B) as Hk. unfold bit_of_str. replace (vsize (n - 1) 0) with n by (unfold vsize; lia). unfold native_num. rewrite (proj2 (Z.leb_gt n 64)) by lia.
  destruct (big_words parse_raw_ sym_val n pre size base k s Hn P B K3 N eq_refl) as (ws & E & W & Q).
  { intros j Hj Hl. apply raw_text; [exact B|apply chunk_forall; exact D|]. apply chunk_fits; [lia| | |exact N]; destruct B as [[_ ->]|[[_ ->]|[_ ->]]]; cbn; try lia. }
  unfold parse_raw_str_big. rewrite E. cbn [bind]. eexists. split; [reflexivity|]. destruct (big_of_words n sg ws _ Hn W Q) as (T & BB & TT). split; [exact T|]. split; [exact BB|].
  intros L. apply TT. intros p Hp. rewrite text_bound; [reflexivity|lia|lia|]. rewrite clean_id by exact N. lia.
Qed.
Lemma logic_text_big n sg pre size base k s : 65 <= n < 2 ^ 31 -> prefix_ok pre size -> pow2_base base k -> k <> 3 -> digits_ok k s -> no_underscore s ->
  (k = 1 -> forall p, 0 <= p -> 32 <= p mod 64 -> unknown (text_sym 1 s p) = false) ->
  exists l, logic_of_str (n - 1) 0 sg (literal pre size base s) = Ok l /\ ltyped l n sg /\ (forall p, 0 <= p < n -> sym_at l p = text_sym k s p) /\ (k * len s <= n -> ltidy l).
Proof.
  intros Hn P B K3 D N U. pose proof (base_k base k B) as Hk. unfold logic_of_str. replace (vsize (n - 1) 0) with n by (unfold vsize; lia). unfold native_num. rewrite (proj2 (Z.leb_gt n 64)) by lia.
  destruct (big_words parse_raw_ sym_val n pre size base k s Hn P B K3 N eq_refl) as (ws & E & W & Q).
  { intros j Hj Hl. apply raw_text; [exact B|apply chunk_forall; exact D|]. apply chunk_fits; [lia| | |exact N]; destruct B as [[_ ->]|[[_ ->]|[_ ->]]]; cbn; try lia. }
  destruct (big_words parse_xz_raw_ unknown n pre size base k s Hn P B K3 N eq_refl) as (xs & EX & WX & QX).
  { intros j Hj Hl. apply xz_text; [exact B|apply chunk_forall; exact D| |].
    - apply chunk_fits; [lia| | |exact N]; destruct B as [[_ ->]|[[_ ->]|[_ ->]]]; cbn; try lia.
    - intros K1 p Hp. rewrite K1 in *. change (64 / 1) with 64. destruct (Z.lt_ge_cases p 64).
      + rewrite chunk_sym by (auto; lia). apply U; [reflexivity|lia|]. rewrite Z.add_comm, Z.mul_comm, Z.mod_add, Z.mod_small by lia. exact Hp.
      + rewrite text_bound; [reflexivity|lia|lia|]. rewrite clean_id by (apply chunk_forall; exact N). pose proof (chunk_len s 64 j). lia. }
  unfold parse_raw_str_big, parse_xz_raw_str_big. rewrite E, EX. cbn [bind]. eexists. split; [reflexivity|]. destruct (big_of_words n sg ws _ Hn W Q) as (T & BB & TT). destruct (big_of_words n false xs _ Hn WX QX) as (T' & BB' & TT').
  split; [split; assumption|]. split.
  - intros p Hp. unfold sym_at. cbn [l_val l_xz]. rewrite BB, BB' by exact Hp. apply sym_split.
  - intros L. split; cbn [l_val l_xz]; [apply TT|apply TT']; intros p Hp; (rewrite text_bound; [reflexivity|lia|lia|]); rewrite clean_id by exact N; lia.
Qed.

(** ** short texts: one word *)
Lemma one_chunk s B : len s <= B -> chunk s B 0 = s.
Proof. intros H. unfold chunk. rewrite Z.mul_0_l. cbn [Z.to_nat skipn]. rewrite firstn_all2; [apply rev_involutive|]. rewrite rev_length. unfold len in H. lia. Qed.
Lemma big_short one n pre size base s R : 65 <= n < 2 ^ 31 -> prefix_ok pre size -> is_digit base = false -> 1 <= len s <= 64 / get_stride base -> 1 <= get_stride base -> one s base = Ok R -> 0 <= R < 2 ^ 64 ->
  exists ws, parse_big one (literal pre size base s) n = Ok ws /\ wfn n ws /\ words_num ws = R.
Proof.
  intros Hn P Hd L S E RR. rewrite big_literal by auto. pose proof (nwords_bounds n ltac:(lia)) as Nw. pose proof (bn_zero_wfn n ltac:(lia)) as [Wz Lz].
  destruct (words_loop (fun t => one t base) s (64 / get_stride base) (fun j Q => Q = R) ltac:(lia) (Z.to_nat (nwords n)) 0 (bn_zero n)) as (ws & E' & W & L' & Q); [lia| | exact Wz | lia |].
  { intros j Hj Hl. assert (j = 0) as -> by nia. rewrite one_chunk by lia. exists R. auto. }
  rewrite Z.mul_0_l, Z.sub_0_r, Z.max_r in E' by apply len_nonneg. change (slen s) with (len s). exists ws. split; [exact E'|]. split; [split; [exact W|lia]|].
  assert (W0 : word ws 0 = R). { specialize (Q 0 ltac:(lia)). replace ((0 <=? 0) && (0 <? 0 + Z.of_nat (Z.to_nat (nwords n))) && (0 * (64 / get_stride base) <? len s)) with true in Q by lia. exact Q. }
  apply Z.bits_inj'. intros p Hp. rewrite words_num_testbit by auto. destruct (Z.lt_ge_cases p 64).
  - rewrite Z.div_small, Z.mod_small by lia. now rewrite W0.
  - specialize (Q (p / 64) ltac:(apply Z.div_pos; lia)). assert (1 <= p / 64) by (apply Z.div_le_lower_bound; lia). replace (p / 64 * (64 / get_stride base) <? len s) with false in Q by nia. rewrite andb_false_r in Q. rewrite Q.
    unfold bn_zero, word. rewrite nth_repeat, Z.bits_0. symmetry. apply (testbit_small R 64); lia.
Qed.
Lemma num_big_small n sg ws V : 65 <= n < 2 ^ 31 -> words_num ws = V -> 0 <= V < 2 ^ 64 -> num (mkBit (n - 1) 0 sg (HB ws)) = V /\ tidy (mkBit (n - 1) 0 sg (HB ws)).
Proof.
  intros Hn E R. assert (2 ^ 64 <= 2 ^ n) by (apply Z.pow_le_mono_r; lia). split.
  - rewrite num_plain_big by lia. rewrite E. apply Z.mod_small. lia.
  - unfold tidy. cbn [bval]. assert (bw (mkBit (n - 1) 0 sg (HB ws)) = n) as -> by (unfold bw, width; cbn; lia). lia.
Qed.
Lemma logic_dec_big n sg pre size base s : 65 <= n < 2 ^ 31 -> prefix_ok pre size -> among "dD" base -> Forall (among "0123456789_") s -> 1 <= len s <= 64 -> numeral_value 10 s < 2 ^ 64 ->
  (exists b, bit_of_str (n - 1) 0 sg (literal pre size base s) = Ok b /\ typed b n sg /\ num b = numeral_value 10 s /\ tidy b) /\
  (exists l, logic_of_str (n - 1) 0 sg (literal pre size base s) = Ok l /\ ltyped l n sg /\ known l /\ num (l_val l) = numeral_value 10 s /\ ltidy l).
Proof.
  intros Hn P B D L V. pose proof (numeral_nonneg 10 s ltac:(lia)) as V0. assert (St : get_stride base = 1) by (chars_cases B; reflexivity).
  assert (E0 : parse_raw_ s base = Ok (numeral_value 10 s)) by (rewrite (raw_dec base s B D); f_equal; apply Z.mod_small; lia).
  destruct (big_short parse_raw_ n pre size base s (numeral_value 10 s) Hn P (dec_nd _ B)) as (ws & E & W & Q); [rewrite St; cbn; lia|lia|exact E0|lia|].
  destruct (big_short parse_xz_raw_ n pre size base s 0 Hn P (dec_nd _ B)) as (xs & EX & WX & QX); [rewrite St; cbn; lia|lia|apply xz_dec; exact B|lia|].
  unfold bit_of_str, logic_of_str. replace (vsize (n - 1) 0) with n by (unfold vsize; lia). unfold native_num. rewrite (proj2 (Z.leb_gt n 64)) by lia. unfold parse_raw_str_big, parse_xz_raw_str_big. rewrite E, EX. cbn [bind].
  destruct (num_big_small n sg ws _ Hn Q ltac:(lia)) as [N1 T1]. destruct (num_big_small n false xs _ Hn QX ltac:(lia)) as [N2 T2].
  split; eexists; (split; [reflexivity|]).
  - split; [apply typed_big; auto|]. auto.
  - split; [split; apply typed_big; auto|]. split; [|split; [exact N1|split; assumption]]. intros p Hp. unfold sym_at. cbn [l_val l_xz]. unfold bit_at at 2. rewrite N2, Z.bits_0. now destruct (bit_at _ _).
Qed.
(** binary, octal and hexadecimal texts, underscores included, of at most one word of characters *)
Lemma logic_short_big n sg pre size base k s : 65 <= n < 2 ^ 31 -> prefix_ok pre size -> pow2_base base k -> digits_ok k s -> hd 0 s <> 95 -> 1 <= len s <= 64 / k ->
  (k = 1 -> forall p, 32 <= p -> unknown (text_sym 1 s p) = false) ->
  exists l, logic_of_str (n - 1) 0 sg (literal pre size base s) = Ok l /\ ltyped l n sg /\ (forall p, 0 <= p < n -> sym_at l p = text_sym k s p) /\ ltidy l.
Proof.
  intros Hn P B D H L U. pose proof (base_k base k B) as Hk. assert (Cl : len (clean s) <= len s) by (pose proof (clean_len s); unfold len; lia).
  assert (Lk : k * len (clean s) <= 64). { assert (k * (64 / k) <= 64) by (apply Z.mul_div_le; lia). nia. }
  assert (F : fits k s) by (split; [nia|exact H]). assert (St := stride_pow2 base k B).
  destruct (raw_text base k s B D F) as (R & E0 & RR & Q0). destruct (xz_text base k s B D F U) as (X & E1 & RX & Q1).
  destruct (big_short parse_raw_ n pre size base s R Hn P (pow2_base_nd _ _ B)) as (ws & E & W & Q); [rewrite St; lia|lia|exact E0|lia|].
  destruct (big_short parse_xz_raw_ n pre size base s X Hn P (pow2_base_nd _ _ B)) as (xs & EX & WX & QX); [rewrite St; lia|lia|exact E1|lia|].
  unfold logic_of_str. replace (vsize (n - 1) 0) with n by (unfold vsize; lia). unfold native_num. rewrite (proj2 (Z.leb_gt n 64)) by lia. unfold parse_raw_str_big, parse_xz_raw_str_big. rewrite E, EX. cbn [bind].
  destruct (num_big_small n sg ws _ Hn Q ltac:(lia)) as [N1 T1]. destruct (num_big_small n false xs _ Hn QX ltac:(lia)) as [N2 T2].
  eexists. split; [reflexivity|]. split; [split; apply typed_big; auto|]. split; [|split; assumption]. intros p Hp. unfold sym_at, bit_at. cbn [l_val l_xz]. rewrite N1, N2. destruct (Z.lt_ge_cases p 64).
  - rewrite Q0, Q1 by lia. apply sym_split.
  - rewrite (testbit_small R 64), (testbit_small X 64) by lia. rewrite text_bound by lia. reflexivity.
Qed.
