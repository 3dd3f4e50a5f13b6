(** Exactly when a [big_num] is constructed right from a native number and from a text. *)
From Coq Require Import ZArith List Bool Lia Zify ZifyBool.
From Verif Require Import Cpp BigNum Bit Util More BigObj Spec SpecText SpecBig ZBits Words BigNumProofs BigArith BitCmp BitShift BigArith TextProofs TextMain BigObjProofs BigObjProofs3.
Import ListNotations.
Open Scope Z_scope.
Local Ltac Zify.zify_post_hook ::= idtac.

Lemma of_native_iff n s v : 1 <= n < 2 ^ 32 -> - 2 ^ 63 <= v < 2 ^ 64 ->
  is_num (num_of_native n s v) n s /\ (magn (num_of_native n s v) = v mod 2 ^ n <-> s = true \/ 0 <= v \/ n <= 64).
Proof.
  intros Hn Hv. destruct (Z.leb_spec 0 v); [destruct (of_native_num n s v Hn Hv ltac:(lia)) as [A B]; split; [exact A|tauto]|].
  destruct s; [destruct (of_native_num n true v Hn Hv ltac:(auto)) as [A B]; split; [exact A|tauto]|].
  destruct (bn_of_native_spec n v ltac:(lia)) as (W1 & Q). unfold num_of_native. cbn [andb]. split; [apply is_num_mk; [lia|exact W1]|]. unfold magn, raw. cbn [n_ws n_size]. rewrite Q.
  pose proof (pow2_pos n ltac:(lia)). unfold u64. destruct (Z.leb_spec n 64).
  - split; [lia|]. intros _. replace 64 with (n + (64 - n)) by lia. rewrite pow2_split by lia. pose proof (pow2_pos (64 - n) ltac:(lia)). rewrite Z.rem_mul_r by lia.
    rewrite <- Zplus_mod_idemp_r, Z.mul_comm, Z_mod_mult, Z.add_0_r. apply Z.mod_mod. lia.
  - split; [|intros [A|[A|A]]; [discriminate A|lia|lia]]. intros A. exfalso.
    assert (2 ^ 65 <= 2 ^ n) by (apply Z.pow_le_mono_r; lia). assert (E : v mod 2 ^ n = v + 2 ^ n) by (rewrite <- (Z.mod_small (v + 2 ^ n) (2 ^ n)) by lia; rewrite <- Zplus_mod_idemp_r, Z_mod_same_full, Z.add_0_r; reflexivity).
    rewrite E in A. pose proof (Z.mod_pos_bound v (2 ^ 64) ltac:(lia)). rewrite Z.mod_small in A by lia. lia.
Qed.

Lemma parse_words_rest one value batch : 1 <= batch -> forall fuel rem en idx w1 w2 r1,
  wlen w1 = wlen w2 -> 0 <= idx -> idx + Z.of_nat fuel = wlen w1 -> 0 <= rem -> (forall i, 0 <= i < idx -> word w1 i = word w2 i) ->
  parse_words one value batch fuel rem en idx w1 = Ok r1 ->
  exists r2, parse_words one value batch fuel rem en idx w2 = Ok r2 /\ wlen r2 = wlen w2 /\ wlen r1 = wlen w1 /\
    (forall i, 0 <= i < wlen w2 -> i < idx + (rem + batch - 1) / batch -> word r2 i = word r1 i) /\
    (forall i, 0 <= i < wlen w2 -> idx + (rem + batch - 1) / batch <= i -> word r2 i = word w2 i).
Proof.
  intros Hb. induction fuel as [|f IH]; intros rem en idx w1 w2 r1 L Hi Hl Hr A E; cbn [parse_words] in *.
  - inversion E; subst. exists w2. split; [reflexivity|]. split; [reflexivity|]. split; [reflexivity|]. split; [|reflexivity]. intros i Q _. symmetry. apply A. lia.
  - destruct (Z.ltb_spec 0 rem).
    2:{ inversion E; subst. replace rem with 0 by lia. exists w2. split; [reflexivity|]. split; [reflexivity|]. split; [reflexivity|]. split; [|reflexivity]. intros i Q R. symmetry. apply A. rewrite Z.div_small in R by lia. lia. }
    set (beg := if batch <=? rem then rem - batch else 0) in *. destruct (one (firstn (Z.to_nat (en - beg)) (skipn (Z.to_nat beg) value))) as [w| | | |]; cbn [bind] in *; try discriminate.
    apply IH with (w2 := word_set w2 idx w) in E.
    + destruct E as (r2 & E & L2 & L1 & P & Q). rewrite word_set_len in *. exists r2. split; [exact E|]. split; [lia|]. split; [lia|].
      assert (D : (rem + batch - 1) / batch = 1 + ((if batch <? rem then rem - batch else 0) + batch - 1) / batch).
      { destruct (Z.ltb_spec batch rem).
        - replace (rem + batch - 1) with (rem - batch + batch - 1 + 1 * batch) by lia. rewrite Z.div_add by lia. lia.
        - replace (rem + batch - 1) with (rem - 1 + 1 * batch) by lia. rewrite Z.div_add, !Z.div_small by lia. lia. }
      rewrite D. split.
      * intros i R1 R2. apply P; lia.
      * intros i R1 R2. rewrite Q by lia. rewrite word_set_word by lia. assert (0 <= ((if batch <? rem then rem - batch else 0) + batch - 1) / batch) by (apply Z.div_pos; [destruct (batch <? rem) eqn:?; lia|lia]).
        destruct (Z.eqb_spec i idx); [lia|reflexivity].
    + now rewrite !word_set_len.
    + lia.
    + rewrite word_set_len. lia.
    + destruct (Z.ltb_spec batch rem); lia.
    + intros i Hi'. rewrite !word_set_word by lia. destruct (i =? idx) eqn:Q; [reflexivity|]. apply A. lia.
Qed.

Lemma of_str_any n sg mem pre size base k s : 65 <= n < 2 ^ 31 -> prefix_ok pre size -> pow2_base base k -> k <> 3 -> digits_ok k s -> no_underscore s ->
  Z.of_nat (List.length mem) = (n + 63) / 64 -> Forall (fun w => 0 <= w < 2 ^ 64) mem ->
  exists x, num_of_str n sg mem (literal pre size base s) = Ok x /\ is_num x n sg /\
    forall p, 0 <= p < n -> pos x p = if p <? (k * len s + 63) / 64 * 64 then sym_val (text_sym k s p) else Z.testbit (words_num mem) p.
Proof.
  intros Hn P B K3 D N M Fm. pose proof (base_k base k B) as Hk. rewrite <- nwords_up in M. pose proof (nwords_bounds n ltac:(lia)) as Nw. pose proof (bn_zero_wfn n ltac:(lia)) as [Wz Lz].
  destruct (big_words parse_raw_ sym_val n pre size base k s Hn P B K3 N eq_refl) as (ws & E & W & Q).
  { intros j Hj Hl. apply raw_text; [exact B|apply chunk_forall; exact D|]. apply chunk_fits; [lia| | |exact N]; destruct B as [[_ ->]|[[_ ->]|[_ ->]]]; cbn; try lia. }
  assert (St : get_stride base = k /\ (k = 1 \/ k = 4)).
  { split; [|destruct B as [[_ ->]|[[_ ->]|[_ ->]]]; auto; congruence]. destruct B as [[B ->]|[[B ->]|[B ->]]]; [|congruence|]; chars_cases B; reflexivity. }
  destruct St as [St K]. assert (HB : (64 / k) * k = 64 /\ 1 <= 64 / k) by (destruct K as [-> | ->]; split; [reflexivity|vm_compute; discriminate|reflexivity|vm_compute; discriminate]).
  assert (Nd : is_digit base = false) by (destruct B as [[B ->]|[[B ->]|[B ->]]]; chars_cases B; reflexivity).
  rewrite big_literal in E by auto. rewrite St in E. assert (L0 : 0 <= len s) by (unfold len; lia).
  apply parse_words_rest with (w2 := mem) in E; [|lia|unfold wlen in *; lia|lia|unfold wlen in *; lia|exact L0|intros; lia].
  destruct E as (r & E & L2 & L1 & Lo & Hi). change (slen s) with (len s) in E, Lo, Hi.
  assert (Wr : wfn n r).
  { split; [|unfold wlen in *; lia]. apply Forall_forall. intros w Iw. destruct (In_nth _ _ 0 Iw) as (i & I1 & I2). assert (X : w = word r (Z.of_nat i)) by (unfold word; rewrite Nat2Z.id; auto).
    destruct (Z.lt_ge_cases (Z.of_nat i) (0 + (len s + 64 / k - 1) / (64 / k))).
    - rewrite Lo in X by (unfold wlen in *; lia). rewrite X. apply word_range. apply W.
    - rewrite Hi in X by (unfold wlen in *; lia). rewrite X. apply word_range. exact Fm. }
  exists (mkNum n sg r). assert (J : is_num (mkNum n sg r) n sg) by (apply is_num_mk; [lia|exact Wr]). split; [|split; [exact J|]].
  - unfold num_of_str. pose proof (input_base pre size base s P Nd) as H. destruct (get_input_base _) as [b p]. destruct H as [-> ->]. rewrite St. change (slen s) with (len s). rewrite E. reflexivity.
  - intros p Hp. rewrite (pos_in _ _ _ _ J Hp). unfold raw. cbn [n_ws]. rewrite words_num_testbit by (try apply Wr; lia).
    assert (Cn : (k * len s + 63) / 64 = (len s + 64 / k - 1) / (64 / k)).
    { destruct K as [-> | ->]; [rewrite Z.mul_1_l; change (64 / 1) with 64; f_equal; lia|]. change (64 / 4) with 16.
      replace (4 * len s + 63) with (3 + 4 * (len s + 15)) by lia. replace 64 with (4 * 16) by reflexivity. rewrite <- Z.div_div by lia.
      replace (3 + 4 * (len s + 15)) with (3 + (len s + 15) * 4) by lia. rewrite Z.div_add by lia. change (3 / 4) with 0. f_equal. lia. }
    assert (Dp : p / 64 < nwords n) by (apply Z.div_lt_upper_bound; lia). assert (0 <= p / 64) by (apply Z.div_pos; lia).
    destruct (Z.ltb_spec p ((k * len s + 63) / 64 * 64)).
    + rewrite Lo; [|unfold wlen in *; lia|rewrite <- Cn; apply Z.div_lt_upper_bound; lia]. rewrite <- words_num_testbit by (try apply W; lia). apply Q. lia.
    + rewrite Hi; [|unfold wlen in *; lia|rewrite <- Cn; apply Z.div_le_lower_bound; lia]. rewrite <- words_num_testbit by (try exact Fm; lia). reflexivity.
Qed.
Lemma of_str_iff n sg mem pre size base k s : 65 <= n < 2 ^ 31 -> prefix_ok pre size -> pow2_base base k -> k <> 3 -> digits_ok k s -> no_underscore s ->
  Z.of_nat (List.length mem) = (n + 63) / 64 -> Forall (fun w => 0 <= w < 2 ^ 64) mem ->
  (exists x, num_of_str n sg mem (literal pre size base s) = Ok x /\ is_num x n sg /\ forall p, 0 <= p < n -> pos x p = sym_val (text_sym k s p)) <->
  forall p, (k * len s + 63) / 64 * 64 <= p < n -> Z.testbit (words_num mem) p = false.
Proof.
  intros Hn P B K3 D N M Fm. pose proof (base_k base k B) as Hk. destruct (of_str_any n sg mem pre size base k s Hn P B K3 D N M Fm) as (x & E & J & Q).
  assert (L0 : 0 <= len s) by (unfold len; lia). assert (U : k * len s <= (k * len s + 63) / 64 * 64).
  { pose proof (Z.div_mod (k * len s + 63) 64 ltac:(lia)). pose proof (Z.mod_pos_bound (k * len s + 63) 64 ltac:(lia)). lia. }
  assert (T : forall p, (k * len s + 63) / 64 * 64 <= p -> sym_val (text_sym k s p) = false).
  { intros p Hp. rewrite text_bound; [reflexivity|lia|nia|]. rewrite clean_id by exact N. lia. }
  split.
  - intros (y & E' & _ & Q') p Hp. rewrite E' in E. inversion E; subst y. assert (0 <= p < n) by nia. rewrite <- (T p) by lia. rewrite <- Q', Q by lia. destruct (Z.ltb_spec p ((k * len s + 63) / 64 * 64)); [lia|reflexivity].
  - intros Z0. exists x. split; [exact E|]. split; [exact J|]. intros p Hp. rewrite Q by lia. destruct (Z.ltb_spec p ((k * len s + 63) / 64 * 64)); [reflexivity|]. rewrite T by lia. apply Z0. lia.
Qed.
