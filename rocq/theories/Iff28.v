(** Which literals of vectors of more than one word are read right, exactly. *)
From Coq Require Import ZArith String Ascii List Bool Lia.
From Verif Require Import Cpp BigNum Bit Logic Util Spec SpecText SpecMachine SpecWide SpecRead ZBits Words BigNumProofs BitProofs TextProofs MachineProofs WideProofs ReadProofs ReadExact Iff3.
Import ListNotations.
Open Scope Z_scope.
Local Ltac Zify.zify_post_hook ::= idtac.

Lemma cut_nth (l : list Z) d m i : nth_error (firstn d (skipn m l)) i = if (i <? d)%nat then nth_error l (m + i) else None.
Proof.
  revert l. induction m as [|m IH]; intros l.
  - cbn [skipn Nat.add]. revert l i. induction d as [|d IHd]; intros l i; [destruct i; reflexivity|]. destruct l as [|a l]; [destruct i as [|i]; [reflexivity|]; cbn [firstn nth_error]; destruct (S i <? S d)%nat; reflexivity|].
    destruct i as [|i]; [reflexivity|]. cbn [firstn nth_error]. rewrite IHd. reflexivity.
  - destruct l as [|a l]; [cbn [skipn]; rewrite firstn_nil; destruct i as [|i]; [destruct (0 <? d)%nat|destruct (S i <? d)%nat]; reflexivity|]. cbn [skipn]. rewrite IH. reflexivity.
Qed.
Lemma clean_same s : no_underscore s -> clean s = s.
Proof. intros H. unfold clean. induction H as [|c s Hc H IH]; [reflexivity|]. cbn [filter]. replace (c =? 95) with false by lia. cbn [negb]. now rewrite IH. Qed.
Lemma firstn_in (l : list Z) d x : In x (firstn d l) -> In x l.
Proof. intros H. rewrite <- (firstn_skipn d l). apply in_or_app. now left. Qed.
Lemma skipn_in' (l : list Z) d x : In x (skipn d l) -> In x l.
Proof. intros H. rewrite <- (firstn_skipn d l). apply in_or_app. now right. Qed.
Lemma piece_in base s j c : In c (piece base s j) -> In c s.
Proof. unfold piece. intros H. apply in_rev in H. apply firstn_in in H. apply skipn_in' in H. now apply in_rev. Qed.
Lemma piece_places base s j : no_underscore s -> places (piece base s j) = firstn (Z.to_nat (per_word base)) (skipn (Z.to_nat (j * per_word base)) (rev s)).
Proof.
  intros H. unfold places. rewrite clean_same; [unfold piece; apply rev_involutive|]. apply Forall_forall. intros c Hc. rewrite (Forall_forall (fun c => c <> 95)) in H. apply H. eapply piece_in. exact Hc.
Qed.
Lemma in_words_bit f k : forall a j r, (forall i, 0 <= f i < 2 ^ 64) -> 0 <= j < Z.of_nat k -> 0 <= r < 64 -> Z.testbit (in_words f a k) (64 * j + r) = Z.testbit (f (a + j)) r.
Proof.
  induction k as [|k IH]; intros a j r F Hj Hr; [lia|]. cbn [in_words].
  assert (E : f a + 2 ^ 64 * in_words f (a + 1) k = Z.lor (f a) (Z.shiftl (in_words f (a + 1) k) 64)).
  { assert (L : Z.land (f a) (Z.shiftl (in_words f (a + 1) k) 64) = 0).
    { apply Z.bits_inj'. intros p Hp. rewrite Z.land_spec, Z.bits_0, Z.shiftl_spec by lia. destruct (Z.lt_ge_cases p 64); [rewrite (Z.testbit_neg_r _ (p - 64)) by lia; apply andb_false_r|].
      rewrite (testbit_small (f a) 64) by (try apply F; lia). reflexivity. }
    rewrite <- Z.lxor_lor by exact L. rewrite <- Z.add_nocarry_lxor by exact L. rewrite Z.shiftl_mul_pow2 by lia. lia. }
  rewrite E, Z.lor_spec, Z.shiftl_spec by lia. destruct (Z.eq_dec j 0) as [-> | J].
  - rewrite (Z.testbit_neg_r _ (64 * 0 + r - 64)) by lia. rewrite orb_false_r, Z.mul_0_r, Z.add_0_l, Z.add_0_r. reflexivity.
  - rewrite (testbit_small (f a) 64) by (try apply F; lia). cbn [orb]. replace (64 * j + r - 64) with (64 * (j - 1) + r) by lia. rewrite IH by (try exact F; lia). do 2 f_equal. lia.
Qed.
Lemma wide_bit f base k w s n j r : 1 <= k -> no_underscore s -> (forall t, f base t = stacked k w (places t) mod 2 ^ 64) -> (forall c, In c s -> 0 <= w c < 2 ^ k) -> 0 <= j < words_in n -> 0 <= r < 64 ->
  Z.testbit (wide_number f base s n) (64 * j + r) = if r / k <? per_word base then match nth_error (rev s) (Z.to_nat (per_word base * j + r / k)) with Some c => Z.testbit (w c) (r mod k) | None => false end else false.
Proof.
  intros Hk U F W Hj Hr. unfold wide_number. rewrite in_words_bit; [|intros i; rewrite F; apply stacked_mod_range|lia|exact Hr]. rewrite Z.add_0_l, F.
  rewrite pow_number_bit; [|exact Hk| |exact Hr].
  - rewrite piece_places by exact U. rewrite cut_nth. pose proof (per_word_pos base) as PP. assert (0 <= r / k) by (apply Z.div_pos; lia).
    replace (Z.to_nat (r / k) <? Z.to_nat (per_word base))%nat with (r / k <? per_word base).
    + destruct (r / k <? per_word base); [|reflexivity]. replace (Z.to_nat (j * per_word base) + Z.to_nat (r / k))%nat with (Z.to_nat (per_word base * j + r / k)) by nia. reflexivity.
    + destruct (Z.ltb_spec (r / k) (per_word base)), (Nat.ltb_spec (Z.to_nat (r / k)) (Z.to_nat (per_word base))); try reflexivity; lia.
  - intros c Hc. apply W. rewrite piece_places in Hc by exact U. apply firstn_in in Hc. apply skipn_in' in Hc. now apply in_rev.
Qed.
Lemma wide_position n p : 65 <= n -> 0 <= p < n -> p = 64 * (p / 64) + p mod 64 /\ 0 <= p / 64 < words_in n /\ 0 <= p mod 64 < 64.
Proof.
  intros Hn Hp. pose proof (Z.div_mod p 64 ltac:(lia)) as D. pose proof (Z.mod_pos_bound p 64 ltac:(lia)) as M. split; [exact D|]. split; [|exact M]. split; [apply Z.div_pos; lia|].
  unfold words_in. pose proof (Z.div_mod (n + 63) 64 ltac:(lia)). pose proof (Z.mod_pos_bound (n + 63) 64 ltac:(lia)). lia.
Qed.
Lemma wide_object_bit n sg z p : 2 <= n -> 0 <= p < n -> bit_at (object (n - 1) 0 sg z) p = Z.testbit z p.
Proof. intros H Hp. unfold bit_at. rewrite object_num by (rewrite width_n; lia). rewrite width_n, testbit_mod_pow2 by lia. replace (p <? n) with true by lia. reflexivity. Qed.

(** the character at position [p] *)
Lemma wide_sym n sg base k w u s p l : 65 <= n -> 1 <= k -> no_underscore s -> (forall t, number base t = stacked k w (places t) mod 2 ^ 64) -> (forall t, mask base t = stacked k u (places t) mod 2 ^ 64) ->
  (forall c, In c s -> 0 <= w c < 2 ^ k) -> (forall c, In c s -> 0 <= u c < 2 ^ k) -> 0 <= p < n ->
  l = mkLogic (object (n - 1) 0 sg (wide_number number base s n)) (object (n - 1) 0 false (wide_number mask base s n)) ->
  sym_at l p = if p mod 64 / k <? per_word base then match nth_error (rev s) (Z.to_nat (per_word base * (p / 64) + p mod 64 / k)) with
     | Some c => sym_of (Z.testbit (w c) (p mod 64 mod k)) (Z.testbit (u c) (p mod 64 mod k)) | None => S0 end else S0.
Proof.
  intros Hn Hk U Fn Fm W U' Hp ->. destruct (wide_position n p Hn Hp) as (E & Hj & Hr). unfold sym_at. cbn [l_val l_xz]. rewrite !wide_object_bit by lia. rewrite E at 1 2.
  rewrite (wide_bit number base k w), (wide_bit mask base k u) by assumption. destruct (_ <? _); [|reflexivity]. destruct (nth_error _ _); reflexivity.
Qed.
Lemma text_sym_plain k s p : no_underscore s -> text_sym k s p = match nth_error (rev s) (Z.to_nat (p / k)) with Some c => digit_sym c (p mod k) | None => S0 end.
Proof. intros U. unfold text_sym. now rewrite clean_same. Qed.
Lemma rev_in (s : list Z) i c : nth_error (rev s) i = Some c -> In c s.
Proof. intros H. apply in_rev. eapply nth_error_In. exact H. Qed.
Lemma same_place k d p : k * d = 64 -> 1 <= k -> 0 <= p -> d * (p / 64) + p mod 64 / k = p / k /\ p mod 64 mod k = p mod k /\ p mod 64 / k < d.
Proof.
  intros KD Hk Hp. pose proof (Z.div_mod p 64 ltac:(lia)) as D. pose proof (Z.mod_pos_bound p 64 ltac:(lia)) as M.
  pose proof (Z.div_mod (p mod 64) k ltac:(lia)) as D2. pose proof (Z.mod_pos_bound (p mod 64) k ltac:(lia)) as M2.
  assert (E : p = k * (d * (p / 64) + p mod 64 / k) + p mod 64 mod k) by nia.
  split; [apply Z.div_unique with (p mod 64 mod k); [left; lia|exact E]|]. split; [apply Z.mod_unique with (d * (p / 64) + p mod 64 / k); [left; lia|exact E]|]. apply Z.div_lt_upper_bound; nia.
Qed.

(** ** binary *)
Lemma wide_bin_exact n sg pre size base s : 65 <= n < 2 ^ 31 -> prefix_ok pre size -> among "bB" base -> Forall (among "01xXzZ") s ->
  (exists l, logic_of_str (n - 1) 0 sg (literal pre size base s) = Ok l /\ forall p, 0 <= p < n -> sym_at l p = text_sym 1 s p) <->
  (forall i c, nth_error (rev s) i = Some c -> (among "xz" c -> Z.of_nat i / 64 < words_in n -> Z.of_nat i mod 64 < 32) /\ (among "XZ" c -> n <= Z.of_nat i)).
Proof.
  intros Hn P B F. assert (U : no_underscore s). { eapply Forall_impl; [|exact F]. intros c A. chars_cases A; discriminate. }
  rewrite (logic_of_str_exact (n - 1) 0 sg _ base s); [|rewrite width_n; lia|apply (literal_parts _ _ _ 1); [exact P|left; auto]].
  unfold logic_read. cbn zeta. rewrite width_n by lia. replace (n <=? 64) with false by lia.
  assert (Mb : member "bB" base = true) by (apply member_among; exact B). assert (PW : per_word base = 64) by (chars_cases B; reflexivity).
  assert (EM : forall j, 0 <= j -> (mask_readable base (piece base s j) = true <-> forall i c, nth_error (rev s) i = Some c -> among "xz" c -> Z.of_nat i / 64 = j -> Z.of_nat i mod 64 < 32)).
  { intros j Hj. unfold mask_readable. rewrite Mb, none_from. rewrite piece_places by exact U. rewrite PW. split.
    - intros H i c Ei A Q. pose proof (Z.div_mod (Z.of_nat i) 64 ltac:(lia)) as D. pose proof (Z.mod_pos_bound (Z.of_nat i) 64 ltac:(lia)) as M. specialize (H (Z.to_nat (Z.of_nat i mod 64)) c).
      rewrite cut_nth in H. replace (Z.to_nat (Z.of_nat i mod 64) <? Z.to_nat 64)%nat with true in H by (symmetry; apply Nat.ltb_lt; lia).
      replace (Z.to_nat (j * 64) + Z.to_nat (Z.of_nat i mod 64))%nat with i in H by lia. specialize (H Ei A). lia.
    - intros H i c Ei A. rewrite cut_nth in Ei. destruct (Nat.ltb_spec i (Z.to_nat 64)) as [G|G]; [|discriminate Ei]. specialize (H _ c Ei A).
      assert (D1 : Z.of_nat (Z.to_nat (j * 64) + i) / 64 = j) by (symmetry; apply Z.div_unique with (Z.of_nat i); lia).
      assert (D2 : Z.of_nat (Z.to_nat (j * 64) + i) mod 64 = Z.of_nat i) by (symmetry; apply Z.mod_unique with j; lia). specialize (H D1). lia. }
  assert (BV : forall l p, l = mkLogic (object (n - 1) 0 sg (wide_number number base s n)) (object (n - 1) 0 false (wide_number mask base s n)) -> 0 <= p < n ->
     sym_at l p = match nth_error (rev s) (Z.to_nat p) with Some c => sym_of (member "1z" c) (member "xz" c) | None => S0 end).
  { intros l p E Hp. destruct (same_place 1 64 p eq_refl ltac:(lia) ltac:(lia)) as (E1 & E2 & E3).
    rewrite (wide_sym n sg base 1 bin_worth (unknown_worth "xz" 1) s p l); try assumption; try lia.
    - rewrite PW, E1, E2. replace (p mod 64 / 1 <? 64) with true by lia. rewrite Z.div_1_r, Z.mod_1_r. destruct (nth_error _ _) as [c|]; [|reflexivity]. unfold bin_worth, unknown_worth. destruct (member "1z" c), (member "xz" c); reflexivity.
    - intros t. unfold number. now rewrite Mb.
    - intros t. unfold mask. now rewrite Mb.
    - intros c _. unfold bin_worth. destruct (member "1z" c); lia.
    - intros c _. unfold unknown_worth. destruct (member "xz" c); lia. }
  assert (TS : forall p, text_sym 1 s p = match nth_error (rev s) (Z.to_nat p) with Some c => digit_sym c 0 | None => S0 end).
  { intros p. rewrite text_sym_plain by exact U. rewrite Z.div_1_r, Z.mod_1_r. reflexivity. }
  split.
  - intros (l & E & Q) i c Ei. destruct (forallb _ _) eqn:MR; [|discriminate E]. inversion E as [E']. clear E. symmetry in E'. split.
    + intros A J. rewrite forallb_forall in MR. assert (0 <= Z.of_nat i / 64) by (apply Z.div_pos; lia). specialize (MR (Z.of_nat i / 64) ltac:(apply in_zrange; lia)). rewrite EM in MR by lia. exact (MR i c Ei A eq_refl).
    + intros A. destruct (Z.lt_ge_cases (Z.of_nat i) n) as [G | G]; [exfalso|exact G]. specialize (Q (Z.of_nat i) ltac:(lia)). rewrite (BV l) in Q by (auto; lia). rewrite TS, Nat2Z.id, Ei in Q.
      chars_cases A; discriminate Q.
  - intros H. assert (MR : forallb (fun j => mask_readable base (piece base s j)) (zrange 0 (words_in n)) = true).
    { apply forallb_forall. intros j Hj. apply in_zrange in Hj. apply EM; [lia|]. intros i c Ei A Q. destruct (H i c Ei) as [H1 _]. apply H1; [exact A|lia]. }
    rewrite MR. eexists. split; [reflexivity|]. intros p Hp. rewrite (BV _ p eq_refl Hp), TS. destruct (nth_error (rev s) (Z.to_nat p)) as [c|] eqn:Ei; [|reflexivity].
    assert (A : among "01xXzZ" c) by (rewrite Forall_forall in F; apply F; eapply rev_in; exact Ei).
    specialize (H _ _ Ei). destruct H as [_ H]. chars_cases A; try reflexivity; try (exfalso; assert (Z.of_nat (Z.to_nat p) >= n) by (apply Z.le_ge; apply H; vm_compute; tauto); lia).
Qed.

(** ** hexadecimal *)
Lemma always_readable base s n : among "oOhH" base -> forallb (fun j => mask_readable base (piece base s j)) (zrange 0 (words_in n)) = true.
Proof.
  intros B. apply forallb_forall. intros j _. pose proof (piece_len base s j) as L. pose proof (places_len (piece base s j)) as L2. unfold len in *.
  assert (M : exists m, (per_word base <= Z.of_nat m) /\ mask_readable base (piece base s j) = negb (existsb (member "xXzZ") (skipn m (places (piece base s j))))).
  { chars_cases B; ((exists 22%nat; split; [vm_compute; discriminate|reflexivity]) || (exists 16%nat; split; [vm_compute; discriminate|reflexivity])). }
  destruct M as (m & Hm & ->). rewrite skipn_none; [reflexivity|lia].
Qed.
Lemma hex_parts c : among "0123456789ABCDEFabcdefxXzZ" c -> 0 <= hex_worth c < 2 ^ 4 /\ 0 <= unknown_worth "xXzZ" 4 c < 2 ^ 4 /\
  (among "abcdef" c -> sym_of (Z.testbit (hex_worth c) 1) (Z.testbit (unknown_worth "xXzZ" 4 c) 1) <> digit_sym c 1 /\ sym_of (Z.testbit (hex_worth c) 0) (Z.testbit (unknown_worth "xXzZ" 4 c) 0) = digit_sym c 0) /\
  (~ among "abcdef" c -> forall j, 0 <= j < 4 -> sym_of (Z.testbit (hex_worth c) j) (Z.testbit (unknown_worth "xXzZ" 4 c) j) = digit_sym c j).
Proof.
  intros A. chars_cases A; (split; [vm_compute; split; congruence|]; split; [vm_compute; split; congruence|]; split; intros X;
    [first [split; [discriminate|reflexivity]|exfalso; chars_cases X; discriminate X]|
     first [exfalso; apply X; vm_compute; tauto|intros j Hj; assert (J : j = 0 \/ j = 1 \/ j = 2 \/ j = 3) by lia; destruct J as [-> | [-> | [-> | ->]]]; reflexivity]]).
Qed.
Lemma wide_hex_exact n sg pre size base s : 65 <= n < 2 ^ 31 -> prefix_ok pre size -> among "hH" base -> Forall (among "0123456789ABCDEFabcdefxXzZ") s ->
  (exists l, logic_of_str (n - 1) 0 sg (literal pre size base s) = Ok l /\ forall p, 0 <= p < n -> sym_at l p = text_sym 4 s p) <->
  (forall i c, nth_error (rev s) i = Some c -> among "abcdef" c -> n <= 4 * Z.of_nat i + 1).
Proof.
  intros Hn P B F. assert (U : no_underscore s). { eapply Forall_impl; [|exact F]. intros c A. chars_cases A; discriminate. }
  rewrite (logic_of_str_exact (n - 1) 0 sg _ base s); [|rewrite width_n; lia|apply (literal_parts _ _ _ 4); [exact P|right; right; auto]].
  unfold logic_read. cbn zeta. rewrite width_n by lia. replace (n <=? 64) with false by lia. rewrite always_readable by (chars_cases B; vm_compute; tauto).
  rewrite Forall_forall in F.
  assert (PW : per_word base = 16) by (chars_cases B; reflexivity).
  assert (BV : forall l p, l = mkLogic (object (n - 1) 0 sg (wide_number number base s n)) (object (n - 1) 0 false (wide_number mask base s n)) -> 0 <= p < n ->
     sym_at l p = match nth_error (rev s) (Z.to_nat (p / 4)) with Some c => sym_of (Z.testbit (hex_worth c) (p mod 4)) (Z.testbit (unknown_worth "xXzZ" 4 c) (p mod 4)) | None => S0 end).
  { intros l p E Hp. destruct (same_place 4 16 p eq_refl ltac:(lia) ltac:(lia)) as (E1 & E2 & E3).
    rewrite (wide_sym n sg base 4 hex_worth (unknown_worth "xXzZ" 4) s p l); try assumption; try lia.
    - rewrite PW, E1, E2. replace (p mod 64 / 4 <? 16) with true by lia. reflexivity.
    - intros t. chars_cases B; reflexivity.
    - intros t. chars_cases B; reflexivity.
    - intros c Hc. apply hex_parts. now apply F.
    - intros c Hc. apply hex_parts. now apply F. }
  split.
  - intros (l & E & Q) i c Ei A. inversion E as [E']. clear E. symmetry in E'. destruct (Z.lt_ge_cases (4 * Z.of_nat i + 1) n) as [G | G]; [exfalso|exact G].
    specialize (Q (4 * Z.of_nat i + 1) ltac:(lia)). rewrite (BV l), text_sym_plain in Q by (auto; lia).
    replace ((4 * Z.of_nat i + 1) / 4) with (Z.of_nat i) in Q by (apply Z.div_unique with 1; lia). replace ((4 * Z.of_nat i + 1) mod 4) with 1 in Q by (apply Z.mod_unique with (Z.of_nat i); lia).
    rewrite Nat2Z.id, Ei in Q. destruct (hex_parts c) as (_ & _ & V & _); [apply F; eapply rev_in; exact Ei|]. destruct (V A) as [V1 _]. exact (V1 Q).
  - intros H. eexists. split; [reflexivity|]. intros p Hp. rewrite (BV _ p eq_refl Hp), text_sym_plain by exact U. destruct (nth_error (rev s) (Z.to_nat (p / 4))) as [c|] eqn:Ei; [|reflexivity].
    assert (Hm : 0 <= p mod 4 < 4) by (apply Z.mod_pos_bound; lia). assert (Hd : 0 <= p / 4) by (apply Z.div_pos; lia). pose proof (Z.div_mod p 4 ltac:(lia)) as DM.
    destruct (hex_parts c) as (_ & _ & V1 & V2); [apply F; eapply rev_in; exact Ei|]. destruct (member "abcdef" c) eqn:M.
    + apply member_among in M. specialize (H _ _ Ei M). rewrite Z2Nat.id in H by exact Hd. replace (p mod 4) with 0 by lia. apply V1. exact M.
    + apply V2; [|exact Hm]. intros A. apply member_among in A. rewrite A in M. discriminate M.
Qed.

(** ** octal *)
Lemma oct_parts c : among "01234567xXzZ" c -> 0 <= oct_worth c < 2 ^ 3 /\ 0 <= unknown_worth "xXzZ" 3 c < 2 ^ 3 /\
  forall j, 0 <= j < 3 -> sym_of (Z.testbit (oct_worth c) j) (Z.testbit (unknown_worth "xXzZ" 3 c) j) = digit_sym c j.
Proof.
  intros A. chars_cases A; (split; [vm_compute; split; congruence|]; split; [vm_compute; split; congruence|];
    intros j Hj; assert (J : j = 0 \/ j = 1 \/ j = 2) by lia; destruct J as [-> | [-> | ->]]; reflexivity).
Qed.
Lemma wide_oct_exact n sg pre size base s : 65 <= n < 2 ^ 31 -> prefix_ok pre size -> among "oO" base -> Forall (among "01234567xXzZ") s ->
  (exists l, logic_of_str (n - 1) 0 sg (literal pre size base s) = Ok l /\ forall p, 0 <= p < n -> sym_at l p = text_sym 3 s p) <->
  (forall p, 63 <= p < n -> text_sym 3 s p = S0).
Proof.
  intros Hn P B F. assert (U : no_underscore s). { eapply Forall_impl; [|exact F]. intros c A. chars_cases A; discriminate. }
  rewrite (logic_of_str_exact (n - 1) 0 sg _ base s); [|rewrite width_n; lia|apply (literal_parts _ _ _ 3); [exact P|right; left; auto]].
  unfold logic_read. cbn zeta. rewrite width_n by lia. replace (n <=? 64) with false by lia. rewrite always_readable by (chars_cases B; vm_compute; tauto).
  rewrite Forall_forall in F.
  assert (PW : per_word base = 21) by (chars_cases B; reflexivity).
  assert (BV : forall l p, l = mkLogic (object (n - 1) 0 sg (wide_number number base s n)) (object (n - 1) 0 false (wide_number mask base s n)) -> 0 <= p < n ->
     sym_at l p = if p mod 64 =? 63 then S0 else text_sym 3 s (p - p / 64)).
  { intros l p E Hp. rewrite (wide_sym n sg base 3 oct_worth (unknown_worth "xXzZ" 3) s p l); try assumption; try lia.
    - rewrite PW, text_sym_plain by exact U. destruct (wide_position n p ltac:(lia) Hp) as (D & _ & M). assert (J : 0 <= p / 64) by (apply Z.div_pos; lia).
      pose proof (Z.div_mod (p mod 64) 3 ltac:(lia)) as D2. pose proof (Z.mod_pos_bound (p mod 64) 3 ltac:(lia)) as M2. destruct (Z.eqb_spec (p mod 64) 63) as [R|R].
      + rewrite R. reflexivity.
      + replace (p mod 64 / 3 <? 21) with true by lia.
        assert (E2 : p - p / 64 = 3 * (21 * (p / 64) + p mod 64 / 3) + p mod 64 mod 3) by lia.
        replace ((p - p / 64) / 3) with (21 * (p / 64) + p mod 64 / 3) by (apply Z.div_unique with (p mod 64 mod 3); lia).
        replace ((p - p / 64) mod 3) with (p mod 64 mod 3) by (apply Z.mod_unique with (21 * (p / 64) + p mod 64 / 3); lia).
        destruct (nth_error _ _) as [c|] eqn:Ei; [|reflexivity]. apply oct_parts; [apply F; eapply rev_in; exact Ei|exact M2].
    - intros t. chars_cases B; reflexivity.
    - intros t. chars_cases B; reflexivity.
    - intros c Hc. apply oct_parts. now apply F.
    - intros c Hc. apply oct_parts. now apply F. }
  split.
  - intros (l & E & Q). inversion E as [E']. clear E. symmetry in E'. intros p. 
    assert (X : forall m, 0 <= m -> forall p, 63 <= p < 63 + m -> p < n -> text_sym 3 s p = S0).
    { clear p. intros m Hm. pattern m. apply natlike_ind; [intros; lia| |exact Hm]. clear m Hm. intros m Hm IH p Hp Hpn. rewrite <- (Q p) by lia. rewrite (BV l p E') by lia.
      destruct (wide_position n p ltac:(lia) ltac:(lia)) as (D & _ & M). destruct (Z.eqb_spec (p mod 64) 63); [reflexivity|]. apply IH; lia. }
    intros Hp. apply (X (p - 62)); lia.
  - intros H. eexists. split; [reflexivity|]. intros p Hp. rewrite (BV _ p eq_refl Hp). destruct (wide_position n p ltac:(lia) ltac:(lia)) as (D & _ & M).
    destruct (Z.lt_ge_cases p 63) as [G|G]; [rewrite Z.div_small, Z.mod_small by lia; replace (p =? 63) with false by lia; f_equal; lia|]. rewrite (H p) by lia.
    destruct (Z.eqb_spec (p mod 64) 63); [reflexivity|]. apply H. lia.
Qed.

(** ** decimal *)
Lemma digits_clean s : Forall (among "0123456789_") s -> filter (member "0123456789") s = clean s.
Proof. intros H. induction H as [|c s A H IH]; [reflexivity|]. unfold clean in *. cbn [filter]. rewrite IH. chars_cases A; reflexivity. Qed.
Lemma clean_clean s : clean (clean s) = clean s.
Proof. unfold clean. induction s as [|c s IH]; [reflexivity|]. cbn [filter]. destruct (negb (c =? 95)) eqn:E; [|exact IH]. cbn [filter]. now rewrite E, IH. Qed.
Lemma in_words_none f k : forall a, (forall i, a <= i -> f i = 0) -> in_words f a k = 0.
Proof. induction k as [|k IH]; intros a H; [reflexivity|]. cbn [in_words]. rewrite IH by (intros i Hi; apply H; lia). rewrite H by lia. lia. Qed.
Lemma wide_dec_exact n sg pre size base s : 65 <= n < 2 ^ 31 -> prefix_ok pre size -> among "dD" base -> Forall (among "0123456789_") s -> len s <= 64 ->
  (exists b, bit_of_str (n - 1) 0 sg (literal pre size base s) = Ok b /\ num b = numeral_value 10 s mod 2 ^ n) <-> numeral_value 10 s mod 2 ^ n < 2 ^ 64.
Proof.
  intros Hn P B F L. rewrite (bit_of_str_exact (n - 1) 0 sg _ base s); [|rewrite width_n; lia|apply Based; [exact P|chars_cases B; intros X; chars_cases X; discriminate X]].
  unfold bit_read. cbn zeta. rewrite width_n by lia. replace (n <=? 64) with false by lia.
  assert (PW : per_word base = 64) by (chars_cases B; reflexivity).
  assert (E : wide_number number base s n = numeral_value 10 s mod 2 ^ 64).
  { unfold wide_number. assert (Wn : 1 <= words_in n) by (unfold words_in; pose proof (Z.div_le_mono 64 (n + 63) 64); change (64 / 64) with 1 in *; lia).
    destruct (Z.to_nat (words_in n)) as [|m] eqn:Em; [lia|]. cbn [in_words]. rewrite in_words_none.
    - rewrite Z.mul_0_r, Z.add_0_r. unfold piece. rewrite PW. cbn [skipn Z.mul Z.to_nat]. rewrite firstn_all2 by (rewrite rev_length; unfold len in L; lia). rewrite rev_involutive.
      replace (number base s) with (numeral_value 10 (filter (member "0123456789") s) mod 2 ^ 64) by (chars_cases B; reflexivity). unfold numeral_value. rewrite digits_clean by exact F. now rewrite clean_clean.
    - intros i Hi. rewrite piece_nil by (rewrite ?PW; lia). apply number_nil. }
  rewrite E. assert (N : num (object (n - 1) 0 sg (numeral_value 10 s mod 2 ^ 64)) = numeral_value 10 s mod 2 ^ 64).
  { rewrite object_num by (rewrite width_n; lia). rewrite width_n by lia. pose proof (Z.mod_pos_bound (numeral_value 10 s) (2 ^ 64) ltac:(lia)). apply Z.mod_small. pose proof (Z.pow_lt_mono_r 2 64 n ltac:(lia) ltac:(lia) ltac:(lia)). lia. }
  split.
  - intros (b & Eb & Q). apply (f_equal (fun o => match o with Ok a => num a | _ => 0 end)) in Eb. cbv beta iota in Eb. rewrite N in Eb. rewrite <- Q, <- Eb. apply Z.mod_pos_bound. lia.
  - intros H. eexists. split; [reflexivity|]. rewrite N. symmetry. pose proof (Z.mod_pos_bound (numeral_value 10 s) (2 ^ n) ltac:(lia)) as M. rewrite <- (Z.mod_small (numeral_value 10 s mod 2 ^ n) (2 ^ 64)) by lia. apply mod_mod_pow2. lia.
Qed.

(** ** the same for 2-state vectors and numbers *)
Lemma stacked_none k w cs : (forall c, In c cs -> w c = 0) -> stacked k w cs = 0.
Proof. induction cs as [|c cs IH]; intros H; [reflexivity|]. cbn [stacked]. rewrite (H c) by (now left). rewrite IH by (intros x Hx; apply H; now right). reflexivity. Qed.
Lemma both_kinds n sg t base k s : 65 <= n < 2 ^ 31 -> 1 <= k -> parts t base s -> among "oOhH" base -> plain_digits k s -> (forall c, In c s -> member "xXzZ" c = false) ->
  (exists b, bit_of_str (n - 1) 0 sg t = Ok b /\ num b = numeral_value (2 ^ k) s mod 2 ^ n) <->
  (exists l, logic_of_str (n - 1) 0 sg t = Ok l /\ forall p, 0 <= p < n -> sym_at l p = text_sym k s p).
Proof.
  intros Hn Hk P B D X. destruct (numeral_bits k s Hk D) as [_ NB].
  rewrite (logic_of_str_exact (n - 1) 0 sg _ base s); [|rewrite width_n; lia|exact P]. rewrite (bit_of_str_exact (n - 1) 0 sg _ base s); [|rewrite width_n; lia|exact P].
  unfold logic_read, bit_read. cbn zeta. rewrite width_n by lia. replace (n <=? 64) with false by lia. rewrite always_readable by exact B.
  assert (M : wide_number mask base s n = 0).
  { unfold wide_number. apply in_words_none. intros i _. assert (E : exists k', mask base (piece base s i) = stacked k' (unknown_worth "xXzZ" k') (places (piece base s i)) mod 2 ^ 64) by (chars_cases B; ((exists 3; reflexivity) || (exists 4; reflexivity))).
    destruct E as [k' ->]. rewrite stacked_none; [reflexivity|]. intros c Hc. unfold unknown_worth. rewrite X; [reflexivity|]. unfold places in Hc. apply in_rev in Hc. apply filter_In in Hc. eapply piece_in. exact (proj1 Hc). }
  rewrite M. set (z := wide_number number base s n).
  assert (Q : num (object (n - 1) 0 sg z) = numeral_value (2 ^ k) s mod 2 ^ n <-> forall p, 0 <= p < n -> sym_at (mkLogic (object (n - 1) 0 sg z) (object (n - 1) 0 false 0)) p = text_sym k s p).
  { rewrite (num_bits_eq _ (numeral_value (2 ^ k) s) n (object_bw n sg z ltac:(lia)) ltac:(lia)).
    assert (Y : forall p, 0 <= p < n -> (bit_at (object (n - 1) 0 sg z) p = Z.testbit (numeral_value (2 ^ k) s) p <-> sym_at (mkLogic (object (n - 1) 0 sg z) (object (n - 1) 0 false 0)) p = text_sym k s p)).
    { intros p Hp. unfold sym_at. cbn [l_val l_xz]. rewrite (wide_object_bit n false 0), Z.bits_0, NB by lia. destruct (bit_at _ _), (Z.testbit (numeral_value (2 ^ k) s) p); cbn; split; congruence. }
    split; intros H p Hp; [apply (proj1 (Y p Hp)); exact (H p Hp)|apply (proj2 (Y p Hp)); exact (H p Hp)]. }
  split.
  - intros (b & E & N). eexists. split; [reflexivity|]. apply Q. apply (f_equal (fun o => match o with Ok a => num a | _ => 0 end)) in E. cbv beta iota in E. rewrite E. exact N.
  - intros (l & E & N). eexists. split; [reflexivity|]. apply Q. intros p Hp. rewrite <- (N p Hp). apply (f_equal (fun o => match o with Ok a => sym_at a p | _ => S0 end)) in E. exact E.
Qed.
Lemma wide_hex_number n sg pre size base s : 65 <= n < 2 ^ 31 -> prefix_ok pre size -> among "hH" base -> Forall (among "0123456789ABCDEFabcdef") s ->
  (exists b, bit_of_str (n - 1) 0 sg (literal pre size base s) = Ok b /\ num b = numeral_value 16 s mod 2 ^ n) <->
  (forall i c, nth_error (rev s) i = Some c -> among "abcdef" c -> n <= 4 * Z.of_nat i + 1).
Proof.
  intros Hn P B F. rewrite <- (wide_hex_exact n sg pre size base s); try assumption; [|eapply Forall_impl; [|exact F]; intros c A; chars_cases A; vm_compute; tauto].
  change 16 with (2 ^ 4). apply (both_kinds n sg _ base 4); [exact Hn|lia|apply (literal_parts _ _ _ 4); [exact P|right; right; auto]|chars_cases B; vm_compute; tauto| |].
  - apply hex_ok. eapply Forall_impl; [|exact F]. intros c A. chars_cases A; vm_compute; tauto.
  - intros c Hc. rewrite Forall_forall in F. specialize (F c Hc). chars_cases F; reflexivity.
Qed.
Lemma wide_oct_number n sg pre size base s : 65 <= n < 2 ^ 31 -> prefix_ok pre size -> among "oO" base -> Forall (among "01234567") s ->
  (exists b, bit_of_str (n - 1) 0 sg (literal pre size base s) = Ok b /\ num b = numeral_value 8 s mod 2 ^ n) <-> numeral_value 8 s mod 2 ^ n < 2 ^ 63.
Proof.
  intros Hn P B F. assert (D : plain_digits 3 s). { apply oct_ok. eapply Forall_impl; [|exact F]. intros c A. chars_cases A; vm_compute; tauto. }
  change (numeral_value 8 s) with (numeral_value (2 ^ 3) s). rewrite (both_kinds n sg _ base 3 s); [|exact Hn|lia|apply (literal_parts _ _ _ 3); [exact P|right; left; auto]|chars_cases B; vm_compute; tauto|exact D|].
  2:{ intros c Hc. rewrite Forall_forall in F. specialize (F c Hc). chars_cases F; reflexivity. }
  rewrite (wide_oct_exact n sg pre size base s); try assumption; [|eapply Forall_impl; [|exact F]; intros c A; chars_cases A; vm_compute; tauto].
  destruct (numeral_bits 3 s ltac:(lia) D) as [_ NB]. set (z := numeral_value (2 ^ 3) s) in *. pose proof (Z.mod_pos_bound z (2 ^ n) ltac:(lia)) as R. split.
  - intros H. destruct (Z.lt_ge_cases (z mod 2 ^ n) (2 ^ 63)) as [|G]; [assumption|exfalso]. assert (L : 63 <= Z.log2 (z mod 2 ^ n)) by (apply Z.log2_le_pow2; lia). assert (L2 : Z.log2 (z mod 2 ^ n) < n) by (apply Z.log2_lt_pow2; lia).
    specialize (H (Z.log2 (z mod 2 ^ n)) ltac:(lia)). rewrite NB in H by lia. pose proof (Z.bit_log2 (z mod 2 ^ n) ltac:(lia)) as T. rewrite testbit_mod_pow2 in T by lia. apply andb_prop in T. destruct T as [_ T]. rewrite T in H. discriminate H.
  - intros H p Hp. rewrite NB by lia. replace (Z.testbit z p) with false; [reflexivity|]. assert (T : Z.testbit (z mod 2 ^ n) p = false) by (apply (testbit_small _ 63); lia). rewrite testbit_mod_pow2 in T by lia. replace (p <? n) with true in T by lia. symmetry. exact T.
Qed.
