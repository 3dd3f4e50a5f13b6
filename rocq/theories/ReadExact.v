(** Which literals are read right, exactly. *)
From Coq Require Import ZArith List Bool Lia String.
From Verif Require Import Cpp BigNum Bit Logic Util Spec SpecText SpecMachine SpecWide SpecRead ZBits Words BigNumProofs BitProofs TextProofs MachineProofs WideProofs ReadProofs.
Import ListNotations.
Open Scope Z_scope.
Local Ltac Zify.zify_post_hook ::= idtac.

Lemma stacked_bit k d cs p : 1 <= k -> (forall c, In c cs -> 0 <= d c < 2 ^ k) -> 0 <= p ->
  Z.testbit (stacked k d cs) p = match nth_error cs (Z.to_nat (p / k)) with Some c => Z.testbit (d c) (p mod k) | None => false end.
Proof.
  intros Hk. revert p. induction cs as [|c cs IH]; intros p H Hp; cbn [stacked].
  - rewrite Z.bits_0. now destruct (Z.to_nat (p / k)).
  - rewrite Z.lor_spec, <- Z.shiftl_mul_pow2, Z.shiftl_spec by lia. destruct (Z.lt_ge_cases p k) as [G | G].
    + rewrite Z.div_small, Z.mod_small by lia. cbn [Z.to_nat nth_error]. rewrite (Z.testbit_neg_r _ (p - k)) by lia. apply orb_false_r.
    + rewrite (testbit_small (d c) k) by (try apply H; try (now left); lia). cbn [orb]. rewrite IH by (try lia; intros x Hx; apply H; now right).
      assert (E1 : p / k = (p - k) / k + 1). { replace p with ((p - k) + 1 * k) at 1 by lia. apply Z.div_add. lia. }
      assert (E2 : p mod k = (p - k) mod k). { replace p with ((p - k) + 1 * k) at 1 by lia. apply Z.mod_add. lia. }
      rewrite E1, E2. assert (0 <= (p - k) / k) by (apply Z.div_pos; lia).
      replace (Z.to_nat ((p - k) / k + 1)) with (S (Z.to_nat ((p - k) / k))) by lia. reflexivity.
Qed.
Lemma object_bit n sg z p : 2 <= n <= 64 -> 0 <= p < n -> bit_at (object (n - 1) 0 sg z) p = Z.testbit z p.
Proof. intros H Hp. rewrite object_small by (rewrite width_n; lia). rewrite width_n by lia. rewrite <- conv_store by lia. apply nat_bits; lia. Qed.
Lemma in_nth (cs : list Z) i c : 0 <= i -> nth_error cs (Z.to_nat i) = Some c -> In c cs.
Proof. intros _ H. eapply nth_error_In. exact H. Qed.
Lemma places_in s Q : Forall (among Q) s -> forall c, In c (places s) -> among Q c /\ c <> 95.
Proof. intros H c Hc. split; [|eapply in_places; exact Hc]. unfold places in Hc. apply in_rev in Hc. apply filter_In in Hc. rewrite Forall_forall in H. now apply H. Qed.
Lemma member_among s c : member s c = true <-> among s c.
Proof. unfold among, member. rewrite existsb_exists. split; [intros (x & Hx & E); apply Z.eqb_eq in E; now subst|intros H; exists c; split; [exact H|apply Z.eqb_refl]]. Qed.
Lemma skipn_in {A} n (l : list A) x : In x (skipn n l) <-> exists i, (n <= i)%nat /\ nth_error l i = Some x.
Proof.
  split.
  - intros H. apply In_nth_error in H. destruct H as [i H]. rewrite nth_error_skipn' in H || idtac. exists (n + i)%nat. split; [lia|]. revert l H. induction n as [|n IH]; intros l H; [exact H|]. destruct l as [|a l]; [destruct i; discriminate H|]. apply IH. exact H.
  - intros (i & Hi & E). revert i l Hi E. induction n as [|n IH]; intros i l Hi E; [eapply nth_error_In; exact E|]. destruct l as [|a l]; [destruct i; discriminate E|]. destruct i as [|i]; [lia|]. apply (IH i); [lia|exact E].
Qed.
Lemma none_from s n cs : negb (existsb (member s) (skipn n cs)) = true <-> forall i c, nth_error cs i = Some c -> among s c -> (i < n)%nat.
Proof.
  rewrite negb_true_iff. split.
  - intros H i c E A. destruct (Nat.lt_ge_cases i n) as [|G]; [assumption|exfalso]. assert (X : existsb (member s) (skipn n cs) = true); [|now rewrite H in X].
    apply existsb_exists. exists c. split; [apply skipn_in; now exists i|now apply member_among].
  - intros H. destruct (existsb _ _) eqn:X; [exfalso|reflexivity]. apply existsb_exists in X. destruct X as (c & I & M). apply skipn_in in I. destruct I as (i & Hi & E).
    specialize (H i c E (proj1 (member_among _ _) M)). lia.
Qed.
Lemma literal_parts pre size base k s : prefix_ok pre size -> pow2_base base k -> parts (literal pre size base s) base s.
Proof. intros P B. apply Based; [exact P|]. intros A. pose proof (pow2_base_nd base k B) as D. apply among_digit in A. rewrite A in D. discriminate D. Qed.

(** ** binary *)
Lemma bin_exact n sg pre size base s : 2 <= n <= 64 -> prefix_ok pre size -> among "bB" base -> Forall (among "01xXzZ_") s -> len (clean s) <= 64 ->
  (exists l, logic_of_str (n - 1) 0 sg (literal pre size base s) = Ok l /\ forall p, 0 <= p < n -> sym_at l p = text_sym 1 s p) <->
  (forall i c, nth_error (places s) i = Some c -> (among "xz" c -> Z.of_nat i < 32) /\ (among "XZ" c -> n <= Z.of_nat i)).
Proof.
  intros Hn P B F L. rewrite (logic_of_str_exact (n - 1) 0 sg _ base s); [|rewrite width_n; lia|apply (literal_parts _ _ _ 1); [exact P|left; auto]].
  unfold logic_read. cbn zeta. rewrite width_n by lia. replace (n <=? 64) with true by lia.
  assert (Mb : member "bB" base = true) by (apply member_among; exact B).
  assert (R : readable base s = true). { unfold readable. rewrite Mb. rewrite skipn_none; [reflexivity|]. unfold places. rewrite rev_length. unfold len in L. lia. }
  rewrite R. cbn [andb]. assert (EM : mask_readable base s = negb (existsb (member "xz") (skipn 32 (places s)))) by (unfold mask_readable; now rewrite Mb).
  assert (BV : forall l p, l = mkLogic (object (n - 1) 0 sg (number base s)) (object (n - 1) 0 false (mask base s)) -> 0 <= p < n ->
     sym_at l p = match nth_error (places s) (Z.to_nat p) with Some c => sym_of (member "1z" c) (member "xz" c) | None => S0 end).
  { intros l p -> Hp. unfold sym_at. cbn [l_val l_xz]. rewrite !object_bit by lia. unfold number, mask. rewrite Mb. rewrite !testbit_mod_pow2 by lia. replace (p <? 64) with true by lia. cbn [andb].
    rewrite !stacked_bit; try lia; [|intros c _; unfold unknown_worth; destruct (member "xz" c); lia|intros c _; unfold bin_worth; destruct (member "1z" c); lia]. rewrite Z.div_1_r, Z.mod_1_r.
    destruct (nth_error _ _) as [c|]; [|reflexivity]. unfold bin_worth, unknown_worth. destruct (member "1z" c), (member "xz" c); reflexivity. }
  assert (TS : forall p, text_sym 1 s p = match nth_error (places s) (Z.to_nat p) with Some c => digit_sym c 0 | None => S0 end).
  { intros p. unfold text_sym. rewrite Z.div_1_r, Z.mod_1_r. reflexivity. }
  split.
  - intros (l & E & Q) i c Ei. destruct (mask_readable base s) eqn:MR; [|discriminate E]. inversion E as [E']. clear E. symmetry in E'. split.
    + symmetry in EM. rewrite none_from in EM. intros A. specialize (EM i c Ei A). lia.
    + intros A. destruct (Z.lt_ge_cases (Z.of_nat i) n) as [G | G]; [exfalso|exact G]. specialize (Q (Z.of_nat i) ltac:(lia)). rewrite (BV l) in Q by (auto; lia). rewrite TS, Nat2Z.id, Ei in Q.
      chars_cases A; discriminate Q.
  - intros H. assert (MR : mask_readable base s = true). { rewrite EM. apply none_from. intros i c Ei A. specialize (H i c Ei). destruct H as [H _]. specialize (H A). lia. }
    rewrite MR. eexists. split; [reflexivity|]. intros p Hp. rewrite (BV _ p eq_refl Hp), TS. destruct (nth_error (places s) (Z.to_nat p)) as [c|] eqn:Ei; [|reflexivity].
    assert (A : among "01xXzZ_" c /\ c <> 95) by (apply (places_in s); [exact F|eapply nth_error_In; exact Ei]). destruct A as [A N].
    specialize (H _ _ Ei). destruct H as [_ H]. chars_cases A; try reflexivity; try (exfalso; assert (Z.of_nat (Z.to_nat p) >= n) by (apply Z.le_ge; apply H; vm_compute; tauto); lia).
Qed.

(** ** octal and hexadecimal *)
Lemma pow_number_bit k d s p : 1 <= k -> (forall c, In c (places s) -> 0 <= d c < 2 ^ k) -> 0 <= p < 64 ->
  Z.testbit (stacked k d (places s) mod 2 ^ 64) p = match nth_error (places s) (Z.to_nat (p / k)) with Some c => Z.testbit (d c) (p mod k) | None => false end.
Proof. intros Hk H Hp. rewrite testbit_mod_pow2 by lia. replace (p <? 64) with true by lia. cbn [andb]. apply stacked_bit; [lia|exact H|lia]. Qed.
Lemma num_bits_eq b z n : bw b = n -> 1 <= n -> (num b = z mod 2 ^ n <-> forall p, 0 <= p < n -> bit_at b p = Z.testbit z p).
Proof.
  intros W Hn. split.
  - intros E p Hp. unfold bit_at. rewrite E, testbit_mod_pow2 by lia. replace (p <? n) with true by lia. reflexivity.
  - intros H. unfold num in *. rewrite W in *. apply Z.bits_inj'. intros p Hp. destruct (Z.lt_ge_cases p n) as [G | G].
    + specialize (H p ltac:(lia)). unfold bit_at, num in H. rewrite W in H. rewrite H. rewrite testbit_mod_pow2 by lia. replace (p <? n) with true by lia. reflexivity.
    + rewrite !testbit_mod_pow2 by lia. replace (p <? n) with false by lia. reflexivity.
Qed.
Lemma oct_ok s : Forall (among "01234567_") s -> plain_digits 3 s /\ forall c, In c (places s) -> 0 <= oct_worth c < 2 ^ 3 /\ oct_worth c = digit_value c.
Proof.
  intros F. split.
  - eapply Forall_impl; [|exact F]. intros c A. chars_cases A; try (left; reflexivity); right; (split; [vm_compute; split; congruence|intros j; reflexivity]).
  - intros c Hc. destruct (places_in s _ F c Hc) as [A N]. chars_cases A; try (now elim N); (split; [vm_compute; split; congruence|reflexivity]).
Qed.
Lemma hex_ok s : Forall (among "0123456789ABCDEFabcdef_") s -> plain_digits 4 s /\ forall c, In c (places s) -> 0 <= hex_worth c < 2 ^ 4 /\
   (among "abcdef" c -> Z.testbit (hex_worth c) 1 <> Z.testbit (digit_value c) 1 /\ Z.testbit (hex_worth c) 0 = Z.testbit (digit_value c) 0) /\ (~ among "abcdef" c -> hex_worth c = digit_value c).
Proof.
  intros F. split.
  - eapply Forall_impl; [|exact F]. intros c A. chars_cases A; try (left; reflexivity); right; (split; [vm_compute; split; congruence|intros j; reflexivity]).
  - intros c Hc. destruct (places_in s _ F c Hc) as [A N]. chars_cases A; try (now elim N); (split; [vm_compute; split; congruence|split; intros X; [first [split; [discriminate|reflexivity]|exfalso; chars_cases X; discriminate X]|first [reflexivity|exfalso; apply X; vm_compute; tauto]]]).
Qed.
Lemma numeral_bit k s p : 1 <= k -> plain_digits k s -> 0 <= p -> (forall c, In c (places s) -> digit_sym c (p mod k) = sym_of_bool (Z.testbit (digit_value c) (p mod k))) ->
  Z.testbit (numeral_value (2 ^ k) s) p = match nth_error (places s) (Z.to_nat (p / k)) with Some c => Z.testbit (digit_value c) (p mod k) | None => false end.
Proof.
  intros Hk D Hp S. destruct (numeral_bits k s Hk D) as [_ B]. specialize (B p Hp). unfold text_sym in B. fold (places s) in B.
  destruct (nth_error (places s) (Z.to_nat (p / k))) as [c|] eqn:E.
  - rewrite S in B by (eapply nth_error_In; exact E). now destruct (Z.testbit (digit_value c) (p mod k)), (Z.testbit (numeral_value (2 ^ k) s) p).
  - now destruct (Z.testbit (numeral_value (2 ^ k) s) p).
Qed.
Lemma plain_sym Q s : Forall (among Q) s -> (forall c, among Q c -> c <> 95 -> forall j, digit_sym c j = sym_of_bool (Z.testbit (digit_value c) j)) ->
  forall c j, In c (places s) -> digit_sym c j = sym_of_bool (Z.testbit (digit_value c) j).
Proof. intros F H c j Hc. destruct (places_in s Q F c Hc) as [A N]. now apply H. Qed.

Lemma object_bw n sg z : 1 <= n -> bw (object (n - 1) 0 sg z) = n.
Proof. intros H. unfold object. cbn zeta. rewrite width_n by lia. destruct (n <=? 64); unfold bw; cbn [bmsb blsb]; apply width_n; exact H. Qed.
Lemma oct_exact n sg pre size base s : 2 <= n <= 64 -> prefix_ok pre size -> among "oO" base -> Forall (among "01234567_") s ->
  (exists b, bit_of_str (n - 1) 0 sg (literal pre size base s) = Ok b /\ num b = numeral_value 8 s mod 2 ^ n) <-> short 3 s = true.
Proof.
  intros Hn P B F. rewrite (bit_of_str_exact (n - 1) 0 sg _ base s); [|rewrite width_n; lia|apply (literal_parts _ _ _ 3); [exact P|right; left; auto]].
  unfold bit_read. cbn zeta. rewrite width_n by lia. replace (n <=? 64) with true by lia. assert (Mo : member "oO" base = true) by (apply member_among; exact B).
  assert (Mb : member "bB" base = false) by (chars_cases B; reflexivity).
  unfold readable, number. rewrite Mb, Mo. destruct (short 3 s); [|split; [intros (b & E & _); discriminate E|discriminate]].
  split; [reflexivity|]. intros _. eexists. split; [reflexivity|]. destruct (oct_ok s F) as [D W]. apply num_bits_eq; [apply object_bw; lia|lia|]. intros p Hp. rewrite object_bit by lia.
  rewrite pow_number_bit; [|lia|intros c Hc; apply W; exact Hc|lia]. change 8 with (2 ^ 3). rewrite numeral_bit; [|lia|exact D|lia|].
  - destruct (nth_error _ _) as [c|] eqn:E; [|reflexivity]. destruct (W c) as [_ ->]; [eapply nth_error_In; exact E|reflexivity].
  - intros c Hc. apply (plain_sym _ s F); [|exact Hc]. intros d A N j. chars_cases A; try (now elim N); reflexivity.
Qed.
Lemma hex_exact n sg pre size base s : 2 <= n <= 64 -> prefix_ok pre size -> among "hH" base -> Forall (among "0123456789ABCDEFabcdef_") s ->
  (exists b, bit_of_str (n - 1) 0 sg (literal pre size base s) = Ok b /\ num b = numeral_value 16 s mod 2 ^ n) <->
  short 4 s = true /\ (forall i c, nth_error (places s) i = Some c -> among "abcdef" c -> n <= 4 * Z.of_nat i + 1).
Proof.
  intros Hn P B F. rewrite (bit_of_str_exact (n - 1) 0 sg _ base s); [|rewrite width_n; lia|apply (literal_parts _ _ _ 4); [exact P|right; right; auto]].
  unfold bit_read. cbn zeta. rewrite width_n by lia. replace (n <=? 64) with true by lia. assert (Mh : member "hH" base = true) by (apply member_among; exact B).
  assert (Mb : member "bB" base = false) by (chars_cases B; reflexivity). assert (Mo : member "oO" base = false) by (chars_cases B; reflexivity).
  unfold readable, number. rewrite Mb, Mo, Mh. destruct (short 4 s); [|split; [intros (b & E & _); discriminate E|intros [E _]; discriminate E]].
  destruct (hex_ok s F) as [D W].
  assert (PS : forall c j, In c (places s) -> digit_sym c j = sym_of_bool (Z.testbit (digit_value c) j)).
  { intros c j Hc. apply (plain_sym _ s F); [|exact Hc]. intros d A N i. chars_cases A; try (now elim N); reflexivity. }
  assert (X : forall b, b = object (n - 1) 0 sg (stacked 4 hex_worth (places s) mod 2 ^ 64) -> (num b = numeral_value 16 s mod 2 ^ n <->
     forall p, 0 <= p < n -> match nth_error (places s) (Z.to_nat (p / 4)) with Some c => Z.testbit (hex_worth c) (p mod 4) = Z.testbit (digit_value c) (p mod 4) | None => True end)).
  { intros b ->. rewrite num_bits_eq; [|apply object_bw; lia|lia].
    assert (Y : forall p, 0 <= p < n -> (bit_at (object (n - 1) 0 sg (stacked 4 hex_worth (places s) mod 2 ^ 64)) p = Z.testbit (numeral_value 16 s) p <-> match nth_error (places s) (Z.to_nat (p / 4)) with Some c => Z.testbit (hex_worth c) (p mod 4) = Z.testbit (digit_value c) (p mod 4) | None => True end)).
    { intros p Hp. rewrite object_bit by lia. rewrite pow_number_bit; [|lia|intros c Hc; apply W; exact Hc|lia]. change 16 with (2 ^ 4). rewrite numeral_bit; [|lia|exact D|lia|intros c Hc; apply PS; exact Hc].
      destruct (nth_error _ _); [reflexivity|]. split; auto. }
    split; intros H p Hp; [apply (proj1 (Y p Hp)); exact (H p Hp)|apply (proj2 (Y p Hp)); exact (H p Hp)]. }
  split.
  - intros (b & E & Q). injection E as <-. pose proof (proj1 (X _ eq_refl) Q) as Q'. split; [reflexivity|]. intros i c Ei A.
    destruct (Z.lt_ge_cases (4 * Z.of_nat i + 1) n) as [G | G]; [exfalso|exact G]. clear Q. rename Q' into Q. specialize (Q (4 * Z.of_nat i + 1) ltac:(lia)).
    replace ((4 * Z.of_nat i + 1) / 4) with (Z.of_nat i) in Q by (apply Z.div_unique with 1; lia). replace ((4 * Z.of_nat i + 1) mod 4) with 1 in Q by (apply Z.mod_unique with (Z.of_nat i); lia).
    rewrite Nat2Z.id, Ei in Q. destruct (W c) as (_ & V & _); [eapply nth_error_In; exact Ei|]. destruct (V A) as [V1 _]. contradiction.
  - intros [_ H]. eexists. split; [reflexivity|]. apply (X _ eq_refl). intros p Hp. destruct (nth_error (places s) (Z.to_nat (p / 4))) as [c|] eqn:Ei; [|constructor].
    assert (Hm : 0 <= p mod 4 < 4) by (apply Z.mod_pos_bound; lia). assert (Hd : 0 <= p / 4) by (apply Z.div_pos; lia). pose proof (Z.div_mod p 4 ltac:(lia)) as DM.
    destruct (W c) as (_ & V1 & V2); [eapply nth_error_In; exact Ei|]. destruct (member "abcdef" c) eqn:M.
    + apply member_among in M. specialize (H _ _ Ei M). rewrite Z2Nat.id in H by exact Hd. replace (p mod 4) with 0 by lia. apply V1. exact M.
    + rewrite V2; [reflexivity|]. intros A. apply member_among in A. rewrite A in M. discriminate M.
Qed.
