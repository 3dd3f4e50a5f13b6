(** Lemmas about parsing. *)
From Coq Require Import ZArith List Bool Lia String.
From Verif Require Import Cpp BigNum Bit Logic Util Spec SpecText ZBits Words BigNumProofs BitProofs BitExt BitMain4.
Import ListNotations.
Open Scope Z_scope.
Lemma ofold_app {A B} (f : B -> A -> outcome B) l1 l2 x : ofold f (l1 ++ l2) x = (let! y := ofold f l1 x in ofold f l2 y).
Proof. revert x. induction l1 as [|a l1 IH]; intros x; [reflexivity|]. cbn [app ofold]. destruct (f x a); cbn [bind]; auto. Qed.

(** * digit loops *)
Definition gstep (t : ity) (cond : Z -> bool) (D : Z -> Z) (k : Z) (st : Z * Z) (c : Z) : outcome (Z * Z) :=
  let '(idx, result) := st in
  let! r := (if cond c then let! m := c_shl t (D c) (idx * k) in Ok (Z.lor result m) else Ok result) in
  Ok (if c =? 95 then idx else idx + 1, r).

(** digit [p / k] of the cleaned reversed text *)
Definition dbit (cond : Z -> bool) (D : Z -> Z) (k : Z) (r : list Z) (p : Z) : bool :=
  match nth_error (clean r) (Z.to_nat (p / k)) with Some c => cond c && Z.testbit (D c) (p mod k) | None => false end.

Lemma clean_app a b : clean (a ++ b) = clean a ++ clean b. Proof. apply filter_app. Qed.
Lemma clean_rev a : clean (rev a) = rev (clean a).
Proof. induction a as [|c a IH]; [reflexivity|]. cbn [rev]. rewrite clean_app, IH. cbn [clean filter]. destruct (negb (c =? 95)); cbn [rev]; [reflexivity|]. now rewrite app_nil_r. Qed.
Lemma clean_len a : (List.length (clean a) <= List.length a)%nat.
Proof. induction a as [|c a IH]; cbn [clean filter List.length]; [lia|]. unfold clean in *. destruct (negb (c =? 95)); cbn [List.length]; lia. Qed.

Lemma c_shl_val t z i : (t = TU64 \/ t = TU32) -> 0 <= i < iwidth t -> c_shl t z i = Ok (Z.shiftl z i mod 2 ^ iwidth t).
Proof. intros [-> | ->] H; unfold c_shl; cbn [promote iwidth] in *; rewrite (proj2 (andb_true_iff _ _)) by lia; reflexivity. Qed.

Lemma gloop_spec t cond D k : (t = TU64 \/ (t = TU32 /\ k = 1)) -> 1 <= k <= 64 -> (forall c, cond c = true -> 0 <= D c < 2 ^ k) -> (cond 95 = true -> D 95 = 0) ->
  forall r, (forall r1 c r2, r = r1 ++ c :: r2 -> cond c = true -> len (clean r1) * k < iwidth t) ->
  exists R, ofold (gstep t cond D k) r (0, 0) = Ok (len (clean r), R) /\ 0 <= R < 2 ^ 64 /\ forall p, 0 <= p < 64 -> Z.testbit R p = dbit cond D k r p.
Proof.
  intros Ht Hk HD H95 r. assert (Wt : iwidth t <= 64) by (destruct Ht as [-> | [-> _]]; cbn; lia). assert (Ht' : t = TU64 \/ t = TU32) by tauto.
  induction r as [|c r IH] using rev_ind; intros U.
  - exists 0. split; [reflexivity|]. split; [cbn; lia|]. intros p Hp. rewrite Z.bits_0. unfold dbit. cbn [clean filter]. destruct (Z.to_nat (p / k)); reflexivity.
  - destruct IH as (R & E & RR & B). { intros r1 d r2 -> Hd. apply (U r1 d (r2 ++ [c])); [|exact Hd]. now rewrite <- app_assoc. }
    rewrite ofold_app, E. cbn [bind ofold gstep]. specialize (U r c [] eq_refl). set (L := len (clean r)) in *.
    assert (L0 : 0 <= L) by (unfold L, len; lia).
    assert (NE : forall q, (Z.to_nat q = List.length (clean r) -> 0 <= q -> q = L)) by (intros q; unfold L, len; lia).
    assert (Old : forall p, 0 <= p < 64 -> p / k < L -> dbit cond D k (r ++ [c]) p = dbit cond D k r p).
    { intros p Hp Hq. unfold dbit. rewrite clean_app, nth_error_app1; [reflexivity|]. unfold L, len in Hq. assert (0 <= p / k) by (apply Z.div_pos; lia). lia. }
    destruct (Z.eqb_spec c 95) as [->|N95].
    + (* underscore *)
      assert (Cr : clean (r ++ [95]) = clean r). { rewrite clean_app. cbn. now rewrite app_nil_r. }
      assert (Db : forall p, dbit cond D k (r ++ [95]) p = dbit cond D k r p) by (intros p; unfold dbit; now rewrite Cr).
      destruct (cond 95) eqn:C.
      * rewrite (c_shl_val t (D 95) (L * k) Ht') by (split; [nia|]; exact (U eq_refl)). rewrite (H95 eq_refl), Z.shiftl_0_l, Z.mod_0_l by (pose proof (Z.pow_pos_nonneg 2 (iwidth t)); destruct Ht' as [-> | ->]; cbn; lia).
        cbn [bind]. rewrite Z.lor_0_r. exists R. rewrite Cr. split; [reflexivity|]. split; [exact RR|]. intros p Hp. rewrite Db. auto.
      * cbn [bind]. exists R. rewrite Cr. split; [reflexivity|]. split; [exact RR|]. intros p Hp. rewrite Db. auto.
    + assert (Cr : clean (r ++ [c]) = clean r ++ [c]). { rewrite clean_app. cbn [clean filter]. rewrite (proj2 (Z.eqb_neq c 95) N95). reflexivity. }
      assert (Lr : len (clean (r ++ [c])) = L + 1). { rewrite Cr. unfold len, L. rewrite app_length. unfold len. cbn [List.length]. lia. }
      assert (New : forall p, 0 <= p < 64 -> L <= p / k -> dbit cond D k (r ++ [c]) p = (p / k =? L) && (cond c && Z.testbit (D c) (p mod k))).
      { intros p Hp Hq. unfold dbit. rewrite Cr. destruct (Z.eqb_spec (p / k) L) as [Q|Q].
        - rewrite nth_error_app2 by (unfold L, len in Q; lia). replace (Z.to_nat (p / k) - List.length (clean r))%nat with 0%nat by (unfold L, len in Q; lia). reflexivity.
        - assert (nth_error (clean r ++ [c]) (Z.to_nat (p / k)) = None) as ->; [|reflexivity]. apply nth_error_None. rewrite app_length. cbn [List.length]. unfold L, len in Q, Hq. lia. }
      assert (Zero : forall p, 0 <= p < 64 -> L <= p / k -> dbit cond D k r p = false).
      { intros p Hp Hq. unfold dbit. assert (nth_error (clean r) (Z.to_nat (p / k)) = None) as ->; [|reflexivity]. apply nth_error_None. unfold L, len in Hq. lia. }
      rewrite Lr. destruct (cond c) eqn:C.
      * specialize (U eq_refl). rewrite (c_shl_val t (D c) (L * k) Ht') by (split; [nia|exact U]). cbn [bind].
        assert (P : 0 < 2 ^ iwidth t) by (apply Z.pow_pos_nonneg; destruct Ht' as [-> | ->]; cbn; lia).
        set (M := Z.shiftl (D c) (L * k) mod 2 ^ iwidth t). exists (Z.lor R M). split; [reflexivity|].
        assert (RM : 0 <= M < 2 ^ 64). { unfold M. pose proof (Z.mod_pos_bound (Z.shiftl (D c) (L * k)) (2 ^ iwidth t) P). assert (2 ^ iwidth t <= 2 ^ 64) by (apply Z.pow_le_mono_r; lia). lia. }
        split. { apply (lor_range R M 64); lia. }
        intros p Hp. rewrite Z.lor_spec, B by exact Hp.
        assert (TM : Z.testbit M p = (p <? iwidth t) && ((L * k <=? p) && Z.testbit (D c) (p - L * k))).
        { unfold M. rewrite testbit_mod_pow2 by lia. rewrite Z.shiftl_spec by lia. destruct (Z.leb_spec (L * k) p); cbn [andb]; [reflexivity|]. rewrite (Z.testbit_neg_r _ (p - L * k)) by lia. now rewrite andb_false_r. }
        rewrite TM. clear TM. destruct (Z.leb_spec (L * k) p) as [G|G].
        -- assert (Hq : L <= p / k) by (apply Z.div_le_lower_bound; lia). rewrite Zero, New by auto. cbn [orb andb]. destruct (Z.eqb_spec (p / k) L) as [Q|Q]; cbn [andb].
           ++ assert (Em : p mod k = p - L * k). { rewrite Z.mod_eq by lia. rewrite Q. ring. } rewrite Em. destruct (Z.ltb_spec p (iwidth t)); cbn [andb]; [reflexivity|].
              destruct Ht as [-> | [-> ->]]; cbn [iwidth] in *; [lia|]. rewrite Z.div_1_r in Q. lia.
           ++ assert (L * k + k <= p). { pose proof (Z.mul_div_le p k). nia. } rewrite (testbit_small (D c) k) by (auto; lia). apply andb_false_r.
        -- rewrite andb_false_r. rewrite orb_false_r. symmetry. apply Old; [exact Hp|]. apply Z.div_lt_upper_bound; lia.
      * cbn [bind]. exists R. split; [reflexivity|]. split; [exact RR|]. intros p Hp. rewrite B by exact Hp. destruct (Z.leb_spec L (p / k)) as [Hq|Hq].
        -- rewrite Zero, New by auto. cbn [andb]. now rewrite andb_false_r.
        -- symmetry. now apply Old.
Qed.

(** * symbols of a text *)
Lemma sym_split s : sym_of (sym_val s) (unknown s) = s. Proof. now destruct s. Qed.

Lemma text_bits (f : sym -> bool) cond D k s : f S0 = false -> 1 <= k -> Forall (fun c => forall j, 0 <= j < k -> cond c && Z.testbit (D c) j = f (digit_sym c j)) (clean s) ->
  forall p, 0 <= p -> dbit cond D k (rev s) p = f (text_sym k s p).
Proof.
  intros F0 Hk H p Hp. unfold dbit, text_sym. rewrite clean_rev. destruct (nth_error (rev (clean s)) (Z.to_nat (p / k))) as [c|] eqn:E; [|now rewrite F0].
  apply nth_error_In, in_rev in E. rewrite Forall_forall in H. apply H; [exact E|]. apply Z.mod_pos_bound. lia.
Qed.

Lemma among_iff s c : among s c <-> is_one_of c s = true.
Proof.
  unfold among, is_one_of. rewrite existsb_exists. split.
  - intros H. exists c. split; [exact H|apply Z.eqb_refl].
  - intros (x & H & E). apply Z.eqb_eq in E. now subst.
Qed.
(** case analysis on the characters of a literal set *)
Ltac chars_cases H := unfold among in H; cbn [chars In] in H; repeat (destruct H as [H|H]; [try subst; try (vm_compute in H)|]); try contradiction.

Lemma clean_forall P s : Forall P s -> Forall (fun c => P c /\ c <> 95) (clean s).
Proof. intros H. apply Forall_forall. intros c Hc. unfold clean in Hc. apply filter_In in Hc. destruct Hc as [Hc N]. rewrite Forall_forall in H. split; [auto|]. intros ->. discriminate N. Qed.

Lemma clean_cons_len d t : len (clean (d :: t)) = (if d =? 95 then 0 else 1) + len (clean t).
Proof. unfold len. cbn [clean filter]. destruct (d =? 95); cbn [negb]; [reflexivity|]. cbn [List.length]. unfold clean. lia. Qed.
Lemma clean_app_len a b : len (clean (a ++ b)) = len (clean a) + len (clean b).
Proof. unfold len. rewrite clean_app, app_length. lia. Qed.
Lemma clean_rev_len a : len (clean (rev a)) = len (clean a).
Proof. unfold len. now rewrite clean_rev, rev_length. Qed.
Lemma len_nonneg s : 0 <= len s. Proof. unfold len. lia. Qed.
Lemma fits_split k s r1 c r2 : 1 <= k -> fits k s -> rev s = r1 ++ c :: r2 -> len (clean r1) * k < 64.
Proof.
  intros Hk [F H] E. assert (Es : s = rev r2 ++ c :: rev r1). { rewrite <- (rev_involutive s), E, rev_app_distr. cbn [rev]. now rewrite <- app_assoc. }
  assert (G : len (clean r1) + 1 <= len (clean s)).
  { subst s. rewrite clean_app_len, clean_cons_len, (clean_rev_len r1). pose proof (len_nonneg (clean (rev r2))). destruct (Z.eqb_spec c 95) as [->|N]; [|lia].
    destruct (rev r2) as [|d t]; [now elim H|]. cbn [app hd] in H. rewrite clean_cons_len in *. rewrite (proj2 (Z.eqb_neq d 95) H) in *. pose proof (len_nonneg (clean t)). lia. }
  nia.
Qed.

Lemma bits2 j : 0 <= j < 1 -> j = 0. Proof. lia. Qed.
Lemma bits3 j : 0 <= j < 3 -> j = 0 \/ j = 1 \/ j = 2. Proof. lia. Qed.
Lemma bits4 j : 0 <= j < 4 -> j = 0 \/ j = 1 \/ j = 2 \/ j = 3. Proof. lia. Qed.

Lemma raw_text base k s : pow2_base base k -> digits_ok k s -> fits k s ->
  exists R, parse_raw_ s base = Ok R /\ 0 <= R < 2 ^ 64 /\ forall p, 0 <= p < 64 -> Z.testbit R p = sym_val (text_sym k s p).
Proof.
  intros B DG F. destruct B as [[B ->]|[[B ->]|[B ->]]].
  - destruct (gloop_spec TU64 (fun c => is_one_of c "1z") (fun _ => 1) 1) with (r := rev s) as (R & E & RR & Q); auto; try lia.
    { discriminate. } { intros r1 c r2 Er _. apply (fits_split 1 s r1 c r2); auto; lia. }
    exists R. split; [|split; [exact RR|]].
    + unfold parse_raw_. assert (is_one_of base "dD" = false /\ is_one_of base "bB" = true) as [-> ->] by (split; [chars_cases B; reflexivity|now apply among_iff]).
      erewrite ofold_ext; [unfold omap; rewrite E; reflexivity|]. intros [i x] c. unfold parse_bin_step, gstep. now rewrite Z.mul_1_r.
    + intros p Hp. rewrite Q by exact Hp. apply (text_bits sym_val); [reflexivity|lia| |lia]. apply clean_forall in DG. eapply Forall_impl; [|exact DG].
      intros c [H N] j Hj. apply bits2 in Hj. subst j. cbn in H. chars_cases H; reflexivity.
  - destruct (gloop_spec TU64 (fun c => is_one_of c "01234567xXzZ_") oct_digit 3) with (r := rev s) as (R & E & RR & Q); auto; try lia.
    { intros c H. apply among_iff in H. chars_cases H; vm_compute; split; (discriminate || reflexivity). } { intros r1 c r2 Er _. apply (fits_split 3 s r1 c r2); auto; lia. }
    exists R. split; [|split; [exact RR|]].
    + unfold parse_raw_. assert (is_one_of base "dD" = false /\ is_one_of base "bB" = false /\ is_one_of base "oO" = true) as (-> & -> & ->) by (split; [chars_cases B; reflexivity|split; [chars_cases B; reflexivity|now apply among_iff]]).
      assert (G : forall l x, Forall (among "01234567xXzZ_") l -> ofold (parse_pow2_step oct_digit 3) l x = ofold (gstep TU64 (fun c => is_one_of c "01234567xXzZ_") oct_digit 3) l x).
      { induction l as [|c l IH]; intros x Hl; [reflexivity|]. inversion Hl; subst. cbn [ofold]. assert (parse_pow2_step oct_digit 3 x c = gstep TU64 (fun c => is_one_of c "01234567xXzZ_") oct_digit 3 x c) as ->.
        { destruct x as [i y]. unfold parse_pow2_step, gstep. rewrite (proj1 (among_iff _ c)) by assumption. destruct (c_shl _ _ _); reflexivity. }
        destruct (gstep _ _ _ _ _ _); cbn [bind]; auto. }
      rewrite G by (apply Forall_rev; exact DG). unfold omap; rewrite E; reflexivity.
    + intros p Hp. rewrite Q by exact Hp. apply (text_bits sym_val); [reflexivity|lia| |lia]. apply clean_forall in DG. eapply Forall_impl; [|exact DG].
      intros c [H N] j Hj. cbn in H. apply bits3 in Hj. chars_cases H; try (now elim N); destruct Hj as [-> | [-> | ->]]; reflexivity.
  - destruct (gloop_spec TU64 (fun c => is_one_of c "0123456789ABCDEFxXzZ_") hex_digit 4) with (r := rev s) as (R & E & RR & Q); auto; try lia.
    { intros c H. apply among_iff in H. chars_cases H; vm_compute; split; (discriminate || reflexivity). } { intros r1 c r2 Er _. apply (fits_split 4 s r1 c r2); auto; lia. }
    exists R. split; [|split; [exact RR|]].
    + unfold parse_raw_. assert (is_one_of base "dD" = false /\ is_one_of base "bB" = false /\ is_one_of base "oO" = false /\ is_one_of base "hH" = true) as (-> & -> & -> & ->)
        by (split; [chars_cases B; reflexivity|split; [chars_cases B; reflexivity|split; [chars_cases B; reflexivity|now apply among_iff]]]).
      assert (G : forall l x, Forall (among "0123456789ABCDEFxXzZ_") l -> ofold (parse_pow2_step hex_digit 4) l x = ofold (gstep TU64 (fun c => is_one_of c "0123456789ABCDEFxXzZ_") hex_digit 4) l x).
      { induction l as [|c l IH]; intros x Hl; [reflexivity|]. inversion Hl; subst. cbn [ofold]. assert (parse_pow2_step hex_digit 4 x c = gstep TU64 (fun c => is_one_of c "0123456789ABCDEFxXzZ_") hex_digit 4 x c) as ->.
        { destruct x as [i y]. unfold parse_pow2_step, gstep. rewrite (proj1 (among_iff _ c)) by assumption. destruct (c_shl _ _ _); reflexivity. }
        destruct (gstep _ _ _ _ _ _); cbn [bind]; auto. }
      rewrite G by (apply Forall_rev; exact DG). unfold omap; rewrite E; reflexivity.
    + intros p Hp. rewrite Q by exact Hp. apply (text_bits sym_val); [reflexivity|lia| |lia]. apply clean_forall in DG. eapply Forall_impl; [|exact DG].
      intros c [H N] j Hj. cbn in H. apply bits4 in Hj. chars_cases H; try (now elim N); destruct Hj as [-> | [-> | [-> | ->]]]; reflexivity.
Qed.

Lemma xz_text base k s : pow2_base base k -> digits_ok k s -> fits k s -> (k = 1 -> forall p, 32 <= p -> unknown (text_sym 1 s p) = false) ->
  exists R, parse_xz_raw_ s base = Ok R /\ 0 <= R < 2 ^ 64 /\ forall p, 0 <= p < 64 -> Z.testbit R p = unknown (text_sym k s p).
Proof.
  intros B DG F U. destruct B as [[B ->]|[[B ->]|[B ->]]].
  - destruct (gloop_spec TU32 (fun c => is_one_of c "xz") (fun _ => 1) 1) with (r := rev s) as (R & E & RR & Q); auto; try lia.
    { discriminate. }
    { intros r1 c r2 Er Hc. cbn [iwidth]. destruct (Z.lt_ge_cases (len (clean r1)) 32) as [|G]; [lia|exfalso]. specialize (U eq_refl (len (clean r1)) G).
      unfold text_sym in U. rewrite <- clean_rev, Er, clean_app, Z.div_1_r in U. rewrite nth_error_app2 in U by (unfold len; lia).
      replace (Z.to_nat (len (clean r1)) - List.length (clean r1))%nat with 0%nat in U by (unfold len; lia).
      apply among_iff in Hc. chars_cases Hc; cbn in U; discriminate U. }
    exists R. split; [|split; [exact RR|]].
    + unfold parse_xz_raw_. assert (is_one_of base "bB" = true) as -> by (now apply among_iff).
      erewrite ofold_ext; [unfold omap; rewrite E; reflexivity|]. intros [i x] c. unfold parse_xz_bin_step, gstep. now rewrite Z.mul_1_r.
    + intros p Hp. rewrite Q by exact Hp. apply (text_bits unknown); [reflexivity|lia| |lia]. apply clean_forall in DG. eapply Forall_impl; [|exact DG].
      intros c [H N] j Hj. apply bits2 in Hj. subst j. cbn in H. chars_cases H; reflexivity.
  - destruct (gloop_spec TU64 (fun c => is_one_of c "xXzZ") (fun _ => 7) 3) with (r := rev s) as (R & E & RR & Q); auto; try lia.
    { discriminate. } { intros r1 c r2 Er _. apply (fits_split 3 s r1 c r2); auto; lia. }
    exists R. split; [|split; [exact RR|]].
    + unfold parse_xz_raw_. assert (is_one_of base "bB" = false /\ is_one_of base "oO" = true) as (-> & ->) by (split; [chars_cases B; reflexivity|now apply among_iff]).
      erewrite ofold_ext; [unfold omap; rewrite E; reflexivity|]. intros [i x] c. reflexivity.
    + intros p Hp. rewrite Q by exact Hp. apply (text_bits unknown); [reflexivity|lia| |lia]. apply clean_forall in DG. eapply Forall_impl; [|exact DG].
      intros c [H N] j Hj. cbn in H. apply bits3 in Hj. chars_cases H; try (now elim N); destruct Hj as [-> | [-> | ->]]; reflexivity.
  - destruct (gloop_spec TU64 (fun c => is_one_of c "xXzZ") (fun _ => 15) 4) with (r := rev s) as (R & E & RR & Q); auto; try lia.
    { discriminate. } { intros r1 c r2 Er _. apply (fits_split 4 s r1 c r2); auto; lia. }
    exists R. split; [|split; [exact RR|]].
    + unfold parse_xz_raw_. assert (is_one_of base "bB" = false /\ is_one_of base "oO" = false /\ is_one_of base "hH" = true) as (-> & -> & ->)
        by (split; [chars_cases B; reflexivity|split; [chars_cases B; reflexivity|now apply among_iff]]).
      erewrite ofold_ext; [unfold omap; rewrite E; reflexivity|]. intros [i x] c. reflexivity.
    + intros p Hp. rewrite Q by exact Hp. apply (text_bits unknown); [reflexivity|lia| |lia]. apply clean_forall in DG. eapply Forall_impl; [|exact DG].
      intros c [H N] j Hj. cbn in H. apply bits4 in Hj. chars_cases H; try (now elim N); destruct Hj as [-> | [-> | [-> | ->]]]; reflexivity.
Qed.

(** * the number of a text *)
Lemma numeral_app b s t : numeral_value b (s ++ t) = numeral_value b s * b ^ len (clean t) + numeral_value b t.
Proof.
  unfold numeral_value. rewrite clean_app, fold_left_app. generalize (fold_left (fun a c => a * b + digit_value c) (clean s) 0). generalize (clean t). clear. intros t.
  assert (G : forall t a, fold_left (fun a c => a * b + digit_value c) t a = a * b ^ len t + fold_left (fun a c => a * b + digit_value c) t 0).
  { clear. induction t as [|c t IH]; intros a; [cbn [fold_left]; change (len []) with 0; rewrite Z.pow_0_r; ring|]. cbn [fold_left]. rewrite IH. rewrite (IH (0 * b + digit_value c)).
    replace (len (c :: t)) with (Z.succ (len t)) by (unfold len; cbn [List.length]; lia). rewrite Z.pow_succ_r by apply len_nonneg. ring. }
  intros a. apply G.
Qed.
Lemma numeral_one b c : numeral_value b [c] = if c =? 95 then 0 else digit_value c.
Proof. unfold numeral_value. cbn [clean filter]. destruct (c =? 95); cbn [negb fold_left]; lia. Qed.

Lemma text_sym_snoc k s c p : 1 <= k -> 0 <= p -> c <> 95 -> text_sym k (s ++ [c]) p = if p <? k then digit_sym c p else text_sym k s (p - k).
Proof.
  intros Hk Hp N. unfold text_sym. rewrite clean_app. cbn [clean filter]. rewrite (proj2 (Z.eqb_neq c 95) N). cbn [negb]. rewrite rev_app_distr. cbn [rev app].
  destruct (Z.ltb_spec p k).
  - rewrite Z.div_small, Z.mod_small by lia. reflexivity.
  - assert (E1 : p / k = (p - k) / k + 1). { rewrite <- Z.div_add by lia. f_equal. lia. }
    assert (E2 : p mod k = (p - k) mod k). { replace p with ((p - k) + 1 * k) at 1 by lia. apply Z.mod_add. lia. }
    rewrite E1, E2. assert (0 <= (p - k) / k) by (apply Z.div_pos; lia).
    replace (Z.to_nat ((p - k) / k + 1)) with (S (Z.to_nat ((p - k) / k))) by lia. reflexivity.
Qed.
Lemma text_sym_skip k s p : text_sym k (s ++ [95]) p = text_sym k s p.
Proof. unfold text_sym. rewrite clean_app. cbn. now rewrite app_nil_r. Qed.

Lemma numeral_bits k s : 1 <= k -> plain_digits k s -> 0 <= numeral_value (2 ^ k) s /\ forall p, 0 <= p -> text_sym k s p = sym_of_bool (Z.testbit (numeral_value (2 ^ k) s) p).
Proof.
  intros Hk. induction s as [|c s IH] using rev_ind; intros D.
  - split; [cbn; lia|]. intros p Hp. unfold text_sym, numeral_value. cbn [clean filter rev fold_left]. rewrite Z.bits_0. destruct (Z.to_nat (p / k)); reflexivity.
  - apply Forall_app in D. destruct D as [D1 D2]. destruct (IH D1) as [N1 B1]. inversion D2 as [|? ? Dc _]; subst. rewrite numeral_app, numeral_one, clean_cons_len. change (len (clean [])) with 0.
    destruct (Z.eqb_spec c 95) as [->|N].
    + rewrite Z.pow_0_r, Z.mul_1_r, Z.add_0_r. split; [exact N1|]. intros p Hp. rewrite text_sym_skip. auto.
    + destruct Dc as [Dc|[R S]]; [contradiction|]. rewrite Z.add_0_r, Z.pow_1_r. assert (0 < 2 ^ k) by (apply Z.pow_pos_nonneg; lia). split; [nia|].
      intros p Hp. rewrite text_sym_snoc by auto.
      assert (E : numeral_value (2 ^ k) s * 2 ^ k + digit_value c = Z.lor (Z.shiftl (numeral_value (2 ^ k) s) k) (digit_value c)).
      { rewrite <- Z.shiftl_mul_pow2 by lia. rewrite <- Z.lxor_lor, Z.add_nocarry_lxor; try reflexivity;
        apply Z.bits_inj'; intros q Hq; rewrite Z.land_spec, Z.bits_0, Z.shiftl_spec by lia; destruct (Z.ltb_spec q k);
        [rewrite (Z.testbit_neg_r _ (q - k)) by lia; reflexivity | rewrite (testbit_small (digit_value c) k) by lia; apply andb_false_r
        |rewrite (Z.testbit_neg_r _ (q - k)) by lia; reflexivity | rewrite (testbit_small (digit_value c) k) by lia; apply andb_false_r]. }
      rewrite E, Z.lor_spec, Z.shiftl_spec by lia. destruct (Z.ltb_spec p k).
      * rewrite (Z.testbit_neg_r _ (p - k)) by lia. rewrite S. reflexivity.
      * rewrite (testbit_small (digit_value c) k) by lia. rewrite orb_false_r. apply B1. lia.
Qed.

(** * the prefix of a literal *)
Lemma find_first_app f a c b : Forall (fun x => f x = false) a -> f c = true -> find_first f (a ++ c :: b) = Some (len a).
Proof.
  intros Ha Hc. induction a as [|x a IH]; cbn [app find_first].
  - now rewrite Hc.
  - inversion Ha; subst. rewrite H1, IH by assumption. cbn [option_map]. f_equal. unfold len. cbn [List.length]. lia.
Qed.
Lemma skipn_len {A} (a b : list A) n : n = List.length a -> skipn n (a ++ b) = b.
Proof. intros ->. induction a; [reflexivity|]. assumption. Qed.
Lemma nth_len {A} (a b : list A) c d n : n = List.length a -> nth n (a ++ c :: b) d = c.
Proof. intros ->. induction a; [reflexivity|]. assumption. Qed.
Lemma digit_among c : among "0123456789" c -> is_digit c = true.
Proof. intros H. chars_cases H; reflexivity. Qed.
Lemma input_base pre size base s : prefix_ok pre size -> is_digit base = false ->
  let '(b, p) := get_input_base (literal pre size base s) in b = base /\ substr_from (literal pre size base s) p = s.
Proof.
  intros [H1 H2] Hb. unfold get_input_base, literal. rewrite find_first_app.
  - unfold substr_from at 1 2.
    assert (E : skipn (Z.to_nat (len pre + 1)) (pre ++ 39 :: size ++ base :: s) = size ++ base :: s).
    { change (pre ++ 39 :: size ++ base :: s) with (pre ++ [39] ++ (size ++ base :: s)). rewrite app_assoc. apply skipn_len. rewrite app_length. cbn [List.length]. unfold len. lia. }
    unfold substr_from. rewrite E. rewrite find_first_app.
    + unfold char_at. split; [apply nth_len; unfold len; lia|].
      change (pre ++ 39 :: size ++ base :: s) with (pre ++ [39] ++ (size ++ base :: s)). change (size ++ base :: s) with (size ++ [base] ++ s). rewrite !app_assoc. apply skipn_len.
      rewrite !app_length. cbn [List.length]. unfold len. lia.
    + eapply Forall_impl; [|exact H2]. intros c Hc. now rewrite digit_among.
    + now rewrite Hb.
  - apply Forall_forall. intros c Hc. apply Z.eqb_neq. intros <-. contradiction.
  - reflexivity.
Qed.
Lemma pow2_base_nd base k : pow2_base base k -> is_digit base = false.
Proof. intros [[B _]|[[B _]|[B _]]]; chars_cases B; reflexivity. Qed.
Lemma raw_literal pre size base s : prefix_ok pre size -> is_digit base = false -> parse_raw_str (literal pre size base s) = parse_raw_ s base.
Proof. intros P N. pose proof (input_base pre size base s P N) as H. unfold parse_raw_str. destruct (get_input_base _) as [b p]. destruct H as [-> ->]. reflexivity. Qed.
Lemma xz_literal pre size base s : prefix_ok pre size -> is_digit base = false -> parse_xz_raw_str (literal pre size base s) = parse_xz_raw_ s base.
Proof. intros P N. pose proof (input_base pre size base s P N) as H. unfold parse_xz_raw_str. destruct (get_input_base _) as [b p]. destruct H as [-> ->]. reflexivity. Qed.
Lemma big_literal one pre size base s n : prefix_ok pre size -> is_digit base = false ->
  parse_big one (literal pre size base s) n = parse_words (fun t => one t base) s (64 / get_stride base) (Z.to_nat (nwords n)) (slen s) (slen s) 0 (bn_zero n).
Proof. intros P N. pose proof (input_base pre size base s P N) as H. unfold parse_big. destruct (get_input_base _) as [b p]. destruct H as [-> ->]. reflexivity. Qed.

(** * native vectors *)
Lemma nat_typed n s R : 1 <= n <= 64 -> typed (mkBit (n - 1) 0 s (HN (conv (hty n s) R))) n s.
Proof. intros H. pose proof (typed_nat n s R H) as Q. unfold nat_bit in Q. replace (width (n - 1) 0) with n in Q by (unfold width; lia). exact Q. Qed.
Lemma nat_bits n s R p : 1 <= n <= 64 -> (n = 1 -> 0 <= R < 2) -> 0 <= p < n -> bit_at (mkBit (n - 1) 0 s (HN (conv (hty n s) R))) p = Z.testbit R p.
Proof.
  intros Hn H1 Hp. pose proof (nat_typed n s R Hn) as T. assert (H : 1 <= n) by lia. rewrite bit_at_stored by (rewrite (typed_bw _ _ _ H T); exact Hp). unfold stored. cbn [bval].
  destruct (Z.eq_dec n 1) as [->|N].
  - specialize (H1 eq_refl). assert (p = 0) as -> by lia. assert (R = 0 \/ R = 1) as [-> | ->] by lia; reflexivity.
  - apply conv_testbit; [apply hty_nb; lia|]. pose proof (hty_width n s Hn). lia.
Qed.
Lemma nat_tidy n R : 1 <= n <= 64 -> 0 <= R < 2 ^ n -> tidy (mkBit (n - 1) 0 false (HN (conv (hty n false) R))).
Proof.
  intros Hn H. unfold tidy. cbn [bval bsgn andb]. assert (W : bw (mkBit (n - 1) 0 false (HN (conv (hty n false) R))) = n) by (unfold bw, width; cbn; lia). rewrite W.
  destruct (Z.eq_dec n 1) as [->|N].
  - assert (R = 0 \/ R = 1) as [-> | ->] by lia; cbn; lia.
  - pose proof (hty_width n false Hn). assert (2 ^ n <= 2 ^ iwidth (hty n false)) by (apply Z.pow_le_mono_r; lia).
    assert (conv (hty n false) R = R) as ->; [|lia]. apply conv_id. assert (isigned (hty n false) = false) by (apply hty_signed; lia).
    unfold in_ity. rewrite H2. lia.
Qed.
Lemma lt_pow2_bits R n : 0 <= n -> 0 <= R -> (forall p, n <= p -> Z.testbit R p = false) -> R < 2 ^ n.
Proof.
  intros Hn H B. replace R with (R mod 2 ^ n). { apply Z.mod_pos_bound. apply Z.pow_pos_nonneg; lia. }
  apply Z.bits_inj'. intros p Hp. rewrite testbit_mod_pow2 by lia. destruct (Z.ltb_spec p n); [reflexivity|]. rewrite B by lia. reflexivity.
Qed.
Lemma text_bound k s p : 1 <= k -> 0 <= p -> k * len (clean s) <= p -> text_sym k s p = S0.
Proof.
  intros Hk H0 Hp. unfold text_sym. assert (len (clean s) <= p / k) by (apply Z.div_le_lower_bound; lia).
  assert (nth_error (rev (clean s)) (Z.to_nat (p / k)) = None) as ->; [|reflexivity]. apply nth_error_None. rewrite rev_length. unfold len in H. lia.
Qed.
Lemma base_k base k : pow2_base base k -> 1 <= k <= 4. Proof. intros [[_ ->]|[[_ ->]|[_ ->]]]; lia. Qed.
Lemma bit_text n sg pre size base k s : 1 <= n <= 64 -> prefix_ok pre size -> pow2_base base k -> digits_ok k s -> fits k s -> narrow_ok n k s ->
  exists b, bit_of_str (n - 1) 0 sg (literal pre size base s) = Ok b /\ typed b n sg /\ (forall p, 0 <= p < n -> bit_at b p = sym_val (text_sym k s p)) /\
    (sg = false -> k * len (clean s) <= n -> tidy b).
Proof.
  intros Hn P B D F N. destruct (raw_text base k s B D F) as (R & E & RR & Q). pose proof (base_k base k B) as Hk. unfold bit_of_str. replace (vsize (n - 1) 0) with n by (unfold vsize; lia). unfold native_num. rewrite (proj2 (Z.leb_le n 64)) by lia.
  rewrite raw_literal by (auto; eapply pow2_base_nd; eassumption). rewrite E. cbn [bind]. eexists. split; [reflexivity|]. split; [apply nat_typed; lia|].
  assert (HB : forall m, 0 <= m <= 64 -> (forall p, m <= p -> text_sym k s p = S0) -> R < 2 ^ m).
  { intros m Hm Z0. apply lt_pow2_bits; [lia|lia|]. intros p Hp. destruct (Z.lt_ge_cases p 64); [|apply (testbit_small R 64); lia]. rewrite Q, Z0 by lia. reflexivity. }
  split.
  - intros p Hp. rewrite nat_bits; [apply Q; lia|lia| |exact Hp]. intros E1. split; [lia|]. apply (HB 1); [lia|]. now apply N.
  - intros -> L. apply nat_tidy; [lia|]. split; [lia|]. apply HB; [lia|]. intros p Hp. pose proof (len_nonneg (clean s)). apply text_bound; lia.
Qed.
Lemma logic_text n sg pre size base k s : 1 <= n <= 64 -> prefix_ok pre size -> pow2_base base k -> digits_ok k s -> fits k s -> narrow_ok n k s ->
  (k = 1 -> forall p, 32 <= p -> unknown (text_sym 1 s p) = false) ->
  exists l, logic_of_str (n - 1) 0 sg (literal pre size base s) = Ok l /\ ltyped l n sg /\ (forall p, 0 <= p < n -> sym_at l p = text_sym k s p) /\
    (sg = false -> k * len (clean s) <= n -> ltidy l).
Proof.
  intros Hn P B D F N U. destruct (xz_text base k s B D F U) as (X & EX & RX & QX).
  destruct (bit_text n sg pre size base k s) as (b & Eb & Tb & Bb & Yb); auto. pose proof (base_k base k B) as Hk. unfold bit_of_str in Eb. unfold logic_of_str.
  replace (vsize (n - 1) 0) with n in * by (unfold vsize; lia). unfold native_num in *. rewrite (proj2 (Z.leb_le n 64)) in * by lia.
  destruct (parse_raw_str (literal pre size base s)) as [x| | | |]; cbn [bind] in *; try discriminate. inversion Eb as [E']. clear Eb.
  rewrite xz_literal by (auto; eapply pow2_base_nd; eassumption). rewrite EX. cbn [bind]. eexists. split; [reflexivity|].
  assert (HB : forall m, 0 <= m <= 64 -> (forall p, m <= p -> text_sym k s p = S0) -> X < 2 ^ m).
  { intros m Hm Z0. apply lt_pow2_bits; [lia|lia|]. intros p Hp. destruct (Z.lt_ge_cases p 64); [|apply (testbit_small X 64); lia]. rewrite QX, Z0 by lia. reflexivity. }
  split; [split; [rewrite E'; exact Tb|apply (nat_typed n false); lia]|]. split.
  - intros p Hp. unfold sym_at. cbn [l_val l_xz]. rewrite E', Bb by exact Hp. rewrite nat_bits; [rewrite QX by lia; apply sym_split|lia| |exact Hp]. intros E1. split; [lia|]. apply (HB 1); [lia|]. now apply N.
  - intros S0' L. split; cbn [l_val l_xz]; [rewrite E'; auto|]. apply nat_tidy; [lia|]. split; [lia|]. apply HB; [lia|]. intros p Hp. pose proof (len_nonneg (clean s)). apply text_bound; lia.
Qed.

(** * decimal *)
Lemma u64_congr a b : u64 a = u64 b -> forall m c, u64 (a * m + c) = u64 (b * m + c).
Proof. unfold u64. intros H m c. rewrite <- (Z.add_mod_idemp_l (a * m)), <- (Z.add_mod_idemp_l (b * m)) by lia. rewrite <- (Z.mul_mod_idemp_l a), <- (Z.mul_mod_idemp_l b) by lia. now rewrite H. Qed.
Lemma numeral_cons b c s : numeral_value b (c :: s) = (if c =? 95 then 0 else digit_value c) * b ^ len (clean s) + numeral_value b s.
Proof. change (c :: s) with ([c] ++ s). now rewrite numeral_app, numeral_one. Qed.
Lemma dec_loop s : Forall (among "0123456789_") s ->
  fold_left parse_dec_step (rev s) (1, 0) = (u64 (10 ^ len (clean s)), u64 (numeral_value 10 s)).
Proof.
  induction s as [|c s IH]; intros H; [reflexivity|]. inversion H as [|? ? Hc Hs]; subst. cbn [rev]. rewrite fold_left_app, IH by assumption. cbn [fold_left]. unfold parse_dec_step.
  rewrite clean_cons_len, numeral_cons. destruct (Z.eqb_spec c 95) as [->|N].
  - change (is_digit 95) with false. cbn iota. rewrite Z.mul_0_l, !Z.add_0_l. reflexivity.
  - assert (D : is_digit c = true /\ c - 48 = digit_value c) by (chars_cases Hc; try (now elim N); split; reflexivity). destruct D as [-> ->].
    rewrite (Z.add_comm 1), Z.pow_add_r, Z.pow_1_r by (pose proof (len_nonneg (clean s)); lia). unfold u64. f_equal.
    + now rewrite Z.mul_mod_idemp_l by lia.
    + rewrite Z.mul_mod_idemp_r by lia. rewrite <- Z.add_mod by lia. f_equal. ring.
Qed.
Lemma raw_dec base s : among "dD" base -> Forall (among "0123456789_") s -> parse_raw_ s base = Ok (numeral_value 10 s mod 2 ^ 64).
Proof. intros B H. unfold parse_raw_. rewrite (proj1 (among_iff _ _) B). rewrite dec_loop by exact H. reflexivity. Qed.
Lemma xz_dec base s : among "dD" base -> parse_xz_raw_ s base = Ok 0.
Proof. intros B. chars_cases B; reflexivity. Qed.
Lemma dec_nd base : among "dD" base -> is_digit base = false. Proof. intros B. chars_cases B; reflexivity. Qed.
Lemma digit_nonneg c : 0 <= digit_value c.
Proof.
  unfold digit_value. destruct (Z.leb_spec 48 c); destruct (Z.leb_spec c 57); destruct (Z.leb_spec 65 c); destruct (Z.leb_spec c 70); destruct (Z.leb_spec 97 c); destruct (Z.leb_spec c 102); cbn [andb]; lia.
Qed.
Lemma numeral_nonneg b s : 0 <= b -> 0 <= numeral_value b s.
Proof.
  intros Hb. induction s as [|c s IH]; [cbn; lia|]. rewrite numeral_cons. pose proof (digit_nonneg c).
  assert (0 <= b ^ len (clean s)) by (apply Z.pow_nonneg; lia). destruct (c =? 95); [lia|]. assert (0 <= digit_value c * b ^ len (clean s)) by (now apply Z.mul_nonneg_nonneg). lia.
Qed.
Lemma bit_dec n sg pre size base s : 1 <= n <= 64 -> prefix_ok pre size -> among "dD" base -> Forall (among "0123456789_") s -> (n = 1 -> numeral_value 10 s < 2) ->
  exists b, bit_of_str (n - 1) 0 sg (literal pre size base s) = Ok b /\ typed b n sg /\ num b = numeral_value 10 s mod 2 ^ n /\ (sg = false -> numeral_value 10 s < 2 ^ n -> tidy b).
Proof.
  intros Hn P B D N. unfold bit_of_str. replace (vsize (n - 1) 0) with n by (unfold vsize; lia). unfold native_num. rewrite (proj2 (Z.leb_le n 64)) by lia.
  rewrite raw_literal by (auto using dec_nd). rewrite (raw_dec base s B D). cbn [bind]. set (V := numeral_value 10 s) in *. pose proof (numeral_nonneg 10 s ltac:(lia)) as V0. fold V in V0.
  set (R := V mod 2 ^ 64). eexists. split; [reflexivity|]. pose proof (nat_typed n sg R Hn) as T. split; [exact T|]. assert (Hn1 : 1 <= n) by lia. assert (P64 : 0 < 2 ^ 64) by (apply Z.pow_pos_nonneg; lia).
  pose proof (Z.mod_pos_bound V (2 ^ 64) P64) as MR. split.
  - apply Z.bits_inj'. intros p Hp. rewrite testbit_mod_pow2 by lia. destruct (Z.ltb_spec p n); cbn [andb].
    + change (Z.testbit (num ?b) p) with (bit_at b p). rewrite nat_bits.
      * unfold R. rewrite testbit_mod_pow2 by lia. replace (p <? 64) with true by lia. reflexivity.
      * lia.
      * intros E1. unfold R. rewrite Z.mod_small; [specialize (N E1); lia|]. specialize (N E1). lia.
      * lia.
    + pose proof (num_range (mkBit (n - 1) 0 sg (HN (conv (hty n sg) R)))) as NR. rewrite (typed_bw _ _ _ Hn1 T) in NR. now apply (testbit_small _ n).
  - intros -> L. apply nat_tidy; [lia|]. unfold R. assert (2 ^ n <= 2 ^ 64) by (apply Z.pow_le_mono_r; lia). rewrite Z.mod_small by lia. lia.
Qed.
Lemma logic_dec n sg pre size base s : 1 <= n <= 64 -> prefix_ok pre size -> among "dD" base -> Forall (among "0123456789_") s -> (n = 1 -> numeral_value 10 s < 2) ->
  exists l, logic_of_str (n - 1) 0 sg (literal pre size base s) = Ok l /\ ltyped l n sg /\ known l /\ num (l_val l) = numeral_value 10 s mod 2 ^ n /\ (sg = false -> numeral_value 10 s < 2 ^ n -> ltidy l).
Proof.
  intros Hn P B D N. destruct (bit_dec n sg pre size base s) as (b & Eb & Tb & Bb & Yb); auto. unfold bit_of_str in Eb. unfold logic_of_str.
  replace (vsize (n - 1) 0) with n in * by (unfold vsize; lia). unfold native_num in *. rewrite (proj2 (Z.leb_le n 64)) in * by lia.
  destruct (parse_raw_str (literal pre size base s)) as [x| | | |]; cbn [bind] in *; try discriminate. inversion Eb as [E']. clear Eb.
  rewrite xz_literal by (auto using dec_nd). rewrite xz_dec by exact B. cbn [bind]. eexists. split; [reflexivity|].
  split; [split; cbn [l_val l_xz]; [rewrite E'; exact Tb|apply (nat_typed n false); lia]|]. split; [|split].
  - intros p Hp. unfold lw in Hp. cbn [l_val] in Hp. rewrite E', (typed_bw b n sg) in Hp by (auto; lia). unfold sym_at. cbn [l_val l_xz]. rewrite (nat_bits n false 0 p) by lia. rewrite Z.bits_0. now destruct (bit_at _ _).
  - cbn [l_val]. rewrite E'. exact Bb.
  - intros S L. split; cbn [l_val l_xz]; [rewrite E'; auto|]. apply nat_tidy; [lia|]. split; [lia|]. apply Z.pow_pos_nonneg; lia.
Qed.

(** * multi-word literals *)
Definition chunk (s : list Z) (B j : Z) : list Z := rev (firstn (Z.to_nat B) (skipn (Z.to_nat (j * B)) (rev s))).
Lemma chunk_sub s B j : 1 <= B -> 0 <= j -> j * B < len s ->
  let e := len s - j * B in let b := if B <=? e then e - B else 0 in firstn (Z.to_nat (e - b)) (skipn (Z.to_nat b) s) = chunk s B j.
Proof.
  intros HB Hj H e b. unfold chunk. rewrite skipn_rev, firstn_rev, rev_involutive.
  assert (E1 : (List.length s - Z.to_nat (j * B))%nat = Z.to_nat e) by (unfold e, len in *; lia). rewrite E1. rewrite firstn_length_le by (unfold e, len in *; lia).
  rewrite skipn_firstn_comm. unfold b. destruct (Z.leb_spec B e).
  - replace (Z.to_nat e - Z.to_nat B)%nat with (Z.to_nat (e - B)) by lia. f_equal. lia.
  - replace (Z.to_nat e - Z.to_nat B)%nat with 0%nat by lia. f_equal. lia.
Qed.
Lemma words_loop one s B (P : Z -> Z -> Prop) : 1 <= B ->
  forall fuel idx ws, 0 <= idx -> (forall j, idx <= j < idx + Z.of_nat fuel -> j * B < len s -> exists R, one (chunk s B j) = Ok R /\ 0 <= R < 2 ^ 64 /\ P j R) ->
  wf ws -> idx + Z.of_nat fuel <= wlen ws ->
  exists ws', parse_words one s B fuel (Z.max 0 (len s - idx * B)) (Z.max 0 (len s - idx * B)) idx ws = Ok ws' /\ wf ws' /\ wlen ws' = wlen ws /\
    forall j, 0 <= j -> if (idx <=? j) && (j <? idx + Z.of_nat fuel) && (j * B <? len s) then P j (word ws' j) else word ws' j = word ws j.
Proof.
  intros HB. induction fuel as [|f IH]; intros idx ws H0 H W L.
  - exists ws. split; [reflexivity|]. split; [exact W|]. split; [reflexivity|]. intros j Hj. rewrite Z.add_0_r. replace ((idx <=? j) && (j <? idx)) with false by lia. reflexivity.
  - cbn [parse_words]. destruct (Z.ltb_spec 0 (Z.max 0 (len s - idx * B))) as [G|G].
    + assert (E : Z.max 0 (len s - idx * B) = len s - idx * B) by lia. rewrite E. cbn zeta. pose proof (chunk_sub s B idx HB H0 ltac:(lia)) as C. cbn zeta in C. rewrite C.
      destruct (H idx ltac:(lia) ltac:(lia)) as (R & ER & RR & PR). rewrite ER. cbn [bind].
      destruct (IH (idx + 1) (word_set ws idx R)) as (ws' & E' & W' & L' & Q'); [lia| | | |].
      { intros j Hj. apply H. lia. } { apply word_set_wf; assumption. } { rewrite word_set_len. lia. }
      assert (E1 : (if B <? len s - idx * B then len s - idx * B - B else 0) = Z.max 0 (len s - (idx + 1) * B)) by (destruct (Z.ltb_spec B (len s - idx * B)); lia).
      assert (E2 : (if B <=? len s - idx * B then len s - idx * B - B else 0) = Z.max 0 (len s - (idx + 1) * B)) by (destruct (Z.leb_spec B (len s - idx * B)); lia).
      rewrite E1, E2. exists ws'. split; [exact E'|]. split; [exact W'|]. split; [rewrite L'; apply word_set_len|]. intros j Hj. specialize (Q' j Hj).
      destruct (Z.eq_dec j idx) as [->|N].
      * replace ((idx + 1 <=? idx) && (idx <? idx + 1 + Z.of_nat f) && (idx * B <? len s)) with false in Q' by lia. rewrite word_set_word in Q' by lia. rewrite Z.eqb_refl in Q'.
        replace ((idx <=? idx) && (idx <? idx + Z.of_nat (S f)) && (idx * B <? len s)) with true by lia. now rewrite Q'.
      * rewrite word_set_word in Q' by lia. rewrite (proj2 (Z.eqb_neq j idx) N) in Q'.
        replace ((idx <=? j) && (j <? idx + Z.of_nat (S f)) && (j * B <? len s)) with ((idx + 1 <=? j) && (j <? idx + 1 + Z.of_nat f) && (j * B <? len s)) by lia. exact Q'.
    + exists ws. split; [reflexivity|]. split; [exact W|]. split; [reflexivity|]. intros j Hj. replace ((idx <=? j) && (j <? idx + Z.of_nat (S f)) && (j * B <? len s)) with false; [reflexivity|].
      destruct (Z.leb_spec idx j); [|reflexivity]. replace (j * B <? len s) with false by nia. now rewrite andb_false_r.
Qed.

(** a text without underscores is cut into words without loss when the digits divide 64 *)
Lemma clean_id s : no_underscore s -> clean s = s.
Proof. induction 1 as [|c s H _ IH]; [reflexivity|]. cbn [clean filter]. rewrite (proj2 (Z.eqb_neq c 95) H). cbn [negb]. f_equal. exact IH. Qed.
Lemma chunk_incl s B j c : In c (chunk s B j) -> In c s.
Proof.
  unfold chunk. rewrite <- in_rev. intros H. apply in_rev. rewrite <- (firstn_skipn (Z.to_nat (j * B)) (rev s)). apply in_or_app. right.
  rewrite <- (firstn_skipn (Z.to_nat B) (skipn _ _)). apply in_or_app. now left.
Qed.
Lemma chunk_forall P s B j : Forall P s -> Forall P (chunk s B j).
Proof. rewrite !Forall_forall. intros H c Hc. apply H. eapply chunk_incl. exact Hc. Qed.
Lemma chunk_sym k s B j q : 1 <= k -> B * k = 64 -> no_underscore s -> 0 <= j -> 0 <= q < 64 -> text_sym k (chunk s B j) q = text_sym k s (64 * j + q).
Proof.
  intros Hk HB N Hj Hq. assert (0 < B) by nia. unfold text_sym. rewrite (clean_id s N), (clean_id (chunk s B j)) by (apply chunk_forall; exact N). unfold chunk. rewrite rev_involutive.
  assert (E1 : (64 * j + q) / k = j * B + q / k). { rewrite <- HB. replace (B * k * j + q) with (q + (j * B) * k) by ring. rewrite Z.div_add by lia. lia. }
  assert (E2 : (64 * j + q) mod k = q mod k). { rewrite <- HB. replace (B * k * j + q) with (q + (j * B) * k) by ring. apply Z.mod_add. lia. }
  rewrite E1, E2. assert (0 <= q / k < B). { split; [apply Z.div_pos; lia|]. apply Z.div_lt_upper_bound; nia. }
  assert (G : forall (l : list Z) n m i, (i < n)%nat -> nth_error (firstn n (skipn m l)) i = nth_error l (m + i)).
  { clear. intros l n m i Hi. revert l i n Hi. induction m as [|m IH]; intros l i n Hi.
    - rewrite skipn_O. cbn [Nat.add]. revert l i Hi. induction n as [|n IHn]; intros l i Hi; [lia|]. destruct l as [|x l]; [destruct i; reflexivity|]. destruct i as [|i]; [reflexivity|]. cbn. apply IHn. lia.
    - destruct l as [|x l]; [rewrite skipn_nil, firstn_nil; destruct i; reflexivity|]. cbn [skipn Nat.add nth_error]. apply IH. exact Hi. }
  rewrite G by lia. replace (Z.to_nat (j * B) + Z.to_nat (q / k))%nat with (Z.to_nat (j * B + q / k)) by nia. reflexivity.
Qed.
Lemma chunk_len s B j : 0 <= B -> len (chunk s B j) <= B.
Proof. intros H. unfold chunk, len. rewrite rev_length, firstn_length. lia. Qed.
Lemma chunk_fits k s B j : 1 <= k -> B * k <= 64 + k - 1 -> 0 <= B -> no_underscore s -> fits k (chunk s B j).
Proof.
  intros Hk HB B0 N. assert (N' : no_underscore (chunk s B j)) by (apply chunk_forall; exact N). split.
  - rewrite clean_id by exact N'. pose proof (chunk_len s B j B0). nia.
  - unfold no_underscore in N'. destruct (chunk s B j); cbn [hd]; [lia|]. now inversion N'.
Qed.
Lemma stride_pow2 base k : pow2_base base k -> get_stride base = k.
Proof. intros [[B ->]|[[B ->]|[B ->]]]; chars_cases B; reflexivity. Qed.

Lemma big_words one f n pre size base k s : 65 <= n < 2 ^ 31 -> prefix_ok pre size -> pow2_base base k -> k <> 3 -> no_underscore s -> f S0 = false ->
  (forall j, 0 <= j < nwords n -> j * (64 / k) < len s -> exists R, one (chunk s (64 / k) j) base = Ok R /\ 0 <= R < 2 ^ 64 /\ forall q, 0 <= q < 64 -> Z.testbit R q = f (text_sym k (chunk s (64 / k) j) q)) ->
  exists ws, parse_big one (literal pre size base s) n = Ok ws /\ wfn n ws /\ forall p, 0 <= p < 64 * nwords n -> Z.testbit (words_num ws) p = f (text_sym k s p).
Proof.
  intros Hn P B K3 N F0 H. pose proof (base_k base k B) as Hk. assert (Hk' : k = 1 \/ k = 4) by (destruct B as [[_ ->]|[[_ ->]|[_ ->]]]; auto; lia).
  assert (HB : (64 / k) * k = 64) by (destruct Hk' as [-> | ->]; reflexivity). assert (HB1 : 1 <= 64 / k) by (destruct Hk' as [-> | ->]; cbn; lia).
  rewrite big_literal by (auto; eapply pow2_base_nd; eassumption). rewrite (stride_pow2 base k B). pose proof (nwords_bounds n ltac:(lia)) as Nw. pose proof (bn_zero_wfn n ltac:(lia)) as [Wz Lz].
  destruct (words_loop (fun t => one t base) s (64 / k) (fun j R => forall q, 0 <= q < 64 -> Z.testbit R q = f (text_sym k (chunk s (64 / k) j) q)) HB1 (Z.to_nat (nwords n)) 0 (bn_zero n)) as (ws & E & W & L & Q); [lia| | exact Wz | lia |].
  { intros j Hj Hl. apply H; [lia|exact Hl]. }
  rewrite Z.mul_0_l, Z.sub_0_r, Z.max_r in E by apply len_nonneg. change (slen s) with (len s). exists ws. split; [exact E|]. split; [split; [exact W|lia]|].
  intros p Hp. rewrite words_num_testbit by (auto; lia). assert (Hq : 0 <= p mod 64 < 64) by (apply Z.mod_pos_bound; lia). assert (Hj : 0 <= p / 64 < nwords n) by (split; [apply Z.div_pos; lia|apply Z.div_lt_upper_bound; lia]).
  assert (Ep : text_sym k s p = text_sym k s (64 * (p / 64) + p mod 64)) by (f_equal; apply Z.div_mod; lia).
  specialize (Q (p / 64) ltac:(lia)). destruct (Z.ltb_spec (p / 64 * (64 / k)) (len s)) as [G|G].
  - replace ((0 <=? p / 64) && (p / 64 <? 0 + Z.of_nat (Z.to_nat (nwords n))) && true) with true in Q by lia. rewrite Q by exact Hq. rewrite chunk_sym by (auto; lia). now rewrite Ep.
  - rewrite andb_false_r in Q. rewrite Q. rewrite text_bound; [|lia|lia|].
    + rewrite F0. unfold bn_zero, word. rewrite nth_repeat. apply Z.bits_0.
    + rewrite clean_id by exact N. assert (k * (p / 64 * (64 / k)) = 64 * (p / 64)) by (transitivity ((64 / k * k) * (p / 64)); [ring|now rewrite HB]). pose proof (Z.mul_div_le p 64 ltac:(lia)). nia.
Qed.

