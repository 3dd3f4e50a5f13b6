(** The constructors from text equal the reference reader of [SpecRead.v] on every text. *)
From Coq Require Import ZArith List Bool Lia Ascii String.
From Verif Require Import Cpp BigNum Bit Logic Util Spec SpecText SpecMachine SpecWide SpecRead ZBits Words BigNumProofs BitProofs TextProofs MachineProofs WideProofs.
Import ListNotations.
Open Scope Z_scope.
Local Ltac Zify.zify_post_hook ::= idtac.

(** * numbers stacked from characters *)
Lemma mod_shift_lor a b j k : 0 <= j -> 0 <= k -> (Z.lor a (b * 2 ^ k) * 2 ^ j) mod 2 ^ 64 = Z.lor ((a * 2 ^ j) mod 2 ^ 64) ((b * 2 ^ (k + j)) mod 2 ^ 64).
Proof.
  intros J K. rewrite <- !Z.land_ones, <- !Z.shiftl_mul_pow2 by lia. rewrite Z.shiftl_lor, Z.land_lor_distr_l. rewrite Z.shiftl_shiftl by lia. reflexivity.
Qed.
Lemma stacked_ext k d d' cs : (forall c, In c cs -> d c = d' c) -> stacked k d cs = stacked k d' cs.
Proof. induction cs as [|c cs IH]; intros H; [reflexivity|]. cbn [stacked]. rewrite H by (left; reflexivity). rewrite IH; [reflexivity|]. intros x Hx. apply H. now right. Qed.
Lemma clean_no s c : In c (clean s) -> c <> 95.
Proof. intros H E. apply filter_In in H. destruct H as [_ H]. subst. discriminate H. Qed.
Lemma clean_cons c s : clean (c :: s) = if c =? 95 then clean s else c :: clean s.
Proof. unfold clean. cbn [filter]. now destruct (c =? 95). Qed.
Lemma in_places s c : In c (places s) -> c <> 95.
Proof. unfold places. intros H. apply in_rev in H. now apply (clean_no s). Qed.
Lemma places_rev s : places s = clean (rev s).
Proof. unfold places. now rewrite clean_rev. Qed.

Lemma len_cons c (s : list Z) : len (c :: s) = 1 + len s.
Proof. unfold len. cbn [List.length]. lia. Qed.
Lemma skipn_neg {A} (l : list A) z : z <= 0 -> skipn (Z.to_nat z) l = l.
Proof. intros H. replace (Z.to_nat z) with O by lia. reflexivity. Qed.
Lemma skipn_pos {A} (c : A) (l : list A) z : 0 < z -> skipn (Z.to_nat z) (c :: l) = skipn (Z.to_nat (z - 1)) l.
Proof. intros H. replace (Z.to_nat z) with (S (Z.to_nat (z - 1))) by lia. reflexivity. Qed.

(** loops that shift only chosen characters *)
Lemma cond_loop t cond D k W N : (t = TU64 \/ t = TU32) -> iwidth t = W -> W <= 64 -> 1 <= k -> (forall q, 0 <= q -> (q * k < W <-> q < N)) -> cond 95 = false ->
  (forall c q, cond c = true -> 0 <= q -> q * k < W -> (D c * 2 ^ (q * k)) mod 2 ^ W = (D c * 2 ^ (q * k)) mod 2 ^ 64) ->
  forall L i r, 0 <= i -> ofold (gstep t cond D k) L (i, r) =
    if existsb cond (skipn (Z.to_nat (N - i)) (clean L)) then UB
    else Ok (i + len (clean L), Z.lor r ((stacked k (fun c => if cond c then D c else 0) (clean L) * 2 ^ (k * i)) mod 2 ^ 64)).
Proof.
  intros Ht HW W64 Hk HN' C95 HD. induction L as [|c L IH]; intros i r Hi.
  - cbn [ofold clean filter]. rewrite skipn_nil. cbn [existsb stacked]. unfold len. cbn [List.length]. rewrite Z.add_0_r, Z.mul_0_l, Z.mod_0_l, Z.lor_0_r by lia. reflexivity.
  - cbn [ofold]. unfold gstep at 1. rewrite clean_cons. destruct (Z.eqb_spec c 95) as [-> | N95].
    + rewrite C95. cbn [bind]. apply IH. exact Hi.
    + destruct (cond c) eqn:Cc.
      * destruct (Z.lt_ge_cases (i * k) W) as [G | G].
        -- rewrite (c_shl_val t (D c) (i * k) Ht) by (rewrite HW; nia). cbn [bind]. rewrite IH by lia. rewrite HW.
           rewrite Z.shiftl_mul_pow2 by nia. rewrite HD by assumption. assert (i < N) by (apply HN'; assumption).
           rewrite (skipn_pos c (clean L) (N - i)) by lia. replace (N - i - 1) with (N - (i + 1)) by lia.
           destruct (existsb cond _); [reflexivity|]. f_equal. rewrite len_cons. f_equal; [lia|]. cbn [stacked]. rewrite Cc.
           rewrite mod_shift_lor by nia. rewrite Z.lor_assoc. replace (k + k * i) with (k * (i + 1)) by ring. replace (i * k) with (k * i) by ring. reflexivity.
        -- assert (N <= i). { destruct (Z.lt_ge_cases i N) as [A | A]; [apply HN' in A; lia|exact A]. }
           rewrite (skipn_neg (c :: clean L) (N - i)) by lia. cbn [existsb]. rewrite Cc. cbn [orb].
           assert (U : c_shl t (D c) (i * k) = UB). { unfold c_shl. destruct Ht as [-> | ->]; cbn [promote iwidth] in *; replace (i * k <? _) with false by lia; rewrite andb_false_r; reflexivity. }
           rewrite U. reflexivity.
      * cbn [bind]. rewrite IH by lia. destruct (Z.lt_ge_cases i N) as [G | G].
        -- rewrite (skipn_pos c (clean L) (N - i)) by lia. replace (N - i - 1) with (N - (i + 1)) by lia.
           destruct (existsb cond _); [reflexivity|]. f_equal. rewrite len_cons. f_equal; [lia|]. cbn [stacked]. rewrite Cc.
           rewrite mod_shift_lor by nia. rewrite Z.mul_0_l, Z.mod_0_l, Z.lor_0_l by lia. replace (k + k * i) with (k * (i + 1)) by ring. reflexivity.
        -- rewrite !skipn_neg by lia. cbn [existsb]. rewrite Cc. cbn [orb].
           destruct (existsb cond _); [reflexivity|]. f_equal. rewrite len_cons. f_equal; [lia|]. cbn [stacked]. rewrite Cc.
           rewrite mod_shift_lor by nia. rewrite Z.mul_0_l, Z.mod_0_l, Z.lor_0_l by lia. replace (k + k * i) with (k * (i + 1)) by ring. reflexivity.
Qed.

(** loops that shift every character *)
Lemma all_loop D k : 1 <= k -> D 95 = 0 -> forall L i r, 0 <= i -> ofold (gstep TU64 (fun _ => true) D k) L (i, r) =
    if match L with [] => true | _ => k * (i + len (clean (removelast L))) <? 64 end
    then Ok (i + len (clean L), Z.lor r ((stacked k D (clean L) * 2 ^ (k * i)) mod 2 ^ 64)) else UB.
Proof.
  intros Hk D95. induction L as [|c L IH]; intros i r Hi.
  - cbn [ofold clean filter stacked]. unfold len. cbn [List.length]. rewrite Z.add_0_r, Z.mul_0_l, Z.mod_0_l, Z.lor_0_r by lia. reflexivity.
  - cbn [ofold]. unfold gstep at 1. destruct (Z.lt_ge_cases (i * k) 64) as [G | G].
    + rewrite c_shl_val by (auto; cbn [iwidth]; nia). cbn [bind iwidth]. rewrite IH by (destruct (c =? 95); lia). rewrite Z.shiftl_mul_pow2 by nia.
      assert (EV : Z.lor (Z.lor r ((D c * 2 ^ (i * k)) mod 2 ^ 64)) ((stacked k D (clean L) * 2 ^ (k * (if c =? 95 then i else i + 1))) mod 2 ^ 64) = Z.lor r ((stacked k D (clean (c :: L)) * 2 ^ (k * i)) mod 2 ^ 64)).
      { rewrite clean_cons. destruct (Z.eqb_spec c 95) as [-> | N95].
        - rewrite D95, Z.mul_0_l, Z.mod_0_l, Z.lor_0_r by lia. reflexivity.
        - cbn [stacked]. rewrite mod_shift_lor by nia. rewrite Z.lor_assoc. replace (k + k * i) with (k * (i + 1)) by ring. replace (i * k) with (k * i) by ring. reflexivity. }
      rewrite EV. clear EV. assert (EL : (if c =? 95 then i else i + 1) + len (clean L) = i + len (clean (c :: L))) by (rewrite clean_cons; destruct (c =? 95); [|rewrite len_cons]; lia). rewrite EL.
      destruct L as [|c' L].
      * cbn [removelast clean filter]. unfold len at 2. cbn [List.length]. replace (k * (i + Z.of_nat 0) <? 64) with true by nia. reflexivity.
      * change (removelast (c :: c' :: L)) with (c :: removelast (c' :: L)). rewrite (clean_cons c (removelast (c' :: L))).
        replace ((if c =? 95 then i else i + 1) + len (clean (removelast (c' :: L)))) with (i + len (if c =? 95 then clean (removelast (c' :: L)) else c :: clean (removelast (c' :: L)))); [reflexivity|].
        destruct (c =? 95); [|rewrite len_cons]; lia.
    + assert (U : c_shl TU64 (D c) (i * k) = UB). { unfold c_shl. cbn [promote iwidth]. replace (i * k <? 64) with false by lia. rewrite andb_false_r. reflexivity. }
      rewrite U. cbn [bind]. pose proof (Zle_0_nat (List.length (clean (removelast (c :: L))))). fold (len (clean (removelast (c :: L)))) in *. replace (k * (i + len (clean (removelast (c :: L)))) <? 64) with false by nia. reflexivity.
Qed.

Lemma ofold_ext {A B} (f g : B -> A -> outcome B) l x : (forall y a, f y a = g y a) -> ofold f l x = ofold g l x.
Proof. intros H. revert x. induction l as [|a l IH]; intros x; [reflexivity|]. cbn [ofold]. rewrite H. destruct (g x a); cbn [bind]; auto. Qed.

(** * one piece of text *)
Lemma mem_digit c : member "0123456789" c = is_digit c.
Proof. unfold member, is_digit. cbn [chars existsb]. repeat match goal with |- context [chars ?x] => change (chars x) with (@nil Z) end. cbn. lia. Qed.
Lemma mem_up c : member "ABCDEF" c = (65 <=? c) && (c <=? 70).
Proof. unfold member. cbn. lia. Qed.
Lemma mem_low c : member "abcdef" c = (97 <=? c) && (c <=? 102).
Proof. unfold member. cbn. lia. Qed.
Lemma mem_us s c : c <> 95 -> is_one_of c (s ++ "_")%string = member s c.
Proof.
  intros N. unfold is_one_of, member. induction s as [|a s IH]; cbn [String.append chars existsb].
  - change (Z.of_nat (nat_of_ascii "_"%char)) with 95. replace (c =? 95) with false by lia. reflexivity.
  - now rewrite IH.
Qed.
Lemma oct_digit_worth c : c <> 95 -> oct_digit c = oct_worth c.
Proof. intros N. unfold oct_digit, oct_worth. change "xX_"%string with ("xX" ++ "_")%string. rewrite mem_us by exact N. reflexivity. Qed.
Lemma hex_digit_worth c : c <> 95 -> hex_digit c = hex_worth c.
Proof.
  intros N. unfold hex_digit, hex_worth. change "xX_"%string with ("xX" ++ "_")%string. rewrite mem_us by exact N. change (is_one_of c "zZ") with (member "zZ" c).
  rewrite mem_up, mem_low, mem_digit. unfold is_digit. destruct (member "xX" c) eqn:X.
  - unfold member in *. cbn in X |- *. assert (C : c = 120 \/ c = 88) by lia. destruct C as [-> | ->]; reflexivity.
  - destruct (member "zZ" c); [reflexivity|]. destruct ((48 <=? c) && (c <=? 57)); [reflexivity|]. destruct ((65 <=? c) && (c <=? 70)) eqn:U.
    + replace ((97 <=? c) && (c <=? 102)) with false by lia. lia.
    + destruct ((97 <=? c) && (c <=? 102)); reflexivity.
Qed.

Lemma bin_fold s : omap snd (ofold parse_bin_step (rev s) (0, 0)) = if negb (existsb (member "1z") (skipn 64 (places s))) then Ok (stacked 1 bin_worth (places s) mod 2 ^ 64) else UB.
Proof.
  rewrite (ofold_ext parse_bin_step (gstep TU64 (member "1z") (fun _ => 1) 1)).
  2: { intros [i r] c. unfold parse_bin_step, gstep. rewrite Z.mul_1_r. reflexivity. }
  rewrite (cond_loop TU64 (member "1z") (fun _ => 1) 1 64 64) by (auto; try lia; intros; lia).
  rewrite <- places_rev. change (Z.to_nat (64 - 0)) with 64%nat. destruct (existsb _ _); [reflexivity|]. unfold omap. cbn [bind snd negb]. rewrite Z.lor_0_l, Z.mul_1_r. reflexivity.
Qed.
Lemma removelast_rev (c : Z) s : removelast (rev (c :: s)) = rev s.
Proof. cbn [rev]. apply removelast_last. Qed.
Lemma pow_fold D d k s : 1 <= k -> D 95 = 0 -> (forall c, c <> 95 -> D c = d c) ->
  omap snd (ofold (parse_pow2_step D k) (rev s) (0, 0)) = if short k s then Ok (stacked k d (places s) mod 2 ^ 64) else UB.
Proof.
  intros Hk D95 HD. rewrite (ofold_ext (parse_pow2_step D k) (gstep TU64 (fun _ => true) D k)).
  2: { intros [i r] c. unfold parse_pow2_step, gstep. destruct (c_shl TU64 (D c) (i * k)); reflexivity. }
  rewrite (all_loop D k Hk D95) by lia. rewrite <- places_rev. rewrite (stacked_ext k D d) by (intros c Hc; apply HD; eapply in_places; exact Hc).
  rewrite Z.mul_0_r, Z.mul_1_r, Z.lor_0_l. destruct s as [|c s]; [reflexivity|]. unfold short. rewrite removelast_rev, Z.add_0_l, clean_rev.
  destruct (rev (c :: s)) eqn:E. { apply (f_equal (@List.length Z)) in E. rewrite rev_length in E. discriminate E. }
  replace (len (rev (clean s))) with (len (clean s)) by (unfold len; now rewrite rev_length). destruct (_ <? 64); reflexivity.
Qed.
Lemma dec_fold s : snd (fold_left parse_dec_step (rev s) (1, 0)) = numeral_value 10 (filter (member "0123456789") s) mod 2 ^ 64.
Proof.
  assert (E : forall l st, fold_left parse_dec_step l st = fold_left parse_dec_step (filter (member "0123456789") l) st).
  { induction l as [|c l IH]; intros st; [reflexivity|]. cbn [filter fold_left]. destruct (member "0123456789" c) eqn:M; cbn [fold_left]; rewrite <- IH; [reflexivity|]. f_equal. unfold parse_dec_step. rewrite mem_digit in M. rewrite M. now destruct st. }
  rewrite E. assert (F : filter (member "0123456789") (rev s) = rev (filter (member "0123456789") s)).
  { clear E. induction s as [|c s IH]; [reflexivity|]. cbn [rev filter]. rewrite filter_app, IH. cbn [filter]. destruct (member _ c); cbn [rev]; [reflexivity|]. now rewrite app_nil_r. }
  rewrite F, dec_loop; [reflexivity|]. apply Forall_forall. intros c Hc. apply filter_In in Hc. destruct Hc as [_ Hc]. unfold member in Hc. apply existsb_exists in Hc. destruct Hc as (x & Hx & Ex).
  apply Z.eqb_eq in Ex. subst x. unfold among. cbn [chars In] in Hx |- *. tauto.
Qed.
Lemma str_fold s : parse_str s = stacked 8 (fun c => c mod 256) (firstn 8 (rev s)).
Proof.
  unfold parse_str. set (F := fun (st : Z * Z) (c : Z) => let '(result, i) := st in (Z.lor result (u64 (Z.shiftl (c mod 256) (i * 8))), i + 1)).
  assert (E : forall l i r, 0 <= i -> i + len l <= 8 -> fst (fold_left F l (r, i)) = Z.lor r (stacked 8 (fun c => c mod 256) l * 2 ^ (8 * i))).
  { induction l as [|c l IH]; intros i r Hi Hl.
    - cbn [fold_left fst stacked]. now rewrite Z.mul_0_l, Z.lor_0_r.
    - rewrite len_cons in Hl. pose proof (len_nonneg l). cbn [fold_left]. unfold F at 2. rewrite IH by lia. cbn [stacked].
      assert (Hc : 0 <= c mod 256 < 256) by (apply Z.mod_pos_bound; lia).
      assert (EM : u64 (Z.shiftl (c mod 256) (i * 8)) = c mod 256 * 2 ^ (8 * i)).
      { rewrite Z.shiftl_mul_pow2 by lia. replace (i * 8) with (8 * i) by ring. unfold u64. apply Z.mod_small.
        assert (0 < 2 ^ (8 * i)) by (apply Z.pow_pos_nonneg; lia). split; [nia|]. apply Z.lt_le_trans with (256 * 2 ^ (8 * i)); [nia|].
        change 256 with (2 ^ 8). rewrite <- Z.pow_add_r by lia. apply Z.pow_le_mono_r; lia. }
      rewrite EM. rewrite <- !Z.shiftl_mul_pow2 by lia. rewrite Z.shiftl_lor, Z.shiftl_shiftl by lia. rewrite Z.lor_assoc. do 2 f_equal. lia. }
  rewrite E; [now rewrite Z.lor_0_l, Z.mul_1_r|lia|]. unfold len. rewrite firstn_length. lia.
Qed.

Definition of_read {A} (b : bool) (x : A) : outcome A := if b then Ok x else UB.
Lemma raw_exact s base : parse_raw_ s base = of_read (readable base s) (number base s).
Proof.
  unfold parse_raw_, readable, number, of_read. change (is_one_of base "dD") with (member "dD" base). change (is_one_of base "bB") with (member "bB" base).
  change (is_one_of base "oO") with (member "oO" base). change (is_one_of base "hH") with (member "hH" base). change (is_one_of base "sS") with (member "sS" base).
  destruct (member "dD" base) eqn:D.
  { assert (C : base = 100 \/ base = 68) by (unfold member in D; cbn in D; lia). rewrite dec_fold. destruct C as [-> | ->]; reflexivity. }
  destruct (member "bB" base); [apply bin_fold|].
  destruct (member "oO" base); [apply pow_fold; [lia|reflexivity|apply oct_digit_worth]|].
  destruct (member "hH" base); [apply pow_fold; [lia|reflexivity|apply hex_digit_worth]|].
  destruct (member "sS" base); [now rewrite str_fold|reflexivity].
Qed.
Lemma mask_fold k n m s : (k = 3 /\ n = 22%nat \/ k = 4 /\ n = 16%nat) -> m = 2 ^ k - 1 ->
  omap snd (ofold (parse_xz_pow2_step m k) (rev s) (0, 0)) = of_read (negb (existsb (member "xXzZ") (skipn n (places s)))) (stacked k (unknown_worth "xXzZ" k) (places s) mod 2 ^ 64).
Proof.
  intros K M. rewrite (ofold_ext (parse_xz_pow2_step m k) (gstep TU64 (member "xXzZ") (fun _ => m) k)) by (intros [i r] c; reflexivity).
  rewrite (cond_loop TU64 (member "xXzZ") (fun _ => m) k 64 (Z.of_nat n)); [|auto|reflexivity|lia|lia| |reflexivity|intros; reflexivity|lia].
  2: { destruct K as [[-> ->]|[-> ->]]; lia. }
  rewrite <- places_rev. rewrite Z.sub_0_r, Nat2Z.id. unfold of_read. destruct (existsb _ _); [reflexivity|]. unfold omap. cbn [bind snd negb]. rewrite Z.lor_0_l, Z.mul_0_r, Z.mul_1_r.
  subst m. reflexivity.
Qed.
Lemma mask_bin s : omap snd (ofold parse_xz_bin_step (rev s) (0, 0)) = of_read (negb (existsb (member "xz") (skipn 32 (places s)))) (stacked 1 (unknown_worth "xz" 1) (places s) mod 2 ^ 64).
Proof.
  rewrite (ofold_ext parse_xz_bin_step (gstep TU32 (member "xz") (fun _ => 1) 1)).
  2: { intros [i r] c. unfold parse_xz_bin_step, gstep. rewrite Z.mul_1_r. reflexivity. }
  rewrite (cond_loop TU32 (member "xz") (fun _ => 1) 1 32 32); [|auto|reflexivity|lia|lia|intros; lia|reflexivity| |lia].
  2: { intros c q _ Q0 Q. rewrite Z.mul_1_r in *. rewrite Z.mul_1_l. assert (0 < 2 ^ q < 2 ^ 32) by (split; [apply Z.pow_pos_nonneg; lia|apply Z.pow_lt_mono_r; lia]). rewrite !Z.mod_small; lia. }
  rewrite <- places_rev. change (Z.to_nat (32 - 0)) with 32%nat. unfold of_read. destruct (existsb _ _); [reflexivity|]. unfold omap. cbn [bind snd negb]. rewrite Z.lor_0_l, Z.mul_1_r. reflexivity.
Qed.
Lemma mask_exact s base : parse_xz_raw_ s base = of_read (mask_readable base s) (mask base s).
Proof.
  unfold parse_xz_raw_, mask_readable, mask. change (is_one_of base "bB") with (member "bB" base).
  change (is_one_of base "oO") with (member "oO" base). change (is_one_of base "hH") with (member "hH" base).
  destruct (member "bB" base); [apply mask_bin|].
  destruct (member "oO" base); [apply mask_fold; auto|].
  destruct (member "hH" base); [apply mask_fold; auto|]. reflexivity.
Qed.

(** * the parts of a text *)
Lemma find_first_none f s : Forall (fun x => f x = false) s -> find_first f s = None.
Proof. induction s as [|c s IH]; intros H; [reflexivity|]. inversion H; subst. cbn [find_first]. rewrite H2, IH by assumption. reflexivity. Qed.
Lemma among_digit c : among "0123456789" c <-> is_digit c = true.
Proof.
  rewrite <- mem_digit. unfold among, member. rewrite existsb_exists. split.
  - intros H. exists c. split; [exact H|apply Z.eqb_refl].
  - intros (x & Hx & E). apply Z.eqb_eq in E. now subst.
Qed.
Lemma not_in_quote pre : ~ In 39 pre -> Forall (fun x => (39 =? x) = false) pre.
Proof. intros H. apply Forall_forall. intros x Hx. apply Z.eqb_neq. intros <-. contradiction. Qed.
Lemma parts_base t base body : parts t base body -> exists p, get_input_base t = (base, p) /\ substr_from t p = body.
Proof.
  intros P. destruct P as [t Q | pre size base body Q B | pre size Q].
  - exists 0. split; [|reflexivity]. unfold get_input_base. rewrite find_first_none; [reflexivity|]. change (chr "'"%char) with 39. apply not_in_quote. exact Q.
  - assert (D : is_digit base = false). { destruct (is_digit base) eqn:D; [|reflexivity]. elim B. now apply among_digit. }
    pose proof (input_base pre size base body Q D) as H. destruct (get_input_base _) as [b p]. destruct H as [-> H]. exists p. split; [reflexivity|exact H].
  - exists 0. split; [|reflexivity]. destruct Q as [Q1 Q2]. unfold get_input_base. change (chr "'"%char) with 39. rewrite find_first_app by (try reflexivity; apply not_in_quote; exact Q1).
    assert (E : substr_from (pre ++ 39 :: size) (len pre + 1) = size).
    { unfold substr_from. change (pre ++ 39 :: size) with (pre ++ [39] ++ size). rewrite app_assoc. apply skipn_len. rewrite app_length. cbn [List.length]. unfold len. lia. }
    rewrite E, find_first_none; [reflexivity|]. eapply Forall_impl; [|exact Q2]. intros c Hc. apply among_digit in Hc. now rewrite Hc.
Qed.
Lemma split_at f (l : list Z) : {Forall (fun x => f x = false) l} + {exists a c b, l = a ++ c :: b /\ Forall (fun x => f x = false) a /\ f c = true}.
Proof.
  induction l as [|c l IH]; [left; constructor|]. destruct (f c) eqn:E.
  - right. exists [], c, l. repeat split; auto.
  - destruct IH as [H | H]; [left; now constructor|]. right. destruct H as (a & d & b & -> & Fa & Fd). exists (c :: a), d, b. repeat split; auto.
Qed.
Lemma parts_exist t : exists base body, parts t base body.
Proof.
  destruct (split_at (Z.eqb 39) t) as [H | (a & c & b & -> & Fa & Fc)].
  - exists 115, t. apply Plain. intros I1. rewrite Forall_forall in H. specialize (H _ I1). discriminate H.
  - apply Z.eqb_eq in Fc. subst c. assert (Na : ~ In 39 a). { intros I1. rewrite Forall_forall in Fa. specialize (Fa _ I1). discriminate Fa. }
    destruct (split_at (fun c => negb (is_digit c)) b) as [H | (s & c & r & -> & Fs & Fc)].
    + exists 98, (a ++ 39 :: b). apply Unbased. split; [exact Na|]. eapply Forall_impl; [|exact H]. cbn beta. intros x Hx. apply among_digit. now destruct (is_digit x).
    + exists c, r. apply (Based a s c r).
      * split; [exact Na|]. eapply Forall_impl; [|exact Fs]. cbn beta. intros x Hx. apply among_digit. now destruct (is_digit x).
      * intros H. apply among_digit in H. rewrite H in Fc. discriminate Fc.
Qed.
Lemma parts_unique t b1 s1 b2 s2 : parts t b1 s1 -> parts t b2 s2 -> b1 = b2 /\ s1 = s2.
Proof. intros A B. apply parts_base in A, B. destruct A as (p & E & <-), B as (q & E' & <-). rewrite E in E'. inversion E'. split; reflexivity. Qed.

(** * wide vectors *)
Lemma per_word_stride base : per_word base = 64 / get_stride base.
Proof.
  unfold per_word, get_stride. change (is_one_of base "oO") with (member "oO" base). change (is_one_of base "hHxX") with (member "hHxX" base). change (is_one_of base "sS") with (member "sS" base).
  destruct (is_one_of base "bB") eqn:B.
  { apply among_iff in B. chars_cases B; reflexivity. }
  destruct (member "oO" base); [reflexivity|]. destruct (member "hHxX" base); [reflexivity|]. destruct (member "sS" base); reflexivity.
Qed.
Lemma per_word_pos base : 1 <= per_word base.
Proof. unfold per_word. destruct (member "oO" base), (member "hHxX" base), (member "sS" base); lia. Qed.
Lemma piece_chunk base s j : piece base s j = chunk s (per_word base) j.
Proof. reflexivity. Qed.
Lemma piece_len base s j : len (piece base s j) <= per_word base.
Proof. pose proof (per_word_pos base). unfold piece, len. rewrite rev_length, firstn_length. lia. Qed.
Lemma piece_nil base s j : 0 <= j -> len s <= j * per_word base -> piece base s j = [].
Proof. intros J H. unfold piece. rewrite skipn_all2; [now rewrite firstn_nil|]. rewrite rev_length. unfold len in H. lia. Qed.
Lemma places_len s : len (places s) <= len s.
Proof. unfold places, len. rewrite rev_length. pose proof (clean_len s). lia. Qed.
Lemma skipn_none {A} n (l : list A) : (List.length l <= n)%nat -> skipn n l = [].
Proof. apply skipn_all2. Qed.
Lemma short_len k s : 1 <= k -> k * (len s - 1) < 64 -> short k s = true.
Proof. intros K H. destruct s as [|c s]; [reflexivity|]. rewrite len_cons in H. unfold short. pose proof (clean_len s). unfold len in *. nia. Qed.
Lemma piece_readable base s j : readable base (piece base s j) = true.
Proof.
  pose proof (piece_len base s j) as L. unfold readable.
  destruct (member "bB" base) eqn:B.
  { assert (C : base = 98 \/ base = 66) by (unfold member in B; cbn in B; lia). pose proof (places_len (piece base s j)) as PL.
    assert (E : per_word base = 64) by (destruct C as [-> | ->]; reflexivity). rewrite skipn_none; [reflexivity|]. unfold len in *. lia. }
  destruct (member "oO" base) eqn:O.
  { assert (E : per_word base = 21) by (unfold per_word; now rewrite O). apply short_len; lia. }
  destruct (member "hH" base) eqn:H; [|reflexivity]. assert (C : base = 104 \/ base = 72) by (unfold member in H; cbn in H; lia).
  assert (E : per_word base = 16) by (destruct C as [-> | ->]; reflexivity). apply short_len; lia.
Qed.
Lemma stacked_mod_range k d s : 0 <= stacked k d s mod 2 ^ 64 < 2 ^ 64.
Proof. apply Z.mod_pos_bound. lia. Qed.
Lemma stacked8_range l i : (List.length l <= i)%nat -> 0 <= stacked 8 (fun c => c mod 256) l < 2 ^ (8 * Z.of_nat i).
Proof.
  revert i. induction l as [|c l IH]; intros i H; cbn [stacked].
  - split; [lia|]. apply Z.pow_pos_nonneg; lia.
  - destruct i as [|i]; [cbn [List.length] in H; lia|]. cbn [List.length] in H. specialize (IH i ltac:(lia)).
    assert (Hc : 0 <= c mod 256 < 2 ^ 8) by (apply Z.mod_pos_bound; lia). assert (P1 : 2 ^ (8 * Z.of_nat (S i)) = 2 ^ (8 * Z.of_nat i) * 2 ^ 8) by (rewrite <- Z.pow_add_r by lia; f_equal; lia).
    assert (P2 : 1 <= 2 ^ (8 * Z.of_nat i)) by (pose proof (Z.pow_pos_nonneg 2 (8 * Z.of_nat i)); lia).
    apply lor_range; [lia| |]; nia.
Qed.
Lemma number_range base s : 0 <= number base s < 2 ^ 64.
Proof.
  unfold number. destruct (member "bB" base); [apply stacked_mod_range|]. destruct (member "oO" base); [apply stacked_mod_range|]. destruct (member "hH" base); [apply stacked_mod_range|].
  destruct (member "dD" base); [apply Z.mod_pos_bound; lia|]. destruct (member "sS" base); [|lia]. apply (stacked8_range _ 8). rewrite firstn_length. lia.
Qed.
Lemma mask_range base s : 0 <= mask base s < 2 ^ 64.
Proof. unfold mask. destruct (member "bB" base); [apply stacked_mod_range|]. destruct (member "oO" base); [apply stacked_mod_range|]. destruct (member "hH" base); [apply stacked_mod_range|]. lia. Qed.
Lemma number_nil base : number base [] = 0.
Proof. unfold number. destruct (member "bB" base), (member "oO" base), (member "hH" base), (member "dD" base), (member "sS" base); reflexivity. Qed.
Lemma mask_nil base : mask base [] = 0.
Proof. unfold mask. destruct (member "bB" base), (member "oO" base), (member "hH" base); reflexivity. Qed.
Lemma in_words_num ws f a : (forall j, 0 <= j < wlen ws -> word ws j = f (a + j)) -> words_num ws = in_words f a (List.length ws).
Proof.
  revert a. induction ws as [|w ws IH]; intros a H; [reflexivity|]. cbn [words_num List.length in_words]. assert (E : wlen (w :: ws) = 1 + wlen ws) by (unfold wlen; cbn [List.length]; lia). rewrite E in H.
  assert (L0 : 0 <= wlen ws) by (unfold wlen; lia).
  rewrite (IH (a + 1)). { f_equal. rewrite <- (Z.add_0_r a). rewrite <- (H 0) by lia. reflexivity. }
  intros j Hj. replace (a + 1 + j) with (a + (1 + j)) by lia. rewrite <- H by lia. unfold word. replace (Z.to_nat (1 + j)) with (S (Z.to_nat j)) by lia. reflexivity.
Qed.
Lemma words_ok one f base s n : 1 <= n < 2 ^ 31 -> (forall t, one t base = of_read true (f base t) \/ one t base = UB) -> f base [] = 0 -> (forall t, 0 <= f base t < 2 ^ 64) ->
  (forall j, 0 <= j < words_in n -> one (piece base s j) base = Ok (f base (piece base s j))) ->
  parse_words (fun t => one t base) s (64 / get_stride base) (Z.to_nat (nwords n)) (slen s) (slen s) 0 (bn_zero n) = Ok (words_of n (wide_number f base s n)).
Proof.
  intros Hn HO F0 FR H. rewrite <- per_word_stride. pose proof (nwords_bounds n ltac:(lia)) as Nw. pose proof (bn_zero_wfn n ltac:(lia)) as [Wz Lz].
  destruct (words_loop (fun t => one t base) s (per_word base) (fun j R => R = f base (piece base s j)) (per_word_pos base) (Z.to_nat (nwords n)) 0 (bn_zero n)) as (ws & E & W & L & Q); [lia| | exact Wz | lia |].
  { intros j Hj Hl. exists (f base (piece base s j)). split; [|split; [apply FR|reflexivity]]. rewrite <- piece_chunk. apply H. rewrite words_in_nwords. lia. }
  rewrite Z.mul_0_l, Z.sub_0_r, Z.max_r in E by apply len_nonneg. change (slen s) with (len s). rewrite E. f_equal.
  assert (Wn : wfn n ws) by (split; [exact W|lia]). apply big_eq; [lia|exact Wn|].
  assert (EN : words_num ws = wide_number f base s n).
  { unfold wide_number. rewrite words_in_nwords. replace (Z.to_nat (nwords n)) with (List.length ws) by (unfold wlen in *; lia). apply in_words_num. intros j Hj. rewrite Z.add_0_l.
    specialize (Q j ltac:(lia)). destruct (Z.ltb_spec (j * per_word base) (len s)) as [G | G].
    - replace ((0 <=? j) && (j <? 0 + Z.of_nat (Z.to_nat (nwords n))) && true) with true in Q by lia. exact Q.
    - rewrite andb_false_r in Q. rewrite Q. rewrite (piece_nil base s j) by lia. rewrite F0. unfold bn_zero, word. now rewrite nth_repeat. }
  rewrite EN. symmetry. apply Z.mod_small. rewrite <- EN. apply words_range; [lia|exact Wn].
Qed.
Lemma words_ub one s B : 1 <= B -> (forall t, (exists R, one t = Ok R) \/ one t = UB) ->
  forall fuel idx ws j, 0 <= idx -> idx <= j < idx + Z.of_nat fuel -> j * B < len s -> one (chunk s B j) = UB ->
  parse_words one s B fuel (Z.max 0 (len s - idx * B)) (Z.max 0 (len s - idx * B)) idx ws = UB.
Proof.
  intros HB HO. induction fuel as [|f IH]; intros idx ws j H0 Hj Hl Hu; [lia|]. cbn [parse_words].
  assert (E : Z.max 0 (len s - idx * B) = len s - idx * B) by nia. rewrite E. replace (0 <? len s - idx * B) with true by nia. cbn zeta.
  pose proof (chunk_sub s B idx HB H0 ltac:(nia)) as C. cbn zeta in C. rewrite C. destruct (HO (chunk s B idx)) as [[R ER] | ER]; rewrite ER; cbn [bind]; [|reflexivity].
  assert (N : idx <> j). { intros ->. rewrite ER in Hu. discriminate Hu. }
  specialize (IH (idx + 1) (word_set ws idx R) j ltac:(lia) ltac:(lia) Hl Hu). rewrite <- IH.
  replace (Z.max 0 (len s - (idx + 1) * B)) with (len s - (idx + 1) * B) by nia. f_equal.
  - destruct (Z.ltb_spec B (len s - idx * B)); nia.
  - destruct (Z.leb_spec B (len s - idx * B)); nia.
Qed.

Lemma big_number t base s n : parts t base s -> 65 <= n < 2 ^ 31 -> parse_raw_str_big t n = Ok (words_of n (wide_number number base s n)).
Proof.
  intros P Hn. apply parts_base in P. destruct P as (p & E & Es). unfold parse_raw_str_big, parse_big. rewrite E, Es. cbn zeta.
  apply words_ok; [lia| |apply number_nil|intros; apply number_range|].
  - intros u. rewrite raw_exact. unfold of_read. destruct (readable base u); auto.
  - intros j Hj. rewrite raw_exact, piece_readable. reflexivity.
Qed.
Lemma big_mask t base s n : parts t base s -> 65 <= n < 2 ^ 31 ->
  parse_xz_raw_str_big t n = of_read (forallb (fun j => mask_readable base (piece base s j)) (zrange 0 (words_in n))) (words_of n (wide_number mask base s n)).
Proof.
  intros P Hn. apply parts_base in P. destruct P as (p & E & Es). unfold parse_xz_raw_str_big, parse_big. rewrite E, Es. cbn zeta. clear t p E Es.
  pose proof (nwords_bounds n ltac:(lia)) as Nw. destruct (forallb _ _) eqn:A.
  - apply words_ok; [lia| |apply mask_nil|intros; apply mask_range|].
    + intros u. rewrite mask_exact. unfold of_read. destruct (mask_readable base u); auto.
    + intros j Hj. rewrite mask_exact. rewrite forallb_forall in A. rewrite (A j) by (apply in_zrange; lia). reflexivity.
  - assert (X : exists j, 0 <= j < words_in n /\ mask_readable base (piece base s j) = false).
    { clear -A. induction (zrange 0 (words_in n)) as [|j l IH] eqn:El in A |- *; [discriminate A|].
      assert (HI : forall x, In x (j :: l) -> 0 <= x < words_in n). { intros x Hx. rewrite <- El in Hx. apply in_zrange in Hx. lia. } clear El IH.
      revert A HI. generalize (j :: l). intros l' A HI. induction l' as [|x l' IH]; [discriminate A|]. cbn [forallb] in A. destruct (mask_readable base (piece base s x)) eqn:M.
      - apply IH; [exact A|]. intros y Hy. apply HI. now right.
      - exists x. split; [apply HI; now left|exact M]. }
    destruct X as (j & Hj & M). rewrite <- per_word_stride. assert (G : j * per_word base < len s).
    { destruct (Z.lt_ge_cases (j * per_word base) (len s)) as [G | G]; [exact G|exfalso]. rewrite piece_nil in M by lia.
      unfold mask_readable in M. change (places []) with (@nil Z) in M. rewrite !skipn_nil in M. cbn [existsb negb] in M. destruct (member "bB" base), (member "oO" base), (member "hH" base); discriminate M. }
    rewrite words_in_nwords in Hj. pose proof (words_ub (fun t => parse_xz_raw_ t base) s (per_word base) (per_word_pos base)) as U.
    specialize (U ltac:(intros u; cbn beta; rewrite mask_exact; unfold of_read; destruct (mask_readable base u); eauto) (Z.to_nat (nwords n)) 0 (bn_zero n) j ltac:(lia) ltac:(lia) G).
    rewrite Z.mul_0_l, Z.sub_0_r, Z.max_r in U by apply len_nonneg. change (slen s) with (len s). apply U. cbn beta. rewrite <- piece_chunk, mask_exact, M. reflexivity.
Qed.

(** * the constructors *)
Lemma conv_width msb lsb sg z : width msb lsb <= 64 -> conv (hty (vsize msb lsb) sg) z = store (width msb lsb) sg z.
Proof. intros H. apply conv_store. change (vsize msb lsb) with (width msb lsb). unfold width in *. lia. Qed.
Lemma bit_of_str_exact msb lsb sg t base s : width msb lsb < 2 ^ 31 -> parts t base s -> bit_of_str msb lsb sg t = bit_read msb lsb sg base s.
Proof.
  intros W P. unfold bit_of_str, bit_read. cbn zeta. change (vsize msb lsb) with (width msb lsb). unfold native_num. destruct (Z.leb_spec (width msb lsb) 64) as [C | C].
  - pose proof (parts_base _ _ _ P) as (p & E & Es). unfold parse_raw_str. rewrite E, Es, raw_exact. unfold of_read. destruct (readable base s); cbn [bind]; [|reflexivity].
    rewrite object_small by exact C. rewrite <- conv_width by exact C. reflexivity.
  - rewrite (big_number t base s) by (auto; lia). cbn [bind]. rewrite object_wide by lia. reflexivity.
Qed.
Lemma logic_of_str_exact msb lsb sg t base s : width msb lsb < 2 ^ 31 -> parts t base s -> logic_of_str msb lsb sg t = logic_read msb lsb sg base s.
Proof.
  intros W P. unfold logic_of_str, logic_read. cbn zeta. change (vsize msb lsb) with (width msb lsb). unfold native_num. destruct (Z.leb_spec (width msb lsb) 64) as [C | C].
  - pose proof (parts_base _ _ _ P) as (p & E & Es). unfold parse_raw_str, parse_xz_raw_str. rewrite E, Es, raw_exact, mask_exact. unfold of_read.
    destruct (readable base s); cbn [bind andb]; [|reflexivity]. destruct (mask_readable base s); cbn [bind]; [|reflexivity].
    rewrite !object_small by exact C. rewrite <- !conv_width by exact C. reflexivity.
  - rewrite (big_number t base s), (big_mask t base s) by (auto; lia). cbn [bind]. unfold of_read. destruct (forallb _ _); cbn [bind]; [|reflexivity]. rewrite !object_wide by lia. reflexivity.
Qed.
Lemma parts_one t : exists base body, parts t base body /\ forall base' body', parts t base' body' -> base' = base /\ body' = body.
Proof. destruct (parts_exist t) as (b & s & P). exists b, s. split; [exact P|]. intros b' s' P'. now apply (parts_unique t). Qed.
Lemma wide_defined msb lsb sg t : 65 <= width msb lsb < 2 ^ 31 -> exists b, bit_of_str msb lsb sg t = Ok b.
Proof. intros H. destruct (parts_exist t) as (b & s & P). rewrite (bit_of_str_exact msb lsb sg t b s) by (auto; lia). unfold bit_read. cbn zeta. replace (width msb lsb <=? 64) with false by lia. eauto. Qed.
Lemma parts_len t b s : parts t b s -> len s <= len t.
Proof. intros P. destruct P; unfold literal; unfold len; rewrite ?app_length; cbn [List.length]; rewrite ?app_length; cbn [List.length]; lia. Qed.
Lemma short_defined msb lsb sg t : width msb lsb < 2 ^ 31 -> len t <= 16 -> exists b, bit_of_str msb lsb sg t = Ok b.
Proof.
  intros H L. destruct (parts_exist t) as (b & s & P). rewrite (bit_of_str_exact msb lsb sg t b s) by (auto; lia). unfold bit_read. cbn zeta. destruct (width msb lsb <=? 64); [|eauto].
  assert (R : readable b s = true); [|rewrite R; eauto]. apply parts_len in P. unfold readable. destruct (member "bB" b).
  { rewrite skipn_none; [reflexivity|]. pose proof (places_len s). unfold len in *. lia. }
  destruct (member "oO" b); [apply short_len; lia|]. destruct (member "hH" b); [apply short_len; lia|reflexivity].
Qed.
