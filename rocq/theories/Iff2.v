(** Exactly when 4-state operators treat x and z as they should. *)
From Coq Require Import ZArith List Bool Lia.
From Verif Require Import Cpp BigNum Bit Logic Spec SpecExact SpecMachine SpecWide SpecFour SpecIff BitExt ZBits Words BigNumProofs BitProofs BitCmp BitMain BitMain2 LogicProofs LogicOps LogicArith LogicArith2 LogicMain LogicRed WideProofs WideProofs2 FourProofs FourProofs2.
Import ListNotations.
Open Scope Z_scope.
Local Ltac Zify.zify_post_hook ::= idtac.

Lemma halves_bits z : 0 <= z -> low_halves_zero z <-> forall p, 0 <= p -> p mod 64 < 32 -> Z.testbit z p = false.
Proof.
  intros Hz. split.
  - intros H p Hp M. specialize (H (p / 64) ltac:(apply Z.div_pos; lia)). pose proof (Z.div_mod p 64 ltac:(lia)) as D. pose proof (Z.mod_pos_bound p 64 ltac:(lia)) as B. assert (0 <= p / 64) by (apply Z.div_pos; lia).
    assert (X : Z.testbit ((z / 2 ^ (64 * (p / 64))) mod 2 ^ 32) (p mod 64) = false) by now rewrite H, Z.bits_0.
    rewrite Z.mod_pow2_bits_low in X by lia. rewrite Z.div_pow2_bits in X by lia. rewrite <- X. f_equal. lia.
  - intros H k Hk. apply Z.bits_inj'. intros i Hi. rewrite Z.bits_0. destruct (Z.lt_ge_cases i 32) as [L|G].
    + rewrite Z.mod_pow2_bits_low by lia. rewrite Z.div_pow2_bits by lia. apply H; [lia|]. replace (i + 64 * k) with (i + k * 64) by lia. rewrite Z.mod_add by lia. rewrite Z.mod_small; lia.
    + apply Z.mod_pow2_bits_high. lia.
Qed.
Lemma seems_halves n z : 1 <= n -> 0 <= z < 2 ^ capacity n -> seems_zero n z = true <-> low_halves_zero z.
Proof.
  intros Hn Hz. assert (E : words_num (words_of n z) = z) by (rewrite words_of_num by lia; apply Z.mod_small; lia). pose proof (words_of_wfn n z Hn) as W. rewrite <- E at 1. rewrite seems_zero_words by (auto; lia).
  rewrite negb_true_iff. pose proof (bn_any_exact (words_of n z) (proj1 W)) as X. rewrite E in X. destruct (bn_any_set (words_of n z)).
  - split; [discriminate|]. intros L. exfalso. now apply X.
  - split; [|reflexivity]. intros _. 
    assert (D : low_halves_zero z \/ ~ low_halves_zero z). { rewrite <- E, low_halves_words by apply W. generalize (words_of n z). intros ws. induction ws as [|w ws [IH|IH]]; [left; constructor| |right; intros F; apply IH; now inversion F]. destruct (Z.eq_dec (BigArith.low32 w) 0); [left; now constructor|right; intros F; inversion F; contradiction]. }
    destruct D as [D|D]; [exact D|]. apply X in D. discriminate.
Qed.
Lemma seems_at n z : 1 <= n -> 0 <= z < 2 ^ capacity n -> (if n <=? 64 then z =? 0 else seems_zero n z) = true <-> zero_at n z.
Proof.
  intros Hn Hz. unfold zero_at. destruct (Z.leb_spec n 64) as [G|G].
  - rewrite Z.eqb_eq. split; [intros -> p Hp _; apply Z.bits_0|]. intros H. apply Z.bits_inj'. intros p Hp. rewrite Z.bits_0. apply H; [lia|now left].
  - rewrite seems_halves by lia. rewrite halves_bits by lia. split; intros H p Hp; [intros [X|X]; [lia|now apply H]|intros X; apply H; auto].
Qed.
Lemma lw_pos l : 1 <= lw l. Proof. apply bw_pos. Qed.
Lemma mask_parts l : lvec l -> bw (l_xz l) = lw l /\ bsgn (l_xz l) = false.
Proof. intros (_ & _ & M & Ll & S). split; [unfold lw, bw; now rewrite M, Ll|exact S]. Qed.
(** the widened number of an unsigned tidy vector is its number *)
Lemma widened_u b n : vec b -> bsgn b = false -> tidy b -> bw b <= n -> widened b n = num b.
Proof.
  intros V S T L. pose proof (num_range b) as R. unfold widened. rewrite S. pose proof (num_of_tidy b T S) as E. rewrite <- E. destruct (bw b =? n) eqn:Q; [reflexivity|]. destruct (small b); [|reflexivity]. apply Z.mod_small. split; [lia|]. apply Z.lt_le_trans with (2 ^ bw b); [lia|]. apply Z.pow_le_mono_r; lia.
Qed.
Lemma seems_nonzero_u b n : vec b -> bsgn b = false -> tidy b -> bw b <= n -> 1 <= n -> seems_nonzero b n = false <-> zero_at n (num b).
Proof.
  intros V S T L Hn. pose proof (num_range b) as R. assert (C : 2 ^ bw b <= 2 ^ capacity n) by (apply Z.pow_le_mono_r; [lia|]; pose proof (capacity_ge n Hn); lia).
  rewrite <- seems_at by lia. unfold seems_nonzero. rewrite (widened_u b n V S T L). rewrite <- (num_of_tidy b T S). destruct (n <=? 64); rewrite negb_false_iff; reflexivity.
Qed.
Lemma unknown_bit l p : unknown (sym_at l p) = bit_at (l_xz l) p.
Proof. unfold sym_at. now destruct (bit_at (l_val l) p), (bit_at (l_xz l) p). Qed.
Lemma zero_mask n l : lvec l -> zero_at n (num (l_xz l)) <-> ~ noticed_at n l.
Proof.
  intros V. destruct (mask_parts l V) as [W S]. unfold zero_at, noticed_at. split.
  - intros H (p & Hp & U & C). rewrite unknown_bit in U. unfold bit_at in U. rewrite H in U by (auto; lia). discriminate.
  - intros H p Hp C. destruct (Z.testbit (num (l_xz l)) p) eqn:E; [|reflexivity]. exfalso. apply H. exists p. assert (p < lw l). { destruct (Z.lt_ge_cases p (lw l)) as [|G]; [assumption|]. unfold num in E. rewrite W, Z.mod_pow2_bits_high in E by (pose proof (lw_pos l); lia). discriminate. } split; [lia|]. split; [|exact C]. now rewrite unknown_bit.
Qed.
Lemma doubt_noticed n l : lvec l -> tidy (l_xz l) -> lw l <= n -> doubt_at l n = true <-> noticed_at n l.
Proof.
  intros V T L. destruct (mask_parts l V) as [W S]. pose proof (lw_pos l) as P. pose proof (seems_nonzero_u (l_xz l) n ltac:(apply V) S T ltac:(lia) ltac:(lia)) as X. rewrite (zero_mask n l V) in X. fold (doubt_at l n) in X.
  destruct (doubt_at l n).
  - split; [|reflexivity]. intros _. 
    assert (D : noticed_at n l \/ ~ noticed_at n l).
    { destruct (existsb (fun p => unknown (sym_at l p) && ((n <=? 64) || (p mod 64 <? 32))) (zrange 0 (lw l))) eqn:E.
      - left. apply existsb_exists in E. destruct E as (p & I & E). apply andb_prop in E. destruct E as [U C]. exists p. split; [now apply ZBits.in_zrange|]. split; [exact U|]. apply orb_prop in C. destruct C; [left|right]; lia.
      - right. intros (p & Hp & U & C). assert (Y : existsb (fun p => unknown (sym_at l p) && ((n <=? 64) || (p mod 64 <? 32))) (zrange 0 (lw l)) = true); [|congruence]. apply existsb_exists. exists p. split; [now apply ZBits.in_zrange|]. rewrite U. cbn [andb]. destruct C as [C|C]; [replace (n <=? 64) with true by lia; reflexivity|replace (p mod 64 <? 32) with true by lia; apply orb_true_r]. }
    destruct D as [D|D]; [exact D|]. apply X in D. discriminate.
  - split; [discriminate|]. intros Y. exfalso. apply (proj1 X eq_refl Y).
Qed.
Lemma doubtful_at l : lvec l -> doubtful l = doubt_at l (lw l).
Proof. intros V. destruct (mask_parts l V) as [W S]. unfold doubtful, any_true, small, doubt_at, seems_nonzero, widened. rewrite W, Z.eqb_refl. now destruct (lw l <=? 64). Qed.
Lemma doubtful_noticed l : lvec l -> tidy (l_xz l) -> doubtful l = true <-> noticed l.
Proof. intros V T. rewrite doubtful_at by exact V. apply doubt_noticed; [exact V|exact T|lia]. Qed.

(** * results *)
Lemma certain_known b : known (certain b).
Proof.
  intros p Hp. rewrite unknown_bit. unfold certain, bit_at, num. cbn [l_xz]. assert (E : stored (object (bmsb b) (blsb b) false 0) = 0).
  { unfold object. destruct (width _ _ <=? 64) eqn:Q; unfold stored; cbn [bval].
    - unfold store, wrap. destruct (width (bmsb b) (blsb b) =? 1); [reflexivity|]. apply Zmod_0_l.
    - assert (1 <= width (bmsb b) (blsb b)) by (unfold width; lia). rewrite words_of_num by lia. apply Zmod_0_l. }
  rewrite E, Zmod_0_l. apply Z.bits_0.
Qed.
Lemma known_not_x l : known l -> ~ all_x l.
Proof. intros K A. pose proof (lw_pos l). specialize (K 0 ltac:(lia)). rewrite A in K by lia. discriminate. Qed.
Lemma unknown_all n s : 1 <= n < 2 ^ 31 -> all_x (all_unknown n s) /\ ltyped (all_unknown n s) n s.
Proof.
  intros H. rewrite <- default_unknown by lia. assert (W : width (n - 1) 0 = n) by (apply width_n; lia).
  destruct (default_x (n - 1) 0 s) as (A & B & C & D & E & F); try (unfold int_ok; lia); try (rewrite W; lia). split; [exact E|].
  destruct A as (V1 & V2 & M & L & S). unfold lmsb, llsb, lsgn in *. repeat split; auto; try apply V1; try apply V2; congruence.
Qed.
Lemma rewritten_x a : lvec a -> all_x (rewritten4 a 0 (2 ^ lw a - 1)).
Proof.
  intros V. destruct (proj1 V) as (_ & A & B & C). unfold rewritten4, lw, bw in *. fold (lmsb a) (llsb a) in *. rewrite <- default_object by (split; [exact A|split; [exact B|exact C]]). apply default_x; assumption.
Qed.
Lemma unless_iff {A} (P : A -> Prop) d x (r : outcome A) : unless d x r <> IllFormed -> P x -> (forall y, d = false -> r = Ok y -> ~ P y) -> (exists y, unless d x r = Ok y /\ P y) <-> d = true.
Proof.
  intros N Px Nr. unfold unless in *. destruct d.
  - split; [reflexivity|]. intros _. exists x. destruct r; try (split; [reflexivity|exact Px]). now destruct N.
  - split; [|discriminate]. intros (y & E & Py). exfalso. apply (Nr y eq_refl); [|exact Py]. now destruct r.
Qed.
Lemma certain_not_x r y : omap certain r = Ok y -> ~ all_x y.
Proof. destruct r; try discriminate. intros E. injection E as <-. apply known_not_x, certain_known. Qed.
Lemma wider_bound a b : lvec a -> lvec b -> 1 <= Z.max (lw a) (lw b) < 2 ^ 31.
Proof. intros (Va & _) (Vb & _). pose proof (lw_pos a). destruct Va as (_ & _ & _ & La), Vb as (_ & _ & _ & Lb). fold (lw a) in La. fold (lw b) in Lb. lia. Qed.
(** + - * / % *)
Lemma arith4_form d lop : In (d, lop) arith4 -> exists f, forall a b, lvec a -> lvec b -> lop a b = four_arith d f a b.
Proof.
  intros H. repeat (destruct H as [H|H]; [injection H as <- <-|]); [| | | | |destruct H]; eexists; intros; [apply add_four|apply sub_four|apply mul_four|apply div_four|apply rem_four]; assumption.
Qed.
Lemma arith_x_iff d lop : In (d, lop) arith4 -> forall a b, lvec a -> lvec b -> tidy (l_xz a) -> tidy (l_xz b) -> (d = true -> lsgn b = false /\ tidy (l_val b)) -> lop a b <> IllFormed ->
  (exists r, lop a b = Ok r /\ all_x r) <-> noticed_at (Z.max (lw a) (lw b)) a \/ noticed_at (Z.max (lw a) (lw b)) b \/ d = true /\ zero_at (Z.max (lw a) (lw b)) (num (l_val b)).
Proof.
  intros I a b Va Vb Ta Tb D N. destruct (arith4_form d lop I) as (f & F). rewrite F in * by assumption. unfold four_arith in *. destruct (widths_ok a b); [|now destruct N]. cbn [negb] in *. set (n := Z.max (lw a) (lw b)) in *.
  pose proof (wider_bound a b Va Vb) as B. fold n in B. destruct (unknown_all n (lsgn a && lsgn b) B) as [X _]. rewrite (unless_iff all_x) by (auto; intros y _; apply certain_not_x).
  rewrite !orb_true_iff, (doubt_noticed n a), (doubt_noticed n b) by (auto; unfold n; lia). rewrite andb_true_iff, negb_true_iff, <- or_assoc.
  assert (Q : d = true /\ seems_nonzero (l_val b) n = false <-> d = true /\ zero_at n (num (l_val b))); [|now rewrite Q].
  split; intros [-> H]; (split; [reflexivity|]); destruct (D eq_refl) as [S T]; apply (seems_nonzero_u (l_val b) n); auto; try apply Vb; try (unfold n, lw; lia); lia.
Qed.
(** ++ -- *)
Lemma step_x_iff step : In step [logic_inc; logic_dec] -> forall a, lvec a -> tidy (l_xz a) -> step a <> IllFormed -> (exists r, step a = Ok r /\ all_x r) <-> noticed a.
Proof.
  intros I a V T N. assert (F : exists d, step a = four_step d a). { destruct I as [<-|[<-|[]]]; eexists; [apply inc_four|apply dec_four]; assumption. }
  destruct F as (d & F). rewrite F in *. unfold four_step in *. destruct ((lw a =? 1) || plain_range a); [|now destruct N]. cbn [negb] in *. rewrite (unless_iff all_x); [now apply doubtful_noticed|exact N| |intros y _; apply certain_not_x].
  apply rewritten_x. exact V.
Qed.
