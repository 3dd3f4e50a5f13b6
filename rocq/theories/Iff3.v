(** Exactly when 4-state shifts, comparisons and truth values treat x and z as they should. *)
From Coq Require Import ZArith List Bool Lia.
From Verif Require Import Cpp BigNum Bit Logic Spec SpecExact SpecMachine SpecWide SpecFour SpecIff BitExt ZBits Words BigNumProofs BitProofs BitCmp BitMain BitMain2 MachineProofs LogicProofs LogicOps LogicArith LogicArith2 LogicMain LogicRed ReachProofs WideProofs WideProofs2 FourProofs FourProofs2 Iff2.
Import ListNotations.
Open Scope Z_scope.
Local Ltac Zify.zify_post_hook ::= idtac.

(** the number in a vector after a number is written into it *)
Lemma object_num m l s z : 2 <= width m l -> num (object m l s z) = z mod 2 ^ width m l.
Proof.
  intros H. unfold num. unfold bw. cbn [object bmsb blsb]. unfold stored, object. cbn [bval]. destruct (Z.leb_spec (width m l) 64) as [G|G].
  - unfold store. replace (width m l =? 1) with false by lia. destruct (storage_cases (width m l)) as [A _]; [lia|]. unfold wrap. destruct s.
    + fold (swrap (storage (width m l)) z). apply swrap_mod_le; lia.
    + apply mod_mod_pow2. lia.
  - rewrite words_of_num by lia. apply mod_mod_pow2. pose proof (capacity_ge (width m l)). lia.
Qed.
Lemma object_num0 m l s : num (object m l s 0) = 0.
Proof.
  destruct (Z.eq_dec (width m l) 1) as [E|E]; [|rewrite object_num by (unfold width in *; lia); apply Zmod_0_l].
  unfold num, stored, object, bw. cbn [bmsb blsb bval]. rewrite E. reflexivity.
Qed.
Lemma vec_of_num n s z : 2 <= n -> num (vec_of n s z) = z mod 2 ^ n.
Proof. intros H. unfold vec_of. rewrite object_num by (rewrite width_n; lia). now rewrite width_n by lia. Qed.
Lemma vector_num0 n s : 1 <= n <= 64 -> num (vector n s 0) = 0.
Proof. intros H. rewrite <- vec_of_small by lia. apply object_num0. Qed.

(** << >> >>> *)
Lemma amount_nonneg k : vec k -> 0 <= any_amount k.
Proof.
  intros V. unfold any_amount, small. destruct (Z.leb_spec (bw k) 64); [apply Z.mod_pos_bound; reflexivity|]. apply stored_range; [exact V|lia].
Qed.
Lemma tidy_zero b : tidy b -> num b = 0 -> stored b = 0.
Proof.
  unfold tidy, num, stored. pose proof (bw_pos b) as P. pose proof (pow2_pos (bw b - 1) ltac:(lia)) as Q. assert (D : 2 ^ bw b = 2 * 2 ^ (bw b - 1)) by (rewrite <- Z.pow_succ_r by lia; f_equal; lia).
  intros T Z0. apply Z.mod_divide in Z0; [|lia]. destruct Z0 as [c C]. destruct (bval b) as [v|ws]; [destruct (bsgn b && (1 <? bw b))|]; assert (c = 0) by nia; nia.
Qed.
Lemma shift_mask f x k m : In f [any_left; any_right; any_arith] -> vec x -> vec k -> bsgn x = false -> tidy x -> zero_at (bw x) (num x) -> f x k = Ok m -> bw m = bw x /\ exists p, 0 <= p < bw x /\ bit_at m p = false.
Proof.
  intros I Vx Vk S T Z0 E. pose proof (bw_pos x) as P. pose proof (amount_nonneg k Vk) as A. pose proof (num_of_tidy x T S) as N.
  assert (F : exists g h, f x k = any_shift g (h x) x k /\ (forall x k m, g x k = Ok m -> bw x <= 64 -> stored x = 0 -> m = vector (bw x) (both_signed x k) 0) /\
     (forall x z, bsgn x = false -> num x = stored x -> 0 <= z -> Z.testbit (num x) 0 = false -> 65 <= bw x -> exists p, 0 <= p < bw x /\ Z.testbit (h x z) p = false)).
  { destruct I as [<-|[<-|[<-|[]]]].
    - exists shifted_left, (fun a z => (stored a * 2 ^ z) mod 2 ^ bw a). split; [reflexivity|]. split.
      + intros a c r. unfold shifted_left. destruct (shiftable a c); [|discriminate]. intros H _ X. rewrite X in H. now injection H as <-.
      + intros a z Sa Na Hz B L. exists 0. split; [lia|]. rewrite Z.mod_pow2_bits_low by lia. rewrite Z.mul_pow2_bits by lia. destruct (Z.eq_dec z 0) as [->|]; [now rewrite <- Na|]. apply Z.testbit_neg_r. lia.
    - exists shifted_right, (fun a z => num a / 2 ^ z). split; [reflexivity|]. split.
      + intros a c r. unfold shifted_right. destruct (bw a =? 1).
        * destruct (_ && _); [|discriminate]. intros H _ X. rewrite X in H. destruct (stored c =? 0); now injection H as <-.
        * destruct (_ && _) eqn:Q; [|discriminate]. intros H _ X. rewrite X, Z.div_0_l, Zmod_0_l in H by (apply Z.pow_nonzero; lia). now injection H as <-.
      + intros a z Sa Na Hz B L. destruct (Z.eq_dec z 0) as [->|]; [exists 0; split; [lia|]; now rewrite Z.pow_0_r, Z.div_1_r|]. exists (bw a - 1). split; [lia|]. rewrite Z.div_pow2_bits by lia. unfold num. apply Z.mod_pow2_bits_high. lia.
    - exists shifted_arith, (fun a z => if bsgn a then let r := (snum a / 2 ^ z) mod 2 ^ bw a in if z <? bw a then Z.clearbit r (bw a - 1 - z) else r else num a / 2 ^ z). split; [reflexivity|]. split.
      + intros a c r. unfold shifted_arith. destruct (shiftable a c) eqn:Q; [|discriminate]. unfold shiftable in Q. intros H _ X. rewrite X, Z.div_0_l in H by (apply Z.pow_nonzero; lia). now injection H as <-.
      + intros a z Sa Na Hz B L. rewrite Sa. destruct (Z.eq_dec z 0) as [->|]; [exists 0; split; [lia|]; now rewrite Z.pow_0_r, Z.div_1_r|]. exists (bw a - 1). split; [lia|]. rewrite Z.div_pow2_bits by lia. unfold num. apply Z.mod_pow2_bits_high. lia. }
  destruct F as (g & h & F & G & H). rewrite F in E. unfold any_shift in E. unfold zero_at in Z0. destruct (small x) eqn:Q; unfold small in Q.
  - destruct (small k); [|discriminate]. assert (Zn : num x = 0). { apply Z.bits_inj'. intros p Hp. rewrite Z.bits_0. apply Z0; [lia|left; lia]. }
    apply G in E; [|lia|now rewrite <- N]. subst m. split; [apply (width_n (bw x)); lia|]. exists 0. split; [lia|]. unfold bit_at. rewrite vector_num0 by lia. apply Z.bits_0.
  - injection E as <-. split; [apply vec_of_bw; lia|]. destruct (H x (any_amount k) S N A (Z0 0 ltac:(lia) ltac:(right; reflexivity)) ltac:(lia)) as (p & Hp & Bp). exists p. split; [exact Hp|]. unfold bit_at. rewrite vec_of_num by lia. rewrite Z.mod_pow2_bits_low by lia. exact Bp.
Qed.
Lemma shift_x_iff op : In op shifts4 -> forall a k, lvec a -> lvec k -> tidy (l_xz a) -> tidy (l_xz k) -> op a k <> IllFormed ->
  (exists r, op a k = Ok r /\ all_x r) <-> noticed a \/ noticed k.
Proof.
  intros I a k Va Vk Ta Tk N. assert (F : exists f, In f [any_left; any_right; any_arith] /\ op a k = four_shift f a k).
  { destruct I as [<-|[<-|[<-|[]]]]; eexists; (split; [|apply shl_four || apply shr_four || apply ashr_four; assumption]); cbn; auto. }
  destruct F as (f & J & F). rewrite F in *. unfold four_shift in *. destruct (mask_parts a Va) as [W S].
  assert (DN : doubtful a || doubtful k = true <-> noticed a \/ noticed k) by (rewrite orb_true_iff, !doubtful_noticed by assumption; tauto). rewrite <- DN.
  apply (unless_iff all_x); [exact N| |].
  - apply unknown_all. apply (wider_bound a a Va Va) || (pose proof (wider_bound a a Va Va); lia).
  - intros y D E X. assert (Z0 : zero_at (bw (l_xz a)) (num (l_xz a))). { rewrite W. apply zero_mask; [exact Va|]. intros C. apply orb_false_elim in D. destruct D as [D _]. assert (doubtful a = true); [|congruence]. apply doubtful_noticed; assumption. }
    destruct (f (l_val a) (l_val k)) as [v| | | |] eqn:Ev; try discriminate. cbn [bind] in E. destruct (f (l_xz a) (l_val k)) as [m| | | |] eqn:Em; try discriminate. cbn [bind] in E. injection E as <-.
    destruct (shift_mask f (l_xz a) (l_val k) m J ltac:(apply Va) ltac:(apply Vk) S Ta Z0 Em) as (Bm & p & Hp & B).
    assert (Bv : bw v = lw a). { clear - Ev J Va. pose proof (bw_pos (l_val a)) as P. destruct J as [<-|[<-|[<-|[]]]]; unfold any_left, any_right, any_arith, any_shift in Ev; destruct (small (l_val a)) eqn:Q; unfold small in Q;
      try (apply (f_equal (fun o => match o with Ok x => bw x | _ => 0 end)) in Ev; cbv beta iota in Ev; rewrite vec_of_bw in Ev by lia; exact (eq_sym Ev)); (destruct (small (l_val k)); [|discriminate Ev]); unfold shifted_left, shifted_right, shifted_arith in Ev.
      - destruct (shiftable _ _); [|discriminate]. injection Ev as <-. apply (width_n (bw (l_val a))). lia.
      - destruct (bw (l_val a) =? 1); (destruct (_ && _); [|discriminate]); injection Ev as <-; apply (width_n (bw (l_val a))); lia.
      - destruct (shiftable _ _); [|discriminate]. injection Ev as <-. apply (width_n (bw (l_val a))). lia. }
    specialize (X p). unfold lw in X. cbn [l_val] in X. rewrite Bv, <- W in X. specialize (X Hp). pose proof (unknown_bit (mkLogic v m) p) as U. rewrite X in U. cbn [l_xz unknown] in U. congruence.
Qed.
(** comparisons *)
Lemma compare_x_iff op : In op compares4 -> forall a b, lvec a -> lvec b -> tidy (l_xz a) -> tidy (l_xz b) -> op a b <> IllFormed ->
  (exists r, op a b = Ok r /\ sym_at r 0 = SX) <-> noticed a \/ noticed b.
Proof.
  intros I a b Va Vb Ta Tb N. assert (F : exists f, op a b = four_compare f a b).
  { destruct I as [<-|[<-|[<-|[<-|[<-|[<-|[]]]]]]]; eexists; [apply eq_four|apply ne_four|apply lt_four|apply le_four|apply gt_four|apply ge_four]; assumption. }
  destruct F as (f & F). rewrite F in *. unfold four_compare in *. assert (DN : doubtful a || doubtful b = true <-> noticed a \/ noticed b) by (rewrite orb_true_iff, !doubtful_noticed by assumption; tauto). rewrite <- DN.
  apply (unless_iff (fun r => sym_at r 0 = SX)); [exact N|reflexivity|]. intros y _ E. destruct (f (l_val a) (l_val b)) as [[]| | | |]; try discriminate; injection E as <-; discriminate.
Qed.
(** truth values *)
Lemma any_true_iff b : vec b -> tidy b -> any_true b = true <-> exists p, 0 <= p < bw b /\ bit_at b p = true /\ (bw b <= 64 \/ p mod 64 < 32).
Proof.
  intros V T. pose proof (bw_pos b) as P. pose proof (num_range b) as R. unfold any_true, small. destruct (Z.leb_spec (bw b) 64) as [G|G].
  - rewrite negb_true_iff, Z.eqb_neq. split.
    + intros H. assert (num b <> 0) by (intros X; now apply H, tidy_zero). exists (Z.log2 (num b)). split; [split; [apply Z.log2_nonneg|apply Z.log2_lt_pow2; lia]|]. split; [apply Z.bit_log2; lia|now left].
    + intros (p & Hp & B & _) H. unfold bit_at, num in B. rewrite H, Zmod_0_l, Z.bits_0 in B. discriminate.
  - pose proof (stored_range b V ltac:(lia)) as SR. assert (E : stored b = num b). { unfold tidy in T. unfold num. pose proof V as (O & _). unfold stored in *. destruct (bval b) as [v|ws] eqn:EB; [|symmetry; apply Z.mod_small; lia]. exfalso. destruct (vec_cases b V) as [(v' & E1 & E2 & _)|(ws & E1 & _)]; congruence || lia. }
    rewrite negb_true_iff. pose proof (seems_at (bw b) (num b) P ltac:(rewrite <- E; lia)) as X. replace (bw b <=? 64) with false in X by lia. rewrite <- E in X at 1.
    destruct (seems_zero (bw b) (stored b)) eqn:Q.
    + split; [discriminate|]. intros (p & Hp & B & C). apply proj1 in X. specialize (X eq_refl p ltac:(lia) C). unfold bit_at in B. congruence.
    + split; [|reflexivity]. intros _. destruct (existsb (fun p => bit_at b p && (p mod 64 <? 32)) (zrange 0 (bw b))) eqn:Y.
      * apply existsb_exists in Y. destruct Y as (p & J & Y). apply andb_prop in Y. exists p. split; [now apply ZBits.in_zrange|]. split; [apply Y|right; lia].
      * exfalso. assert (zero_at (bw b) (num b)); [|apply X in H; discriminate]. intros p Hp [C|C]; [lia|]. destruct (Z.testbit (num b) p) eqn:B; [|reflexivity]. exfalso.
        assert (p < bw b). { destruct (Z.lt_ge_cases p (bw b)) as [|L]; [assumption|]. unfold num in B. rewrite Z.mod_pow2_bits_high in B by lia. discriminate. }
        assert (K : existsb (fun p => bit_at b p && (p mod 64 <? 32)) (zrange 0 (bw b)) = true); [|congruence]. apply existsb_exists. exists p. split; [apply ZBits.in_zrange; lia|]. unfold bit_at. rewrite B. cbn [andb]. lia.
Qed.
