(** A register that sums up what it is given. *)
From Coq Require Import ZArith List Bool Lia.
From Verif Require Import Cpp ZBits BigNum Bit Logic Spec SpecExact SpecExact4 SpecMachine SpecWide SpecFour Client SpecProg SpecProg4 SpecAccum Accum BitProofs BitExt BitMain LogicMain LogicArith LogicArith2 Client4Proofs Iff3 Iff15 Iff25 ProgExact ProgExact4 FourProofs2 WideProofs WideProofs3 SaturateProofs ScanProofs.
From Verif Require LogicProofs FmtDec SpecIff Iff17.
Import ListNotations.
Open Scope Z_scope.
Local Ltac Zify.zify_post_hook ::= idtac.

Definition inv (n : Z) (r : logic) (st : option Z) : Prop :=
  match st with None => ltyped r n false /\ tidy (l_xz r) /\ all_x r | Some z => exists v, r = holding n (v, 0) /\ 0 <= v < 2 ^ room n /\ v mod 2 ^ n = z end.
Lemma known_holding n d : 2 <= n < 2 ^ 31 -> ltyped d n false -> ltidy d -> known d -> d = holding n (num (l_val d), 0) /\ 0 <= num (l_val d) < 2 ^ n.
Proof.
  intros Hn T [T1 T2] K. destruct (tidy_state n (l_val d) Hn (proj1 T) T1) as [E1 R]. destruct (tidy_state n (l_xz d) Hn (proj2 T) T2) as [E2 _]. rewrite (FmtDec.known_zero d (LogicProofs.ltyped_lvec _ _ _ T) K) in E2.
  split; [|exact R]. unfold holding. cbn [fst snd]. rewrite <- E1, <- E2. destruct d. reflexivity.
Qed.
Lemma holding_inv n v : 2 <= n < 2 ^ 31 -> 0 <= v < 2 ^ room n -> ltyped (holding n (v, 0)) n false /\ tidy (l_xz (holding n (v, 0))) /\ known (holding n (v, 0)) /\ num (l_val (holding n (v, 0))) = v mod 2 ^ n.
Proof.
  intros Hn R. unfold holding. cbn [fst snd l_val l_xz]. split; [split; apply vec_of_typed; lia|]. pose proof (room_le n ltac:(lia)). pose proof (pow2_pos n ltac:(lia)). split; [|split].
  - apply (tidy_u_iff _ n ltac:(lia) (vec_of_typed n false 0 ltac:(lia))). rewrite kept_stored, Z.mod_small by lia. lia.
  - apply known_of_num0. cbn [l_xz]. rewrite vec_of_num, Z.mod_0_l by lia. reflexivity.
  - apply vec_of_num. lia.
Qed.
Lemma all_x_unknown n r : 2 <= n -> ltyped r n false -> all_x r -> ~ known r /\ seen r.
Proof.
  intros Hn T X. assert (L : lw r = n) by (apply (LogicProofs.ltyped_lw r n false ltac:(lia) T)). split.
  - intros K. specialize (K 0 ltac:(lia)). rewrite (X 0 ltac:(lia)) in K. discriminate.
  - apply (Client4Proofs.noticed_seen n r (sym_at r) false ltac:(lia) T); [intros p _; reflexivity|]. right. right. exists 0. split; [lia|]. split; [reflexivity|]. rewrite (X 0 ltac:(lia)). reflexivity.
Qed.
Lemma accum_one n zero r st i e : 2 <= n < 2 ^ 31 -> ltyped zero n false -> ltidy zero -> known zero -> num (l_val zero) = 0 -> inv n r st -> given n i e -> seen (snd i) -> exists r', accum_step zero r i = Ok r' /\ inv n r' (next n st e).
Proof.
  intros Hn Z Tz Kz Ez I G Sd. destruct i as [[rst en] d], e as [[sr se] v]. destruct G as (R1 & R2 & E1 & E2 & D & Td & F). cbn [snd] in Sd. unfold accum_step. rewrite (bool1 rst R1), (bool1 en E1), R2, E2.
  assert (A : exists r', logic_add r d = Ok r' /\ inv n r' (match st, v with Some x, Some y => Some ((x + y) mod 2 ^ n) | _, _ => None end)).
  { assert (U : forall (T : ltyped r n false) (Tx : tidy (l_xz r)) (S : seen r), ~ known r \/ ~ known d -> exists r', logic_add r d = Ok r' /\ inv n r' None).
    { intros T Tx S Un. destruct (arith_unknown false logic_add bit_add ltac:(left; reflexivity) r d n n false false) as (r' & E & T' & X' & D'); try assumption; try lia; try apply Td; try tauto; rewrite ?Z.max_id.
      - unfold seen_at. rewrite <- (LogicProofs.ltyped_lw r n false ltac:(lia) T). exact S.
      - unfold seen_at. rewrite <- (LogicProofs.ltyped_lw d n false ltac:(lia) D). exact Sd.
      - rewrite Z.max_id in T'. exists r'. split; [exact E|]. split; [exact T'|]. split; [apply D'|exact X']. }
    destruct st as [x|]; [destruct v as [y|]|].
    - destruct I as (w & -> & W & Wx). destruct F as [Kd Fd]. destruct (known_holding n d Hn D Td Kd) as [Ed Rd]. rewrite Fd in Ed, Rd. pose proof (room_le n ltac:(lia)) as RL.
      rewrite add_four by (apply LogicProofs.ltyped_lvec with n false; first [apply D | apply holding_inv; assumption]). rewrite Ed.
      assert (N0 : SpecProg4.noticed n 0 = false) by (unfold SpecProg4.noticed; destruct (n <=? 64); [reflexivity|]; unfold seems_zero; destruct (seems_zero n 0) eqn:Q; [unfold seems_zero in Q; rewrite Q; reflexivity|exfalso; assert (seems_zero n 0 = true) by (apply Iff17.zero_hollow; [lia|pose proof (pow2_pos n ltac:(lia)); lia|intros p _ _; apply Z.bits_0]); congruence]).
      rewrite (k4_arith n Hn false any_sum (Ok ((w + y) mod 2 ^ room n))).
      + cbn [snd]. rewrite N0. cbn [orb andb strict omap bind]. eexists. split; [reflexivity|]. exists ((w + y) mod 2 ^ room n). split; [reflexivity|]. split; [apply Z.mod_pos_bound; lia|].
        destruct (room_range n ltac:(lia)) as (Rm & _). replace (room n) with (n + (room n - n)) by lia. rewrite Z.pow_add_r by lia. pose proof (pow2_pos (room n - n) ltac:(lia)). pose proof (pow2_pos n ltac:(lia)). rewrite Z.rem_mul_r by lia. rewrite Z.mul_comm, Z_mod_plus_full, Z.mod_mod by lia. rewrite <- Wx. rewrite Zplus_mod_idemp_l. reflexivity.
      + split; cbn [fst snd]; lia.
      + split; cbn [fst snd]; lia.
      + cbn [fst]. rewrite <- add_any by (apply (vec_of_typed n false); lia). rewrite (k_add n Hn) by lia. reflexivity.
      + intros z [= <-]. apply Z.mod_pos_bound. lia.
      + discriminate.
    - destruct I as (w & -> & W & Wx). destruct (holding_inv n w Hn W) as (T & Tx & K & _). apply U; [exact T|exact Tx|apply (known_seen _ (LogicProofs.ltyped_lvec _ _ _ T) Tx K)|right; exact F].
    - destruct I as (T & Tx & X). destruct (all_x_unknown n r ltac:(lia) T X) as [NK S]. apply U; [exact T|exact Tx|exact S|left; exact NK]. }
  assert (Rz : inv n zero (Some 0)). { destruct (known_holding n zero Hn Z Tz Kz) as [Eh Rh]. rewrite Ez in Eh, Rh. exists 0. split; [exact Eh|]. pose proof (room_le n ltac:(lia)). split; [lia|]. apply Z.mod_0_l. lia. }
  destruct sr; cbn [is1 next]; try (destruct se; cbn [is1]; first [exact A | exists r; split; [reflexivity|exact I]]). exists zero. split; [reflexivity|exact Rz].
Qed.
Lemma accum_inv n zero : 2 <= n < 2 ^ 31 -> ltyped zero n false -> ltidy zero -> known zero -> num (l_val zero) = 0 -> forall is es, Forall2 (given n) is es -> (forall i, In i is -> seen (snd i)) -> forall r st, inv n r st -> exists r', accum zero is r = Ok r' /\ inv n r' (fold_left (next n) es st).
Proof.
  intros Hn Z Tz Kz Ez is es F. induction F as [|i e is es G F IH]; intros S r st I; [exists r; split; [reflexivity|exact I]|]. unfold accum. cbn [ofold fold_left]. destruct (accum_one n zero r st i e Hn Z Tz Kz Ez I G (S i (or_introl eq_refl))) as (r1 & E & I1). rewrite E. cbn [bind]. apply (IH (fun j Hj => S j (or_intror Hj)) r1 _ I1).
Qed.
Lemma accum_all n zero is es r : 2 <= n -> ltyped zero n false -> ltidy zero -> known zero -> num (l_val zero) = 0 -> Forall2 (given n) is es -> (forall i, In i is -> seen (snd i)) -> ltyped r n false -> ltidy r -> all_x r ->
  exists r', accum zero is r = Ok r' /\ ltyped r' n false /\ holds_state n r' (fold_left (next n) es None).
Proof.
  intros Hn Z Tz Kz Ez F Sn T Tr X. pose proof (typed_lt (l_val zero) n false ltac:(lia) (proj1 Z)) as Lt. destruct (accum_inv n zero ltac:(lia) Z Tz Kz Ez is es F Sn r None) as (r' & E & I). { split; [exact T|]. split; [apply Tr|exact X]. }
  exists r'. split; [exact E|]. destruct (fold_left (next n) es None) as [z|]; [|split; apply I]. destruct I as (v & -> & V & <-). destruct (holding_inv n v ltac:(lia) V) as (T' & _ & K & N). split; [exact T'|]. split; [exact K|exact N].
Qed.

Lemma Forall2_In_l {A B} (R : A -> B -> Prop) l m x : Forall2 R l m -> In x l -> exists y, In y m /\ R x y.
Proof. intros F. induction F as [|a b l m H F IH]; [intros []|]. intros [<-|I]; [exists b; split; [left; reflexivity|exact H]|]. destruct (IH I) as (y & Y & Q). exists y. split; [right; exact Y|exact Q]. Qed.
(** * no other widths *)
Definition right_at (n : Z) : Prop := forall zero is es r, ltyped zero n false -> ltidy zero -> known zero -> num (l_val zero) = 0 -> Forall2 (given n) is es -> ltyped r n false -> ltidy r -> all_x r ->
  exists r', accum zero is r = Ok r' /\ ltyped r' n false /\ holds_state n r' (fold_left (next n) es None).
Lemma one1 v m : ltyped (mkLogic (bit0 v) (bit0 m)) 1 false.
Proof. destruct v, m; conc. Qed.
Lemma accum_exact n : 1 <= n < 2 ^ 31 -> right_at n <-> 2 <= n <= 64.
Proof.
  intros Hn. set (on := mkLogic (bit0 true) (bit0 false)). set (off := mkLogic (bit0 false) (bit0 false)). set (ex := mkLogic (bit0 false) (bit0 true)). split.
  - intros H. destruct (Z.eq_dec n 1) as [->|N1].
    + exfalso. assert (K : forall v, known (mkLogic (bit0 v) (bit0 false))) by (intros v; apply known_of_num0; reflexivity).
      assert (D : forall v m, ltidy (mkLogic (bit0 v) (bit0 m))) by (intros v m; destruct v, m; conc).
      destruct (H off [(on, off, on); (off, on, on); (off, on, on)] [(S1, S0, Some 1); (S0, S1, Some 1); (S0, S1, Some 1)] ex) as (r' & E & _ & Q); try apply one1; try apply D; try apply K; try reflexivity.
      * constructor; [|constructor; [|constructor; [|constructor]]]; (split; [apply one1|]; split; [reflexivity|]; split; [apply one1|]; split; [reflexivity|]; split; [apply one1|]; split; [apply D|split; [apply K|reflexivity]]).
      * intros p Hp. assert (p = 0) as -> by (change (lw ex) with 1 in Hp; lia). reflexivity.
      * vm_compute in E. injection E as <-. destruct Q as [_ Q]. vm_compute in Q. discriminate.
    + destruct (Z.le_gt_cases n 64) as [L|L]; [lia|]. exfalso. pose proof (room_le n ltac:(lia)) as RL. assert (P : 2 ^ 32 < 2 ^ n) by (apply Z.pow_lt_mono_r; lia). pose proof (pow2_pos n ltac:(lia)) as Pn.
      set (zero := holding n (0, 0)). set (d := holding n (0, 2 ^ 32)). set (r := holding n (0, 2 ^ n - 1)).
      assert (TT : forall m, 0 <= m < 2 ^ n -> ltyped (holding n (0, m)) n false /\ ltidy (holding n (0, m)) /\ num (l_xz (holding n (0, m))) = m).
      { intros m M. unfold holding. cbn [fst snd]. split; [split; apply vec_of_typed; lia|]. split; [|cbn [l_xz]; rewrite vec_of_num, Z.mod_small by lia; reflexivity]. split; cbn [l_val l_xz]; (apply (tidy_u_iff _ n ltac:(lia) (vec_of_typed n false _ ltac:(lia))); rewrite kept_stored, Z.mod_small by lia; lia). }
      destruct (TT 0 ltac:(lia)) as (Tz & Dz & Nz). destruct (TT (2 ^ 32) ltac:(lia)) as (Td & Dd & Nd). destruct (TT (2 ^ n - 1) ltac:(lia)) as (Tr & Dr & Nr).
      destruct (H zero [(on, off, d); (off, on, d)] [(S1, S0, None); (S0, S1, None)] r) as (r' & E & _ & Q); try assumption.
      * apply known_of_num0. exact Nz.
      * assert (U : ~ known d). { intros K. apply (FmtDec.known_zero d (LogicProofs.ltyped_lvec _ _ _ Td)) in K. fold d in Nd. rewrite Nd in K. discriminate. }
        constructor; [|constructor; [|constructor]]; (split; [apply one1|]; split; [reflexivity|]; split; [apply one1|]; split; [reflexivity|]; split; [exact Td|]; split; [exact Dd|exact U]).
      * intros p Hp. rewrite (LogicProofs.ltyped_lw r n false ltac:(lia) Tr) in Hp. unfold sym_at. assert (B1 : bit_at (l_xz r) p = true). { unfold bit_at. fold r in Nr. rewrite Nr. replace (2 ^ n - 1) with (Z.ones n) by (rewrite Z.ones_equiv; lia). apply Z.ones_spec_low. lia. }
        assert (B2 : bit_at (l_val r) p = false). { unfold bit_at, r, holding. cbn [fst snd l_val]. rewrite vec_of_num, Z.mod_0_l by lia. apply Z.bits_0. } rewrite B1, B2. reflexivity.
      * unfold accum in E. cbn [ofold accum_step] in E. change (logic_bool on) with true in E. cbn [bind] in E. change (logic_bool off) with false in E. cbn iota in E.
        rewrite add_four in E by (apply LogicProofs.ltyped_lvec with n false; assumption). unfold zero, d in E.
        assert (NN : forall z, 0 <= z < 2 ^ n -> SpecIff.hollow z -> SpecProg4.noticed n z = false). { intros z Z1 Z2. unfold SpecProg4.noticed. replace (n <=? 64) with false by lia. apply negb_false_iff. apply Iff17.zero_hollow; [lia|lia|exact Z2]. }
        rewrite (k4_arith n ltac:(lia) false any_sum (Ok ((0 + 0) mod 2 ^ room n))) in E.
        -- cbn [snd] in E. rewrite (NN 0), (NN (2 ^ 32)) in E; [|lia| |lia|intros p _ _; apply Z.bits_0].
           ++ cbn [orb andb strict omap bind] in E. rewrite Z.mod_0_l in E by lia. injection E as <-. change (all_x (holding n (0, 0))) in Q. specialize (Q 0). rewrite (LogicProofs.ltyped_lw _ n false ltac:(lia) Tz) in Q. specialize (Q ltac:(lia)).
              assert (K : unknown (sym_at (holding n (0, 0)) 0) = false) by (rewrite LogicProofs.unknown_at; apply known_num0; exact Nz). rewrite Q in K. discriminate.
           ++ intros p Hp Hq. rewrite Z.pow2_bits_false; [reflexivity|]. intros C. subst p. vm_compute in Hq. discriminate.
        -- split; cbn [fst snd]; lia.
        -- split; cbn [fst snd]; lia.
        -- cbn [fst]. rewrite <- add_any by (apply (vec_of_typed n false); lia). rewrite (k_add n ltac:(lia)) by lia. reflexivity.
        -- intros z [= <-]. apply Z.mod_pos_bound. lia.
        -- discriminate.
  - intros L zero is es r Z Tz Kz Ez F T Tr X. apply (accum_all n zero is es r ltac:(lia) Z Tz Kz Ez F); try assumption. intros [[a b] d] Hi. cbn [snd]. left. destruct (Forall2_In_l _ _ _ _ F Hi) as ([[? ?] ?] & _ & G). destruct G as (_ & _ & _ & _ & D & _). rewrite (LogicProofs.ltyped_lw d n false ltac:(lia) D). lia.
Qed.
