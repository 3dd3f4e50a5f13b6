(** Exactly when an unpacked vector can be joined again. *)
From Coq Require Import ZArith List Bool Lia Zify ZifyBool.
From Verif Require Import Cpp BigNum Bit Logic More Spec SpecExact SpecMachine SpecWide SpecFour SpecIff SpecIff4 ZBits Words BigNumProofs BitProofs BitExt BitOps BitMain BitMain3 MachineProofs WideProofs WideProofs3 WideProofs4 Reach ReachProofs ReachProofs2 ReachProofs4 FourProofs FourProofs2 FourProofs3 LogicProofs LogicConv2 LogicMain MoreProofs Rest RestProofs LawProofs Iff3 Iff5 Iff6 Iff14 Iff18 Iff19.
Import ListNotations.
Open Scope Z_scope.
Local Ltac Zify.zify_post_hook ::= idtac.

Lemma join_low a b na nb r : 1 <= na <= 32 -> 1 <= nb -> 32 < na + nb -> typed a na false -> typed b nb false -> tidy a -> tidy b -> bit_concat a b = Ok r -> num r < 2 ^ 32.
Proof.
  intros Ha Hb Hab Ta Tb Da Db E. assert (Ha1 : 1 <= na) by lia. destruct (join_ok _ _ _ _ _ Ha1 Hb Ta Tb E) as [Tr L].
  pose proof (typed_bw _ _ _ Ha1 Ta) as Wa. pose proof (typed_bw _ _ _ Hb Tb) as Wb. assert (Hr : 1 <= na + nb) by lia. pose proof (typed_bw _ _ _ Hr Tr) as Wr.
  assert (S : 0 <= stored r < 2 ^ 32).
  { destruct Ta as (Va & _ & Sa), Tb as (Vb & _ & Sb). rewrite concat_any in E by assumption. unfold joined in E. rewrite Wa, Wb, Sa, Sb in E. replace (64 <=? na + nb) with false in E by lia.
    assert (C1 : computing na = 32) by (unfold computing; replace (na <=? 32) with true by lia; reflexivity). rewrite C1 in E. destruct (Z.leb_spec 32 nb) as [H|H]; [discriminate|].
    assert (C2 : computing nb = 32) by (unfold computing; replace (nb <=? 32) with true by lia; reflexivity). rewrite C2 in E. change (Z.max 32 32) with 32 in E. rewrite Z.ltb_irrefl, !orb_false_r in E. replace ((na <=? 16) && (nb <=? 16)) with false in E by lia.
    injection E as <-. unfold vector, stored. cbn [bval]. unfold store. replace (na + nb =? 1) with false by lia. assert (St : storage (na + nb) = 64) by (unfold storage; replace (na + nb <=? 8) with false by lia; replace (na + nb <=? 16) with false by lia; replace (na + nb <=? 32) with false by lia; reflexivity). rewrite St.
    change (Z.pow_pos 2 32) with (2 ^ 32). match goal with |- context [Z.lor ?u ?v] => assert (R : 0 <= Z.lor u v < 2 ^ 32) by (apply lor_range; [lia|apply Z.mod_pos_bound; lia|apply Z.mod_pos_bound; lia]); set (w := Z.lor u v) in * end.
    unfold wrap. rewrite Z.mod_small by lia. exact R. }
  unfold num. rewrite Wr. rewrite Z.mod_small; [lia|]. assert (2 ^ 32 <= 2 ^ (na + nb)) by (apply Z.pow_le_mono_r; lia). lia.
Qed.
Lemma ljoin_ok a b na nb r : 1 <= na -> 1 <= nb -> ltyped a na false -> ltyped b nb false -> ltidy a -> ltidy b -> logic_concat a b = Ok r -> ltyped r (na + nb) false /\ ltidy r /\ na + nb < 64.
Proof.
  intros Ha Hb Ta Tb [D1 D2] [D3 D4] E. apply (ljoin_parts a b na nb) in E; auto. destruct E as [E1 E2]. destruct Ta, Tb.
  destruct (join_ok _ _ _ _ _ Ha Hb H H1 E1) as [T1 L]. destruct (join_ok _ _ _ _ _ Ha Hb H0 H2 E2) as [T2 _]. split; [split; assumption|]. split; [|exact L]. split; [apply (join_tidy (l_val a) (l_val b) na nb)|apply (join_tidy (l_xz a) (l_xz b) na nb)]; assumption.
Qed.
Lemma ljoin_iff a b na nb : 1 <= na -> 1 <= nb -> ltyped a na false -> ltyped b nb false -> ltidy a -> ltidy b ->
  (exists r, logic_concat a b = Ok r /\ forall p, 0 <= p < na + nb -> sym_at r p = if p <? nb then sym_at b p else sym_at a (p - nb)) <->
  na + nb < 64 /\ (33 <= na \/ (nb <= 31 /\ forall p, 32 - nb <= p < na -> sym_at a p = S0)).
Proof.
  intros Ha Hb Ta Tb Da Db. rewrite <- (logic_slices_iff a b na nb) by assumption.
  assert (K : forall r, logic_concat a b = Ok r -> (logic_slice_c r (nb - 1) 0 = Ok b /\ logic_slice_c r (na + nb - 1) nb = Ok a) <-> forall p, 0 <= p < na + nb -> sym_at r p = if p <? nb then sym_at b p else sym_at a (p - nb)).
  { intros r E. destruct (ljoin_ok _ _ _ _ _ Ha Hb Ta Tb Da Db E) as (Tr & Dr & L). assert (Hr : 1 <= na + nb) by lia.
    destruct (lslice_c r (na + nb) (nb - 1) 0 Hr Tr ltac:(lia) ltac:(lia) ltac:(lia)) as (lo & El & Tl & Yl & Ql).
    destruct (lslice_c r (na + nb) (na + nb - 1) nb Hr Tr ltac:(lia) ltac:(lia) ltac:(lia)) as (hi & Eh & Th & Yh & Qh).
    replace (Z.abs (nb - 1 - 0) + 1) with nb in * by lia. replace (Z.abs (na + nb - 1 - nb) + 1) with na in * by lia. rewrite El, Eh. split.
    - intros [X Y]. injection X as ->. injection Y as ->. intros p P. destruct (Z.ltb_spec p nb); [rewrite Ql by lia|rewrite Qh by lia]; f_equal; lia.
    - intros H. split; f_equal; [apply (logic_ext lo b nb)|apply (logic_ext hi a na)]; auto; intros p P; [rewrite Ql by lia|rewrite Qh by lia]; rewrite H by lia.
      + replace (Z.min (nb - 1) 0 + p) with p by lia. replace (p <? nb) with true by lia. reflexivity.
      + replace (Z.min (na + nb - 1) nb + p) with (nb + p) by lia. replace (nb + p <? nb) with false by lia. f_equal. lia. }
  split; intros (r & E & H); exists r; split; try exact E; apply (K r E); exact H.
Qed.
Lemma ljoin_low a b na nb r : 1 <= na <= 32 -> 1 <= nb -> ltyped a na false -> ltyped b nb false -> ltidy a -> ltidy b -> logic_concat a b = Ok r -> forall p, 32 <= p < na + nb -> sym_at r p = S0.
Proof.
  intros Ha Hb Ta Tb Da Db E p P. assert (Ha1 : 1 <= na) by lia. destruct (ljoin_ok _ _ _ _ _ Ha1 Hb Ta Tb Da Db E) as (Tr & _ & L). apply (ljoin_parts a b na nb) in E; auto. destruct E as [E1 E2]. destruct Ta, Tb, Da, Db.
  apply (both_low r (na + nb) 32); [lia|exact Tr|lia| |exact P]. split; [apply (join_low (l_val a) (l_val b) na nb)|apply (join_low (l_xz a) (l_xz b) na nb)]; auto; lia.
Qed.

Definition parts (rs : list logic) : Prop := Forall (fun r => ltyped r (lw r) false /\ ltidy r) rs.
Lemma fold_typed : forall rs na acc c, 1 <= na -> ltyped acc na false -> ltidy acc -> parts rs -> ofold logic_concat rs acc = Ok c ->
  ltyped c (na + total (map lw rs)) false /\ (rs <> [] -> na + total (map lw rs) < 64).
Proof.
  induction rs as [|r rs IH]; intros na acc c Hn T D F E; cbn [ofold] in E.
  - injection E as <-. cbn [map]. change (total []) with 0. rewrite Z.add_0_r. split; [exact T|congruence].
  - inversion F as [|? ? [Tr Dr] Fs]; subst. destruct (logic_concat acc r) as [a'| | | |] eqn:Q; cbn [bind] in E; try discriminate. pose proof (lw_pos r) as Lr.
    destruct (ljoin_ok _ _ _ _ _ Hn Lr T Tr D Dr Q) as (T' & D' & L). destruct (IH (na + lw r) a' c ltac:(lia) T' D' Fs E) as [A B]. cbn [map]. rewrite total_cons. replace (na + (lw r + total (map lw rs))) with (na + lw r + total (map lw rs)) by lia.
    split; [exact A|]. intros _. destruct rs; [change (total (map lw [])) with 0; lia|]. apply B. discriminate.
Qed.
Lemma fold_wide : forall rs na acc c, 33 <= na -> ltyped acc na false -> ltidy acc -> parts rs -> ofold logic_concat rs acc = Ok c ->
  forall p, 0 <= p < na -> sym_at c (total (map lw rs) + p) = sym_at acc p.
Proof.
  induction rs as [|r rs IH]; intros na acc c Hn T D F E p P; cbn [ofold] in E.
  - injection E as <-. reflexivity.
  - inversion F as [|? ? [Tr Dr] Fs]; subst. destruct (logic_concat acc r) as [a'| | | |] eqn:Q; cbn [bind] in E; try discriminate. pose proof (lw_pos r) as Lr. assert (Hn1 : 1 <= na) by lia.
    destruct (ljoin_ok _ _ _ _ _ Hn1 Lr T Tr D Dr Q) as (T' & D' & L). cbn [map]. rewrite total_cons. replace (lw r + total (map lw rs) + p) with (total (map lw rs) + (lw r + p)) by lia.
    rewrite (IH (na + lw r) a' c ltac:(lia) T' D' Fs E) by lia. destruct (proj2 (ljoin_iff acc r na (lw r) Hn1 Lr T Tr D Dr)) as (a2 & Q2 & R); [lia|]. rewrite Q in Q2. injection Q2 as <-. rewrite R by lia. replace (lw r + p <? lw r) with false by lia. f_equal. lia.
Qed.
Lemma fold_iff l : forall rs na acc, 1 <= na -> ltyped acc na false -> ltidy acc -> parts rs -> covers l rs -> (forall p, 0 <= p < na -> sym_at acc p = sym_at l (total (map lw rs) + p)) ->
  (exists c, ofold logic_concat rs acc = Ok c /\ forall p, 0 <= p < na + total (map lw rs) -> sym_at c p = sym_at l p) <-> steps_fit l (na + total (map lw rs)) na (map lw rs).
Proof.
  induction rs as [|r rs IH]; intros na acc Hn T D F Co A.
  - cbn [map ofold]. change (total []) with 0. rewrite Z.add_0_r. split; [intros _ pre w post E; destruct pre; discriminate|]. intros _. exists acc. split; [reflexivity|]. intros p P. rewrite A by exact P. reflexivity.
  - inversion F as [|? ? [Tr Dr] Fs]; subst. pose proof (lw_pos r) as Lr. destruct Co as [Cr Co]. pose proof (total_nonneg rs) as Ln. cbn [map] in *. rewrite total_cons in *.
    set (m := total (map lw rs)) in *. replace (na + (lw r + m)) with (na + lw r + m) in * by lia.
    assert (S1 : steps_fit l (na + lw r + m) na (lw r :: map lw rs) <-> (na + lw r + m < 64 /\ (33 <= na \/ (lw r <= 31 /\ forall p, m + 32 <= p < na + lw r + m -> sym_at l p = S0))) /\ steps_fit l (na + lw r + m) (na + lw r) (map lw rs)).
    { split.
      - intros H. split; [destruct (H [] (lw r) (map lw rs) eq_refl) as [H1 H2]; change (total []) with 0 in H2; rewrite Z.add_0_r in H2; auto|].
        intros pre w post E. destruct (H (lw r :: pre) w post) as [H1 H2]; [now rewrite E|]. change (total (lw r :: pre)) with (lw r + total pre) in H2. rewrite Z.add_assoc in H2. auto.
      - intros [H1 H2] pre w post E. destruct pre as [|x pre]; cbn [app] in E; injection E as <- E.
        + subst post. change (total []) with 0. rewrite Z.add_0_r. exact H1.
        + destruct (H2 pre w post E) as [H3 H4]. change (total (lw r :: pre)) with (lw r + total pre). rewrite Z.add_assoc. auto. }
    rewrite S1. cbn [ofold].
    pose proof (ljoin_iff acc r na (lw r) Hn Lr T Tr D Dr) as J.
    assert (Sh : (lw r <= 31 /\ forall p, m + 32 <= p < na + lw r + m -> sym_at l p = S0) <-> (lw r <= 31 /\ forall p, 32 - lw r <= p < na -> sym_at acc p = S0) \/ (lw r <= 31 /\ na <= 0)).
    { split.
      - intros [H1 H2]. left. split; [exact H1|]. intros p P. destruct (Z.lt_ge_cases p 0) as [G|G]; [lia|]. rewrite A by lia. apply H2. lia.
      - intros [[H1 H2]|H]; [|lia]. split; [exact H1|]. intros p P. replace p with (lw r + m + (p - lw r - m)) by lia. rewrite <- A by lia. apply H2. lia. }
    assert (Matches : forall a', logic_concat acc r = Ok a' -> (forall p, 0 <= p < na + lw r -> sym_at a' p = if p <? lw r then sym_at r p else sym_at acc (p - lw r)) -> forall p, 0 <= p < na + lw r -> sym_at a' p = sym_at l (m + p)).
    { intros a' _ R p P. rewrite R by exact P. destruct (Z.ltb_spec p (lw r)); [apply Cr; lia|]. rewrite A by lia. f_equal. lia. }
    split.
    + intros (c & E & Q). destruct (logic_concat acc r) as [a'| | | |] eqn:E1; cbn [bind] in E; try discriminate.
      destruct (ljoin_ok _ _ _ _ _ Hn Lr T Tr D Dr E1) as (T' & D' & L). assert (Hn' : 1 <= na + lw r) by lia.
      destruct (fold_typed rs (na + lw r) a' c Hn' T' D' Fs E) as [_ L64]. fold m in L64.
      assert (N64 : na + lw r + m < 64). { destruct rs; [unfold m; change (total (map lw [])) with 0; lia|apply L64; discriminate]. }
      assert (G : 33 <= na \/ (lw r <= 31 /\ forall p, m + 32 <= p < na + lw r + m -> sym_at l p = S0)).
      { destruct (Z.le_gt_cases 33 na) as [W|W]; [left; exact W|right]. destruct (Z.le_gt_cases (na + lw r) 32) as [X|X]; [split; [lia|intros p P; lia]|].
        assert (L31 : lw r <= 31). { destruct (Z.le_gt_cases (lw r) 31) as [Y|Y]; [exact Y|exfalso]. rewrite (join_four acc r) in E1 by (eapply LogicProofs.ltyped_lvec; eassumption). unfold four_join, joined in E1. rewrite (typed_bw _ _ _ Hn (proj1 T)) in E1. change (bw (l_val r)) with (lw r) in E1.
          replace (64 <=? na + lw r) with false in E1 by lia. replace (computing na) with 32 in E1 by (unfold computing; replace (na <=? 32) with true by lia; reflexivity). replace (32 <=? lw r) with true in E1 by lia. discriminate. }
        split; [exact L31|]. intros p P. rewrite <- Q by lia. replace p with (m + (p - m)) by lia. rewrite (fold_wide rs (na + lw r) a' c ltac:(lia) T' D' Fs E) by lia. apply (ljoin_low acc r na (lw r)); auto; lia. }
      split; [auto|]. assert (Jr : na + lw r < 64 /\ (33 <= na \/ (lw r <= 31 /\ forall p, 32 - lw r <= p < na -> sym_at acc p = S0))).
      { split; [lia|]. destruct G as [G|G]; [auto|]. apply Sh in G. destruct G as [G|G]; [auto|lia]. }
      apply J in Jr. destruct Jr as (a2 & E2 & R). injection E2 as <-. apply (IH (na + lw r) a' Hn' T' D' Fs Co (Matches a' eq_refl R)). exists c. auto.
    + intros [[N64 G] H]. assert (Jr : na + lw r < 64 /\ (33 <= na \/ (lw r <= 31 /\ forall p, 32 - lw r <= p < na -> sym_at acc p = S0))).
      { split; [lia|]. destruct G as [G|G]; [auto|]. apply Sh in G. destruct G as [G|G]; [auto|lia]. }
      apply J in Jr. destruct Jr as (a' & E1 & R). rewrite E1. cbn [bind]. destruct (ljoin_ok _ _ _ _ _ Hn Lr T Tr D Dr E1) as (T' & D' & L). apply (IH (na + lw r) a' ltac:(lia) T' D' Fs Co (Matches a' E1 R)). exact H.
Qed.
Lemma unpack_join_iff l n t ts : ltyped l n false -> Forall (fun t => ltyped t (lw t) false) (t :: ts) -> total (map lw (t :: ts)) = n -> (n <= 64 \/ Forall (fun t => lw t <> 65) (t :: ts)) ->
  (exists r rs c, logic_unpack l (t :: ts) = Ok (r :: rs) /\ ofold logic_concat rs r = Ok c /\ forall p, 0 <= p < n -> sym_at c p = sym_at l p) <-> steps_fit l n (lw t) (map lw ts).
Proof.
  intros T F E L. assert (Hn : 1 <= n). { rewrite <- E. cbn [map]. rewrite total_cons. pose proof (lw_pos t). pose proof (total_nonneg ts). lia. }
  assert (U : Forall (fun t => lsgn t = false) (t :: ts)). { eapply Forall_impl; [|exact F]. intros x Hx. apply (ltyped_sgn _ _ _ Hx). }
  destruct (lunpack l n (t :: ts) Hn T) as (rs & Er & Len & H); [|exact L|lia|].
  { rewrite Forall_forall in *. intros x Hx. unfold target. rewrite (U x Hx). auto. }
  destruct (covers_of l (t :: ts) rs Len U H) as (A & B & D). destruct rs as [|r rs]; [discriminate|]. inversion D as [|? ? [Tr Dr] Ds]; subst x l0. destruct A as [A0 A1]. cbn [map] in B. injection B as B0 B1. cbn [map] in E. rewrite total_cons in E.
  rewrite <- B0, <- B1. rewrite <- B0, <- B1 in E. rewrite <- E. rewrite <- (fold_iff l rs (lw r) r (lw_pos r) Tr Dr Ds A1 A0). rewrite Er. split.
  - intros (r' & rs' & c & X & Y & Q). injection X as <- <-. exists c. auto.
  - intros (c & Y & Q). exists r, rs, c. auto.
Qed.
