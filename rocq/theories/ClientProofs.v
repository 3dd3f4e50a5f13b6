(** Lemmas about client programs. *)
From Coq Require Import ZArith List Bool Lia.
From Verif Require Import Cpp BigNum Bit Logic Spec ZBits Words BigNumProofs BigArith BitProofs BitSlice BitExt BitOps
  BitShift BitCmp BitArith BitMain BitMain2 BitMain3 BitMain4 BitMain5 LogicProofs LogicOps LogicRed LogicArith LogicArith2
  LogicConv LogicConv2 LogicMain Client.
Import ListNotations.
Open Scope Z_scope.

(** * writes *)
Lemma last_write_run {S W A} (step : S -> W -> outcome S) (I : S -> Prop) (c : S -> Z -> A) (valid : W -> Prop)
  (covers : W -> Z -> Prop) (puts : W -> Z -> A) (dom : Z -> Prop) :
  (forall x w, I x -> valid w -> exists y, step x w = Ok y /\ I y /\
     forall p, dom p -> (covers w p -> c y p = puts w p) /\ (~ covers w p -> c y p = c x p)) ->
  forall ws x, I x -> Forall valid ws -> exists r, ofold step ws x = Ok r /\ I r /\
    forall p, dom p -> last_write covers puts ws p (c x p) (c r p).
Proof.
  intros H. induction ws as [|w ws IH]; intros x Ix V.
  - exists x. split; [reflexivity|]. split; [exact Ix|]. intros p _. split; [|reflexivity].
    intros [|? ?] ? ? E; discriminate E.
  - inversion V; subst. destruct (H x w Ix ltac:(assumption)) as (y & E & Iy & Q).
    destruct (IH y Iy ltac:(assumption)) as (r & Er & Ir & L). exists r. cbn [ofold]. rewrite E. cbn [bind].
    split; [exact Er|]. split; [exact Ir|]. intros p Hp. destruct (L p Hp) as [L1 L2]. destruct (Q p Hp) as [Q1 Q2]. split.
    + intros pre w0 post E0 C N. destruct pre as [|w1 pre]; injection E0 as <- E1.
      * rewrite L2; [apply Q1, C|]. intros w' Hw. subst ws. now apply N.
      * apply (L1 pre w0 post); assumption.
    + intros N. rewrite L2; [apply Q2, N; now left|]. intros w' Hw. apply N. now right.
Qed.

Lemma writes2 n s ws b : 1 <= n -> typed b n s -> Forall (valid2 n) ws ->
  exists r, ofold run2 ws b = Ok r /\ typed r n s /\ forall p, 0 <= p < n -> last_write covers2 puts2 ws p (bit_at b p) (bit_at r p).
Proof.
  intros Hn. revert ws b. refine (fun ws b T V => last_write_run run2 (fun b => typed b n s) bit_at (valid2 n) covers2 puts2 (fun p => 0 <= p < n) _ ws b T V).
  clear ws b T V. intros x [i v|hi lo src] T V; cbn [valid2 run2 covers2 puts2] in *.
  - assert (Vx := typed_vec _ _ _ T). assert (Wx := typed_bw _ _ _ Hn T). destruct (rd_plain x n s i T Hn) as (_ & R2 & _).
    destruct (bit_set_spec x i v Vx ltac:(rewrite R2, Wx; lia)) as (r & E & Vr & A & B & C & Q & _). exists r. split; [exact E|].
    split; [apply (typed_of_fields x r n s); assumption|]. intros p Hp. rewrite Wx in Q. rewrite (Q p Hp), R2.
    destruct (Z.eqb_spec p i); split; intros; congruence || tauto.
  - destruct V as (Ha & Hb & Hw & Ts). assert (Hk : 1 <= bw src) by lia.
    destruct (update_runtime x n s src (bw src) (bsgn src) hi lo Hn Hk T Ts Ha Hb Hw) as (r & E & Tr & Q & _).
    exists r. split; [exact E|]. split; [exact Tr|]. intros p Hp. rewrite (Q p Hp).
    destruct (Z.leb_spec (Z.min hi lo) p), (Z.leb_spec p (Z.max hi lo)); cbn [andb]; split; intros; reflexivity || lia.
Qed.

Lemma writes4 n s ws l : 1 <= n -> ltyped l n s -> Forall (valid4 n) ws ->
  exists r, ofold run4 ws l = Ok r /\ ltyped r n s /\ forall p, 0 <= p < n -> last_write covers4 puts4 ws p (sym_at l p) (sym_at r p).
Proof.
  intros Hn. revert ws l. refine (fun ws b T V => last_write_run run4 (fun b => ltyped b n s) sym_at (valid4 n) covers4 puts4 (fun p => 0 <= p < n) _ ws b T V).
  clear ws b T V. intros x [i v|hi lo src] T V; cbn [valid4 covers4 puts4] in *.
  - assert (Vx := ltyped_lvec _ _ _ T). assert (Wx := ltyped_lw _ _ _ Hn T).
    pose proof T as [(_ & [M L] & Sx) (_ & [M2 L2] & S2)].
    assert (Pl : lmsb x = n - 1 /\ llsb x = 0) by (split; assumption). destruct Pl as [Pm Pl].
    destruct (logic_write_spec x i v Vx ltac:(unfold zero_based; rewrite Pm, Pl; lia) ltac:(unfold in_range; rewrite Pm, Pl; lia)) as (r & E & _ & Vr & A & B & C & _ & Q).
    exists r. split; [destruct v; exact E|]. split.
    { destruct Vr as (V1 & V2 & V3 & V4 & V5). unfold ltyped, typed, plain. unfold lmsb, llsb, lsgn in *. intuition congruence. }
    intros p Hp. rewrite Wx, Pm, Pl in Q. rewrite (Q p Hp). unfold place. rewrite (proj2 (Z.leb_le _ _)) by lia.
    replace (i - 0) with i by lia. destruct (Z.eqb_spec p i); split; intros; congruence || tauto.
  - destruct V as (Ha & Hb & Hk & Ts & U). destruct (lupdate x n s src (lw src) (lsgn src) hi lo Hn Hk T Ts Ha Hb U) as (r & E & Tr & _ & Q).
    exists r. split; [exact E|]. split; [exact Tr|]. intros p Hp. rewrite (Q p Hp).
    destruct (Z.leb_spec (Z.min hi lo) p), (Z.leb_spec p (Z.max hi lo)); cbn [andb]; split; intros; reflexivity || lia.
Qed.

(** * counting *)
Lemma count_up (up : bool) n s k : 2 <= n -> forall b, typed b n s ->
  exists r, ofold (fun x (_ : unit) => if up then bit_inc x else bit_dec x) (repeat tt k) b = Ok r /\ typed r n s /\
    num r = (num b + (if up then 1 else -1) * Z.of_nat k) mod 2 ^ n.
Proof.
  intros Hn. induction k as [|k IH]; intros b T.
  - exists b. split; [reflexivity|]. split; [exact T|]. rewrite Z.mul_0_r, Z.add_0_r. symmetry. apply Z.mod_small.
    pose proof (num_range b). rewrite (typed_bw b n s ltac:(lia) T) in *. assumption.
  - destruct (step_spec up b n s Hn T) as (y & E & Ty & Ny). destruct (IH y Ty) as (r & Er & Tr & Nr). exists r.
    cbn [repeat ofold]. rewrite E. cbn [bind]. split; [exact Er|]. split; [exact Tr|]. rewrite Nr, Ny. rewrite Zplus_mod_idemp_l. f_equal. lia.
Qed.

(** * expressions *)
Lemma full_tidy b n : full_width n -> typed b n false -> tidy b.
Proof.
  intros F T. assert (Hn : 1 <= n) by (unfold full_width in F; lia). apply (tidy_u_iff b n Hn T).
  destruct (typed_cases b n false Hn T) as [(v & -> & R & I)|(ws & -> & R & I)]; unfold stored; cbn [bval].
  - apply unsigned_range in I; [|exact R]. destruct F as [-> | [-> | [-> | [-> | F]]]]; [exact I..|lia].
  - destruct F as [F | [F | [F | [F | [_ F]]]]]; [lia..|]. destruct I as [W L].
    pose proof (words_num_bound ws W) as Q. pose proof (words_num_nonneg ws W). rewrite L in Q. unfold nwords in Q. rewrite F in Q. cbn [Z.eqb] in Q.
    replace (64 * (n / 64)) with n in Q by (pose proof (Z.div_mod n 64); lia). lia.
Qed.

Lemma neat_full n e b : full_width n \/ neat e -> typed b n false -> (neat e -> tidy b) -> tidy b.
Proof. intros [F|N] T H; [apply (full_tidy b n F T)|exact (H N)]. Qed.

Lemma eval_meaning n env e : 2 <= n -> good n env -> supported n (fun k => num (env k)) e ->
  exists r, eval env e = Ok r /\ typed r n false /\ num r = meaning n (fun k => num (env k)) e /\ (full_width n \/ neat e -> tidy r).
Proof.
  intros Hn V. assert (H1 : 1 <= n) by lia. set (env' := fun k => num (env k)).
  assert (R : forall b, typed b n false -> 0 <= num b < 2 ^ n).
  { intros b T. pose proof (num_range b) as Q. rewrite (typed_bw b n false ltac:(lia) T) in Q. exact Q. }
  assert (NO : forall z a b, typed a n false -> no_overflow z a b n).
  { intros z a b T S. rewrite (typed_sgn _ _ _ T) in S. discriminate. }
  induction e as [k|e IH|e IH|e IHe f IHf|e IHe f IHf|e IHe f IHf|e IHe f IHf|e IHe f IHf|e IHe f IHf|e IHe f IHf|e IHe f IHf|e IH amt|e IH amt];
    cbn [supported neat meaning eval]; intros S.
  - exists (env k). destruct (V k) as [T Y]. split; [reflexivity|]. split; [exact T|]. split; [|intros _; exact Y].
    unfold env'. symmetry. apply Z.mod_small, R, T.
  - destruct (IH S) as (x & E & T & N & _). rewrite E. cbn [omap bind]. exists (bit_not x). split; [reflexivity|].
    destruct (bit_not_spec x n (typed_vec _ _ _ T) (typed_bw _ _ _ H1 T)) as [T' N']. split; [exact T'|]. split; [rewrite N', N; reflexivity|].
    intros [F|[]]. apply (full_tidy _ _ F T').
  - destruct S as [S Hs]. destruct (IH S) as (x & E & T & N & _). rewrite E. cbn [bind].
    destruct (negation x n false ltac:(lia) T ltac:(discriminate)) as (r & Er & Tr & Nr). exists r. split; [exact Er|]. split; [exact Tr|].
    split; [rewrite Nr, N; reflexivity|]. intros [F|[]]. apply (full_tidy _ _ F Tr).
  - destruct S as [Se Sf]. destruct (IHe Se) as (x & Ex & Tx & Nx & Yx). destruct (IHf Sf) as (y & Ey & Ty & Ny & Yy). rewrite Ex, Ey. cbn [bind].
    assert (Vx := typed_vec _ _ _ Tx). assert (Vy := typed_vec _ _ _ Ty). assert (Wx := typed_bw _ _ _ H1 Tx). assert (Wy := typed_bw _ _ _ H1 Ty). assert (Px := typed_sgn _ _ _ Tx). assert (Py := typed_sgn _ _ _ Ty). assert (By := plain_be _ _ _ Ty H1).
    destruct (proj1 bit_and_spec2 x y n Vx Vy Wx Wy By) as (r & Er & Tr & Nr & Yr).
    rewrite Px, Py in *. cbn [andb] in Tr. exists r. split; [exact Er|]. split; [exact Tr|]. split; [rewrite Nr, Nx, Ny; reflexivity|].
    intros [F|[N1 N2]]; [apply (full_tidy _ _ F Tr)|]. apply Yr; auto.
  - destruct S as [Se Sf]. destruct (IHe Se) as (x & Ex & Tx & Nx & Yx). destruct (IHf Sf) as (y & Ey & Ty & Ny & Yy). rewrite Ex, Ey. cbn [bind].
    assert (Vx := typed_vec _ _ _ Tx). assert (Vy := typed_vec _ _ _ Ty). assert (Wx := typed_bw _ _ _ H1 Tx). assert (Wy := typed_bw _ _ _ H1 Ty). assert (Px := typed_sgn _ _ _ Tx). assert (Py := typed_sgn _ _ _ Ty). assert (By := plain_be _ _ _ Ty H1).
    destruct (proj1 bit_or_spec2 x y n Vx Vy Wx Wy By) as (r & Er & Tr & Nr & Yr).
    rewrite Px, Py in *. cbn [andb] in Tr. exists r. split; [exact Er|]. split; [exact Tr|]. split; [rewrite Nr, Nx, Ny; reflexivity|].
    intros [F|[N1 N2]]; [apply (full_tidy _ _ F Tr)|]. apply Yr; auto.
  - destruct S as [Se Sf]. destruct (IHe Se) as (x & Ex & Tx & Nx & Yx). destruct (IHf Sf) as (y & Ey & Ty & Ny & Yy). rewrite Ex, Ey. cbn [bind].
    assert (Vx := typed_vec _ _ _ Tx). assert (Vy := typed_vec _ _ _ Ty). assert (Wx := typed_bw _ _ _ H1 Tx). assert (Wy := typed_bw _ _ _ H1 Ty). assert (Px := typed_sgn _ _ _ Tx). assert (Py := typed_sgn _ _ _ Ty). assert (By := plain_be _ _ _ Ty H1).
    destruct (proj1 bit_xor_spec2 x y n Vx Vy Wx Wy By) as (r & Er & Tr & Nr & Yr).
    rewrite Px, Py in *. cbn [andb] in Tr. exists r. split; [exact Er|]. split; [exact Tr|]. split; [rewrite Nr, Nx, Ny; reflexivity|].
    intros [F|[N1 N2]]; [apply (full_tidy _ _ F Tr)|]. apply Yr; auto.
  - destruct S as [Se Sf]. destruct (IHe Se) as (x & Ex & Tx & Nx & Yx). destruct (IHf Sf) as (y & Ey & Ty & Ny & Yy). rewrite Ex, Ey. cbn [bind].
    assert (Vx := typed_vec _ _ _ Tx). assert (Vy := typed_vec _ _ _ Ty). assert (Wx := typed_bw _ _ _ H1 Tx). assert (Wy := typed_bw _ _ _ H1 Ty). assert (Px := typed_sgn _ _ _ Tx). assert (Py := typed_sgn _ _ _ Ty). assert (By := plain_be _ _ _ Ty H1).
    destruct (add_same_width x y n Vx Vy Wx Wy By Hn (NO _ _ _ Tx)) as (r & Er & Tr & Nr).
    rewrite Px, Py in *. cbn [andb] in Tr. exists r. split; [exact Er|]. split; [exact Tr|]. split; [rewrite Nr, Nx, Ny; reflexivity|].
    intros [F|[]]. apply (full_tidy _ _ F Tr).
  - destruct S as [Se Sf]. destruct (IHe Se) as (x & Ex & Tx & Nx & Yx). destruct (IHf Sf) as (y & Ey & Ty & Ny & Yy). rewrite Ex, Ey. cbn [bind].
    assert (Vx := typed_vec _ _ _ Tx). assert (Vy := typed_vec _ _ _ Ty). assert (Wx := typed_bw _ _ _ H1 Tx). assert (Wy := typed_bw _ _ _ H1 Ty). assert (Px := typed_sgn _ _ _ Tx). assert (Py := typed_sgn _ _ _ Ty). assert (By := plain_be _ _ _ Ty H1).
    destruct (sub_same_width x y n Vx Vy Wx Wy By (NO _ _ _ Tx)) as (r & Er & Tr & Nr).
    rewrite Px, Py in *. cbn [andb] in Tr. exists r. split; [exact Er|]. split; [exact Tr|]. split; [rewrite Nr, Nx, Ny; reflexivity|].
    intros [F|[]]. apply (full_tidy _ _ F Tr).
  - destruct S as (Se & Sf & M). destruct (IHe Se) as (x & Ex & Tx & Nx & Yx). destruct (IHf Sf) as (y & Ey & Ty & Ny & Yy). rewrite Ex, Ey. cbn [bind].
    assert (Vx := typed_vec _ _ _ Tx). assert (Vy := typed_vec _ _ _ Ty). assert (Wx := typed_bw _ _ _ H1 Tx). assert (Wy := typed_bw _ _ _ H1 Ty). assert (Px := typed_sgn _ _ _ Tx). assert (Py := typed_sgn _ _ _ Ty). assert (By := plain_be _ _ _ Ty H1).
    assert (HM : exists r, bit_mul x y = Ok r /\ typed r n (bsgn x && bsgn y) /\ num r = (num x * num y) mod 2 ^ n).
    { destruct M as [M|[M|[D [[M1 M2]|[M1 (M2 & M3 & i & j & M4 & M5 & M6 & M7 & M8)]]]]].
      - apply mul_same_width; auto. now left.
      - apply mul_same_width; auto. right. left. now rewrite Px.
      - assert (Yx' : tidy x) by (apply Yx; tauto). assert (Yy' : tidy y) by (apply Yy; tauto).
        apply mul_same_width; auto. right. right. unfold extendable, value. rewrite Px, Py, Nx, Ny. split; [exact M1|].
        split; [split; [assumption|discriminate]|]. split; [split; [assumption|discriminate]|]. rewrite <- Nx, <- Ny in *.
        pose proof (R _ Tx). pose proof (R _ Ty). assert (0 <= num x * num y) by nia. unfold fits. 
        destruct (n <=? 32); cbn [Z.sub]; [change (2 ^ (32 - 1)) with (2 ^ 31)|change (2 ^ (64 - 1)) with (2 ^ 63); assert (2 ^ 31 < 2 ^ 63) by reflexivity]; lia.
      - assert (Yx' : tidy x) by (apply Yx; tauto). assert (Yy' : tidy y) by (apply Yy; tauto). rewrite <- Nx, <- Ny in *.
        apply (mul_big_width x y n i j); assumption. }
    destruct HM as (r & Er & Tr & Nr).
    rewrite Px, Py in *. cbn [andb] in Tr. exists r. split; [exact Er|]. split; [exact Tr|]. split; [rewrite Nr, Nx, Ny; reflexivity|].
    intros [F|[]]. apply (full_tidy _ _ F Tr).
  - destruct S as (Se & Sf & D & Z0 & L). destruct (IHe Se) as (x & Ex & Tx & Nx & Yx). destruct (IHf Sf) as (y & Ey & Ty & Ny & Yy). rewrite Ex, Ey. cbn [bind].
    assert (Vx := typed_vec _ _ _ Tx). assert (Vy := typed_vec _ _ _ Ty). assert (Wx := typed_bw _ _ _ H1 Tx). assert (Wy := typed_bw _ _ _ H1 Ty). assert (Px := typed_sgn _ _ _ Tx). assert (Py := typed_sgn _ _ _ Ty). assert (By := plain_be _ _ _ Ty H1).
    assert (Yx' : tidy x) by (apply Yx; tauto). assert (Yy' : tidy y) by (apply Yy; tauto).
    destruct (divrem_same x y n Vx Vy Wx Wy By Px Py Yx' Yy' ltac:(rewrite Ny; exact Z0) ltac:(intros Q; rewrite Nx, Ny; exact (L Q))) as [(q & Eq & Tq & Nq & Yq) (m & Em & Tm & Nm & Ym)].
    unfold bit_div, bit_rem, bit_arith. rewrite (bsize_bw x n Wx), (bsize_bw y n Wy), Z.eqb_refl.
    exists q. split; [exact Eq|]. split; [exact Tq|]. split; [rewrite Nq, Nx, Ny; reflexivity|]. auto.
  - destruct S as (Se & Sf & D & Z0 & L). destruct (IHe Se) as (x & Ex & Tx & Nx & Yx). destruct (IHf Sf) as (y & Ey & Ty & Ny & Yy). rewrite Ex, Ey. cbn [bind].
    assert (Vx := typed_vec _ _ _ Tx). assert (Vy := typed_vec _ _ _ Ty). assert (Wx := typed_bw _ _ _ H1 Tx). assert (Wy := typed_bw _ _ _ H1 Ty). assert (Px := typed_sgn _ _ _ Tx). assert (Py := typed_sgn _ _ _ Ty). assert (By := plain_be _ _ _ Ty H1).
    assert (Yx' : tidy x) by (apply Yx; tauto). assert (Yy' : tidy y) by (apply Yy; tauto).
    destruct (divrem_same x y n Vx Vy Wx Wy By Px Py Yx' Yy' ltac:(rewrite Ny; exact Z0) ltac:(intros Q; rewrite Nx, Ny; exact (L Q))) as [(q & Eq & Tq & Nq & Yq) (m & Em & Tm & Nm & Ym)].
    unfold bit_div, bit_rem, bit_arith. rewrite (bsize_bw x n Wx), (bsize_bw y n Wy), Z.eqb_refl.
    exists m. split; [exact Em|]. split; [exact Tm|]. split; [rewrite Nm, Nx, Ny; reflexivity|]. auto.
  - destruct S as (Se & Va & Ya & Ra & Wa). destruct (IH Se) as (x & Ex & Tx & Nx & Yx). rewrite Ex. cbn [bind].
    assert (Vx := typed_vec _ _ _ Tx). assert (Wx := typed_bw _ _ _ H1 Tx). assert (Px := typed_sgn _ _ _ Tx).
    destruct (shift_left x amt Vx Va Ya ltac:(lia)) as (r & Er & Tr & Nr).
    { rewrite Wx. intros L. split; [auto|]. destruct (Z.leb_spec n 32); lia. }
    rewrite Px, Wx in *. cbn [andb] in Tr. exists r. split; [exact Er|]. split; [exact Tr|]. split; [rewrite Nr, Nx; reflexivity|].
    intros [F|[]]. apply (full_tidy _ _ F Tr).
  - destruct S as (Se & Va & Ya & Ra & Wa). destruct (IH Se) as (x & Ex & Tx & Nx & Yx). rewrite Ex. cbn [bind].
    assert (Vx := typed_vec _ _ _ Tx). assert (Wx := typed_bw _ _ _ H1 Tx). assert (Px := typed_sgn _ _ _ Tx).
    destruct (shift_right x amt Vx Va Ya ltac:(lia)) as (r & Er & Tr & Nr).
    { rewrite Wx. intros L. split; [auto|lia]. }
    rewrite Px, Wx in *. cbn [andb] in Tr. exists r. split; [exact Er|]. split; [exact Tr|]. split; [rewrite Nr, Nx; reflexivity|].
    intros [F|N]; [apply (full_tidy _ _ F Tr)|].
    destruct (tidy_ops x x n Tx Tx ltac:(lia) (Yx (or_intror N)) (Yx (or_intror N))) as (_ & _ & _ & _ & Q & _). apply (Q amt r); auto with zarith.
Qed.
