(** Exactly when programs of writes, counters and packed structs behave as promised. *)
From Coq Require Import ZArith List Bool Lia.
From Verif Require Import Cpp BigNum Bit Logic More Spec SpecExact SpecMachine SpecWide SpecFour SpecIff SpecIff2 SpecIff3 FmtDec BitExt BitMain BitMain2 BitMain4 LogicProofs LogicConv2 LogicRed LogicMain MachineProofs MachineProofs4 ReachProofs WideProofs WideProofs3 WideProofs4 WideProofs5 FourProofs FourProofs2 Client ClientProofs Client4Proofs Program MoreProofs Iff2 Iff10.
Import ListNotations.
Open Scope Z_scope.
Local Ltac Zify.zify_post_hook ::= idtac.

(** * C72 *)
Lemma write4_step n s x w : 1 <= n -> ltyped x n s -> in_place n w ->
  (valid4 n w /\ exists r, run4 x w = Ok r /\ ltyped r n s) \/ (lost4 w /\ run4 x w = UB).
Proof.
  intros Hn T P. destruct w as [i v|a b src]; cbn [in_place valid4 run4 lost4] in *.
  - left. split; [exact P|]. destruct (writes4 n s [Set4 i v] x Hn T ltac:(constructor; [exact P|constructor])) as (r & E & Tr & _). cbn [ofold] in E.
    exists r. split; [|exact Tr]. cbn [run4] in E. destruct v; match type of E with bind ?m _ = _ => destruct m; cbn [bind] in E; congruence end.
  - destruct P as (Ha & Hb & Hk & Ts). destruct (update_iff x n s src (lw src) (lsgn src) a b Hn Hk T Ts Ha Hb) as [_ U].
    destruct (logic_update_r x a b src) eqn:E; [| |..].
    1: { left. assert (C : forall q, 64 <= q < lw src -> q <= Z.abs (a - b) -> unknown (sym_at src q) = false).
         { intros q H1 H2. destruct (unknown (sym_at src q)) eqn:Eu; [|reflexivity]. assert (X : Ok a0 = UB) by (apply U; exists q; auto). discriminate X. }
         split; [auto|]. destruct (lupdate x n s src (lw src) (lsgn src) a b Hn Hk T Ts Ha Hb C) as (r & E' & Tr & _). rewrite E in E'. exists r. auto. }
    1: { right. split; [apply U; reflexivity|reflexivity]. }
    all: exfalso; destruct (lupdate x n s src (lw src) (lsgn src) a b Hn Hk T Ts Ha Hb) as (r & E' & _); [|rewrite E in E'; discriminate E'];
      intros q H1 H2; destruct (unknown (sym_at src q)) eqn:Eu; [|reflexivity]; exfalso.
    all: match type of U with ?l = UB <-> _ => assert (X : l = UB) by (apply U; exists q; auto); discriminate X end.
Qed.
Lemma lost_invalid n w : lost4 w -> ~ valid4 n w.
Proof. destruct w as [i v|a b src]; cbn; [tauto|]. intros (q & H1 & H2 & U) (_ & _ & _ & _ & C). rewrite C in U by assumption. discriminate. Qed.

Lemma writes4_iff n s ws l : 1 <= n -> ltyped l n s -> Forall (in_place n) ws ->
  ((exists r, ofold run4 ws l = Ok r /\ forall p, 0 <= p < n -> last_write covers4 puts4 ws p (sym_at l p) (sym_at r p)) <-> ~ Exists lost4 ws) /\
  (ofold run4 ws l = UB <-> Exists lost4 ws).
Proof.
  intros Hn T P. assert (D : (Forall (valid4 n) ws /\ ~ Exists lost4 ws) \/ (Exists lost4 ws /\ ofold run4 ws l = UB)).
  { revert l T. induction P as [|w ws Pw P IH]; intros l T.
    - left. split; [constructor|]. intros H. inversion H.
    - cbn [ofold]. destruct (write4_step n s l w Hn T Pw) as [(V & r & E & Tr)|(L & E)]; rewrite E; cbn [bind]; [|right; auto].
      destruct (IH r Tr) as [[F N]|[L U]]; [left|right; auto]. split; [auto|]. intros H. inversion H; subst; [|tauto]. now apply (lost_invalid n w). }
  destruct D as [[F N]|[L U]].
  - destruct (writes4 n s ws l Hn T F) as (r & E & _ & Q). rewrite E. split; split; try tauto; try congruence. intros _. exists r. auto.
  - rewrite U. split; split; try tauto. intros (r & E & _). discriminate E.
Qed.

(** * C74 *)
Lemma noticed_seen l n s : 1 <= n -> ltyped l n s -> noticed l -> seen l /\ ~ known l.
Proof.
  intros Hn T (p & Hp & U & C). split; [|intros K; rewrite K in U by exact Hp; discriminate].
  unfold seen. destruct C as [C|C]; [left; exact C|]. right. unfold visible. intros H. exfalso.
  specialize (H (p / 64) ltac:(apply Z.div_pos; lia)). rewrite unknown_bit in U. unfold bit_at in U.
  assert (X : Z.testbit ((num (l_xz l) / 2 ^ (64 * (p / 64))) mod 2 ^ 32) (p mod 64) = true).
  { pose proof (Z.mod_pos_bound p 64 ltac:(lia)). pose proof (Z.div_pos p 64 ltac:(lia) ltac:(lia)).
    rewrite Z.mod_pow2_bits_low by lia. rewrite Z.div_pow2_bits by lia. rewrite <- U. f_equal. pose proof (Z.div_mod p 64). lia. }
  rewrite H, Z.bits_0 in X. discriminate.
Qed.
Lemma known_seen l : lvec l -> tidy (l_xz l) -> known l -> seen l.
Proof. intros V T K. right. intros _. now apply FmtDec.known_zero. Qed.

Lemma counted4 n s k : forall up : bool, 2 <= n -> forall a, ltyped a n s -> tidy (l_xz a) -> k <> 0%nat ->
  exists r, ofold (fun x (_ : unit) => if up then logic_inc x else logic_dec x) (repeat tt k) a = Ok r /\ ltyped r n s /\
    (noticed a -> all_x r) /\
    (~ noticed a -> known r /\ num (l_val r) = (num (l_val a) + (if up then 1 else -1) * Z.of_nat k) mod 2 ^ n).
Proof.
  intros up Hn a T Y Hk. assert (H1 : 1 <= n) by lia. assert (V := ltyped_lvec _ _ _ T). destruct (doubtful a) eqn:D.
  - assert (Q : noticed a) by (apply doubtful_noticed; assumption). destruct (noticed_seen a n s H1 T Q) as [Sa Ka].
    destruct (count4 up n s k Hn a T Y Sa) as (r & E & Tr & _ & X). exists r. repeat (split; [assumption|]). split; [intros _; auto|tauto].
  - assert (Q : ~ noticed a) by (rewrite <- doubtful_noticed by assumption; congruence).
    destruct k as [|k]; [tauto|]. destruct (step_spec up (l_val a) n s Hn (proj1 T)) as (y & Ey & Ty & Ny).
    assert (E1 : (if up then logic_inc a else logic_dec a) = Ok (certain y)).
    { assert (Pr : plain_range a = true) by (destruct T as [(_ & [M L] & _) _]; unfold plain_range, lmsb, llsb; rewrite M, L; apply andb_true_intro; split; [reflexivity|apply Z.leb_le; lia]).
      assert (F : (if up then logic_inc a else logic_dec a) = four_step (if up then 1 else -1) a) by (destruct up; [apply inc_four|apply dec_four]; exact V).
      assert (G : (if up then bit_inc (l_val a) else bit_dec (l_val a)) = any_step (if up then 1 else -1) (l_val a)) by (destruct up; [apply inc_any|apply dec_any]; apply V).
      rewrite F. unfold four_step. rewrite Pr, orb_true_r. cbn [negb]. rewrite <- G, Ey, D. reflexivity. }
    assert (Tc : ltyped (certain y) n s /\ tidy (l_xz (certain y))) by
      (destruct Ty as (Vy & [My Ly] & Sy); pose proof Vy as (_ & I1 & I2 & Wy); unfold certain; cbn [l_val l_xz]; rewrite <- zero_object;
       destruct (zero_vec (bmsb y) (blsb y) false I1 I2 Wy) as (A1 & A2 & A3 & A4 & _ & _ & A7); unfold ltyped, typed, plain; cbn [l_val l_xz]; rewrite A2, A3, A4; auto 12).
    destruct Tc as [Tc Yc].
    destruct (count4 up n s k Hn (certain y) Tc Yc (known_seen _ (ltyped_lvec _ _ _ Tc) Yc (certain_known y))) as (r & E & Tr & Kr & _).
    exists r. cbn [repeat ofold]. rewrite E1. cbn [bind]. split; [exact E|]. split; [exact Tr|]. split; [tauto|]. intros _. destruct (Kr (certain_known y)) as [K N]. split; [exact K|].
    rewrite N. cbn [certain l_val]. rewrite Ny, Zplus_mod_idemp_l. f_equal. lia.
Qed.

(** * C86 *)
Lemma clean_iff v w : clean v w <-> ~ lost v w.
Proof.
  split; [intros C (q & Hq & U); rewrite C in U by exact Hq; discriminate|]. intros N q Hq. destruct (unknown (sym_at v q)) eqn:E; [|reflexivity]. destruct N. exists q. auto.
Qed.
Lemma update_lost x n s v a b sv : 1 <= n -> ltyped x n s -> 0 <= a < n -> 0 <= b < n -> ltyped v (Z.abs (a - b) + 1) sv -> logic_update_r x a b v = UB <-> lost v (Z.abs (a - b) + 1).
Proof.
  intros Hn T Ha Hb Tv. destruct (update_iff x n s v (Z.abs (a - b) + 1) sv a b Hn ltac:(lia) T Tv Ha Hb) as [_ U]. rewrite U. split; intros (q & H); exists q; intuition lia.
Qed.
Lemma update_ok_or x n v a b : 1 <= n -> ltyped x n false -> ltidy x -> 0 <= a < n -> 0 <= b < n -> ltyped v (Z.abs (a - b) + 1) false ->
  (clean v (Z.abs (a - b) + 1) /\ exists r, logic_update_r x a b v = Ok r /\ ltyped r n false /\ ltidy r) \/ (lost v (Z.abs (a - b) + 1) /\ logic_update_r x a b v = UB).
Proof.
  intros Hn T Y Ha Hb Tv. pose proof (update_lost x n false v a b false Hn T Ha Hb Tv) as U. set (k := Z.abs (a - b) + 1) in *.
  assert (C : logic_update_r x a b v <> UB -> clean v k) by (intros N; apply clean_iff; tauto).
  assert (G : clean v k -> exists r, logic_update_r x a b v = Ok r /\ ltyped r n false /\ ltidy r).
  { intros K. destruct (lupdate x n false v k false a b Hn ltac:(unfold k; lia) T Tv Ha Hb) as (r & E & Tr & Yr & _); [intros q H1 H2; now apply K|]. exists r. auto. }
  destruct (logic_update_r x a b v) eqn:E; try (left; split; [apply C; discriminate|apply G, C; discriminate]). right. split; [now apply U|reflexivity].
Qed.
Lemma update_read_iff x n v a b : 1 <= n -> ltyped x n false -> ltidy x -> 0 <= a < n -> 0 <= b < n -> ltyped v (Z.abs (a - b) + 1) false ->
  ((exists r, logic_update_r x a b v = Ok r /\ forall c d, 0 <= c < n -> 0 <= d < n -> (n <= 64 \/ Z.abs (c - d) + 1 <> 65) ->
      exists s, logic_slice_c r c d = Ok s /\
      (Z.min a b <= c <= Z.max a b -> Z.min a b <= d <= Z.max a b -> logic_slice_c v (c - Z.min a b) (d - Z.min a b) = Ok s) /\
      (Z.max c d < Z.min a b \/ Z.max a b < Z.min c d -> logic_slice_c x c d = Ok s)) <-> ~ lost v (Z.abs (a - b) + 1)) /\
  (logic_update_r x a b v = UB <-> lost v (Z.abs (a - b) + 1)).
Proof.
  intros Hn T Y Ha Hb Tv. split; [|now apply (update_lost x n false v a b false)]. destruct (update_ok_or x n v a b Hn T Y Ha Hb Tv) as [(C & r & E & Tr & Yr)|(L & E)].
  - split; [intros _; now apply clean_iff|]. intros _. exists r. split; [exact E|]. intros c d Hc Hd W.
    destruct (logic_update_read x n v a b c d Hn T Y Ha Hb Tv C Hc Hd W) as (r' & E' & _ & _ & Q). rewrite E in E'. injection E' as <-. exact Q.
  - split; [|tauto]. intros (r & E' & _). rewrite E in E'. discriminate.
Qed.
Lemma two_writes_iff x n v w a b c d : 1 <= n -> ltyped x n false -> ltidy x -> 0 <= a < n -> 0 <= b < n -> 0 <= c < n -> 0 <= d < n ->
  ltyped v (Z.abs (a - b) + 1) false -> ltyped w (Z.abs (c - d) + 1) false ->
  (exists r s u t, logic_update_r x a b v = Ok r /\ logic_update_r r c d w = Ok s /\ logic_update_r x c d w = Ok u /\ logic_update_r u a b v = Ok t /\
    (Z.max c d < Z.min a b \/ Z.max a b < Z.min c d -> s = t) /\
    (Z.min c d <= Z.min a b -> Z.max a b <= Z.max c d -> s = u)) <-> ~ lost v (Z.abs (a - b) + 1) /\ ~ lost w (Z.abs (c - d) + 1).
Proof.
  intros Hn T Y Ha Hb Hc Hd Tv Tw. split.
  - intros (r & s & u & t & E1 & _ & E3 & _). split; intros L; [apply (update_lost x n false v a b false) in L|apply (update_lost x n false w c d false) in L]; try assumption; congruence.
  - intros [L1 L2]. apply clean_iff in L1, L2. now apply logic_update_update with (n := n).
Qed.

(** * C88 *)
Lemma field_step n fs s w : 1 <= n -> ltyped s n false -> ltidy s -> Forall (field_ok n) fs -> field_value fs w ->
  (write_ok fs w /\ exists r, field_write s (f_hi (fst w)) (f_lo (fst w)) (snd w) = Ok r /\ ltyped r n false /\ ltidy r) \/
  (lost (snd w) (f_width (fst w)) /\ field_write s (f_hi (fst w)) (f_lo (fst w)) (snd w) = UB).
Proof.
  intros Hn T Y F (I & Tv & Yv). destruct w as [f v]. cbn [fst snd] in *. rewrite Forall_forall in F. destruct (F f I) as (H1 & H2 & H3).
  assert (W : f_width f = Z.abs (f_hi f - f_lo f) + 1) by (unfold f_width; lia). unfold field_write. rewrite (lupdate_c s n false) by (assumption || lia).
  rewrite W in *. destruct (update_ok_or s n v (f_hi f) (f_lo f) Hn T Y ltac:(lia) ltac:(lia) Tv) as [(C & r & E & Tr & Yr)|(L & E)]; [left|right].
  - split; [|exists r; auto]. unfold write_ok. cbn [fst snd]. rewrite W. auto.
  - auto.
Qed.
Lemma fields_iff n fs s ws : 1 <= n -> ltyped s n false -> ltidy s -> Forall (field_ok n) fs ->
  (forall f g, In f fs -> In g fs -> f = g \/ apart f g) -> Forall (field_value fs) ws ->
  ((exists r, run_fields s ws = Ok r /\ forall f, In f fs ->
    (forall pre v post, ws = pre ++ (f, v) :: post -> (forall v', ~ In (f, v') post) -> field_read r (f_hi f) (f_lo f) = Ok v) /\
    ((forall v, ~ In (f, v) ws) -> field_read r (f_hi f) (f_lo f) = field_read s (f_hi f) (f_lo f))) <->
   ~ Exists (fun w => lost (snd w) (f_width (fst w))) ws) /\
  (run_fields s ws = UB <-> Exists (fun w => lost (snd w) (f_width (fst w))) ws).
Proof.
  intros Hn T Y F A P. set (bad := fun w : field * logic => lost (snd w) (f_width (fst w))).
  assert (D : (Forall (write_ok fs) ws /\ ~ Exists bad ws) \/ (Exists bad ws /\ run_fields s ws = UB)).
  { unfold run_fields. clear A. revert s T Y. induction P as [|w ws Pw P IH]; intros s T Y.
    - left. split; [constructor|]. intros H. inversion H.
    - cbn [ofold]. destruct (field_step n fs s w Hn T Y F Pw) as [(V & r & E & Tr & Yr)|(L & E)]; rewrite E; cbn [bind]; [|right; auto].
      destruct (IH r Tr Yr) as [[G N]|[L U]]; [left|right; auto]. split; [auto|]. intros H. inversion H as [? ? B|]; subst; [|tauto].
      destruct V as (_ & _ & _ & C). apply clean_iff in C. now apply C. }
  destruct D as [[G N]|[L U]].
  - destruct (fields_program n fs s ws Hn T Y F A G) as (r & E & _ & _ & Q). rewrite E. split; split; try tauto; try congruence. intros _. exists r. auto.
  - rewrite U. split; split; try tauto. intros (r & E & _). discriminate E.
Qed.
