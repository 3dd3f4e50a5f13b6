(** Lemmas about 4-state expression trees. *)
From Coq Require Import ZArith List Bool Lia Zify ZifyBool.
From Verif Require Import Cpp BigNum Bit Logic Spec ZBits Words BigNumProofs BigArith BitProofs BitSlice BitExt BitOps
  BitShift BitCmp BitArith BitMain BitMain2 BitMain3 BitMain4 BitMain5 LogicProofs LogicOps LogicRed LogicArith LogicArith2
  LogicConv LogicConv2 LogicMain Client ClientProofs LawProofs Client4.
Import ListNotations.
Open Scope Z_scope.

(** * known positions and numbers *)
Lemma all_known_iff n f : all_known n f = true <-> forall p, 0 <= p < n -> unknown (f p) = false.
Proof.
  unfold all_known. rewrite forallb_forall. split; intros H p Hp.
  - apply negb_true_iff, H, in_zrange. exact Hp.
  - apply negb_true_iff, H. now apply in_zrange.
Qed.
Definition shows (n : Z) (r : logic) (f : vec4) : Prop := forall p, 0 <= p < n -> sym_at r p = f p.
Lemma known_shows n r f s : 1 <= n -> ltyped r n s -> shows n r f -> (known r <-> all_known n f = true).
Proof.
  intros Hn T H. rewrite all_known_iff. unfold known. rewrite (ltyped_lw r n s Hn T). split; intros K p Hp; specialize (K p Hp); rewrite H in *; auto.
Qed.
Lemma number_shows n r f s : 1 <= n -> ltyped r n s -> shows n r f -> known r -> number n f = num (l_val r).
Proof.
  intros Hn T H K. assert (W : bw (l_val r) = n) by (apply (ltyped_lw r n s Hn T)).
  pose proof (num_range (l_val r)) as R. rewrite W in R. set (z := num (l_val r)) in *.
  assert (G : number n f = z mod 2 ^ n); [|rewrite G; apply Z.mod_small, R].
  unfold number. apply (zrange_fold_ind _ (fun i a => a = z mod 2 ^ i)); [lia|now rewrite Z.mod_1_r|].
  intros i x Hi ->. rewrite <- (H i Hi). specialize (K i). rewrite (ltyped_lw r n s Hn T) in K. specialize (K Hi).
  assert (E : (match sym_at r i with S1 => 2 ^ i | _ => 0 end) = Z.b2z (Z.testbit z i) * 2 ^ i).
  { unfold z. change (Z.testbit (num (l_val r)) i) with (bit_at (l_val r) i). unfold sym_at in *. destruct (bit_at (l_val r) i), (bit_at (l_xz r) i); cbn [sym_of unknown Z.b2z] in *; try discriminate; lia. }
  rewrite E. rewrite Z.testbit_spec' by lia. rewrite Z.pow_add_r by lia. change (2 ^ 1) with 2.
  pose proof (pow2_pos i ltac:(lia)). rewrite Z.rem_mul_r by lia. lia.
Qed.
Lemma shows_number n r s z : 1 <= n -> ltyped r n s -> known r -> num (l_val r) = z -> shows n r (of_number z).
Proof.
  intros Hn T K N p Hp. unfold of_number. rewrite <- N. specialize (K p). rewrite (ltyped_lw r n s Hn T) in K. specialize (K Hp).
  unfold sym_at in *. fold (bit_at (l_val r) p). destruct (bit_at (l_val r) p), (bit_at (l_xz r) p); cbn in *; try discriminate; reflexivity.
Qed.
Lemma shows_x n r s : 1 <= n -> ltyped r n s -> all_x r -> shows n r all_unknown.
Proof. intros Hn T X p Hp. apply X. now rewrite (ltyped_lw r n s Hn T). Qed.
Lemma known_dec n r s : 1 <= n -> ltyped r n s -> known r \/ ~ known r.
Proof.
  intros Hn T. pose proof (known_shows n r (sym_at r) s Hn T ltac:(intros p _; reflexivity)) as K.
  destruct (all_known n (sym_at r)); [left|right]; rewrite K; congruence.
Qed.
Lemma full_ltidy l n : full_width n -> ltyped l n false -> tidy (l_val l).
Proof. intros F T. apply (full_tidy _ _ F (proj1 T)). Qed.

(** * shifting a clear native mask *)
Lemma conv0 t : conv t 0 = 0. Proof. destruct t; reflexivity. Qed.
Lemma shl_zero a amt r : vec a -> bw a <= 64 -> stored a = 0 -> bit_shl a amt = Ok r -> stored r = 0.
Proof.
  intros V W S E. destruct (vec_cases a V) as [(v & Ev & _ & _ & Sv)|(ws & _ & R & _)]; [|lia]. rewrite S in Sv. subst v.
  unfold bit_shl in E. rewrite Ev in E. destruct (bval amt); [|discriminate]. unfold c_shl in E. destruct (_ && _); [|discriminate].
  cbn [bind] in E. injection E as <-. unfold stored. cbn [bval]. now rewrite Z.shiftl_0_l, !conv0.
Qed.
Lemma shr_zero a amt r : vec a -> bw a <= 64 -> stored a = 0 -> bit_shr a amt = Ok r -> stored r = 0.
Proof.
  intros V W S E. destruct (vec_cases a V) as [(v & Ev & _ & _ & Sv)|(ws & _ & R & _)]; [|lia]. rewrite S in Sv. subst v.
  unfold bit_shr in E. rewrite Ev in E. destruct (bval amt); [|discriminate]. unfold c_shr in E. destruct (_ && _); [|discriminate].
  cbn [bind] in E. rewrite Z.shiftr_0_l in E. destruct (c_sub _ _ _ _); try discriminate. cbn [bind] in E. destruct (value_mask _ _); try discriminate. cbn [bind] in E.
  injection E as <-. unfold stored. cbn [bval]. unfold c_and. now rewrite conv0, Z.land_0_l, !conv0.
Qed.
Lemma shl_zero_big a amt r n : vec a -> bw a = n -> 65 <= n -> vec amt -> 0 <= stored amt -> stored a = 0 -> bit_shl a amt = Ok r -> stored r = 0.
Proof.
  intros V W L Va P S E. destruct (vec_cases a V) as [(v & Ev & R & _)|(ws & Ev & R & I & Sv)]; [lia|]. rewrite S in Sv.
  pose proof (proj2 (proj2 (proj2 V))) as B. rewrite W in *.
  unfold bit_shl in E. rewrite Ev in E. change (bsize a) with (bw a) in E. rewrite W in E.
  assert (N64 : 2 ^ 31 < 2 ^ 64) by reflexivity.
  destruct (vec_cases amt Va) as [(k & Ek & Rk & Ik & Sk)|(ks & Ek & Rk & [Wk Lk] & Sk)]; rewrite Ek in E; injection E as <-; unfold stored; cbn [bval].
  - assert (Hu : 0 <= u64 k) by apply u64_range. destruct (bn_shl_spec n ws (u64 k) ltac:(lia) Hu I) as [_ ->]. rewrite <- Sv. now rewrite Z.mul_0_l, Z.mod_0_l by (pose proof (pow2_pos n ltac:(lia)); lia).
  - destruct (bn_shl_big_spec n ws ks ltac:(lia) Wk I) as [_ ->]. rewrite <- Sv. now rewrite Z.mul_0_l, Z.mod_0_l by (pose proof (pow2_pos n ltac:(lia)); lia).
Qed.
Lemma shift_mask_tidy op a amt r n : (op = bit_shl \/ op = bit_shr) -> 1 <= n -> ltyped a n false -> tidy (l_xz a) -> seen a -> known a -> lvec amt -> ltidy amt -> lsgn amt = false -> lw amt <= 64 -> known amt ->
  (n <= 64 -> num (l_val amt) < n) ->
  logic_shift op a amt = Ok r -> typed (l_xz r) n false -> tidy (l_xz r) /\ op (l_val a) (l_val amt) = Ok (l_val r).
Proof.
  intros O Hn T Y Sn K Va Ta Sg Wa Ka Rk E Tr. pose proof (ltyped_lvec _ _ _ T) as V. pose proof (ltyped_lw a n false Hn T) as W.
  unfold logic_shift in E. rewrite (proj2 (any_xz a V Y Sn) K), (proj2 (any_xz amt Va (proj2 Ta) ltac:(left; lia)) Ka) in E. cbn [orb] in E.
  destruct (op (l_val a) (l_val amt)) as [v| | | |]; try discriminate. cbn [bind] in E. destruct (op (l_xz a) (l_val amt)) as [m| | | |] eqn:Em; try discriminate. cbn [bind] in E.
  injection E as <-. cbn [l_val l_xz] in *. split; [|reflexivity]. pose proof (lw_lvec a V) as Wx.
  assert (Z0 : stored (l_xz a) = 0). { apply stored0; [apply V|apply V|exact Y|]. apply xz_num0; assumption. }
  destruct O as [-> | ->].
  - assert (Z1 : stored m = 0).
    { destruct (Z.leb_spec n 64); [apply (shl_zero (l_xz a) (l_val amt)); (apply V || lia || assumption)|].
      apply (shl_zero_big (l_xz a) (l_val amt) m n); try (apply V || apply Va || lia || assumption).
      destruct Ta as [Tv _]. pose proof (num_of_tidy _ Tv Sg) as Q. pose proof (num_range (l_val amt)). lia. }
    apply (tidy_u_iff m n Hn Tr). rewrite Z1. pose proof (pow2_pos n). lia.
  - destruct (tidy_ops (l_xz a) (l_xz a) n (proj2 T) (proj2 T) Hn Y Y) as (_ & _ & _ & _ & QQ & _).
    assert (Ev : value (l_val amt) = num (l_val amt)) by (unfold value; unfold lsgn in Sg; now rewrite Sg).
    apply (QQ (l_val amt) m); auto; [apply Va|apply Ta|rewrite Ev; apply num_range|]. intros L. split; [exact Wa|]. rewrite Ev. auto.
Qed.

(** the library's tables *)
Definition and_lib (s t : sym) : sym := match s, t with SX, S0 => SX | SZ, S1 => S1 | SZ, SZ => SZ | _, _ => and4 s t end.
Definition or_lib (s t : sym) : sym := match s, t with SX, S0 => S1 | SZ, S1 => SX | _, _ => or4 s t end.
Lemma and_lib_main a b n : lvec a -> lvec b -> lw a = n -> lw b = n -> llsb a <= lmsb a -> llsb b <= lmsb b -> lsgn a && lsgn b = false ->
  exists r, logic_and a b = Ok r /\ ltyped r n false /\ ltidy r /\ forall p, 0 <= p < n -> sym_at r p = and_lib (sym_at a p) (sym_at b p).
Proof.
  intros A B C D E F G. destruct (and4_main a b n A B C D E F G) as (r & R & T & Y & Q). exists r. repeat (split; [assumption|]). intros p Hp. rewrite (Q p Hp). destruct (sym_at a p), (sym_at b p); reflexivity.
Qed.
Lemma or_lib_main a b n : lvec a -> lvec b -> lw a = n -> lw b = n -> llsb a <= lmsb a -> llsb b <= lmsb b -> lsgn a && lsgn b = false ->
  exists r, logic_or a b = Ok r /\ ltyped r n false /\ ltidy r /\ forall p, 0 <= p < n -> sym_at r p = or_lib (sym_at a p) (sym_at b p).
Proof.
  intros A B C D E F G. destruct (or4_main a b n A B C D E F G) as (r & R & T & Y & Q). exists r. repeat (split; [assumption|]). intros p Hp. rewrite (Q p Hp). destruct (sym_at a p), (sym_at b p); reflexivity.
Qed.

Lemma and_lib_gen a b n : lvec a -> lvec b -> lw a = n -> lw b = n -> llsb a <= lmsb a -> llsb b <= lmsb b -> lsgn a && lsgn b = false ->
  exists r, logic_and a b = Ok r /\ ltyped r n false /\ (tidy (l_xz a) -> tidy (l_xz b) -> ltidy r) /\ forall p, 0 <= p < n -> sym_at r p = and_lib (sym_at a p) (sym_at b p).
Proof. intros A B C D E F G. destruct (and_lib_main a b n A B C D E F G) as (r & R & T & Y & Q). exists r. auto. Qed.
Lemma or_lib_gen a b n : lvec a -> lvec b -> lw a = n -> lw b = n -> llsb a <= lmsb a -> llsb b <= lmsb b -> lsgn a && lsgn b = false ->
  exists r, logic_or a b = Ok r /\ ltyped r n false /\ (tidy (l_xz a) -> tidy (l_xz b) -> ltidy r) /\ forall p, 0 <= p < n -> sym_at r p = or_lib (sym_at a p) (sym_at b p).
Proof. intros A B C D E F G. destruct (or_lib_main a b n A B C D E F G) as (r & R & T & Y & Q). exists r. auto. Qed.
(** * the meaning of an expression *)
Lemma of_strict2 n r x y f g op s : 1 <= n -> ltyped x n s -> ltyped y n s -> shows n x f -> shows n y g -> known x -> known y ->
  shows n r (of_number (op (num (l_val x)) (num (l_val y)))) -> shows n r (strict2 n f g op).
Proof.
  intros Hn Tx Ty Sx Sy Kx Ky H. unfold strict2. rewrite (proj1 (known_shows n x f s Hn Tx Sx) Kx), (proj1 (known_shows n y g s Hn Ty Sy) Ky). cbn [andb].
  rewrite (number_shows n x f s), (number_shows n y g s) by assumption. exact H.
Qed.
Lemma strict2_x n x y f g op s : 1 <= n -> ltyped x n s -> ltyped y n s -> shows n x f -> shows n y g -> ~ known x \/ ~ known y ->
  strict2 n f g op = all_unknown.
Proof.
  intros Hn Tx Ty Sx Sy U. unfold strict2. rewrite (known_shows n x f s Hn Tx Sx), (known_shows n y g s Hn Ty Sy) in U.
  destruct (all_known n f), (all_known n g); cbn [andb]; try reflexivity. exfalso. intuition congruence.
Qed.
Lemma noticed_seen n x f s : 1 <= n -> ltyped x n s -> shows n x f -> noticed n f -> seen x.
Proof.
  intros Hn T Q [L|[K|(p & Hp & M & U)]]; unfold seen; rewrite (ltyped_lw x n s Hn T).
  - now left.
  - right. intros _. apply (xz_num0 x (ltyped_lvec _ _ _ T)). now apply (known_shows n x f s).
  - right. intros LH. exfalso. rewrite <- (Q p Hp), unknown_at in U. unfold bit_at in U. specialize (LH (p / 64) (Z.div_pos p 64 ltac:(lia) ltac:(lia))).
    assert (B : Z.testbit ((num (l_xz x) / 2 ^ (64 * (p / 64))) mod 2 ^ 32) (p mod 64) = true).
    { pose proof (Z.mod_pos_bound p 64 ltac:(lia)). pose proof (Z.div_mod p 64 ltac:(lia)). pose proof (Z.div_pos p 64 ltac:(lia) ltac:(lia)).
      rewrite Z.mod_pow2_bits_low by lia. rewrite Z.div_pow2_bits by lia. replace (p mod 64 + 64 * (p / 64)) with p by lia. exact U. }
    rewrite LH, Z.bits_0 in B. discriminate.
Qed.
Lemma seen_at_of n x s : 1 <= n -> ltyped x n s -> seen x -> seen_at x (Z.max n n).
Proof. intros Hn T H. unfold seen in H. rewrite (ltyped_lw x n s Hn T) in H. unfold seen_at. now rewrite Z.max_id. Qed.
Lemma seen64 l n : lw l = n -> n <= 64 -> seen l. Proof. intros W H. left. lia. Qed.
Lemma shows_ext n r f g : (forall p, 0 <= p < n -> g p = f p) -> shows n r f -> shows n r g.
Proof. intros E H p Hp. rewrite (H p Hp). symmetry. auto. Qed.

Section Eval.
Variables (n : Z) (env : nat -> logic).
Hypotheses (Hn : 2 <= n) (V : good4 n env).
Let env' := fun k => sym_at (env k).
Let H1 : 1 <= n. Proof. lia. Qed.
Let H31 : n < 2 ^ 31. Proof. destruct (V O) as [[T _] _]. exact (typed_lt _ _ _ H1 T). Qed.
Definition holds (e : expr4) (r : logic) : Prop :=
  ltyped r n false /\ tidy (l_xz r) /\ (full_width n \/ neat4 e -> tidy (l_val r)) /\ shows n r (meaning4 n env' e).

Lemma arith_step (lop : logic -> logic -> outcome logic) (bop : bit -> bit -> outcome bit) (op : Z -> Z -> Z) x y f g :
  In (lop, bop) [(logic_add, bit_add); (logic_sub, bit_sub); (logic_mul, bit_mul)] ->
  ltyped x n false -> ltyped y n false -> tidy (l_xz x) -> tidy (l_xz y) -> shows n x f -> shows n y g -> noticed n f -> noticed n g ->
  (known x -> known y -> exists v, bop (l_val x) (l_val y) = Ok v /\ typed v n false /\ num v = op (num (l_val x)) (num (l_val y))) ->
  exists r, lop x y = Ok r /\ ltyped r n false /\ tidy (l_xz r) /\ shows n r (strict2 n f g op).
Proof.
  intros I Tx Ty Yx Yy Sx Sy Nf Ng H. assert (AP : arith_pair false lop bop). { cbn in I. destruct I as [Q|[Q|[Q|[]]]]; injection Q as <- <-; constructor. }
  assert (M : Z.max n n = n) by lia. assert (Zx : seen_at x (Z.max n n)) by (apply (seen_at_of n x false H1 Tx), (noticed_seen n x f false H1 Tx Sx Nf)). assert (Zy : seen_at y (Z.max n n)) by (apply (seen_at_of n y false H1 Ty), (noticed_seen n y g false H1 Ty Sy Ng)).
  assert (D : known x /\ known y \/ (~ known x \/ ~ known y)) by (destruct (known_dec n x false H1 Tx), (known_dec n y false H1 Ty); tauto).
  destruct D as [[Kx Ky]|U].
  - destruct (H Kx Ky) as (v & Ev & Tv & Nv). destruct (arith_known false lop bop AP x y n n false false H1 H1 Tx Ty Yx Yy ltac:(lia) ltac:(lia) Zx Zy v Kx Ky ltac:(discriminate) Ev) as (r & E & T & K & L & Yr).
    { rewrite M. exact Tv. } rewrite M in T. cbn [andb] in T. exists r. split; [exact E|]. split; [exact T|]. split; [exact Yr|].
    apply (of_strict2 n r x y f g op false); auto. apply (shows_number n r false); auto. now rewrite L.
  - destruct (arith_x false lop bop AP x y n n false false H1 H1 Tx Ty Yx Yy ltac:(lia) ltac:(lia) Zx Zy) as (r & E & T & X & Yv & Yr); [auto|tauto|].
    rewrite M in T. cbn [andb] in T. exists r. split; [exact E|]. split; [exact T|]. split; [exact Yr|].
    rewrite (strict2_x n x y f g op false) by assumption. now apply (shows_x n r false).
Qed.
Lemma div_step (lop : logic -> logic -> outcome logic) (bop : bit -> bit -> outcome bit) (op : Z -> Z -> Z) x y f g :
  In (lop, bop) [(logic_div, bit_div); (logic_rem, bit_rem)] ->
  ltyped x n false -> ltyped y n false -> ltidy x -> ltidy y -> shows n x f -> shows n y g -> noticed n f -> noticed n g ->
  (known x -> known y -> num (l_val y) <> 0 -> (65 <= n -> visible (num (l_val y))) /\ exists v, bop (l_val x) (l_val y) = Ok v /\ typed v n false /\ num v = op (num (l_val x)) (num (l_val y)) /\ tidy v) ->
  exists r, lop x y = Ok r /\ ltyped r n false /\ ltidy r /\ shows n r (strict_div n f g op).
Proof.
  intros I Tx Ty [Yx Zx] [Yy Zy] Sx Sy Nf Ng H. assert (AP : arith_pair true lop bop). { cbn in I. destruct I as [Q|[Q|[]]]; injection Q as <- <-; constructor. }
  assert (M : Z.max n n = n) by lia. assert (Ax : seen_at x (Z.max n n)) by (apply (seen_at_of n x false H1 Tx), (noticed_seen n x f false H1 Tx Sx Nf)). assert (Ay : seen_at y (Z.max n n)) by (apply (seen_at_of n y false H1 Ty), (noticed_seen n y g false H1 Ty Sy Ng)).
  assert (D : (known x /\ known y /\ num (l_val y) <> 0) \/ (~ known x \/ ~ known y \/ num (l_val y) = 0)).
  { destruct (known_dec n x false H1 Tx), (known_dec n y false H1 Ty), (Z.eq_dec (num (l_val y)) 0); tauto. }
  unfold strict_div. destruct D as [(Kx & Ky & N0)|U].
  - destruct (H Kx Ky N0) as (Vis & v & Ev & Tv & Nv & Yv). destruct (arith_known true lop bop AP x y n n false false H1 H1 Tx Ty Zx Zy ltac:(lia) ltac:(lia) Ax Ay v Kx Ky) as (r & E & T & K & L & Yr).
    { intros _. split; [exact Yy|]. split; [exact N0|]. destruct (Z.leb_spec n 64); [right; lia|left; split; [reflexivity|apply Vis; lia]]. } { exact Ev. } { rewrite M. exact Tv. }
    rewrite M in T. cbn [andb] in T. exists r. split; [exact E|]. split; [exact T|]. split; [split; [rewrite L; exact Yv|exact Yr]|].
    rewrite (number_shows n y g false) by assumption. rewrite (proj2 (Z.eqb_neq _ _) N0), andb_false_r.
    apply (of_strict2 n r x y f g op false); auto. apply (shows_number n r false); auto. now rewrite L.
  - destruct (arith_x true lop bop AP x y n n false false H1 H1 Tx Ty Zx Zy ltac:(lia) ltac:(lia) Ax Ay) as (r & E & T & X & Yv & Yr); [auto|tauto|].
    rewrite M in T. cbn [andb] in T. exists r. split; [exact E|]. split; [exact T|]. split; [split; assumption|].
    assert (Q : (if all_known n g && (number n g =? 0) then all_unknown else strict2 n f g op) = all_unknown).
    { destruct (known_dec n y false H1 Ty) as [Ky|Ky].
      - rewrite (proj1 (known_shows n y g false H1 Ty Sy) Ky), (number_shows n y g false) by assumption. cbn [andb].
        destruct (Z.eqb_spec (num (l_val y)) 0); [reflexivity|]. apply (strict2_x n x y f g op false); auto. tauto.
      - destruct (all_known n g && _); [reflexivity|]. apply (strict2_x n x y f g op false); auto. }
    rewrite Q. now apply (shows_x n r false).
Qed.
Lemma neg_tidy a r : ltyped a n false -> logic_neg a = Ok r -> tidy (l_xz r).
Proof.
  intros T E. destruct (ltyped_plain a n false H1 T) as (A & B & _). pose proof (ltyped_sgn _ _ _ T) as Sg. unfold logic_neg in E. rewrite A, B, Sg in E.
  destruct (bit_any_set (l_xz a)).
  - destruct (bit_neg (l_val a)); try discriminate; injection E as <-; apply (default_typed n false); lia.
  - destruct (bit_neg (l_val a)); try discriminate. cbn [bind] in E. destruct (bit_assign _ _); try discriminate. cbn [bind] in E. injection E as <-.
    cbn [l_xz]. destruct (zero_vec (n - 1) 0 false) as (_ & _ & _ & _ & _ & _ & Z5); try (unfold int_ok, width; lia). exact Z5.
Qed.
Lemma neg_step x f : n <= 64 -> ltyped x n false -> tidy (l_xz x) -> shows n x f ->
  exists r, logic_neg x = Ok r /\ ltyped r n false /\ tidy (l_xz r) /\ shows n r (strict1 n f (fun z => (- z) mod 2 ^ n)).
Proof.
  intros L T Y S. destruct (lneg x n false ltac:(lia) T Y) as [A B]. unfold strict1. destruct (known_dec n x false H1 T) as [K|K].
  - destruct (B K ltac:(discriminate)) as (r & E & Tr & Kr & Nr). exists r. split; [exact E|]. split; [exact Tr|]. split; [apply (neg_tidy x); assumption|].
    rewrite (proj1 (known_shows n x f false H1 T S) K), (number_shows n x f false) by assumption. apply (shows_number n r false); auto.
  - destruct (A K) as (r & E & Tr & Xr). exists r. split; [exact E|]. split; [exact Tr|]. split; [apply (neg_tidy x); assumption|].
    rewrite (known_shows n x f false H1 T S) in K. destruct (all_known n f); [congruence|]. now apply (shows_x n r false).
Qed.
Lemma shift_step (left : bool) x amt f : ltyped x n false -> tidy (l_xz x) -> shows n x f -> noticed n f -> amount4 n amt ->
  exists r, (if left then logic_shl x amt else logic_shr x amt) = Ok r /\ ltyped r n false /\ tidy (l_xz r) /\
    (left = false -> tidy (l_val x) -> tidy (l_val r)) /\
    shows n r (if all_known (lw amt) (sym_at amt) then strict1 n f (fun z => if left then (z * 2 ^ number (lw amt) (sym_at amt)) mod 2 ^ n else z / 2 ^ number (lw amt) (sym_at amt)) else all_unknown).
Proof.
  intros T Y S Nf (Tk & Yk & Wk & Rk). pose proof (ltyped_lvec _ _ _ T) as Vx. pose proof (ltyped_lvec _ _ _ Tk) as Vk. pose proof (ltyped_lw _ _ _ H1 T) as Wx.
  assert (Pk : 1 <= lw amt) by apply bw_pos. pose proof (ltyped_sgn _ _ _ T) as Sx. pose proof (ltyped_sgn _ _ _ Tk) as Sk.
  assert (Ax : seen x) by (apply (noticed_seen n x f false H1 T S Nf)). assert (Ak : seen amt) by (left; lia).
  pose proof (known_shows (lw amt) amt (sym_at amt) false Pk Tk ltac:(intros p _; reflexivity)) as KA.
  pose proof (known_shows n x f false H1 T S) as KX.
  assert (D : (known x /\ known amt) \/ (~ known x \/ ~ known amt)) by (destruct (known_dec n x false H1 T), (known_dec (lw amt) amt false Pk Tk); tauto).
  destruct D as [[Kx Kk]|U].
  - rewrite (proj1 KA Kk). unfold strict1. rewrite (proj1 KX Kx). rewrite (number_shows n x f false), (number_shows (lw amt) amt (sym_at amt) false) by (assumption || (intros p _; reflexivity)).
    assert (Ev : value (l_val amt) = num (l_val amt)) by (unfold value; unfold lsgn in Sk; now rewrite Sk).
    assert (R : 0 <= num (l_val amt) < n) by (split; [apply num_range|apply Rk, Kk]).
    destruct left.
    + destruct (lshift_left x amt Vx Vk Y Yk Ax Ak Kx Kk ltac:(lia)) as (r & E & Tr & Kr & Nr).
      { intros L. rewrite Wx in L. split; [exact Wk|]. rewrite Ev, Wx. destruct (Z.leb_spec n 32); lia. }
      rewrite Wx, Sx, Ev in *. cbn [andb] in Tr. exists r. split; [exact E|]. split; [exact Tr|].
      destruct (shift_mask_tidy bit_shl x amt r n ltac:(now left) H1 T Y Ax Kx Vk Yk Sk Wk Kk ltac:(intros _; lia) E (proj2 Tr)) as [Q _].
      split; [exact Q|]. split; [discriminate|]. apply (shows_number n r false); auto.
    + destruct (lshift_right x amt Vx Vk Y Yk Ax Ak Kx Kk ltac:(lia)) as (r & E & Tr & Kr & Nr).
      { intros _. split; [exact Wk|]. rewrite Ev, Wx. lia. }
      rewrite Wx, Sx, Ev in *. cbn [andb] in Tr. exists r. split; [exact E|]. split; [exact Tr|].
      destruct (shift_mask_tidy bit_shr x amt r n ltac:(now right) H1 T Y Ax Kx Vk Yk Sk Wk Kk ltac:(intros _; lia) E (proj2 Tr)) as [Q Q'].
      split; [exact Q|]. split; [|apply (shows_number n r false); auto]. intros _ Yv.
      destruct (tidy_ops (l_val x) (l_val x) n (proj1 T) (proj1 T) H1 Yv Yv) as (_ & _ & _ & _ & QQ & _). apply (QQ (l_val amt) (l_val r)); auto.
      * apply Vk. * apply Yk. * lia. * intros _. split; [exact Wk|lia].
  - assert (G : (if all_known (lw amt) (sym_at amt) then strict1 n f (fun z => if left then (z * 2 ^ number (lw amt) (sym_at amt)) mod 2 ^ n else z / 2 ^ number (lw amt) (sym_at amt)) else all_unknown) = all_unknown).
    { unfold strict1. rewrite KX, KA in U. destruct (all_known (lw amt) _), (all_known n f); auto. exfalso. intuition congruence. }
    rewrite G.
    assert (P : exists bop, In ((if left then logic_shl else logic_shr), bop) [(logic_shr, bit_shr); (logic_shl, bit_shl); (logic_ashr, bit_ashr)]).
    { destruct left; eexists; cbn; [right; left|left]; reflexivity. }
    destruct P as (bop & P). destruct (lops_unknown _ bop P x amt Vx Vk Y (proj2 Yk) Ax Ak ltac:(auto) U) as (r & E & Tr & Xr & Yv & Yr).
    rewrite Wx, Sx in Tr. cbn [andb] in Tr. exists r. split; [destruct left; exact E|]. split; [exact Tr|]. split; [exact Yr|]. split; [auto|]. now apply (shows_x n r false).
Qed.

Lemma eval4_meaning : forall e0, supported4 n env' e0 -> exists r, eval4 env e0 = Ok r /\ holds e0 r.
Proof.
  assert (NO : forall z a b, typed a n false -> no_overflow z a b n).
  { intros z a b T S. rewrite (typed_sgn _ _ _ T) in S. discriminate. }
  assert (B2 : forall op h x y e f, (forall a b m, lvec a -> lvec b -> lw a = m -> lw b = m -> llsb a <= lmsb a -> llsb b <= lmsb b -> lsgn a && lsgn b = false ->
      exists r, op a b = Ok r /\ ltyped r m false /\ (tidy (l_xz a) -> tidy (l_xz b) -> ltidy r) /\ forall p, 0 <= p < m -> sym_at r p = h (sym_at a p) (sym_at b p)) ->
      holds e x -> holds f y ->
      exists r, op x y = Ok r /\ ltyped r n false /\ ltidy r /\ shows n r (fun p => h (meaning4 n env' e p) (meaning4 n env' f p))).
  { intros op h x y e f O (Tx & Yx & Nx & Sx) (Ty & Yy & Ny & Sy). destruct (ltyped_plain x n false H1 Tx) as (A1 & A2 & _ & A3). destruct (ltyped_plain y n false H1 Ty) as (B1 & B2 & _ & B3).
    destruct (O x y n A3 B3 (ltyped_lw _ _ _ H1 Tx) (ltyped_lw _ _ _ H1 Ty)) as (r & E & T & Y & Q); [lia|lia|now rewrite (ltyped_sgn _ _ _ Tx)|].
    exists r. split; [exact E|]. split; [exact T|]. split; [apply Y; assumption|]. intros p Hp. rewrite (Q p Hp), (Sx p Hp), (Sy p Hp). reflexivity. }
  intros e0. induction e0 as [k|e IH|e IH|e IHe f IHf|e IHe f IHf|e IHe f IHf|e IHe f IHf|e IHe f IHf|e IHe f IHf|e IHe f IHf|e IHe f IHf|e IH amt|e IH amt];
    cbn [supported4 eval4]; intros S.
  - exists (env k). destruct (V k) as [T [Y1 Y2]]. split; [reflexivity|]. split; [exact T|]. split; [exact Y2|]. split; [auto|]. intros p _. reflexivity.
  - destruct (IH S) as (x & E & T & Y & N & Q). rewrite E. cbn [bind]. destruct (not4_main x n (ltyped_lvec _ _ _ T) (ltyped_lw _ _ _ H1 T)) as (r & Er & Tr & Yr & Qr).
    exists r. split; [exact Er|]. destruct (Yr Y) as [Y1 Y2]. split; [exact Tr|]. split; [exact Y2|]. split; [auto|]. intros p Hp. cbn [meaning4]. rewrite (Qr p Hp), (Q p Hp). reflexivity.
  - destruct S as [S L]. destruct (IH S) as (x & E & T & Y & N & Q). rewrite E. cbn [bind]. destruct (neg_step x _ L T Y Q) as (r & Er & Tr & Yr & Qr). exists r. split; [exact Er|]. split; [exact Tr|]. split; [exact Yr|]. split; [|exact Qr].
    cbn [neat4]. intros [F|[]]. apply (full_ltidy r n F Tr).
  - destruct S as (Se & Sf & R). destruct (IHe Se) as (x & Ex & Hx). destruct (IHf Sf) as (y & Ey & Hy). rewrite Ex, Ey. cbn [bind].
    destruct (B2 logic_and and_lib x y e f and_lib_gen Hx Hy) as (r & Er & Tr & [Y1 Y2] & Q). exists r. split; [exact Er|]. split; [exact Tr|]. split; [exact Y2|]. split; [auto|].
    intros p Hp. rewrite (Q p Hp). cbn [meaning4]. unfold and_lib, or_lib. unfold and_right, or_right in R. destruct (R p Hp) as (R1 & R2 & R3). destruct (meaning4 n env' e p), (meaning4 n env' f p); try reflexivity; exfalso; tauto.
  - destruct S as (Se & Sf & R). destruct (IHe Se) as (x & Ex & Hx). destruct (IHf Sf) as (y & Ey & Hy). rewrite Ex, Ey. cbn [bind].
    destruct (B2 logic_or or_lib x y e f or_lib_gen Hx Hy) as (r & Er & Tr & [Y1 Y2] & Q). exists r. split; [exact Er|]. split; [exact Tr|]. split; [exact Y2|]. split; [auto|].
    intros p Hp. rewrite (Q p Hp). cbn [meaning4]. unfold and_lib, or_lib. unfold and_right, or_right in R. destruct (R p Hp) as (R1 & R2). destruct (meaning4 n env' e p), (meaning4 n env' f p); try reflexivity; exfalso; tauto.
  - destruct S as (Se & Sf). destruct (IHe Se) as (x & Ex & Hx). destruct (IHf Sf) as (y & Ey & Hy). rewrite Ex, Ey. cbn [bind].
    destruct (B2 logic_xor xor4 x y e f xor4_main Hx Hy) as (r & Er & Tr & [Y1 Y2] & Q). exists r. split; [exact Er|]. split; [exact Tr|]. split; [exact Y2|]. split; [auto|]. exact Q.
  - destruct S as (Se & Sf & Nf & Ng). destruct (IHe Se) as (x & Ex & Tx & Yx & Nx & Qx). destruct (IHf Sf) as (y & Ey & Ty & Yy & Ny & Qy). rewrite Ex, Ey. cbn [bind].
    destruct (arith_step logic_add bit_add (fun x y => (x + y) mod 2 ^ n) x y _ _ ltac:(cbn; auto) Tx Ty Yx Yy Qx Qy Nf Ng) as (r & Er & Tr & Yr & Qr).
    { intros _ _. assert (Vx := typed_vec _ _ _ (proj1 Tx)). assert (Vy := typed_vec _ _ _ (proj1 Ty)). assert (Wx := typed_bw _ _ _ H1 (proj1 Tx)). assert (Wy := typed_bw _ _ _ H1 (proj1 Ty)).
      assert (By := plain_be _ _ _ (proj1 Ty) H1). assert (Px := typed_sgn _ _ _ (proj1 Tx)).
      destruct (add_same_width _ _ n Vx Vy Wx Wy By ltac:(lia) (NO _ _ _ (proj1 Tx))) as (r & Er & Tr & Nr). rewrite Px in Tr. cbn [andb] in Tr. eauto. }
    exists r. split; [exact Er|]. split; [exact Tr|]. split; [exact Yr|]. split; [|exact Qr]. cbn [neat4]. intros [F|[]]. apply (full_ltidy r n F Tr).
  - destruct S as (Se & Sf & Nf & Ng). destruct (IHe Se) as (x & Ex & Tx & Yx & Nx & Qx). destruct (IHf Sf) as (y & Ey & Ty & Yy & Ny & Qy). rewrite Ex, Ey. cbn [bind].
    destruct (arith_step logic_sub bit_sub (fun x y => (x - y) mod 2 ^ n) x y _ _ ltac:(cbn; auto) Tx Ty Yx Yy Qx Qy Nf Ng) as (r & Er & Tr & Yr & Qr).
    { intros _ _. assert (Vx := typed_vec _ _ _ (proj1 Tx)). assert (Vy := typed_vec _ _ _ (proj1 Ty)). assert (Wx := typed_bw _ _ _ H1 (proj1 Tx)). assert (Wy := typed_bw _ _ _ H1 (proj1 Ty)).
      assert (By := plain_be _ _ _ (proj1 Ty) H1). assert (Px := typed_sgn _ _ _ (proj1 Tx)).
      destruct (sub_same_width _ _ n Vx Vy Wx Wy By (NO _ _ _ (proj1 Tx))) as (r & Er & Tr & Nr). rewrite Px in Tr. cbn [andb] in Tr. eauto. }
    exists r. split; [exact Er|]. split; [exact Tr|]. split; [exact Yr|]. split; [|exact Qr]. cbn [neat4]. intros [F|[]]. apply (full_ltidy r n F Tr).
  - destruct S as (Se & Sf & Nf & Ng & M). destruct (IHe Se) as (x & Ex & Tx & Yx & Nx & Qx). destruct (IHf Sf) as (y & Ey & Ty & Yy & Ny & Qy). rewrite Ex, Ey. cbn [bind].
    destruct (arith_step logic_mul bit_mul (fun x y => (x * y) mod 2 ^ n) x y _ _ ltac:(cbn; auto) Tx Ty Yx Yy Qx Qy Nf Ng) as (r & Er & Tr & Yr & Qr).
    { intros Kx Ky. assert (Vx := typed_vec _ _ _ (proj1 Tx)). assert (Vy := typed_vec _ _ _ (proj1 Ty)). assert (Wx := typed_bw _ _ _ H1 (proj1 Tx)). assert (Wy := typed_bw _ _ _ H1 (proj1 Ty)).
      assert (By := plain_be _ _ _ (proj1 Ty) H1). assert (Px := typed_sgn _ _ _ (proj1 Tx)). assert (Py := typed_sgn _ _ _ (proj1 Ty)).
      assert (HM : exists r, bit_mul (l_val x) (l_val y) = Ok r /\ typed r n (bsgn (l_val x) && bsgn (l_val y)) /\ num r = (num (l_val x) * num (l_val y)) mod 2 ^ n).
      { destruct M as [M|[M|M]]; [apply mul_same_width; auto; now left|apply mul_same_width; auto; right; left; now rewrite Px|].
        specialize (M (proj1 (known_shows n x _ false H1 Tx Qx) Kx) (proj1 (known_shows n y _ false H1 Ty Qy) Ky)).
        rewrite (number_shows n x _ false H1 Tx Qx Kx), (number_shows n y _ false H1 Ty Qy Ky) in M.
        destruct M as [D [[M1 M2]|[M1 (M2 & M3 & i & j & M4 & M5 & M6 & M7 & M8)]]];
          assert (Yx' : tidy (l_val x)) by (apply Nx; tauto); assert (Yy' : tidy (l_val y)) by (apply Ny; tauto).
        - apply mul_same_width; auto. right. right. unfold extendable, value. rewrite Px, Py. split; [exact M1|].
          split; [split; [assumption|discriminate]|]. split; [split; [assumption|discriminate]|].
          pose proof (num_range (l_val x)). pose proof (num_range (l_val y)). assert (0 <= num (l_val x) * num (l_val y)) by nia. unfold fits.
          destruct (n <=? 32); [change (2 ^ (32 - 1)) with (2 ^ 31)|change (2 ^ (64 - 1)) with (2 ^ 63); assert (2 ^ 31 < 2 ^ 63) by reflexivity]; lia.
        - apply (mul_big_width (l_val x) (l_val y) n i j); assumption. }
      destruct HM as (r & Er & Tr & Nr). rewrite Px in Tr. cbn [andb] in Tr. eauto. }
    exists r. split; [exact Er|]. split; [exact Tr|]. split; [exact Yr|]. split; [|exact Qr]. cbn [neat4]. intros [F|[]]. apply (full_ltidy r n F Tr).
  - destruct S as (Se & Sf & Nf & Ng & F & VD). destruct (IHe Se) as (x & Ex & Tx & Yx & Nx & Qx). destruct (IHf Sf) as (y & Ey & Ty & Yy & Ny & Qy). rewrite Ex, Ey. cbn [bind].
    assert (Yx' : tidy (l_val x)) by (apply Nx; tauto). assert (Yy' : tidy (l_val y)) by (apply Ny; tauto).
    destruct (div_step logic_div bit_div Z.div x y _ _ ltac:(cbn; auto) Tx Ty (conj Yx' Yx) (conj Yy' Yy) Qx Qy Nf Ng) as (r & Er & Tr & [Y1 Y2] & Qr).
    { intros Kx Ky Z0. assert (Vx := typed_vec _ _ _ (proj1 Tx)). assert (Vy := typed_vec _ _ _ (proj1 Ty)). assert (Wx := typed_bw _ _ _ H1 (proj1 Tx)). assert (Wy := typed_bw _ _ _ H1 (proj1 Ty)).
      assert (By := plain_be _ _ _ (proj1 Ty) H1). assert (Px := typed_sgn _ _ _ (proj1 Tx)). assert (Py := typed_sgn _ _ _ (proj1 Ty)).
      assert (VD' : div_visible (l_val x) (l_val y) n).
      { intros L. specialize (VD L (proj1 (known_shows n x _ false H1 Tx Qx) Kx) (proj1 (known_shows n y _ false H1 Ty Qy) Ky)).
        rewrite (number_shows n x _ false H1 Tx Qx Kx), (number_shows n y _ false H1 Ty Qy Ky) in VD. exact VD. }
      split; [intros L; apply (VD' L)|].
      destruct (divrem_same _ _ n Vx Vy Wx Wy By Px Py Yx' Yy' Z0 VD') as [(q & Eq & Tq & Nq & Yq) (m & Em & Tm & Nm & Ym)].
      unfold bit_div, bit_rem, bit_arith. rewrite (bsize_bw _ n Wx), (bsize_bw _ n Wy), Z.eqb_refl. exists q. auto. }
    exists r. split; [exact Er|]. split; [exact Tr|]. split; [exact Y2|]. split; [auto|exact Qr].
  - destruct S as (Se & Sf & Nf & Ng & F & VD). destruct (IHe Se) as (x & Ex & Tx & Yx & Nx & Qx). destruct (IHf Sf) as (y & Ey & Ty & Yy & Ny & Qy). rewrite Ex, Ey. cbn [bind].
    assert (Yx' : tidy (l_val x)) by (apply Nx; tauto). assert (Yy' : tidy (l_val y)) by (apply Ny; tauto).
    destruct (div_step logic_rem bit_rem Z.modulo x y _ _ ltac:(cbn; auto) Tx Ty (conj Yx' Yx) (conj Yy' Yy) Qx Qy Nf Ng) as (r & Er & Tr & [Y1 Y2] & Qr).
    { intros Kx Ky Z0. assert (Vx := typed_vec _ _ _ (proj1 Tx)). assert (Vy := typed_vec _ _ _ (proj1 Ty)). assert (Wx := typed_bw _ _ _ H1 (proj1 Tx)). assert (Wy := typed_bw _ _ _ H1 (proj1 Ty)).
      assert (By := plain_be _ _ _ (proj1 Ty) H1). assert (Px := typed_sgn _ _ _ (proj1 Tx)). assert (Py := typed_sgn _ _ _ (proj1 Ty)).
      assert (VD' : div_visible (l_val x) (l_val y) n).
      { intros L. specialize (VD L (proj1 (known_shows n x _ false H1 Tx Qx) Kx) (proj1 (known_shows n y _ false H1 Ty Qy) Ky)).
        rewrite (number_shows n x _ false H1 Tx Qx Kx), (number_shows n y _ false H1 Ty Qy Ky) in VD. exact VD. }
      split; [intros L; apply (VD' L)|].
      destruct (divrem_same _ _ n Vx Vy Wx Wy By Px Py Yx' Yy' Z0 VD') as [(q & Eq & Tq & Nq & Yq) (m & Em & Tm & Nm & Ym)].
      unfold bit_div, bit_rem, bit_arith. rewrite (bsize_bw _ n Wx), (bsize_bw _ n Wy), Z.eqb_refl. exists m. auto. }
    exists r. split; [exact Er|]. split; [exact Tr|]. split; [exact Y2|]. split; [auto|exact Qr].
  - destruct S as (Se & Nf & Sa). destruct (IH Se) as (x & E & T & Y & N & Q). rewrite E. cbn [bind]. destruct (shift_step true x amt _ T Y Q Nf Sa) as (r & Er & Tr & Yr & _ & Qr).
    exists r. split; [exact Er|]. split; [exact Tr|]. split; [exact Yr|]. split; [|exact Qr]. cbn [neat4]. intros [F|[]]. apply (full_ltidy r n F Tr).
  - destruct S as (Se & Nf & Sa). destruct (IH Se) as (x & E & T & Y & N & Q). rewrite E. cbn [bind]. destruct (shift_step false x amt _ T Y Q Nf Sa) as (r & Er & Tr & Yr & Yv & Qr).
    exists r. split; [exact Er|]. split; [exact Tr|]. split; [exact Yr|]. split; [|exact Qr]. cbn [neat4]. auto.
Qed.
End Eval.

(** * replacing unknown positions by known ones *)
Lemma refines_known n f' f : refines n f' f -> all_known n f = true -> all_known n f' = true /\ number n f' = number n f.
Proof.
  intros R K. pose proof (proj1 (all_known_iff n f) K) as Q. split.
  - apply all_known_iff. intros p Hp. rewrite (R p Hp (Q p Hp)). apply Q, Hp.
  - unfold number. assert (G : forall l a, (forall p, In p l -> 0 <= p < n) -> fold_left (fun a p => a + match f' p with S1 => 2 ^ p | _ => 0 end) l a = fold_left (fun a p => a + match f p with S1 => 2 ^ p | _ => 0 end) l a).
    { induction l as [|p l IH]; intros a H; [reflexivity|]. cbn [fold_left]. rewrite (R p (H p (or_introl eq_refl)) (Q p (H p (or_introl eq_refl)))). apply IH. intros q Hq. apply H. now right. }
    apply G. intros p Hp. now apply in_zrange in Hp.
Qed.
Lemma refines_x n f : refines n f all_unknown. Proof. intros p Hp K. discriminate. Qed.
Lemma refines_refl n f : refines n f f. Proof. intros p Hp K. reflexivity. Qed.
Lemma strict1_mono n f' f op : refines n f' f -> refines n (strict1 n f' op) (strict1 n f op).
Proof.
  intros R. unfold strict1. destruct (all_known n f) eqn:K; [|apply refines_x]. destruct (refines_known n f' f R K) as [-> ->]. apply refines_refl.
Qed.
Lemma strict2_mono n f' f g' g op : refines n f' f -> refines n g' g -> refines n (strict2 n f' g' op) (strict2 n f g op).
Proof.
  intros R R2. unfold strict2. destruct (all_known n f) eqn:K; [|apply refines_x]. destruct (all_known n g) eqn:K2; [|apply refines_x].
  destruct (refines_known n f' f R K) as [-> ->]. destruct (refines_known n g' g R2 K2) as [-> ->]. apply refines_refl.
Qed.
Lemma strict_div_mono n f' f g' g op : refines n f' f -> refines n g' g -> refines n (strict_div n f' g' op) (strict_div n f g op).
Proof.
  intros R R2. unfold strict_div. destruct (all_known n g) eqn:K2; cbn [andb].
  - destruct (refines_known n g' g R2 K2) as [-> ->]. cbn [andb]. destruct (number n g =? 0); [apply refines_x|now apply strict2_mono].
  - unfold strict2. rewrite K2, andb_false_r. apply refines_x.
Qed.
Lemma meaning4_mono n env' env e : (forall k, refines n (env' k) (env k)) -> refines n (meaning4 n env' e) (meaning4 n env e).
Proof.
  intros R. induction e; cbn [meaning4]; auto using strict1_mono, strict2_mono, strict_div_mono.
  - intros p Hp K. destruct (meaning4 n env e p) eqn:Q; try discriminate; rewrite (IHe p Hp) by (rewrite Q; reflexivity); now rewrite Q.
  - intros p Hp K. specialize (IHe1 p Hp). specialize (IHe2 p Hp). destruct (meaning4 n env e1 p), (meaning4 n env e2 p); cbn in *; try discriminate;
      try rewrite IHe1 by reflexivity; try rewrite IHe2 by reflexivity; try reflexivity; now destruct (meaning4 n env' e1 p).
  - intros p Hp K. specialize (IHe1 p Hp). specialize (IHe2 p Hp). destruct (meaning4 n env e1 p), (meaning4 n env e2 p); cbn in *; try discriminate;
      try rewrite IHe1 by reflexivity; try rewrite IHe2 by reflexivity; try reflexivity; now destruct (meaning4 n env' e1 p).
  - intros p Hp K. specialize (IHe1 p Hp). specialize (IHe2 p Hp). destruct (meaning4 n env e1 p), (meaning4 n env e2 p); cbn in *; try discriminate;
      try rewrite IHe1 by reflexivity; try rewrite IHe2 by reflexivity; reflexivity.
  - destruct (all_known (lw amt) _); [now apply strict1_mono|apply refines_x].
  - destruct (all_known (lw amt) _); [now apply strict1_mono|apply refines_x].
Qed.
Lemma eval4_mono n env env' e : 2 <= n -> good4 n env -> good4 n env' ->
  supported4 n (fun k => sym_at (env k)) e -> supported4 n (fun k => sym_at (env' k)) e ->
  (forall k, refines n (sym_at (env' k)) (sym_at (env k))) ->
  exists r r', eval4 env e = Ok r /\ eval4 env' e = Ok r' /\ refines n (sym_at r') (sym_at r).
Proof.
  intros Hn V V' S S' R. destruct (eval4_meaning n env Hn V e S) as (r & E & _ & _ & _ & Q). destruct (eval4_meaning n env' Hn V' e S') as (r' & E' & _ & _ & _ & Q').
  exists r, r'. split; [exact E|]. split; [exact E'|]. intros p Hp K. rewrite (Q p Hp) in *. rewrite (Q' p Hp). now apply (meaning4_mono n).
Qed.

(** * known vectors: the 4-state value is the 2-state value *)
Definition reads (n : Z) (f : vec4) (z : Z) : Prop := forall p, 0 <= p < n -> f p = sym_of_bool (Z.testbit z p).
Lemma reads_known n f z : reads n f z -> all_known n f = true.
Proof. intros R. apply all_known_iff. intros p Hp. rewrite (R p Hp). now destruct (Z.testbit z p). Qed.
Lemma reads_number n f z : 0 <= n -> 0 <= z < 2 ^ n -> reads n f z -> number n f = z.
Proof.
  intros Hn B R. assert (G : number n f = z mod 2 ^ n); [|rewrite G; apply Z.mod_small, B].
  unfold number. apply (zrange_fold_ind _ (fun i a => a = z mod 2 ^ i)); [lia|now rewrite Z.mod_1_r|].
  intros i x Hi ->. rewrite (R i Hi).
  assert (E : (match sym_of_bool (Z.testbit z i) with S1 => 2 ^ i | _ => 0 end) = Z.b2z (Z.testbit z i) * 2 ^ i) by (destruct (Z.testbit z i); cbn [sym_of_bool Z.b2z]; lia).
  rewrite E, Z.testbit_spec' by lia. rewrite Z.pow_add_r by lia. change (2 ^ 1) with 2. pose proof (pow2_pos i ltac:(lia)). rewrite Z.rem_mul_r by lia. lia.
Qed.
Lemma known_reads l n s : 1 <= n -> ltyped l n s -> known l -> reads n (sym_at l) (num (l_val l)).
Proof. intros Hn T K. apply (shows_number n l s); auto. Qed.
Lemma neat_to2 e : neat (to2 e) -> neat4 e.
Proof. induction e; cbn; tauto. Qed.
Lemma known_meaning n env e : 2 <= n -> good4 n env -> (forall k, known (env k)) ->
  let env2 := fun k => num (l_val (env k)) in
  supported n env2 (to2 e) -> known_amounts e ->
  supported4 n (fun k => sym_at (env k)) e /\ reads n (meaning4 n (fun k => sym_at (env k)) e) (meaning n env2 (to2 e)).
Proof.
  intros Hn V K env2. assert (H1 : 1 <= n) by lia.
  assert (G2 : good n (fun k => l_val (env k))) by (intros k; destruct (V k) as [[T _] [Y _]]; auto).
  assert (MR : forall e, supported n env2 e -> 0 <= meaning n env2 e < 2 ^ n) by (intros e0 S; apply (meaning_range n (fun k => l_val (env k)) e0); auto; lia).
  assert (NUM : forall f z, 0 <= z < 2 ^ n -> reads n f z -> number n f = z) by (intros f z; apply reads_number; lia).
  assert (A4 : forall a, ltyped a (lw a) false -> ltidy a -> lw a <= 64 -> known a -> amount n (l_val a) -> amount4 n a /\ all_known (lw a) (sym_at a) = true /\ number (lw a) (sym_at a) = value (l_val a)).
  { intros a T Y W Ka (Va & _ & R & _). assert (P : 1 <= lw a) by apply bw_pos. pose proof (ltyped_sgn _ _ _ T) as Sg. unfold lsgn in Sg. assert (Ev : value (l_val a) = num (l_val a)) by (unfold value; now rewrite Sg).
    pose proof (known_reads a (lw a) false P T Ka) as Q. split; [|split].
    - split; [exact T|]. split; [exact Y|]. split; [exact W|intros _; lia].
    - apply (reads_known _ _ _ Q).
    - assert (P0 : 0 <= lw a) by lia. rewrite (reads_number _ _ _ P0 (num_range (l_val a)) Q). now rewrite Ev. }
  induction e; cbn [to2 supported known_amounts supported4 meaning4 meaning]; intros S Q.
  - split; [exact I|]. pose proof (num_range (l_val (env k))) as R. destruct (V k) as [T _]. rewrite (typed_bw _ n false H1 (proj1 T)) in R. unfold env2. rewrite Z.mod_small by exact R. now apply (known_reads (env k) n false).
  - destruct (IHe S Q) as [A B]. split; [exact A|]. intros p Hp. rewrite (B p Hp). rewrite not_bits by (try apply MR; auto; lia). rewrite (proj2 (Z.ltb_lt p n)) by lia. cbn [andb]. now destruct (Z.testbit _ p).
  - destruct S as [S L]. destruct (IHe S Q) as [A B]. split; [auto|]. unfold strict1. rewrite (reads_known _ _ _ B), (NUM _ _ (MR _ S) B). intros p _. reflexivity.
  - destruct S as [S1 S2], Q as [Q1 Q2]. destruct (IHe1 S1 Q1) as [A1 B1]. destruct (IHe2 S2 Q2) as [A2 B2]. split.
    + repeat (split; [assumption|]). intros p Hp. rewrite (B1 p Hp), (B2 p Hp). unfold and_right. destruct (Z.testbit _ p), (Z.testbit _ p); cbn; intuition discriminate.
    + intros p Hp. rewrite (B1 p Hp), (B2 p Hp), Z.land_spec. now destruct (Z.testbit _ p), (Z.testbit _ p).
  - destruct S as [S1 S2], Q as [Q1 Q2]. destruct (IHe1 S1 Q1) as [A1 B1]. destruct (IHe2 S2 Q2) as [A2 B2]. split.
    + repeat (split; [assumption|]). intros p Hp. rewrite (B1 p Hp), (B2 p Hp). unfold or_right. destruct (Z.testbit _ p), (Z.testbit _ p); cbn; intuition discriminate.
    + intros p Hp. rewrite (B1 p Hp), (B2 p Hp), Z.lor_spec. now destruct (Z.testbit _ p), (Z.testbit _ p).
  - destruct S as [S1 S2], Q as [Q1 Q2]. destruct (IHe1 S1 Q1) as [A1 B1]. destruct (IHe2 S2 Q2) as [A2 B2]. split.
    + now split.
    + intros p Hp. rewrite (B1 p Hp), (B2 p Hp), Z.lxor_spec. now destruct (Z.testbit _ p), (Z.testbit _ p).
  - destruct S as [S1 S2], Q as [Q1 Q2]. destruct (IHe1 S1 Q1) as [A1 B1]. destruct (IHe2 S2 Q2) as [A2 B2]. split; [repeat split; auto; right; left; eapply reads_known; eassumption|].
    unfold strict2. rewrite (reads_known _ _ _ B1), (reads_known _ _ _ B2), (NUM _ _ (MR _ S1) B1), (NUM _ _ (MR _ S2) B2). intros p _. reflexivity.
  - destruct S as [S1 S2], Q as [Q1 Q2]. destruct (IHe1 S1 Q1) as [A1 B1]. destruct (IHe2 S2 Q2) as [A2 B2]. split; [repeat split; auto; right; left; eapply reads_known; eassumption|].
    unfold strict2. rewrite (reads_known _ _ _ B1), (reads_known _ _ _ B2), (NUM _ _ (MR _ S1) B1), (NUM _ _ (MR _ S2) B2). intros p _. reflexivity.
  - destruct S as (S1 & S2 & M), Q as [Q1 Q2]. destruct (IHe1 S1 Q1) as [A1 B1]. destruct (IHe2 S2 Q2) as [A2 B2]. split.
    { repeat (split; [assumption || (right; left; eapply reads_known; eassumption)|]). rewrite (NUM _ _ (MR _ S1) B1), (NUM _ _ (MR _ S2) B2).
      destruct M as [M|[M|M]]; [tauto|tauto|]; right; right; intros _ _; assert (FW : full_width n \/ neat (to2 e1) /\ neat (to2 e2)) by tauto; (split; [destruct FW as [FW|[F1 F2]]; [now left|right; split; now apply neat_to2]|]); tauto. }
    unfold strict2. rewrite (reads_known _ _ _ B1), (reads_known _ _ _ B2), (NUM _ _ (MR _ S1) B1), (NUM _ _ (MR _ S2) B2). intros p _. reflexivity.
  - destruct S as (S1 & S2 & F & Z0 & VD), Q as [Q1 Q2]. destruct (IHe1 S1 Q1) as [A1 B1]. destruct (IHe2 S2 Q2) as [A2 B2]. split.
    { repeat (split; [assumption || (right; left; eapply reads_known; eassumption)|]). rewrite (NUM _ _ (MR _ S1) B1), (NUM _ _ (MR _ S2) B2).
      split; [destruct F as [F|[F1 F2]]; [now left|right; split; now apply neat_to2]|]. auto. }
    unfold strict_div, strict2. rewrite (reads_known _ _ _ B1), (reads_known _ _ _ B2), (NUM _ _ (MR _ S1) B1), (NUM _ _ (MR _ S2) B2). cbn [andb]. rewrite (proj2 (Z.eqb_neq _ _) Z0). intros p _. reflexivity.
  - destruct S as (S1 & S2 & F & Z0 & VD), Q as [Q1 Q2]. destruct (IHe1 S1 Q1) as [A1 B1]. destruct (IHe2 S2 Q2) as [A2 B2]. split.
    { repeat (split; [assumption || (right; left; eapply reads_known; eassumption)|]). rewrite (NUM _ _ (MR _ S1) B1), (NUM _ _ (MR _ S2) B2).
      split; [destruct F as [F|[F1 F2]]; [now left|right; split; now apply neat_to2]|]. auto. }
    unfold strict_div, strict2. rewrite (reads_known _ _ _ B1), (reads_known _ _ _ B2), (NUM _ _ (MR _ S1) B1), (NUM _ _ (MR _ S2) B2). cbn [andb]. rewrite (proj2 (Z.eqb_neq _ _) Z0). intros p _. reflexivity.
  - destruct S as [S Sa], Q as (Q & Ta & Ya & Wa & Ka). destruct (IHe S Q) as [A B]. destruct (A4 amt Ta Ya Wa Ka Sa) as (C1 & C2 & C3). split; [repeat split; try apply C1; auto; right; left; eapply reads_known; eassumption|]. rewrite C2. unfold strict1. rewrite (reads_known _ _ _ B), (NUM _ _ (MR _ S) B), C3. intros p _. reflexivity.
  - destruct S as [S Sa], Q as (Q & Ta & Ya & Wa & Ka). destruct (IHe S Q) as [A B]. destruct (A4 amt Ta Ya Wa Ka Sa) as (C1 & C2 & C3). split; [repeat split; try apply C1; auto; right; left; eapply reads_known; eassumption|]. rewrite C2. unfold strict1. rewrite (reads_known _ _ _ B), (NUM _ _ (MR _ S) B), C3. intros p _. reflexivity.
Qed.
Lemma eval4_known n env e : 2 <= n -> good4 n env -> (forall k, known (env k)) ->
  supported n (fun k => num (l_val (env k))) (to2 e) -> known_amounts e ->
  exists r v, eval4 env e = Ok r /\ eval (fun k => l_val (env k)) (to2 e) = Ok v /\ known r /\ num (l_val r) = num v.
Proof.
  intros Hn V K S Q. destruct (known_meaning n env e Hn V K S Q) as [S4 R].
  destruct (eval4_meaning n env Hn V e S4) as (r & E & T & _ & _ & W). assert (H1 : 1 <= n) by lia.
  assert (G2 : good n (fun k => l_val (env k))) by (intros k; destruct (V k) as [[Tk _] [Y _]]; auto).
  destruct (eval_meaning n _ (to2 e) ltac:(lia) G2 S) as (v & Ev & _ & Nv & _). exists r, v. split; [exact E|]. split; [exact Ev|].
  assert (Kr : known r) by (apply (known_shows n r _ false H1 T W), (reads_known _ _ _ R)). split; [exact Kr|].
  rewrite <- (number_shows n r _ false H1 T W Kr), Nv. apply reads_number; [lia| |exact R]. apply (meaning_range n (fun k => l_val (env k))); auto; lia.
Qed.

(** * counting *)
Lemma after_step a b n s : 2 <= n -> ltyped a n s -> ltyped b n s -> (~ known a -> all_x b) -> (known a -> known b) -> seen b.
Proof.
  intros Hn Ta T X K. assert (H1 : 1 <= n) by lia. destruct (known_dec n a s H1 Ta) as [A|A].
  - right. intros _. apply (xz_num0 b (ltyped_lvec _ _ _ T)), K, A.
  - apply (noticed_seen n b (sym_at b) s H1 T); [intros p _; reflexivity|]. right. right. exists 0. split; [lia|]. split; [reflexivity|].
    rewrite (X A 0); [reflexivity|rewrite (ltyped_lw b n s H1 T); lia].
Qed.
Lemma count4 (up : bool) n s k : 2 <= n -> forall a, ltyped a n s -> tidy (l_xz a) -> seen a ->
  exists r, ofold (fun x (_ : unit) => if up then logic_inc x else logic_dec x) (repeat tt k) a = Ok r /\ ltyped r n s /\
    (known a -> known r /\ num (l_val r) = (num (l_val a) + (if up then 1 else -1) * Z.of_nat k) mod 2 ^ n) /\
    (~ known a -> k <> 0%nat -> all_x r).
Proof.
  intros Hn. assert (H1 : 1 <= n) by lia. induction k as [|k IH]; intros a T Y Sa.
  - exists a. split; [reflexivity|]. split; [exact T|]. split; [|tauto]. intros K. split; [exact K|]. rewrite Z.mul_0_r, Z.add_0_r. symmetry. apply Z.mod_small.
    pose proof (num_range (l_val a)) as R. rewrite (typed_bw _ n s H1 (proj1 T)) in R. exact R.
  - destruct (lstep_main (if up then logic_inc else logic_dec) (if up then 1 else -1) ltac:(destruct up; cbn; auto) a n s ltac:(lia) T Y Sa) as (b & E & Tb & Yb & _ & X & N).
    assert (Sb : seen b) by (apply (after_step a b n s); auto; intros Ka; apply (N Ka)).
    destruct (IH b Tb Yb Sb) as (r & Er & Tr & Nr & Xr). exists r. cbn [repeat ofold].
    replace (if up then logic_inc a else logic_dec a) with ((if up then logic_inc else logic_dec) a) by (destruct up; reflexivity). rewrite E. cbn [bind].
    split; [exact Er|]. split; [exact Tr|]. split.
    + intros K. destruct (N K) as [Kb Nb]. destruct (Nr Kb) as [Kr Mr]. split; [exact Kr|]. rewrite Mr, Nb, Zplus_mod_idemp_l. f_equal. lia.
    + intros K _. specialize (X K). destruct k as [|k]; [cbn in Er; injection Er as <-; exact X|]. apply Xr; [|discriminate].
      intros Kb. specialize (Kb 0). specialize (X 0). rewrite (ltyped_lw b n s H1 Tb) in *. rewrite X in Kb by lia. specialize (Kb ltac:(lia)). discriminate.
Qed.

(** * counterexamples *)
Definition l2 (v m : Z) := mkLogic (bit_of_native 1 0 false v) (bit_of_native 1 0 false m).
(** z & 1 is 1 but 0 & 1 is 0 *)
Lemma mono_counter : exists env env', good4 2 env /\ good4 2 env' /\ (forall k, refines 2 (sym_at (env' k)) (sym_at (env k))) /\
  exists r r', eval4 env (And (Var 0) (Var 1)) = Ok r /\ eval4 env' (And (Var 0) (Var 1)) = Ok r' /\ ~ refines 2 (sym_at r') (sym_at r).
Proof.
  exists (two (l2 1 1) (l2 1 0)), (two (l2 0 0) (l2 1 0)).
  do 2 (split; [intros [|k]; cbn [two]; repeat split; vm_compute; reflexivity || discriminate || (intro; discriminate)|]). split.
  - intros [|k] p Hp K; cbn [two] in *; [|reflexivity]. assert (D : p = 0 \/ p = 1) by lia. destruct D as [-> | ->]; [vm_compute in K; discriminate|reflexivity].
  - exists (l2 1 0), (l2 0 0). split; [vm_compute; reflexivity|]. split; [vm_compute; reflexivity|]. intros R. specialize (R 0 ltac:(lia) ltac:(vm_compute; reflexivity)). vm_compute in R. discriminate.
Qed.
(** x & 0 is x *)
Lemma and_counter : exists env, good4 2 env /\ exists r, eval4 env (And (Var 0) (Var 1)) = Ok r /\
  sym_at r 0 = SX /\ meaning4 2 (fun k => sym_at (env k)) (And (Var 0) (Var 1)) 0 = S0.
Proof.
  exists (two (l2 0 1) (l2 0 0)). split; [intros [|k]; cbn [two]; repeat split; vm_compute; reflexivity || discriminate || (intro; discriminate)|].
  exists (l2 0 1). repeat split; vm_compute; reflexivity.
Qed.
