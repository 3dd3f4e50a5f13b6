(** Lemmas about 4-state imperative programs: the library and the IEEE 1800 meaning run in lockstep. *)
From Coq Require Import ZArith List Bool Lia.
From Verif Require Import Cpp BigNum Bit Logic Spec SpecExact4 ZBits Words BigNumProofs BigArith BitProofs BitSlice BitExt BitOps
  BitShift BitCmp BitArith BitMain BitMain2 BitMain3 BitMain4 BitMain5 LogicProofs LogicOps LogicRed LogicArith LogicArith2
  LogicConv LogicConv2 LogicMain Client ClientProofs LawProofs Client4 Client4Proofs More Program ProgramProofs Program4.
Import ListNotations.
Open Scope Z_scope.

Lemma one_tidy x s : typed x 1 s -> tidy x.
Proof.
  intros T. destruct (typed_cases x 1 s ltac:(lia) T) as [(v & -> & N & I) | (ws & -> & N & I)]; [|lia].
  change (hty 1 s) with TBool in I. apply in_bool in I. unfold tidy. cbn [bval bsgn]. change (bw _) with 1. change (1 <? 1) with false. rewrite andb_false_r. change (2 ^ 1) with 2. lia.
Qed.
Lemma one_bool c : ltyped c 1 false -> logic_bool c = match sym_at c 0 with S1 => true | _ => false end.
Proof.
  intros T. pose proof (ltyped_lvec _ _ _ T) as V. pose proof (ltyped_lw c 1 false ltac:(lia) T) as W.
  destruct (truth_value c V (conj (one_tidy _ _ (proj1 T)) (one_tidy _ _ (proj2 T)))) as [H _]; [left; lia|left; lia|].
  unfold known in H. rewrite W in H. apply Bool.eq_iff_eq_true. rewrite H. split.
  - intros [_ (p & Hp & E)]. replace p with 0 in E by lia. now rewrite E.
  - intros E. destruct (sym_at c 0) eqn:S; try discriminate. split; [intros p Hp; replace p with 0 by lia; now rewrite S|]. exists 0. split; [lia|exact S].
Qed.

(** numbers and knownness depend on the positions only *)
Definition same (n : Z) (f g : vec4) : Prop := forall p, 0 <= p < n -> f p = g p.
Lemma all_known_same n f g : same n f g -> all_known n f = all_known n g.
Proof. intros H. apply Bool.eq_iff_eq_true. rewrite !all_known_iff. split; intros K p Hp; specialize (H p Hp); specialize (K p Hp); congruence. Qed.
Lemma number_same n f g : same n f g -> number n f = number n g.
Proof.
  intros H. unfold number. assert (G : forall l a, (forall p, In p l -> 0 <= p < n) -> fold_left (fun a p => a + match f p with S1 => 2 ^ p | _ => 0 end) l a = fold_left (fun a p => a + match g p with S1 => 2 ^ p | _ => 0 end) l a).
  { induction l as [|p l IH]; intros a Q; [reflexivity|]. cbn [fold_left]. rewrite (H p) by (apply Q; now left). apply IH. intros q Hq. apply Q. now right. }
  apply G. intros p Hp. now apply in_zrange.
Qed.
Lemma strict1_same n f f' op : same n f f' -> strict1 n f op = strict1 n f' op.
Proof. intros H. unfold strict1. now rewrite (all_known_same n f f' H), (number_same n f f' H). Qed.
Lemma strict2_same n f f' g g' op : same n f f' -> same n g g' -> strict2 n f g op = strict2 n f' g' op.
Proof. intros H K. unfold strict2. now rewrite (all_known_same n f f' H), (number_same n f f' H), (all_known_same n g g' K), (number_same n g g' K). Qed.
Lemma strict_div_same n f f' g g' op : same n f f' -> same n g g' -> strict_div n f g op = strict_div n f' g' op.
Proof. intros H K. unfold strict_div. now rewrite (strict2_same n f f' g g' op H K), (all_known_same n g g' K), (number_same n g g' K). Qed.

Definition val4 (n : Z) (r : outcome logic) (f : vec4) : Prop := exists x, r = Ok x /\ ltyped x n false /\ ltidy x /\ shows n x f.

Section Run.
Variable n : Z.
Hypotheses (F : full_width n) (L : n <= 64).
Let Hn : 2 <= n. Proof. unfold full_width in F. lia. Qed.
Let H1 : 1 <= n. Proof. lia. Qed.
Let NT : forall f, noticed n f. Proof. intros f. left. exact L. Qed.

Lemma step2 (op : logic -> logic -> outcome logic) x y e f : ltyped x n false -> ltyped y n false -> ltidy x -> ltidy y ->
  (forall env, eval4 env e = op (env 0%nat) (env 1%nat)) ->
  supported4 n (fun k => sym_at (match k with O => x | _ => y end)) e ->
  same n (meaning4 n (fun k => sym_at (match k with O => x | _ => y end)) e) f -> val4 n (op x y) f.
Proof.
  intros Tx Ty Yx Yy E S M. set (env := fun k => match k with O => x | _ => y end) in *.
  destruct (eval4_meaning n env Hn) with (e0 := e) as (r & Er & Tr & Xr & Yr & Q).
  - intros [|k]; cbn [env]; auto.
  - exact S.
  - rewrite (E env) in Er. change (env 0%nat) with x in Er. change (env 1%nat) with y in Er. exists r. split; [exact Er|]. split; [exact Tr|].
    split; [split; auto|]. intros p Hp. rewrite (Q p Hp). now apply M.
Qed.
Lemma bin4 (op : logic -> logic -> outcome logic) r1 r2 f g h :
  (forall x y, ltyped x n false -> ltyped y n false -> ltidy x -> ltidy y -> same n (sym_at x) f -> same n (sym_at y) g -> val4 n (op x y) h) ->
  val4 n r1 f -> val4 n r2 g -> val4 n (let! x := r1 in let! y := r2 in op x y) h.
Proof. intros H (x & -> & Tx & Yx & Sx) (y & -> & Ty & Yy & Sy). cbn [bind]. now apply H. Qed.
Lemma un4 (op : logic -> outcome logic) r1 f h :
  (forall x, ltyped x n false -> ltidy x -> same n (sym_at x) f -> val4 n (op x) h) -> val4 n r1 f -> val4 n (let! x := r1 in op x) h.
Proof. intros H (x & -> & Tx & Yx & Sx). cbn [bind]. now apply H. Qed.

Lemma table4 (op : logic -> logic -> outcome logic) h x y f g :
  (forall a b m, lvec a -> lvec b -> lw a = m -> lw b = m -> llsb a <= lmsb a -> llsb b <= lmsb b -> lsgn a && lsgn b = false ->
      exists r, op a b = Ok r /\ ltyped r m false /\ (tidy (l_xz a) -> tidy (l_xz b) -> ltidy r) /\ forall p, 0 <= p < m -> sym_at r p = h (sym_at a p) (sym_at b p)) ->
  ltyped x n false -> ltyped y n false -> ltidy x -> ltidy y -> same n (sym_at x) f -> same n (sym_at y) g -> val4 n (op x y) (fun p => h (f p) (g p)).
Proof.
  intros O Tx Ty [_ Yx] [_ Yy] Sx Sy. destruct (ltyped_plain x n false H1 Tx) as (A1 & A2 & _ & A3). destruct (ltyped_plain y n false H1 Ty) as (B1 & B2 & _ & B3).
  destruct (O x y n A3 B3 (ltyped_lw _ _ _ H1 Tx) (ltyped_lw _ _ _ H1 Ty)) as (r & E & T & Y & Q); [lia|lia|now rewrite (ltyped_sgn _ _ _ Tx)|].
  exists r. split; [exact E|]. split; [exact T|]. split; [apply Y; assumption|]. intros p Hp. rewrite (Q p Hp), (Sx p Hp), (Sy p Hp). reflexivity.
Qed.
Lemma lib_and_gen a b m : lvec a -> lvec b -> lw a = m -> lw b = m -> llsb a <= lmsb a -> llsb b <= lmsb b -> lsgn a && lsgn b = false ->
  exists r, logic_and a b = Ok r /\ ltyped r m false /\ (tidy (l_xz a) -> tidy (l_xz b) -> ltidy r) /\ forall p, 0 <= p < m -> sym_at r p = lib_and (sym_at a p) (sym_at b p).
Proof.
  intros A B C D E G H. destruct (and4_main a b m A B C D E G H) as (r & R & T & Y & Q). exists r. split; [exact R|]. split; [exact T|]. split; [auto|].
  intros p Hp. rewrite (Q p Hp). destruct (sym_at a p), (sym_at b p); reflexivity.
Qed.
Lemma lib_or_gen a b m : lvec a -> lvec b -> lw a = m -> lw b = m -> llsb a <= lmsb a -> llsb b <= lmsb b -> lsgn a && lsgn b = false ->
  exists r, logic_or a b = Ok r /\ ltyped r m false /\ (tidy (l_xz a) -> tidy (l_xz b) -> ltidy r) /\ forall p, 0 <= p < m -> sym_at r p = lib_or (sym_at a p) (sym_at b p).
Proof.
  intros A B C D E G H. destruct (or4_main a b m A B C D E G H) as (r & R & T & Y & Q). exists r. split; [exact R|]. split; [exact T|]. split; [auto|].
  intros p Hp. rewrite (Q p Hp). destruct (sym_at a p), (sym_at b p); reflexivity.
Qed.

Lemma eval4_value env st e : good4 n env -> (forall k, same n (sym_at (env k)) (st k)) -> usable4 n e -> val4 n (eval4 env e) (value4 lib_and lib_or n st e).
Proof.
  intros G N.
  induction e as [k|e IH|e IH|e IHe f IHf|e IHe f IHf|e IHe f IHf|e IHe f IHf|e IHe f IHf|e IHe f IHf|e IHe f IHf|e IHe f IHf|e IH amt|e IH amt];
    cbn [usable4 eval4 value4]; intros U.
  - exists (env k). split; [reflexivity|]. split; [apply G|]. split; [apply G|]. exact (N k).
  - refine (un4 logic_not _ _ _ _ (IH U)). intros x T [_ Y] S. destruct (not4_main x n (ltyped_lvec _ _ _ T) (ltyped_lw _ _ _ H1 T)) as (r & Er & Tr & Yr & Qr).
    exists r. split; [exact Er|]. split; [exact Tr|]. split; [auto|]. intros p Hp. now rewrite (Qr p Hp), (S p Hp).
  - refine (un4 logic_neg _ _ _ _ (IH U)). intros x T Y S.
    apply (step2 (fun x _ => logic_neg x) x x (Neg (Var 0)) _ T T Y Y); [reflexivity|split; [exact I|exact L]|].
    cbn [meaning4]. rewrite (strict1_same n _ _ _ S). intros p _. reflexivity.
  - destruct U as [U1 U2]. refine (bin4 logic_and _ _ _ _ _ _ (IHe U1) (IHf U2)). intros x y Tx Ty Yx Yy Sx Sy. apply (table4 logic_and lib_and); auto using lib_and_gen.
  - destruct U as [U1 U2]. refine (bin4 logic_or _ _ _ _ _ _ (IHe U1) (IHf U2)). intros x y Tx Ty Yx Yy Sx Sy. apply (table4 logic_or lib_or); auto using lib_or_gen.
  - destruct U as [U1 U2]. refine (bin4 logic_xor _ _ _ _ _ _ (IHe U1) (IHf U2)). intros x y Tx Ty Yx Yy Sx Sy. apply (table4 logic_xor xor4); auto using xor4_main.
  - destruct U as [U1 U2]. refine (bin4 logic_add _ _ _ _ _ _ (IHe U1) (IHf U2)). intros x y Tx Ty Yx Yy Sx Sy.
    apply (step2 logic_add x y (Add (Var 0) (Var 1)) _ Tx Ty Yx Yy); [reflexivity|cbn [supported4]; auto|].
    cbn [meaning4]. rewrite (strict2_same n _ _ _ _ _ Sx Sy). intros p _. reflexivity.
  - destruct U as [U1 U2]. refine (bin4 logic_sub _ _ _ _ _ _ (IHe U1) (IHf U2)). intros x y Tx Ty Yx Yy Sx Sy.
    apply (step2 logic_sub x y (Sub (Var 0) (Var 1)) _ Tx Ty Yx Yy); [reflexivity|cbn [supported4]; auto|].
    cbn [meaning4]. rewrite (strict2_same n _ _ _ _ _ Sx Sy). intros p _. reflexivity.
  - destruct U as (U1 & U2 & U3). refine (bin4 logic_mul _ _ _ _ _ _ (IHe U1) (IHf U2)). intros x y Tx Ty Yx Yy Sx Sy.
    apply (step2 logic_mul x y (Mul (Var 0) (Var 1)) _ Tx Ty Yx Yy); [reflexivity|cbn [supported4]; repeat (split; [auto|]); unfold full_width in F; lia|].
    cbn [meaning4]. rewrite (strict2_same n _ _ _ _ _ Sx Sy). intros p _. reflexivity.
  - destruct U as [U1 U2]. refine (bin4 logic_div _ _ _ _ _ _ (IHe U1) (IHf U2)). intros x y Tx Ty Yx Yy Sx Sy.
    apply (step2 logic_div x y (Div (Var 0) (Var 1)) _ Tx Ty Yx Yy); [reflexivity|cbn [supported4]; repeat (split; [auto|]); lia|].
    cbn [meaning4]. rewrite (strict_div_same n _ _ _ _ _ Sx Sy). intros p _. reflexivity.
  - destruct U as [U1 U2]. refine (bin4 logic_rem _ _ _ _ _ _ (IHe U1) (IHf U2)). intros x y Tx Ty Yx Yy Sx Sy.
    apply (step2 logic_rem x y (Rem (Var 0) (Var 1)) _ Tx Ty Yx Yy); [reflexivity|cbn [supported4]; repeat (split; [auto|]); lia|].
    cbn [meaning4]. rewrite (strict_div_same n _ _ _ _ _ Sx Sy). intros p _. reflexivity.
  - destruct U as [U1 U2]. refine (un4 (fun x => logic_shl x amt) _ _ _ _ (IH U1)). intros x T Y S.
    apply (step2 (fun x _ => logic_shl x amt) x x (Shl (Var 0) amt) _ T T Y Y); [reflexivity|cbn [supported4]; auto|].
    cbn [meaning4]. rewrite (strict1_same n _ _ _ S). intros p _. reflexivity.
  - destruct U as [U1 U2]. refine (un4 (fun x => logic_shr x amt) _ _ _ _ (IH U1)). intros x T Y S.
    apply (step2 (fun x _ => logic_shr x amt) x x (Shr (Var 0) amt) _ T T Y Y); [reflexivity|cbn [supported4]; auto|].
    cbn [meaning4]. rewrite (strict1_same n _ _ _ S). intros p _. reflexivity.
Qed.

Lemma cmp4 lop bop z x y f g : In (lop, bop, z) [(logic_eq, bit_eq, Z.eqb); (logic_lt, bit_lt, Z.ltb); (logic_ge, bit_ge, fun x y => y <=? x)] ->
  ltyped x n false -> ltyped y n false -> ltidy x -> ltidy y -> shows n x f -> shows n y g ->
  (let! c := lop x y in Ok (logic_bool c)) = Ok (both_known n f g && z (number n f) (number n g)).
Proof.
  intros O Tx Ty [Vx Yx] [Vy Yy] Sx Sy. pose proof (ltyped_lvec _ _ _ Tx) as Lx. pose proof (ltyped_lvec _ _ _ Ty) as Ly.
  assert (B : bop (l_val x) (l_val y) = Ok (z (num (l_val x)) (num (l_val y)))).
  { destruct (compare_full n (l_val x) (l_val y) F (proj1 Tx) (proj1 Ty)) as (A & B & C). cbn [In] in O. destruct O as [O|[O|[O|[]]]]; injection O as <- <- <-; assumption. }
  destruct (lcmp_unknown lop bop) with (a := x) (b := y) as [U K]; auto.
  { cbn [In] in *. destruct O as [O|[O|[O|[]]]]; injection O as <- <- <-; tauto. }
  { left. rewrite (ltyped_lw _ _ _ H1 Tx). exact L. } { left. rewrite (ltyped_lw _ _ _ H1 Ty). exact L. }
  unfold both_known.
  destruct (known_dec n x false H1 Tx) as [Kx|Kx], (known_dec n y false H1 Ty) as [Ky|Ky].
  - destruct (K Kx Ky _ B) as (c & -> & Tc & E). cbn [bind]. rewrite (one_bool c Tc), E.
    rewrite (proj1 (known_shows n x f false H1 Tx Sx) Kx), (proj1 (known_shows n y g false H1 Ty Sy) Ky). cbn [andb].
    rewrite (number_shows n x f false H1 Tx Sx Kx), (number_shows n y g false H1 Ty Sy Ky). now destruct (z _ _).
  - destruct U as (c & -> & Tc & E); [auto|congruence|]. cbn [bind]. rewrite (one_bool c Tc), E.
    rewrite (known_shows n y g false H1 Ty Sy) in Ky. destruct (all_known n g); [congruence|]. now rewrite andb_false_r.
  - destruct U as (c & -> & Tc & E); [auto|congruence|]. cbn [bind]. rewrite (one_bool c Tc), E.
    rewrite (known_shows n x f false H1 Tx Sx) in Kx. destruct (all_known n f); [congruence|]. reflexivity.
  - destruct U as (c & -> & Tc & E); [auto|congruence|]. cbn [bind]. rewrite (one_bool c Tc), E.
    rewrite (known_shows n x f false H1 Tx Sx) in Kx. destruct (all_known n f); [congruence|]. reflexivity.
Qed.

Lemma test4_value env st b : good4 n env -> (forall k, same n (sym_at (env k)) (st k)) -> usable_cond4 n b ->
  test4 env b = Ok (holds4 lib_and lib_or n st b).
Proof.
  intros G N U. pose proof (fun e => eval4_value env st e G N) as V.
  destruct b as [e f|e f|e f|e f|e]; cbn [usable_cond4 test4 holds4] in *.
  - destruct U as [U1 U2]. destruct (V e U1) as (x & -> & Tx & Yx & Sx). destruct (V f U2) as (y & -> & Ty & Yy & Sy). cbn [bind].
    apply (cmp4 logic_eq bit_eq Z.eqb); cbn [In]; auto.
  - destruct U as [U1 U2]. destruct (V e U1) as (x & -> & Tx & Yx & Sx). destruct (V f U2) as (y & -> & Ty & Yy & Sy). cbn [bind].
    apply (cmp4 logic_lt bit_lt Z.ltb); cbn [In]; auto.
  - destruct U as [U1 U2]. destruct (V e U1) as (x & -> & Tx & Yx & Sx). destruct (V f U2) as (y & -> & Ty & Yy & Sy). cbn [bind].
    apply (cmp4 logic_ge bit_ge (fun x y => y <=? x)); cbn [In]; auto.
  - destruct U as [U1 U2]. destruct (V e U1) as (x & -> & Tx & Yx & Sx). destruct (V f U2) as (y & -> & Ty & Yy & Sy). cbn [bind].
    destruct (lmatch_laws x y n false H1 Tx Ty Yx Yy ltac:(discriminate)) as (c & -> & Q & _). f_equal. apply Bool.eq_iff_eq_true. rewrite Q, forallb_forall.
    assert (SE : forall s t, sym_eqb s t = true <-> s = t) by (intros [] []; cbn; split; congruence).
    split; intros A p Hp.
    + apply in_zrange in Hp. apply SE. rewrite <- (Sx p Hp), <- (Sy p Hp). auto.
    + rewrite (Sx p Hp), (Sy p Hp). apply SE, A. now apply in_zrange.
  - destruct (V e U) as (x & -> & Tx & Yx & Sx). cbn [bind]. f_equal.
    pose proof (ltyped_lw _ _ _ H1 Tx) as W.
    destruct (truth_value x (ltyped_lvec _ _ _ Tx) Yx) as [Q _]; [left; lia|left; lia|]. apply Bool.eq_iff_eq_true. rewrite Q, andb_true_iff, negb_true_iff, Z.eqb_neq, W.
    rewrite <- (known_shows n x _ false H1 Tx Sx). split; intros [K E]; (split; [exact K|]).
    + rewrite (number_shows n x _ false H1 Tx Sx K). destruct E as (p & Hp & E). intros Z0. unfold sym_at, bit_at in E. rewrite Z0, Z.bits_0 in E.
      destruct (Z.testbit (num (l_xz x)) p); discriminate.
    + rewrite (number_shows n x _ false H1 Tx Sx K) in E.
      pose proof (num_range (l_val x)) as R. unfold lw in W. rewrite W in R. exists (Z.log2 (num (l_val x))). assert (P : 0 < num (l_val x)) by lia.
      split; [split; [apply Z.log2_nonneg|apply Z.log2_lt_pow2; lia]|]. assert (B : bit_at (l_val x) (Z.log2 (num (l_val x))) = true) by (apply Z.bit_log2; exact P).
      assert (KK : unknown (sym_at x (Z.log2 (num (l_val x)))) = false) by (apply K; unfold lw; rewrite W; split; [apply Z.log2_nonneg|apply Z.log2_lt_pow2; lia]).
      unfold sym_at in *. rewrite B in *. destruct (bit_at (l_xz x) _); [discriminate|reflexivity].
Qed.

Lemma lockstep4 : forall c, usable_cmd4 n c -> forall fuel env st, good4 n env -> (forall k, same n (sym_at (env k)) (st k)) ->
  same_outcome4 n (exec4 fuel env c) (exec4_of lib_and lib_or n fuel st c).
Proof.
  intros c U fuel. revert c U. induction fuel as [|fuel IH]; intros c U env st G N; [exact I|].
  assert (SEQ : forall c d env st, usable_cmd4 n c -> usable_cmd4 n d -> good4 n env -> (forall k, same n (sym_at (env k)) (st k)) ->
    same_outcome4 n (let! env' := exec4 fuel env c in exec4 fuel env' d) (let! st' := exec4_of lib_and lib_or n fuel st c in exec4_of lib_and lib_or n fuel st' d)).
  { clear c U env st G N. intros c d env st U1 U2 G N. pose proof (IH c U1 env st G N) as A.
    destruct (exec4 fuel env c), (exec4_of lib_and lib_or n fuel st c); cbn [same_outcome4 bind] in *; try tauto. destruct A as [G' N']. now apply IH. }
  destruct c as [|k e|c d|b c d|b c]; cbn [exec4 exec4_of usable_cmd4] in *.
  - cbn. split; [exact G|exact N].
  - destruct (eval4_value env st e G N U) as (x & -> & T & Y & S). cbn [bind same_outcome4]. unfold upd. split.
    + intros j. destruct (Nat.eqb j k); [auto|apply G].
    + intros j. destruct (Nat.eqb j k); [exact S|apply N].
  - destruct U. now apply SEQ.
  - destruct U as (Ub & U1 & U2). rewrite (test4_value env st b G N Ub). cbn [bind]. destruct (holds4 lib_and lib_or n st b); now apply IH.
  - destruct U as [Ub Uc]. rewrite (test4_value env st b G N Ub). cbn [bind]. destruct (holds4 lib_and lib_or n st b).
    + apply SEQ; auto. cbn. auto.
    + cbn. split; [exact G|exact N].
Qed.
End Run.

(** * without & and | the tables do not matter *)
Lemma value4_tables t1 t2 u1 u2 n st e : no_tables e -> value4 t1 t2 n st e = value4 u1 u2 n st e.
Proof.
  induction e; cbn [no_tables value4]; intros H; try tauto; try reflexivity;
    try (destruct H as [Ha Hb]; now rewrite IHe1, IHe2 by assumption); now rewrite IHe by assumption.
Qed.
Lemma holds4_tables t1 t2 u1 u2 n st b : no_tables_cond b -> holds4 t1 t2 n st b = holds4 u1 u2 n st b.
Proof.
  destruct b; cbn [no_tables_cond holds4]; intros H; try (destruct H as [H1 H2]; now rewrite (value4_tables t1 t2 u1 u2 n st _ H1), (value4_tables t1 t2 u1 u2 n st _ H2)).
  now rewrite (value4_tables t1 t2 u1 u2 n st _ H).
Qed.
Lemma exec4_tables t1 t2 u1 u2 n fuel : forall c st, no_tables_cmd c -> exec4_of t1 t2 n fuel st c = exec4_of u1 u2 n fuel st c.
Proof.
  induction fuel as [|fuel IH]; intros c st H; [reflexivity|].
  destruct c as [|k e|c d|b c d|b c]; cbn [exec4_of no_tables_cmd] in *.
  - reflexivity.
  - now rewrite (value4_tables t1 t2 u1 u2 n st e H).
  - rewrite (IH c) by tauto. destruct (exec4_of u1 u2 n fuel st c); cbn [bind]; auto. apply IH. tauto.
  - rewrite (holds4_tables t1 t2 u1 u2 n st b) by tauto. apply IH. destruct (holds4 u1 u2 n st b); tauto.
  - rewrite (holds4_tables t1 t2 u1 u2 n st b) by tauto. destruct (holds4 u1 u2 n st b); [|reflexivity].
    rewrite (IH c) by tauto. destruct (exec4_of u1 u2 n fuel st c); cbn [bind]; auto.
Qed.
Lemma lockstep4_ieee n c : full_width n -> n <= 64 -> usable_cmd4 n c -> no_tables_cmd c -> forall fuel env st, good4 n env ->
  (forall k p, 0 <= p < n -> sym_at (env k) p = st k p) -> same_outcome4 n (exec4 fuel env c) (exec4_of and4 or4 n fuel st c).
Proof.
  intros F L U T fuel env st G N. rewrite (exec4_tables and4 or4 lib_and lib_or n fuel c st T). apply lockstep4; auto.
Qed.
Lemma lockstep4_tables n c : full_width n -> n <= 64 -> usable_cmd4 n c -> forall fuel env st, good4 n env ->
  (forall k p, 0 <= p < n -> sym_at (env k) p = st k p) -> same_outcome4 n (exec4 fuel env c) (exec4_of lib_and lib_or n fuel st c).
Proof. intros F L U fuel env st G N. apply lockstep4; auto. Qed.

(** * known variables: the 4-state run follows the 2-state run *)
Lemma amount_known n a : amount4 n a -> known a -> amount n (l_val a) /\ all_known (lw a) (sym_at a) = true /\ number (lw a) (sym_at a) = value (l_val a).
Proof.
  intros (T & Y & W & B) K. assert (P : 1 <= lw a) by apply bw_pos. pose proof (ltyped_sgn _ _ _ T) as Sg. unfold lsgn in Sg.
  assert (Ev : value (l_val a) = num (l_val a)) by (unfold value; now rewrite Sg). pose proof (num_range (l_val a)) as R.
  pose proof (known_reads a (lw a) false P T K) as Q. split; [|split].
  - split; [apply (ltyped_lvec _ _ _ T)|]. split; [apply Y|]. rewrite Ev. split; [split; [lia|auto]|]. intros _. exact W.
  - apply (reads_known _ _ _ Q).
  - assert (P0 : 0 <= lw a) by lia. rewrite (reads_number _ _ _ P0 R Q). now rewrite Ev.
Qed.
Lemma usable_to2 n e : n <= 64 -> usable4 n e -> known_amounts e -> usable n (to2 e).
Proof.
  intros L. induction e; cbn [usable4 known_amounts to2 usable]; intros U K; try tauto;
    (destruct U as [U A], K as (K & _ & _ & _ & Ka); split; [auto|apply (amount_known n amt A Ka)]).
Qed.
Lemma usable_cond_to2 n b b2 : n <= 64 -> usable_cond4 n b -> known_amounts_cond b -> to2_cond b = Some b2 -> usable_cond n b2.
Proof. intros L U K E. destruct b; cbn in *; try discriminate; injection E as <-; cbn; destruct U, K; auto using usable_to2. Qed.
Lemma usable_cmd_to2 n : n <= 64 -> forall c c2, usable_cmd4 n c -> known_amounts_cmd c -> to2_cmd c = Some c2 -> usable_cmd n c2.
Proof.
  intros L. induction c as [|k e|c IHc d IHd|b c IHc d IHd|b c IHc]; cbn [usable_cmd4 known_amounts_cmd to2_cmd]; intros c2 U K E.
  - injection E as <-. exact I.
  - injection E as <-. now apply usable_to2.
  - destruct (to2_cmd c), (to2_cmd d); try discriminate. injection E as <-. cbn. destruct U, K. auto.
  - destruct (to2_cond b) eqn:Eb, (to2_cmd c), (to2_cmd d); try discriminate. injection E as <-. cbn. destruct U as (U1 & U2 & U3), K as (K1 & K2 & K3).
    split; [eapply usable_cond_to2; eassumption|auto].
  - destruct (to2_cond b) eqn:Eb, (to2_cmd c); try discriminate. injection E as <-. cbn. destruct U as (U1 & U2), K as (K1 & K2).
    split; [eapply usable_cond_to2; eassumption|auto].
Qed.

Definition agree24 (n : Z) (st : nat -> vec4) (st2 : nat -> Z) : Prop := forall k, 0 <= st2 k < 2 ^ n /\ reads n (st k) (st2 k).
Lemma bits_mod2 z n p : 0 <= p < n -> Z.testbit (z mod 2 ^ n) p = Z.testbit z p.
Proof. intros H. apply Z.mod_pow2_bits_low. lia. Qed.
Lemma value_known n st st2 e z : 1 <= n <= 64 -> agree24 n st st2 -> usable4 n e -> known_amounts e -> value_of n st2 (to2 e) = Ok z ->
  0 <= z < 2 ^ n /\ reads n (value4 lib_and lib_or n st e) z.
Proof.
  intros Hn G. assert (P := pow2_pos n ltac:(lia)). revert z.
  assert (NUM : forall f z, 0 <= z < 2 ^ n -> reads n f z -> number n f = z) by (intros f z; apply reads_number; lia).
  assert (B2 : forall (op : Z -> Z -> Z) e f z,
    (forall z, value_of n st2 (to2 e) = Ok z -> 0 <= z < 2 ^ n /\ reads n (value4 lib_and lib_or n st e) z) ->
    (forall z, value_of n st2 (to2 f) = Ok z -> 0 <= z < 2 ^ n /\ reads n (value4 lib_and lib_or n st f) z) ->
    (let! x := value_of n st2 (to2 e) in let! y := value_of n st2 (to2 f) in Ok (op x y)) = Ok z ->
    (forall x y, 0 <= x < 2 ^ n -> 0 <= y < 2 ^ n -> 0 <= op x y < 2 ^ n) ->
    0 <= z < 2 ^ n /\ reads n (strict2 n (value4 lib_and lib_or n st e) (value4 lib_and lib_or n st f) op) z).
  { intros op e1 e2 z I1 I2 E R. destruct (value_of n st2 (to2 e1)) as [x| | | |]; try discriminate. destruct (value_of n st2 (to2 e2)) as [y| | | |]; try discriminate. cbn [bind] in E. injection E as <-.
    destruct (I1 x eq_refl) as [R1 Q1]. destruct (I2 y eq_refl) as [R2 Q2]. split; [auto|]. unfold strict2. rewrite (reads_known _ _ _ Q1), (reads_known _ _ _ Q2), (NUM _ _ R1 Q1), (NUM _ _ R2 Q2). intros p _. reflexivity. }
  assert (T2 : forall (op : Z -> Z -> Z) (h : sym -> sym -> sym) e f z,
    (forall z, value_of n st2 (to2 e) = Ok z -> 0 <= z < 2 ^ n /\ reads n (value4 lib_and lib_or n st e) z) ->
    (forall z, value_of n st2 (to2 f) = Ok z -> 0 <= z < 2 ^ n /\ reads n (value4 lib_and lib_or n st f) z) ->
    (let! x := value_of n st2 (to2 e) in let! y := value_of n st2 (to2 f) in Ok (op x y)) = Ok z ->
    (forall x y, 0 <= x < 2 ^ n -> 0 <= y < 2 ^ n -> 0 <= op x y < 2 ^ n) ->
    (forall x y p, h (sym_of_bool (Z.testbit x p)) (sym_of_bool (Z.testbit y p)) = sym_of_bool (Z.testbit (op x y) p)) ->
    0 <= z < 2 ^ n /\ reads n (fun p => h (value4 lib_and lib_or n st e p) (value4 lib_and lib_or n st f p)) z).
  { intros op h e1 e2 z I1 I2 E R H. destruct (value_of n st2 (to2 e1)) as [x| | | |]; try discriminate. destruct (value_of n st2 (to2 e2)) as [y| | | |]; try discriminate. cbn [bind] in E. injection E as <-.
    destruct (I1 x eq_refl) as [R1 Q1]. destruct (I2 y eq_refl) as [R2 Q2]. split; [auto|]. intros p Hp. rewrite (Q1 p Hp), (Q2 p Hp). apply H. }
  assert (BR : forall x y, 0 <= x < 2 ^ n -> 0 <= y < 2 ^ n -> (0 <= Z.land x y < 2 ^ n) /\ (0 <= Z.lor x y < 2 ^ n) /\ (0 <= Z.lxor x y < 2 ^ n)).
  { intros x y Hx Hy.
    assert (RG : forall w, 0 <= w -> (forall i, n <= i -> Z.testbit w i = false) -> 0 <= w < 2 ^ n).
    { intros w W0 Q. split; [exact W0|]. replace w with (w mod 2 ^ n); [apply Z.mod_pos_bound; lia|]. apply Z.bits_inj'. intros i Hi. destruct (Z.ltb_spec i n).
      - apply bits_mod2. lia. - rewrite Z.mod_pow2_bits_high by lia. symmetry. now apply Q. }
    assert (HI : forall w i, 0 <= w < 2 ^ n -> n <= i -> Z.testbit w i = false).
    { intros w i W Hi. rewrite <- (Z.mod_small w (2 ^ n)) by exact W. apply Z.mod_pow2_bits_high. lia. }
    repeat split; apply RG; intros; rewrite ?Z.land_spec, ?Z.lor_spec, ?Z.lxor_spec, ?HI, ?(HI y) by assumption; auto;
      (apply Z.land_nonneg + apply Z.lor_nonneg + apply Z.lxor_nonneg); lia. }
  assert (SH : forall amt, amount4 n amt /\ ltyped amt (lw amt) false /\ ltidy amt /\ lw amt <= 64 /\ known amt -> all_known (lw amt) (sym_at amt) = true /\ number (lw amt) (sym_at amt) = value (l_val amt) /\ 0 <= value (l_val amt)).
  { intros amt (A & _ & _ & _ & K). destruct (amount_known n amt A K) as ((_ & _ & V & _) & B & C). split; [exact B|]. split; [exact C|lia]. }
  induction e as [k|e IH|e IH|e IHe f IHf|e IHe f IHf|e IHe f IHf|e IHe f IHf|e IHe f IHf|e IHe f IHf|e IHe f IHf|e IHe f IHf|e IH amt|e IH amt];
    cbn [usable4 known_amounts to2 value_of value4]; intros z U K E.
  - injection E as <-. apply G.
  - destruct (value_of n st2 (to2 e)) as [x| | | |]; try discriminate. cbn [bind] in E. injection E as <-. destruct (IH x U K eq_refl) as [R Q]. split; [lia|].
    intros p Hp. rewrite (Q p Hp). rewrite LawProofs.not_bits by (auto; lia). rewrite (proj2 (Z.ltb_lt p n)) by lia. cbn [andb]. now destruct (Z.testbit x p).
  - destruct (value_of n st2 (to2 e)) as [x| | | |]; try discriminate. cbn [bind] in E. injection E as <-. destruct (IH x U K eq_refl) as [R Q].
    split; [apply Z.mod_pos_bound; lia|]. unfold strict1. rewrite (reads_known _ _ _ Q), (NUM _ _ R Q). intros p _. reflexivity.
  - destruct U, K. apply (T2 Z.land lib_and e f z); auto; [intros; now apply BR|]. intros x y p. rewrite Z.land_spec. now destruct (Z.testbit x p), (Z.testbit y p).
  - destruct U, K. apply (T2 Z.lor lib_or e f z); auto; [intros; now apply BR|]. intros x y p. rewrite Z.lor_spec. now destruct (Z.testbit x p), (Z.testbit y p).
  - destruct U, K. apply (T2 Z.lxor xor4 e f z); auto; [intros; now apply BR|]. intros x y p. rewrite Z.lxor_spec. now destruct (Z.testbit x p), (Z.testbit y p).
  - destruct U, K. apply B2; auto. intros. apply Z.mod_pos_bound; lia.
  - destruct U, K. apply B2; auto. intros. apply Z.mod_pos_bound; lia.
  - destruct U as (U1 & U2 & _), K. apply B2; auto. intros. apply Z.mod_pos_bound; lia.
  - destruct U as [U1 U2], K as [K1 K2]. destruct (value_of n st2 (to2 e)) as [x| | | |]; try discriminate. destruct (value_of n st2 (to2 f)) as [y| | | |]; try discriminate. cbn [bind] in E.
    destruct (IHe x U1 K1 eq_refl) as [R1 Q1]. destruct (IHf y U2 K2 eq_refl) as [R2 Q2]. destruct (y =? 0) eqn:Y; [discriminate|]. injection E as <-. apply Z.eqb_neq in Y.
    split. { split; [apply Z.div_pos; lia|]. apply Z.le_lt_trans with x; [apply Z.div_le_upper_bound; nia|lia]. }
    unfold strict_div, strict2. rewrite (reads_known _ _ _ Q1), (reads_known _ _ _ Q2), (NUM _ _ R1 Q1), (NUM _ _ R2 Q2). cbn [andb]. rewrite (proj2 (Z.eqb_neq _ _) Y). intros p _. reflexivity.
  - destruct U as [U1 U2], K as [K1 K2]. destruct (value_of n st2 (to2 e)) as [x| | | |]; try discriminate. destruct (value_of n st2 (to2 f)) as [y| | | |]; try discriminate. cbn [bind] in E.
    destruct (IHe x U1 K1 eq_refl) as [R1 Q1]. destruct (IHf y U2 K2 eq_refl) as [R2 Q2]. destruct (y =? 0) eqn:Y; [discriminate|]. injection E as <-. apply Z.eqb_neq in Y.
    split. { pose proof (Z.mod_pos_bound x y ltac:(lia)). lia. }
    unfold strict_div, strict2. rewrite (reads_known _ _ _ Q1), (reads_known _ _ _ Q2), (NUM _ _ R1 Q1), (NUM _ _ R2 Q2). cbn [andb]. rewrite (proj2 (Z.eqb_neq _ _) Y). intros p _. reflexivity.
  - destruct U as [U A], K as [K Ka]. destruct (value_of n st2 (to2 e)) as [x| | | |]; try discriminate. cbn [bind] in E. injection E as <-. destruct (IH x U K eq_refl) as [R Q].
    destruct (SH amt (conj A Ka)) as (S1 & S2 & S3). split; [apply Z.mod_pos_bound; lia|]. rewrite S1. unfold strict1. rewrite (reads_known _ _ _ Q), (NUM _ _ R Q), S2. intros p _. reflexivity.
  - destruct U as [U A], K as [K Ka]. destruct (value_of n st2 (to2 e)) as [x| | | |]; try discriminate. cbn [bind] in E. injection E as <-. destruct (IH x U K eq_refl) as [R Q].
    destruct (SH amt (conj A Ka)) as (S1 & S2 & S3). pose proof (pow2_pos (value (l_val amt)) S3) as PP. split. { split; [apply Z.div_pos; lia|]. apply Z.le_lt_trans with x; [apply Z.div_le_upper_bound; nia|lia]. }
    rewrite S1. unfold strict1. rewrite (reads_known _ _ _ Q), (NUM _ _ R Q), S2. intros p _. reflexivity.
Qed.
Lemma test_known n st st2 b b2 t : 1 <= n <= 64 -> agree24 n st st2 -> usable_cond4 n b -> known_amounts_cond b -> to2_cond b = Some b2 -> test_of n st2 b2 = Ok t ->
  holds4 lib_and lib_or n st b = t.
Proof.
  intros Hn G U K E T. assert (N0 : 0 <= n) by lia.
  destruct b as [e f|e f|e f|e f|e]; cbn [usable_cond4 known_amounts_cond to2_cond] in *; try discriminate; injection E as <-; destruct U as [U1 U2], K as [K1 K2]; cbn [test_of] in T;
    destruct (value_of n st2 (to2 e)) as [x| | | |] eqn:Ex; try discriminate; destruct (value_of n st2 (to2 f)) as [y| | | |] eqn:Ey; try discriminate; cbn [bind] in T; injection T as <-;
    destruct (value_known n st st2 e x Hn G U1 K1 Ex) as [R1 Q1]; destruct (value_known n st st2 f y Hn G U2 K2 Ey) as [R2 Q2]; cbn [holds4].
  1-3: unfold both_known; now rewrite (reads_known _ _ _ Q1), (reads_known _ _ _ Q2), (reads_number _ _ _ N0 R1 Q1), (reads_number _ _ _ N0 R2 Q2).
  apply Bool.eq_iff_eq_true. rewrite forallb_forall, Z.eqb_eq. split.
  - intros H. rewrite <- (Z.mod_small x (2 ^ n)), <- (Z.mod_small y (2 ^ n)) by assumption. apply Z.bits_inj'. intros p Hp. destruct (Z.ltb_spec p n).
    + rewrite !bits_mod2 by lia. assert (Hp' : 0 <= p < n) by lia. specialize (H p (proj2 (in_zrange 0 n p) Hp')). rewrite (Q1 p Hp'), (Q2 p Hp') in H. destruct (Z.testbit x p), (Z.testbit y p); cbn in H; congruence.
    + now rewrite !Z.mod_pow2_bits_high by lia.
  - intros -> p Hp. apply in_zrange in Hp. rewrite (Q1 p Hp), (Q2 p Hp). now destruct (Z.testbit y p).
Qed.
Lemma exec_known n : 1 <= n <= 64 -> forall fuel c c2 st st2, agree24 n st st2 -> usable_cmd4 n c -> known_amounts_cmd c -> to2_cmd c = Some c2 ->
  match exec_of n fuel st2 c2 with
  | Ok st2' => exists st', exec4_of lib_and lib_or n fuel st c = Ok st' /\ agree24 n st' st2'
  | Fuel => exec4_of lib_and lib_or n fuel st c = Fuel
  | _ => True
  end.
Proof.
  intros Hn. induction fuel as [|fuel IH]; intros c c2 st st2 G U K E; [reflexivity|].
  assert (SEQ : forall c d c2 d2 st st2, agree24 n st st2 -> usable_cmd4 n c -> usable_cmd4 n d -> known_amounts_cmd c -> known_amounts_cmd d -> to2_cmd c = Some c2 -> to2_cmd d = Some d2 ->
    match (let! s := exec_of n fuel st2 c2 in exec_of n fuel s d2) with
    | Ok st2' => exists st', (let! s := exec4_of lib_and lib_or n fuel st c in exec4_of lib_and lib_or n fuel s d) = Ok st' /\ agree24 n st' st2'
    | Fuel => (let! s := exec4_of lib_and lib_or n fuel st c in exec4_of lib_and lib_or n fuel s d) = Fuel
    | _ => True
    end).
  { clear c c2 st st2 G U K E. intros c d c2 d2 st st2 G U1 U2 K1 K2 E1 E2. pose proof (IH c c2 st st2 G U1 K1 E1) as A.
    destruct (exec_of n fuel st2 c2) as [s2| | | |]; cbn [bind]; auto.
    - destruct A as (s & -> & G'). cbn [bind]. apply (IH d d2 s s2); auto.
    - rewrite A. reflexivity. }
  destruct c as [|k e|c d|b c d|b c]; cbn [usable_cmd4 known_amounts_cmd to2_cmd] in *.
  - injection E as <-. cbn [exec_of exec4_of]. eauto.
  - injection E as <-. cbn [exec_of exec4_of]. destruct (value_of n st2 (to2 e)) as [x| | | |] eqn:Ex; cbn [bind]; auto.
    + eexists. split; [reflexivity|]. intros j. unfold upd. destruct (Nat.eqb j k); [|apply G]. apply (value_known n st st2 e x Hn G U K Ex).
    + exfalso. clear -Ex. revert Ex. induction (to2 e); cbn [value_of]; intros E; try discriminate;
        repeat match type of E with context [value_of n st2 ?g] => destruct (value_of n st2 g); cbn [bind] in *; try discriminate; auto end; destruct (_ =? 0); discriminate.
  - destruct (to2_cmd c) as [c'|] eqn:Ec; try discriminate. destruct (to2_cmd d) as [d'|] eqn:Ed; try discriminate. injection E as <-. destruct U, K. cbn [exec_of exec4_of]. apply SEQ; auto.
  - destruct (to2_cond b) as [b'|] eqn:Eb; try discriminate. destruct (to2_cmd c) as [c'|] eqn:Ec; try discriminate. destruct (to2_cmd d) as [d'|] eqn:Ed; try discriminate. injection E as <-.
    destruct U as (U1 & U2 & U3), K as (K1 & K2 & K3). cbn [exec_of exec4_of]. destruct (test_of n st2 b') as [t| | | |] eqn:Et; cbn [bind]; auto.
    + rewrite (test_known n st st2 b b' t Hn G U1 K1 Eb Et). destruct t; apply (IH _ _ st st2); auto.
    + exfalso. clear -Et. assert (NF : forall e, value_of n st2 e <> Fuel).
      { clear Et. intros e. induction e; cbn [value_of]; intros E; try discriminate;
        repeat match type of E with context [value_of n st2 ?g] => destruct (value_of n st2 g); cbn [bind] in *; try discriminate; auto end; destruct (_ =? 0); discriminate. }
      destruct b'; cbn [test_of] in Et; pose proof (NF e); pose proof (NF f); destruct (value_of n st2 e); try discriminate; cbn [bind] in Et; try (destruct (value_of n st2 f)); try discriminate; congruence.
  - destruct (to2_cond b) as [b'|] eqn:Eb; try discriminate. destruct (to2_cmd c) as [c'|] eqn:Ec; try discriminate. injection E as <-.
    destruct U as (U1 & U2), K as (K1 & K2). cbn [exec_of exec4_of]. destruct (test_of n st2 b') as [t| | | |] eqn:Et; cbn [bind]; auto.
    + rewrite (test_known n st st2 b b' t Hn G U1 K1 Eb Et). destruct t; [|eauto]. apply SEQ; cbn; auto. now rewrite Eb, Ec.
    + exfalso. clear -Et. assert (NF : forall e, value_of n st2 e <> Fuel).
      { clear Et. intros e. induction e; cbn [value_of]; intros E; try discriminate;
        repeat match type of E with context [value_of n st2 ?g] => destruct (value_of n st2 g); cbn [bind] in *; try discriminate; auto end; destruct (_ =? 0); discriminate. }
      destruct b'; cbn [test_of] in Et; pose proof (NF e); pose proof (NF f); destruct (value_of n st2 e); try discriminate; cbn [bind] in Et; try (destruct (value_of n st2 f)); try discriminate; congruence.
Qed.
Lemma two_four n c c2 : full_width n -> n <= 64 -> usable_cmd4 n c -> known_amounts_cmd c -> to2_cmd c = Some c2 -> forall fuel env env2,
  good4 n env -> good n env2 -> (forall k, known (env k) /\ num (l_val (env k)) = num (env2 k)) ->
  match exec fuel env2 c2 with
  | Ok env2' => exists env', exec4 fuel env c = Ok env' /\ good4 n env' /\ forall k, known (env' k) /\ num (l_val (env' k)) = num (env2' k)
  | Fuel => exec4 fuel env c = Fuel
  | _ => True
  end.
Proof.
  intros F L U K E fuel env env2 G G2 A. assert (Hn : 1 <= n <= 64) by (unfold full_width in F; lia).
  pose proof (lockstep n c2 F (usable_cmd_to2 n L c c2 U K E) fuel env2 (fun k => num (env2 k)) G2 (fun k => eq_refl)) as L2.
  pose proof (lockstep4_tables n c F L U fuel env (fun k => sym_at (env k)) G (fun k p _ => eq_refl)) as L4.
  assert (AG : agree24 n (fun k => sym_at (env k)) (fun k => num (env2 k))).
  { intros k. pose proof (num_range (env2 k)) as R. rewrite (typed_bw _ n false (proj1 Hn) (proj1 (G2 k))) in R. split; [exact R|]. destruct (A k) as [Kk Nk]. rewrite <- Nk.
    apply (known_reads (env k) n false); [lia|apply G|exact Kk]. }
  pose proof (exec_known n Hn fuel c c2 _ _ AG U K E) as X.
  destruct (exec fuel env2 c2) as [e2| | | |]; auto; destruct (exec_of n fuel (fun k => num (env2 k)) c2) as [s2| | | |]; cbn [same_outcome] in L2; try tauto.
  - destruct X as (s & Es & AG'). rewrite Es in L4. destruct (exec4 fuel env c) as [e4| | | |]; cbn [same_outcome4] in L4; try tauto. destruct L4 as [G4 N4], L2 as [_ N2].
    exists e4. split; [reflexivity|]. split; [exact G4|]. intros k. destruct (AG' k) as [R Q]. assert (SW : shows n (e4 k) (s k)) by (intros p Hp; now apply N4).
    assert (KK : known (e4 k)) by (apply (known_shows n (e4 k) _ false (proj1 Hn) (proj1 (G4 k)) SW), (reads_known _ _ _ Q)). split; [exact KK|].
    rewrite N2, <- (number_shows n (e4 k) (s k) false (proj1 Hn) (proj1 (G4 k)) SW KK). apply reads_number; auto. lia.
  - rewrite X in L4. destruct (exec4 fuel env c); cbn [same_outcome4] in L4; tauto.
Qed.
