(** Comparing numbers kept in several vectors; sorting. *)
From Coq Require Import ZArith List Bool Lia Permutation Sorted.
From Verif Require Import Cpp ZBits BigNum Bit Logic Spec Client SpecLong Sort BitProofs BitExt BitMain BitMain5 LogicMain ClientProofs LawProofs Iff3 Iff15 Iff25 SpecMachine SpecWide WideProofs WideProofs3.
Import ListNotations.
Open Scope Z_scope.
Local Ltac Zify.zify_post_hook ::= idtac.

Lemma less_value a b n s : 1 <= n -> typed a n s -> typed b n s -> tidy a -> tidy b -> (s = true -> 2 <= n <= 64) -> bit_lt a b = Ok (value a <? value b).
Proof.
  intros Hn A B Ta Tb S. destruct (order_laws a b n s Hn A B Ta Tb S) as (lt & eq & gt & E & _ & _ & Q & _). rewrite E. f_equal. unfold Z.ltb. destruct (value a ?= value b); congruence.
Qed.
Lemma value_num a n : typed a n false -> value a = num a.
Proof. intros (_ & _ & S). unfold value. rewrite S. reflexivity. Qed.

Definition below (n : Z) (l : list bit) := 0 <= parts_num n l < 2 ^ (n * Z.of_nat (length l)).
Lemma long_less_all n : 1 <= n -> forall ps c, (forall p, In p ps -> typed (fst p) n false /\ tidy (fst p) /\ typed (snd p) n false /\ tidy (snd p)) ->
  long_less ps c = Ok (if parts_num n (firsts ps) =? parts_num n (seconds ps) then c else parts_num n (firsts ps) <? parts_num n (seconds ps)).
Proof.
  intros Hn. induction ps as [|[a b] ps IH]; intros c T; [reflexivity|]. destruct (T (a, b) (or_introl eq_refl)) as (A & Ta & B & Tb). cbn [fst snd] in A, Ta, B, Tb.
  assert (T' : forall p, In p ps -> typed (fst p) n false /\ tidy (fst p) /\ typed (snd p) n false /\ tidy (snd p)) by (intros p Hp; apply T; right; exact Hp).
  cbn [long_less firsts seconds map fst snd parts_num]. rewrite (less_value a b n false), (less_value b a n false) by (assumption || discriminate). rewrite !(value_num _ n) by assumption. cbn [bind].
  assert (RA : 0 <= num a < 2 ^ n). { unfold num. rewrite (typed_bw a n false Hn A). apply Z.mod_pos_bound. apply pow2_pos. lia. }
  assert (RB : 0 <= num b < 2 ^ n). { unfold num. rewrite (typed_bw b n false Hn B). apply Z.mod_pos_bound. apply pow2_pos. lia. }
  fold (firsts ps). fold (seconds ps). set (u := parts_num n (firsts ps)) in *. set (v := parts_num n (seconds ps)) in *. set (x := num a) in *. set (y := num b) in *. set (K := 2 ^ n) in *.
  assert (E : (let! d := (if x <? y then Ok true else Ok (if y <? x then false else c)) in long_less ps d) = long_less ps (if x <? y then true else if y <? x then false else c)) by (destruct (x <? y); reflexivity).
  rewrite E, IH by exact T'. fold u v. f_equal. clearbody u v x y K. destruct (Z.eqb_spec u v) as [->|N].
  - destruct (Z.ltb_spec x y); [|destruct (Z.ltb_spec y x)]; destruct (Z.eqb_spec (x + K * v) (y + K * v)); try lia; reflexivity.
  - assert (x + K * u <> y + K * v) by nia. destruct (Z.eqb_spec (x + K * u) (y + K * v)); [lia|]. destruct (Z.ltb_spec u v), (Z.ltb_spec (x + K * u) (y + K * v)); try reflexivity; exfalso; nia.
Qed.

(** * sorting *)
Section Sort.
Context {A : Type} (less : A -> A -> outcome bool) (key : A -> Z) (P : A -> Prop) (LK : forall a b, P a -> P b -> less a b = Ok (key a <? key b)).
Let desc := fun a b => key b <= key a.
Lemma sink_ok x l : P x -> (forall y, In y l -> P y) -> StronglySorted desc l -> exists r, sink less x l = Ok r /\ Permutation (x :: l) r /\ StronglySorted desc r.
Proof.
  intros X. induction l as [|y l IH]; intros L S. { exists [x]. split; [reflexivity|]. split; [reflexivity|]. repeat constructor. }
  cbn [sink]. rewrite LK by (assumption || (apply L; left; reflexivity)). cbn [bind]. apply StronglySorted_inv in S as [S F]. destruct (Z.ltb_spec (key x) (key y)) as [C|C].
  - destruct IH as (r & E & Q & Sr); [intros z Hz; apply L; right; exact Hz|exact S|]. rewrite E. cbn [bind]. exists (y :: r). split; [reflexivity|]. split.
    + rewrite perm_swap. constructor. exact Q.
    + constructor; [exact Sr|]. apply (Permutation_Forall Q). constructor; [unfold desc; lia|exact F].
  - eexists. split; [reflexivity|]. split; [reflexivity|]. constructor; [constructor; assumption|]. constructor; [exact C|]. apply (Forall_impl _ (P := fun z => key z <= key y)); [|exact F]. intros z Hz. unfold desc. lia.
Qed.
Lemma fold_ok l : (forall y, In y l -> P y) -> forall r, (forall y, In y r -> P y) -> StronglySorted desc r -> exists r', ofold (fun r x => sink less x r) l r = Ok r' /\ Permutation (l ++ r) r' /\ StronglySorted desc r'.
Proof.
  induction l as [|x l IH]; intros L r R S. { exists r. repeat split; [reflexivity|exact S]. }
  cbn [ofold]. destruct (sink_ok x r) as (r1 & E & Q & S1); [apply L; left; reflexivity|exact R|exact S|]. rewrite E. cbn [bind].
  destruct (IH (fun y Hy => L y (or_intror Hy)) r1) as (r' & E' & Q' & S'); [|exact S1|].
  { intros y Hy. apply (Permutation_in y (Permutation_sym Q)) in Hy. destruct Hy as [<-|Hy]; [apply L; left; reflexivity|apply R; exact Hy]. }
  exists r'. split; [exact E'|]. split; [|exact S']. rewrite <- Q', <- Q. cbn [app]. apply Permutation_middle.
Qed.
Lemma sorted_rev l : StronglySorted desc l -> StronglySorted (fun a b => key a <= key b) (rev l).
Proof.
  induction l as [|x l IH]; intros S; [constructor|]. apply StronglySorted_inv in S as [S F]. cbn [rev]. apply IH in S. apply Forall_rev in F. clear IH. induction (rev l) as [|y m IHm]; [repeat constructor|].
  apply StronglySorted_inv in S as [S G]. apply Forall_cons_iff in F as [F1 F]. cbn [app]. constructor; [apply IHm; assumption|]. apply Forall_app. split; [exact G|]. constructor; [exact F1|constructor].
Qed.
Lemma sort_ok l : (forall y, In y l -> P y) -> exists r, sort less l = Ok r /\ Permutation l r /\ StronglySorted (fun a b => key a <= key b) r.
Proof.
  intros L. destruct (fold_ok l L [] (fun _ H => match H with end) (SSorted_nil _)) as (r & E & Q & S). exists (rev r). unfold sort. rewrite E. split; [reflexivity|]. split; [|apply sorted_rev; exact S].
  rewrite <- Permutation_rev, <- Q, app_nil_r. reflexivity.
Qed.
End Sort.

Lemma sort2_ok n s l : 1 <= n -> (s = true -> 2 <= n <= 64) -> (forall a, In a l -> typed a n s /\ tidy a) -> exists r, sort2 l = Ok r /\ Permutation l r /\ StronglySorted (fun a b => value a <= value b) r.
Proof. intros Hn S L. apply (sort_ok bit_lt value (fun a => typed a n s /\ tidy a)); [|exact L]. intros a b [A Ta] [B Tb]. apply (less_value a b n s); assumption. Qed.

Lemma lless_value a b n s : 1 <= n -> ltyped a n s -> ltyped b n s -> ltidy a -> ltidy b -> known a -> known b -> (s = true -> 2 <= n <= 64) ->
  (let! r := logic_lt a b in Ok (logic_bool r)) = Ok (value (l_val a) <? value (l_val b)).
Proof.
  intros Hn A B [Va Xa] [Vb Xb] Ka Kb S. pose proof (LogicProofs.ltyped_lvec _ _ _ A) as La. pose proof (LogicProofs.ltyped_lvec _ _ _ B) as Lb.
  assert (E : bit_lt (l_val a) (l_val b) = Ok (value (l_val a) <? value (l_val b))) by (apply (less_value _ _ n s); [exact Hn|apply A|apply B|exact Va|exact Vb|exact S]).
  unfold logic_lt, logic_cmp. rewrite E. assert (N : forall l, lvec l -> tidy (l_xz l) -> known l -> bit_any_set (l_xz l) = false) by (intros l L T K; apply (LogicRed.any_xz l L T (known_seen l L T K)); exact K).
  rewrite (N a), (N b) by assumption. cbn [orb bind]. destruct (value (l_val a) <? value (l_val b)); reflexivity.
Qed.
Lemma sort4_ok n s l : 1 <= n -> (s = true -> 2 <= n <= 64) -> (forall a, In a l -> ltyped a n s /\ ltidy a /\ known a) -> exists r, sort4 l = Ok r /\ Permutation l r /\ StronglySorted (fun a b => value (l_val a) <= value (l_val b)) r.
Proof. intros Hn S L. apply (sort_ok _ (fun a => value (l_val a)) (fun a => ltyped a n s /\ ltidy a /\ known a)); [|exact L]. intros a b (A & Ta & Ka) (B & Tb & Kb). apply (lless_value a b n s); assumption. Qed.

(** whatever is compared, nothing is lost *)
Lemma sink_perm {A} (less : A -> A -> outcome bool) (P : A -> Prop) x l : (forall a b, P a -> P b -> exists c, less a b = Ok c) -> P x -> (forall y, In y l -> P y) -> exists r, sink less x l = Ok r /\ Permutation (x :: l) r.
Proof.
  intros T X. induction l as [|y l IH]; intros L. { exists [x]. split; reflexivity. } cbn [sink]. destruct (T x y X (L y (or_introl eq_refl))) as [c ->]. cbn [bind]. destruct c; [|eexists; split; reflexivity].
  destruct IH as (r & E & Q); [intros z Hz; apply L; right; exact Hz|]. rewrite E. cbn [bind]. exists (y :: r). split; [reflexivity|]. rewrite perm_swap. constructor. exact Q.
Qed.
Lemma sort_perm {A} (less : A -> A -> outcome bool) (P : A -> Prop) l : (forall a b, P a -> P b -> exists c, less a b = Ok c) -> (forall y, In y l -> P y) -> exists r, sort less l = Ok r /\ Permutation l r.
Proof.
  intros T L. assert (G : forall l, (forall y, In y l -> P y) -> forall r, (forall y, In y r -> P y) -> exists r', ofold (fun r x => sink less x r) l r = Ok r' /\ Permutation (l ++ r) r').
  { clear l L. induction l as [|x l IH]; intros L r R. { exists r. split; reflexivity. } cbn [ofold]. destruct (sink_perm less P x r T (L x (or_introl eq_refl)) R) as (r1 & E & Q). rewrite E. cbn [bind].
    destruct (IH (fun y Hy => L y (or_intror Hy)) r1) as (r' & E' & Q'). { intros y Hy. apply (Permutation_in y (Permutation_sym Q)) in Hy. destruct Hy as [<-|Hy]; [apply L; left; reflexivity|apply R; exact Hy]. }
    exists r'. split; [exact E'|]. rewrite <- Q', <- Q. cbn [app]. apply Permutation_middle. }
  destruct (G l L [] (fun _ H => match H with end)) as (r & E & Q). exists (rev r). unfold sort. rewrite E. split; [reflexivity|]. rewrite <- Permutation_rev, <- Q, app_nil_r. reflexivity.
Qed.
Lemma sort4_perm n s l : 1 <= n -> (s = true -> 2 <= n <= 64) -> (forall a, In a l -> ltyped a n s /\ ltidy a) -> exists r, sort4 l = Ok r /\ Permutation l r.
Proof.
  intros Hn S L. apply (sort_perm _ (fun a => ltyped a n s /\ ltidy a)); [|exact L]. intros a b [A [Va _]] [B [Vb _]].
  assert (E : bit_lt (l_val a) (l_val b) = Ok (value (l_val a) <? value (l_val b))) by (apply (less_value _ _ n s); [exact Hn|apply A|apply B|exact Va|exact Vb|exact S]).
  unfold logic_lt, logic_cmp. rewrite E. destruct (_ || _); cbn [bind]; eexists; reflexivity.
Qed.

(** * where signed vectors cannot be sorted *)
Lemma least_less n m : 65 <= n -> typed m n true -> num m = 2 ^ (n - 1) -> bit_lt m m = Fuel.
Proof.
  intros Hn M E. rewrite lt_any by apply M. unfold any_less, any_order, small. rewrite (typed_bw m n true ltac:(lia) M). replace (n <=? 64) with false by lia. unfold wide_greater, both_signed. destruct M as (V & Pl & S).
  rewrite S. cbn [andb]. assert (W : bw m = n) by (apply (typed_bw m n true ltac:(lia)); split; [exact V|split; [exact Pl|exact S]]). unfold smallest. rewrite W, E, Z.eqb_refl.
  assert (N : snum m <? 0 = true). { unfold snum. rewrite W, E. unfold twos. rewrite Z.pow2_bits_true by lia. assert (2 ^ (n - 1) < 2 ^ n) by (apply Z.pow_lt_mono_r; lia). lia. }
  rewrite N. reflexivity.
Qed.
Lemma sort2_exact n s : 1 <= n < 2 ^ 31 ->
  (forall l, (forall a, In a l -> typed a n s /\ tidy a) -> exists r, sort2 l = Ok r /\ Permutation l r /\ StronglySorted (fun a b => value a <= value b) r) <-> s = false \/ 2 <= n <= 64.
Proof.
  intros Hn. split.
  - intros H. destruct s; [|left; reflexivity]. right. destruct (Z.eq_dec n 1) as [->|N1].
    + exfalso. destruct (H [bit_of_native 0 0 true 1; bit_of_native 0 0 true 0]) as (r & E & _ & Q). { intros a [<-|[<-|[]]]; split; conc. } vm_compute in E. injection E as <-. apply StronglySorted_inv in Q as [_ Q]. inversion Q as [|? ? X _]. vm_compute in X. apply X. reflexivity.
    + destruct (Z.le_gt_cases n 64) as [L|L]; [lia|]. exfalso. set (m := vec_of n true (2 ^ (n - 1))). assert (M : typed m n true) by (apply vec_of_typed; lia).
      assert (P : 0 < 2 ^ (n - 1) < 2 ^ n) by (split; [apply pow2_pos; lia|apply Z.pow_lt_mono_r; lia]). assert (E : num m = 2 ^ (n - 1)) by (unfold m; rewrite vec_of_num, Z.mod_small by lia; reflexivity).
      assert (T : tidy m). { unfold m, tidy. rewrite vec_of_wide by lia. cbn [bval]. rewrite words_of_num by lia. change (bw _) with (bw (mkBit (n - 1) 0 true (HB (words_of n (2 ^ (n - 1)))))). rewrite <- vec_of_wide by lia. fold m. rewrite (typed_bw m n true ltac:(lia) M). assert (n <= capacity n) by (unfold capacity, words_in; pose proof (Z.div_mod (n + 63) 64 ltac:(lia)); pose proof (Z.mod_pos_bound (n + 63) 64 ltac:(lia)); lia). assert (2 ^ n <= 2 ^ capacity n) by (apply Z.pow_le_mono_r; lia). rewrite Z.mod_small; lia. }
      destruct (H [m; m]) as (r & Er & _). { intros a [<-|[<-|[]]]; split; assumption. } unfold sort2, sort in Er. cbn [ofold sink bind] in Er. rewrite (least_less n m) in Er by (assumption || lia). discriminate.
  - intros C l. apply sort2_ok; [lia|]. intros ->. destruct C as [C|C]; [discriminate|exact C].
Qed.
