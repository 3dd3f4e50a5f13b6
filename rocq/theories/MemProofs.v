(** Lemmas about sequences of array writes. *)
From Coq Require Import ZArith List Bool Lia Zify ZifyBool.
From Verif Require Import Cpp BigNum Bit Logic Arr Spec SpecArr SpecMem ZBits BitProofs BitMain LogicMain ArrProofs CounterProofs.
Import ListNotations.
Open Scope Z_scope.
Local Ltac Zify.zify_post_hook ::= idtac.

Lemma element_places t i j p q : 1 <= pa_base t -> 0 <= p < pa_base t -> 0 <= q < pa_base t -> start t i + p = start t j + q -> i = j /\ p = q.
Proof.
  unfold start. set (m := Z.min _ _). set (b := pa_base t). intros B P Q E. assert (i = j); [|subst; lia]. destruct (Z.lt_trichotomy i j) as [H|[H|H]]; [|exact H|]; exfalso; nia.
Qed.
Lemma element_inside t i p : element t i -> 0 <= p < pa_base t -> 0 <= start t i + p < pa_base t * elems t.
Proof. unfold element, in_range, start, elems, width. intros E P. nia. Qed.

Theorem each_latest t ws : Forall (fun w => element t (fst w) /\ ltyped (snd w) (pa_base t) (lsgn (snd w)) /\ forall q, 64 <= q < pa_base t -> unknown (sym_at (snd w) q) = false) ws ->
  forall a, arr4 t a -> exists r, write_each t ws a = Ok r /\ arr4 t r /\
    forall i p, element t i -> 0 <= p < pa_base t -> sym_at r (start t i + p) = match latest ws i with Some v => sym_at v p | None => sym_at a (start t i + p) end.
Proof.
  induction 1 as [|[j v] ws (Ej & Tv & Kv) _ IH]; intros a A; [exists a; split; [reflexivity|]; split; [exact A|reflexivity]|]. cbn [fst snd] in *.
  assert (B1 : 1 <= pa_base t) by apply A.
  destruct (range_write t a j j v (pa_base t) (lsgn v) (pa_base t) A Ej Ej ltac:(rewrite Z.sub_diag, Z.abs_0; lia) B1 Tv ltac:(intros q Q _; apply Kv; exact Q)) as (a' & E & A' & P).
  destruct (IH a' A') as (r & R & Ar & Q). exists r. split; [unfold write_each in *; cbn [ofold fst snd]; rewrite E; exact R|]. split; [exact Ar|].
  intros i p Ei Hp. rewrite Q by assumption. cbn [latest]. destruct (latest ws i); [reflexivity|]. rewrite P by (apply element_inside; assumption). rewrite Z.min_id.
  destruct (Z.eqb_spec j i) as [-> | N].
  - replace ((start t i <=? start t i + p) && (start t i + p <? start t i + pa_base t)) with true by lia. replace (start t i + p - start t i) with p by lia. replace (p <? pa_base t) with true by lia. reflexivity.
  - destruct ((start t j <=? start t i + p) && (start t i + p <? start t j + pa_base t)) eqn:C; [|reflexivity]. exfalso. apply N. symmetry.
    apply (element_places t i j p (start t i + p - start t j)); lia.
Qed.

Lemma next_start t i : start t (i + 1) = start t i + pa_base t. Proof. unfold start. lia. Qed.

Theorem fill_latest t ws : 2 <= pa_base t * elems t -> (forall q w, In w ws -> 64 <= q < pa_base t -> unknown (sym_at (snd w) q) = false) ->
  (forall w, In w ws -> ltyped (snd w) (pa_base t) (lsgn (snd w))) ->
  forall i a, arr4 t a -> ascending i ws -> 0 <= i -> (forall j, i <= j < i + Z.of_nat (length ws) -> element t j /\ j < pa_base t * elems t /\ (start t j + pa_base t = 64 -> pa_base t * elems t <> 64)) ->
  exists r, write_at t ws a = Ok r /\ arr4 t r /\
    (forall k w, nth_error ws k = Some w -> forall p, 0 <= p < pa_base t -> sym_at r (start t (i + Z.of_nat k) + p) = sym_at (snd w) p) /\
    forall q, 0 <= q < pa_base t * elems t -> ~ start t i <= q <= start t (i + Z.of_nat (length ws)) -> sym_at r q = sym_at a q.
Proof.
  intros B2 K T. induction ws as [|[op v] ws IH]; intros i a A D I0 In_; [exists a; split; [reflexivity|]; split; [exact A|]; split; [intros [|k] w C; discriminate|reflexivity]|].
  destruct D as [Iop D]. assert (B1 : 1 <= pa_base t) by apply A. destruct (In_ i ltac:(cbn [length]; lia)) as (Ei & Li & Si).
  destruct (packed_write t a op i v (pa_base t) (lsgn v) A Iop ltac:(lia) Ei B2 B1 (T (op, v) ltac:(now left)) Si ltac:(intros q Q _; apply (K q (op, v)); [now left|exact Q])) as (a' & E & A' & P).
  destruct (IH ltac:(intros q w W; apply K; now right) ltac:(intros w W; apply T; now right) (i + 1) a' A' D ltac:(lia) ltac:(intros j J; apply In_; cbn [length]; lia)) as (r & R & Ar & F & U).
  exists r. split; [unfold write_at in *; cbn [ofold fst snd]; rewrite E; exact R|]. split; [exact Ar|].
  split.
  - intros [|k] w C p Hp.
    + injection C as <-. cbn [snd]. rewrite Z.add_0_r. rewrite U.
      * rewrite P by (apply element_inside; assumption). replace ((start t i <=? start t i + p) && (start t i + p <=? start t i + pa_base t)) with true by lia. replace (start t i + p - start t i) with p by lia. replace (p <? pa_base t) with true by lia. reflexivity.
      * apply element_inside; assumption.
      * rewrite next_start. lia.
    + cbn [nth_error] in C. replace (i + Z.of_nat (S k)) with (i + 1 + Z.of_nat k) by lia. now apply F.
  - intros q Hq N. replace (i + Z.of_nat (length ((op, v) :: ws))) with (i + 1 + Z.of_nat (length ws)) in N by (cbn [length]; lia).
    assert (G : start t (i + 1) <= start t (i + 1 + Z.of_nat (length ws))) by (unfold start; nia). pose proof (next_start t i) as NS.
    rewrite U by (auto; lia). rewrite P by exact Hq. replace ((start t i <=? q) && (q <=? start t i + pa_base t)) with false by lia. reflexivity.
Qed.
Theorem fill_latest_bit t ws : 2 <= pa_base t * elems t -> pa_base t <> 32 -> pa_base t <> 64 ->
  (forall w, In w ws -> typed (snd w) (pa_base t) false /\ tidy (snd w)) ->
  forall i a, arr2 t a -> ascending i ws -> 0 <= i -> (forall j, i <= j < i + Z.of_nat (length ws) -> element t j /\ j < pa_base t * elems t /\ (start t j + pa_base t = 64 -> pa_base t * elems t <> 64)) ->
  exists r, write_at_bit t ws a = Ok r /\ arr2 t r /\
    (forall k w, nth_error ws k = Some w -> forall p, 0 <= p < pa_base t -> bit_at r (start t (i + Z.of_nat k) + p) = bit_at (snd w) p) /\
    forall q, 0 <= q < pa_base t * elems t -> ~ start t i <= q <= start t (i + Z.of_nat (length ws)) -> bit_at r q = bit_at a q.
Proof.
  intros B2 N32 N64 T. induction ws as [|[op v] ws IH]; intros i a A D I0 In_; [exists a; split; [reflexivity|]; split; [exact A|]; split; [intros [|k] w C; discriminate|reflexivity]|].
  destruct D as [Iop D]. assert (B1 : 1 <= pa_base t) by apply A. destruct (In_ i ltac:(cbn [length]; lia)) as (Ei & Li & Si). destruct (T (op, v) ltac:(now left)) as [T1 T2].
  destruct (packed_write2 t a op i v (pa_base t) A Iop ltac:(lia) Ei B2 B1 T1 T2 Si ltac:(lia) ltac:(lia)) as (a' & E & A' & P).
  destruct (IH ltac:(intros w W; apply T; now right) (i + 1) a' A' D ltac:(lia) ltac:(intros j J; apply In_; cbn [length]; lia)) as (r & R & Ar & F & U).
  exists r. split; [unfold write_at_bit in *; cbn [ofold fst snd]; rewrite E; exact R|]. split; [exact Ar|].
  split.
  - intros [|k] w C p Hp.
    + injection C as <-. cbn [snd]. rewrite Z.add_0_r. rewrite U.
      * rewrite P by (apply element_inside; assumption). replace ((start t i <=? start t i + p) && (start t i + p <=? start t i + pa_base t)) with true by lia. replace (start t i + p - start t i) with p by lia. replace (p <? pa_base t) with true by lia. reflexivity.
      * apply element_inside; assumption.
      * rewrite next_start. lia.
    + cbn [nth_error] in C. replace (i + Z.of_nat (S k)) with (i + 1 + Z.of_nat k) by lia. now apply F.
  - intros q Hq N. replace (i + Z.of_nat (length ((op, v) :: ws))) with (i + 1 + Z.of_nat (length ws)) in N by (cbn [length]; lia).
    assert (G : start t (i + 1) <= start t (i + 1 + Z.of_nat (length ws))) by (unfold start; nia). pose proof (next_start t i) as NS.
    rewrite U by (auto; lia). rewrite P by exact Hq. replace ((start t i <=? q) && (q <=? start t i + pa_base t)) with false by lia. reflexivity.
Qed.

(** reading back what was filled in *)
Theorem fill_read t ws : 2 <= pa_base t -> 2 <= pa_base t * elems t -> (forall q w, In w ws -> 64 <= q < pa_base t -> unknown (sym_at (snd w) q) = false) ->
  (forall w, In w ws -> ltyped (snd w) (pa_base t) (lsgn (snd w))) ->
  forall i a, arr4 t a -> ascending i ws -> 0 <= i -> (forall j, i <= j < i + Z.of_nat (length ws) -> element t j /\ j < pa_base t * elems t) ->
  (pa_base t * elems t <= 64 -> start t (i + Z.of_nat (length ws)) < iwidth (hty (pa_base t * elems t) (pa_sgn t))) ->
  exists r, write_at t ws a = Ok r /\ forall k w, nth_error ws k = Some w -> exists e, pa_get t r (fst w) = Ok e /\ forall p, 0 <= p < pa_base t -> sym_at e p = sym_at (snd w) p.
Proof.
  intros B B2 K T i a A D I0 In_ W. assert (B1 : 1 <= pa_base t) by lia.
  assert (S0 : forall j, i <= j < i + Z.of_nat (length ws) -> start t j + pa_base t <= start t (i + Z.of_nat (length ws))) by (intros j J; rewrite <- next_start; unfold start; nia).
  assert (H64 : pa_base t * elems t <= 64 -> iwidth (hty (pa_base t * elems t) (pa_sgn t)) <= 64). { intros _. unfold hty. repeat match goal with |- context [if ?c then _ else _] => destruct c end; cbn; lia. }
  destruct (fill_latest t ws B2 K T i a A D I0) as (r & R & Ar & F & _).
  { intros j J. destruct (In_ j J). split; [assumption|]. split; [assumption|]. intros E E2. specialize (W ltac:(lia)). specialize (H64 ltac:(lia)). specialize (S0 j J). lia. }
  exists r. split; [exact R|]. intros k w C. assert (Lk : (k < length ws)%nat) by (apply nth_error_Some; congruence). set (j := i + Z.of_nat k). assert (J : i <= j < i + Z.of_nat (length ws)) by lia. destruct (In_ j J) as [Ej Lj].
  assert (X : index (fst w) j). { clear - D C. unfold j. clear j. revert i k D C. induction ws as [|[op v] ws IH]; intros i [|k] D C; try discriminate; destruct D as [D1 D2]; [injection C as <-; now rewrite Z.add_0_r|]. replace (i + Z.of_nat (S k)) with (i + 1 + Z.of_nat k) by lia. now apply IH. }
  destruct (packed_read t r (fst w) j Ar X ltac:(lia) Ej) as (e & E & _ & P). { intros Q. split; [exact B|]. specialize (W Q). specialize (S0 j J). lia. }
  exists e. split; [exact E|]. intros p Hp. rewrite P by exact Hp. now apply F.
Qed.

(** writing downwards damages what was written before *)
Lemma downwards_counter : let t := mkParrTy 4 false 2 0 in exists a r, arr4 t a /\ index (k4 8 1) 1 /\ index (k4 8 0) 0 /\ element t 1 /\ element t 0 /\ write_at t [(k4 8 1, k4 4 5); (k4 8 0, k4 4 5)] a = Ok r /\ sym_at (k4 4 5) 0 = S1 /\ sym_at r (start t 1) = S0.
Proof. cbv zeta. exists (k4 12 0). eexists. split; [conc|]. split; [idx|]. split; [idx|]. split; [conc|]. split; [conc|]. split; [vm_compute; reflexivity|]. split; vm_compute; reflexivity. Qed.

(** * unpacked arrays *)
Lemma latest_unpacked {T V} (assign : T -> V -> outcome T) (f : V -> T) (dflt : T) msb lsb : int_ok msb /\ int_ok lsb /\ width msb lsb < 2 ^ 31 ->
  forall ws, Forall (fun w => in_range msb lsb (fst w) /\ 0 <= fst w < width msb lsb /\ forall x, assign x (snd w) = Ok (f (snd w))) ws ->
  forall a, Z.of_nat (length a) = width msb lsb -> exists r, write_unpacked assign dflt msb lsb ws a = Ok r /\ length r = length a /\
    forall i, int_ok i -> ua_get dflt msb lsb r i = match latest ws i with Some v => Ok (f v) | None => ua_get dflt msb lsb a i end.
Proof.
  intros Ok_ ws. induction 1 as [|[j v] ws (Ej & Lj & Av) _ IH]; intros a La; [exists a; split; [reflexivity|]; split; reflexivity|]. cbn [fst snd] in *.
  destruct (ua_write assign dflt msb lsb Ok_ a j v (f v) La Ej Lj (Av _)) as (a' & E & L & G & O).
  destruct (IH a' ltac:(lia)) as (r & R & Lr & Q). exists r. split; [unfold write_unpacked in *; cbn [ofold fst snd]; rewrite E; exact R|]. split; [lia|].
  intros i Hi. rewrite Q by exact Hi. cbn [latest]. destruct (latest ws i); [reflexivity|]. destruct (Z.eqb_spec j i) as [-> | N]; [exact G|]. apply O; auto.
Qed.
Lemma unpacked_exact {T V} (assign : T -> V -> outcome T) (f : V -> T) (dflt : T) msb lsb : int_ok msb /\ int_ok lsb /\ width msb lsb < 2 ^ 31 ->
  forall ws, Forall (fun w => int_ok (fst w) /\ int_ok (fst w - Z.min msb lsb) /\ forall x, assign x (snd w) = Ok (f (snd w))) ws ->
  forall a, Z.of_nat (length a) = width msb lsb ->
    ((forall w, In w (heeded msb lsb ws) -> in_range msb lsb (fst w)) -> exists r, write_unpacked assign dflt msb lsb ws a = Ok r /\ length r = length a /\
       forall i, int_ok i -> ua_get dflt msb lsb r i = match latest (heeded msb lsb ws) i with Some v => Ok (f v) | None => ua_get dflt msb lsb a i end) /\
    (write_unpacked assign dflt msb lsb ws a = UB <-> exists w, In w (heeded msb lsb ws) /\ ~ in_range msb lsb (fst w)).
Proof.
  intros Ok_ ws. induction 1 as [|[j v] ws (Ij & Dj & Av) _ IH]; intros a La.
  { split; [intros _; exists a; split; [reflexivity|]; split; reflexivity|]. split; [discriminate|intros (w & [] & _)]. }
  cbn [fst snd] in *. unfold heeded, write_unpacked in *. cbn [filter ofold fst snd].
  destruct ((0 <=? j) && (j <? width msb lsb)) eqn:C.
  - assert (R : {in_range msb lsb j} + {~ in_range msb lsb j}) by (unfold in_range; destruct (Z_le_dec (Z.min msb lsb) j), (Z_le_dec j (Z.max msb lsb)); [left|right|right|right]; lia). destruct R as [R|R].
    + destruct (ua_write assign dflt msb lsb Ok_ a j v (f v) La R ltac:(lia) (Av _)) as (a' & E & L & G & O). rewrite E. cbn [bind]. destruct (IH a' ltac:(lia)) as [IH1 IH2]. split.
      * intros H. destruct (IH1 ltac:(intros w W; apply H; now right)) as (r & Er & Lr & Q). exists r. split; [exact Er|]. split; [lia|]. intros i Hi. rewrite Q by exact Hi. cbn [latest]. destruct (latest _ i); [reflexivity|]. destruct (Z.eqb_spec j i) as [-> | N]; [exact G|]. apply O; auto.
      * rewrite IH2. split; [intros (w & W & N); exists w; split; [now right|exact N]|]. intros (w & [<- | W] & N); [contradiction|]. exists w. auto.
    + assert (E : ua_update assign dflt msb lsb a j v = UB) by (apply (ua_write_out_exact assign dflt msb lsb Ok_ a j v La Ij R); split; [exact Dj|lia]). rewrite E. cbn [bind]. split.
      * intros H. exfalso. apply R. apply (H (j, v)). now left.
      * split; [intros _|reflexivity]. exists (j, v). split; [now left|exact R].
  - rewrite (ua_write_out assign dflt msb lsb Ok_ a j v Ij ltac:(lia) Dj). cbn [bind]. apply IH. exact La.
Qed.
