(** The queue of [Queue.v] against [SpecQueue.v]. *)
From Coq Require Import ZArith List Bool Lia.
From Verif Require Import Cpp BigNum Bit Logic Arr Reach Spec SpecArr SpecExact SpecArrRef SpecQueue Queue BitProofs BitMain ArrProofs LogicArith ReachProofs4 ReachProofs6 MachineProofs ArrRef.
Import ListNotations.
Open Scope Z_scope.
Local Ltac Zify.zify_post_hook ::= idtac.

Lemma q_index_bit i : 0 <= i < 2 ^ 31 -> bit_of_arith 31 0 false i = mkBit 31 0 false (HN i).
Proof.
  intros H. unfold bit_of_arith. change (native_num (vsize 31 0)) with true. cbv iota. unfold bit_of_native. f_equal. f_equal.
  change (conv TU32 i = i). cbn. apply Z.mod_small. lia.
Qed.
Lemma q_index_right i : 0 <= i < 2 ^ 31 -> index (q_index i) i.
Proof.
  intros H. unfold index. split. { apply number_lvec. unfold declarable, int_ok, width. lia. }
  unfold q_index, logic_of_arith. rewrite q_index_bit by exact H.
  split. { vm_compute. discriminate. }
  split. { split; cbn [l_val l_xz]. - change (0 <= i < 2 ^ 32). lia. - vm_compute. split; congruence. }
  split. { apply known_of_num0. reflexivity. }
  cbn [l_val]. unfold value. cbn [bsgn]. change (num (mkBit 31 0 false (HN i))) with (i mod 2 ^ 32). apply Z.mod_small. lia.
Qed.

Section Run.
  Variable t : parr_ty.
  Hypothesis low : Z.min (pa_msb t) (pa_lsb t) = 0.
  Hypothesis fits : bits t <= 64 -> 2 <= pa_base t /\ bits t < storage (bits t).
  Let n := elems t.
  Lemma el_iff i : element t i <-> 0 <= i < n.
  Proof. unfold element, in_range, n, elems, width. lia. Qed.
  Lemma start0 i : start t i = i * pa_base t.
  Proof. unfold start. rewrite low. lia. Qed.
  Lemma wide_enough a : arr4 t a -> 2 <= pa_base t * elems t.
  Proof. intros A. destruct (arr4_facts t a A) as (Hb & Hn & _). fold (bits t). destruct (Z.le_gt_cases (bits t) 64) as [L|L]; [|lia]. destruct (fits L) as [F _]. pose proof (elems_pos t). unfold bits. nia. Qed.
  Lemma fits_hty a i : arr4 t a -> element t i -> pa_base t * elems t <= 64 -> 2 <= pa_base t /\ start t i + pa_base t < iwidth (hty (pa_base t * elems t) (pa_sgn t)).
  Proof.
    intros A El L. destruct (arr4_facts t a A) as (Hb & Hn & _). destruct (base_bits t i Hb El) as (B1 & B2 & B3). pose proof (wide_enough a A). fold (bits t) in *. destruct (fits L) as [F G]. split; [exact F|].
    destruct (storage_cases (bits t) ltac:(lia)) as (_ & _ & _ & Is). rewrite hty_iw, Is. lia.
  Qed.

  (** the array holds the values of [l] from slot [h] on *)
  Definition holds (a : logic) (h : Z) (l : list (logic * bool)) : Prop :=
    forall k x, nth_error l k = Some x -> forall p, 0 <= p < pa_base t -> sym_at a (start t ((h + Z.of_nat k) mod n) + p) = if snd x && (p =? 0) then S0 else sym_at (fst x) p.
  Definition inv (q : queue) (l : list (logic * bool)) : Prop :=
    arr4 t (q_arr q) /\ 0 <= q_head q < n /\ Z.of_nat (length l) <= n /\ q_tail q = (q_head q + Z.of_nat (length l)) mod n /\ holds (q_arr q) (q_head q) l.

  Lemma n_pos : 1 <= n. Proof. apply elems_pos. Qed.
  Lemma slot_ok a i : arr4 t a -> 0 <= i < n -> index (q_index i) i /\ 0 <= i < pa_base t * elems t /\ element t i.
  Proof.
    intros A H. destruct (arr4_facts t a A) as (Hb & Hn & _). fold n. unfold bits in Hn. fold n in Hn. split; [apply q_index_right; nia|]. split; [nia|]. now apply el_iff.
  Qed.

  Lemma pop_step q x l : inv q (x :: l) -> exists r q', q_pop t q = Ok (r, q') /\ shows (pa_base t) r x /\ inv q' l /\ q_tail q' = q_tail q.
  Proof.
    intros (A & Hh & Hl & Ht & Hold). destruct (slot_ok _ _ A Hh) as (I1 & I2 & I3).
    destruct (packed_read t (q_arr q) _ _ A I1 I2 I3 (fits_hty _ _ A I3)) as (r & E & _ & Q).
    unfold q_pop. rewrite E. cbn [bind]. eexists. eexists. split; [reflexivity|].
    split. { intros p Hp. rewrite Q by exact Hp. specialize (Hold 0%nat x eq_refl p Hp). rewrite <- Hold. rewrite Z.add_0_r, Z.mod_small by exact Hh. reflexivity. }
    split; [|reflexivity]. pose proof n_pos. unfold inv. cbn [q_arr q_head q_tail]. fold n. split; [exact A|]. split; [apply Z.mod_pos_bound; lia|]. cbn [length] in *. split; [lia|].
    split. { rewrite Ht, Zplus_mod_idemp_l. f_equal. lia. }
    intros k y Ey p Hp. rewrite Zplus_mod_idemp_l. specialize (Hold (S k) y Ey p Hp). replace (q_head q + 1 + Z.of_nat k) with (q_head q + Z.of_nat (S k)) by lia. exact Hold.
  Qed.

  (** distinct places of the queue are distinct slots *)
  Lemma slot_inj h k j : 0 <= k < n -> 0 <= j < n -> (h + k) mod n = (h + j) mod n -> k = j.
  Proof.
    intros Hk Hj E. pose proof n_pos. assert (D : (k - j) mod n = 0).
    { replace (k - j) with ((h + k) - (h + j)) by lia. rewrite Zminus_mod, E, Z.sub_diag. apply Z.mod_0_l. lia. }
    apply Z.mod_divide in D; [|lia]. destruct D as [c D]. clear E. clearbody n. assert (c = 0) as ->; [|lia]. destruct (Z.lt_trichotomy c 0) as [?|[?|?]]; [|assumption|]; exfalso; nia.
  Qed.

  Lemma push_step q l v : inv q l -> Z.of_nat (length l) < n -> accepted (pa_base t) (Push v) ->
    exists q', q_push t q v = Ok q' /\ q_tail q' = (q_tail q + 1) mod n /\
      inv q' (let l' := l ++ [(v, false)] in if (Z.of_nat (length l') =? n) && negb (q_tail q =? n - 1) then clear_oldest l' else l').
  Proof.
    intros (A & Hh & Hl & Ht & Hold) Room [Tv Uv]. pose proof n_pos as Hn1. destruct (arr4_facts t _ A) as (Hb & Hn & _).
    assert (Hq : 0 <= q_tail q < n) by (rewrite Ht; apply Z.mod_pos_bound; lia).
    destruct (slot_ok _ _ A Hq) as (I1 & I2 & I3).
    destruct (packed_write t (q_arr q) _ _ v (pa_base t) (lsgn v) A I1 I2 I3 (wide_enough _ A) Hb Tv) as (r & E & Ar & Q).
    { intros S E64. destruct (fits ltac:(unfold bits; lia)) as [_ F]. unfold bits in F. rewrite E64 in F. vm_compute in F. discriminate. }
    { intros p Hp _. now apply Uv. }
    unfold q_push. rewrite E. cbn [bind]. eexists. split; [reflexivity|]. cbn [q_tail]. fold n. split; [reflexivity|].
    (* what a slot holds now *)
    assert (Slot : forall j p, 0 <= j < n -> 0 <= p < pa_base t -> sym_at r (start t j + p) = if j =? q_tail q then sym_at v p else if (j =? q_tail q + 1) && (p =? 0) then S0 else sym_at (q_arr q) (start t j + p)).
    { intros j p Hj Hp. rewrite !start0 in *. rewrite Q by (fold n; nia). destruct (Z.eqb_spec j (q_tail q)) as [->|Ne].
      - replace ((q_tail q * pa_base t <=? q_tail q * pa_base t + p) && (q_tail q * pa_base t + p <=? q_tail q * pa_base t + pa_base t)) with true by lia.
        replace (q_tail q * pa_base t + p - q_tail q * pa_base t) with p by lia. replace (p <? pa_base t) with true by lia. reflexivity.
      - destruct (Z.eqb_spec j (q_tail q + 1)) as [->|Ne1]; [|].
        + cbn [andb]. destruct (Z.eqb_spec p 0) as [->|Np].
          * replace ((q_tail q * pa_base t <=? (q_tail q + 1) * pa_base t + 0) && ((q_tail q + 1) * pa_base t + 0 <=? q_tail q * pa_base t + pa_base t)) with true by nia.
            replace ((q_tail q + 1) * pa_base t + 0 - q_tail q * pa_base t <? pa_base t) with false by nia. reflexivity.
          * replace ((q_tail q + 1) * pa_base t + p <=? q_tail q * pa_base t + pa_base t) with false by nia. rewrite andb_false_r. reflexivity.
        + cbn [andb]. replace ((q_tail q * pa_base t <=? j * pa_base t + p) && (j * pa_base t + p <=? q_tail q * pa_base t + pa_base t)) with false; [reflexivity|].
          symmetry. apply andb_false_iff. destruct (Z.lt_ge_cases j (q_tail q)); [left|right]; apply Z.leb_gt; nia. }
    set (l' := l ++ [(v, false)]). assert (Len : Z.of_nat (length l') = Z.of_nat (length l) + 1) by (unfold l'; rewrite app_length; cbn [length]; lia).
    (* the slots of the queue *)
    assert (New : forall k x, nth_error l' k = Some x -> forall p, 0 <= p < pa_base t -> sym_at r (start t ((q_head q + Z.of_nat k) mod n) + p) =
       if ((k =? 0)%nat && ((Z.of_nat (length l') =? n) && negb (q_tail q =? n - 1)) || snd x) && (p =? 0) then S0 else sym_at (fst x) p).
    { intros k x Ex p Hp. assert (Kl : (k < length l')%nat) by (apply nth_error_Some; congruence). assert (Mk := Z.mod_pos_bound (q_head q + Z.of_nat k) n ltac:(lia)).
      rewrite Slot by assumption. destruct (Z.eqb_spec ((q_head q + Z.of_nat k) mod n) (q_tail q)) as [Et|Nt].
      - rewrite Ht in Et. apply slot_inj in Et; [|lia|lia]. apply Nat2Z.inj in Et. subst k. unfold l' in Ex. rewrite nth_error_app2, Nat.sub_diag in Ex by lia. cbn in Ex. injection Ex as <-. cbn [fst snd].
        destruct (length l =? 0)%nat eqn:L0; [|reflexivity]. apply Nat.eqb_eq in L0. rewrite Len, L0. change (Z.of_nat 0 + 1) with 1. cbn [andb]. rewrite orb_false_r.
        destruct (Z.eqb_spec 1 n); [|reflexivity]. replace (q_tail q =? n - 1) with true by lia. reflexivity.
      - assert (Kn : (k < length l)%nat). { destruct (Nat.eq_dec k (length l)) as [->|]; [rewrite Ht in Nt; congruence|lia]. }
        unfold l' in Ex. rewrite nth_error_app1 in Ex by exact Kn. specialize (Hold k x Ex p Hp).
        destruct (Z.eqb_spec ((q_head q + Z.of_nat k) mod n) (q_tail q + 1)) as [E1|N1].
        + (* the slot after the new one: the oldest, and the queue is full *)
          assert (Tn : q_tail q + 1 < n) by lia. assert (E2 : (q_head q + Z.of_nat k) mod n = (q_head q + (Z.of_nat (length l) + 1)) mod n).
          { rewrite E1. replace (q_head q + (Z.of_nat (length l) + 1)) with ((q_head q + Z.of_nat (length l)) + 1) by lia. rewrite <- Zplus_mod_idemp_l, <- Ht. symmetry. apply Z.mod_small. lia. }
          assert (Full : Z.of_nat (length l) + 1 = n /\ k = 0%nat).
          { destruct (Z.lt_ge_cases (Z.of_nat (length l) + 1) n) as [C|C]; [apply slot_inj in E2; lia|].
            assert (Fn : Z.of_nat (length l) + 1 = n) by lia. split; [exact Fn|]. rewrite Fn in E2. rewrite <- (Z.add_0_r (q_head q + n)) in E2. replace (q_head q + n + 0) with (q_head q + 0 + 1 * n) in E2 by lia. rewrite Z_mod_plus_full in E2. apply slot_inj in E2; lia. }
          destruct Full as [Fn ->]. replace (Z.of_nat (length l') =? n) with true by lia. replace (q_tail q =? n - 1) with false by lia. cbn [andb orb Nat.eqb negb].
          destruct (Z.eqb_spec p 0) as [Ep|Np]; [reflexivity|]. rewrite Hold. rewrite andb_false_r. reflexivity.
        + cbn [andb]. rewrite Hold. destruct (k =? 0)%nat eqn:K0; [|reflexivity]. apply Nat.eqb_eq in K0. subst k.
          destruct (Z.eqb_spec (Z.of_nat (length l')) n) as [Fn|]; [|reflexivity]. destruct (Z.eqb_spec (q_tail q) (n - 1)) as [|Tn]; [reflexivity|]. exfalso. apply N1.
          change (Z.of_nat 0) with 0. replace (q_head q + 0) with (q_head q + Z.of_nat (length l) + 1 + (-1) * n) by lia. rewrite Z_mod_plus_full, <- Zplus_mod_idemp_l, <- Ht. apply Z.mod_small. lia. }
    cbv zeta. fold l'. assert (Tail : (q_tail q + 1) mod n = (q_head q + Z.of_nat (length l')) mod n).
    { rewrite Ht, Zplus_mod_idemp_l, Len. f_equal. lia. }
    destruct ((Z.of_nat (length l') =? n) && negb (q_tail q =? n - 1)) eqn:Cl.
    - assert (Lc : length (clear_oldest l') = length l') by (destruct l' as [|[] ?]; reflexivity).
      unfold inv. cbn [q_arr q_head q_tail]. rewrite Lc. split; [exact Ar|]. split; [exact Hh|]. split; [lia|]. split; [exact Tail|].
      intros k x Ex p Hp. destruct l' as [|[y f] l'']; [destruct k; discriminate|]. destruct k as [|k]; cbn in Ex.
      + injection Ex as <-. rewrite (New 0%nat (y, f) eq_refl p Hp). reflexivity.
      + rewrite (New (S k) x Ex p Hp). reflexivity.
    - unfold inv. cbn [q_arr q_head q_tail]. split; [exact Ar|]. split; [exact Hh|]. split; [lia|]. split; [exact Tail|].
      intros k x Ex p Hp. rewrite (New k x Ex p Hp). rewrite andb_false_r. reflexivity.
  Qed.

  Lemma run_all cs : Forall (accepted (pa_base t)) cs -> forall q l outs, inv q l -> damaged n (q_tail q) cs l = Some outs ->
    exists rs, q_run t cs q = Ok rs /\ Forall2 (shows (pa_base t)) rs outs.
  Proof.
    induction 1 as [|c cs Ac _ IH]; intros q l outs I D.
    - cbn in D. injection D as <-. exists []. split; [reflexivity|constructor].
    - destruct c as [v|]; cbn [damaged] in D.
      + destruct (Z.of_nat (length l) <? n) eqn:Room; [|discriminate]. apply Z.ltb_lt in Room. destruct (push_step q l v I Room Ac) as (q' & E & Et & I').
        cbn [q_run]. rewrite E. cbn [bind]. rewrite <- Et in D. exact (IH q' _ outs I' D).
      + destruct l as [|x l]; [discriminate|]. destruct (pop_step q x l I) as (r & q' & E & Sh & I' & Et). rewrite <- Et in D.
        destruct (damaged n (q_tail q') cs l) as [o|] eqn:Do; [|discriminate]. cbn in D. injection D as <-.
        destruct (IH q' l o I' Do) as (rs & Er & F). exists (r :: rs). cbn [q_run]. rewrite E. cbn [bind fst snd]. rewrite Er. cbn [bind]. split; [reflexivity|]. constructor; assumption.
  Qed.
End Run.

(** a queue that never gets full is not damaged *)
Lemma undamaged n cs : 1 <= n -> forall i l outs, fifo (n - 1) cs l = Some outs -> damaged n i cs (map (fun v => (v, false)) l) = Some (map (fun v => (v, false)) outs).
Proof.
  intros Hn. induction cs as [|[v|] cs IH]; intros i l outs F; cbn [fifo damaged] in *.
  - injection F as <-. reflexivity.
  - destruct (Z.of_nat (length l) <? n - 1) eqn:R; [|discriminate]. apply Z.ltb_lt in R. rewrite map_length. replace (Z.of_nat (length l) <? n) with true by lia.
    cbv zeta. rewrite app_length, map_length. cbn [length]. replace (Z.of_nat (length l + 1) =? n) with false by lia. cbn [andb].
    rewrite <- (IH ((i + 1) mod n) (l ++ [v]) outs F). rewrite map_app. reflexivity.
  - destruct l as [|x l]; [discriminate|]. cbn [map]. destruct (fifo (n - 1) cs l) as [o|] eqn:E; [|discriminate]. cbn in F. injection F as <-. rewrite (IH i l o E). reflexivity.
Qed.

Lemma queue_all t a h cs outs : arr4 t a -> Z.min (pa_msb t) (pa_lsb t) = 0 -> (bits t <= 64 -> 2 <= pa_base t /\ bits t < storage (bits t)) ->
  0 <= h < elems t -> Forall (accepted (pa_base t)) cs -> damaged (elems t) h cs [] = Some outs ->
  exists rs, q_run t cs (mkQueue a h h) = Ok rs /\ Forall2 (shows (pa_base t)) rs outs.
Proof.
  intros A L F H Ac D. apply (run_all t L F cs Ac _ [] outs); [|exact D]. unfold inv. cbn [q_arr q_head q_tail length]. pose proof (elems_pos t).
  split; [exact A|]. split; [exact H|]. split; [lia|]. split; [rewrite Z.add_0_r; symmetry; now apply Z.mod_small|]. intros k x E. destruct k; discriminate.
Qed.
Lemma queue_fifo t a h cs outs : arr4 t a -> Z.min (pa_msb t) (pa_lsb t) = 0 -> (bits t <= 64 -> 2 <= pa_base t /\ bits t < storage (bits t)) ->
  0 <= h < elems t -> Forall (accepted (pa_base t)) cs -> fifo (elems t - 1) cs [] = Some outs ->
  exists rs, q_run t cs (mkQueue a h h) = Ok rs /\ Forall2 (fun r v => forall p, 0 <= p < pa_base t -> sym_at r p = sym_at v p) rs outs.
Proof.
  intros A L F H Ac D. destruct (queue_all t a h cs _ A L F H Ac (undamaged _ cs (elems_pos t) h [] outs D)) as (rs & E & S). exists rs. split; [exact E|].
  clear - S. revert rs S. induction outs as [|v outs IH]; cbn [map]; intros rs S; inversion S; subst; constructor; auto.
Qed.

Lemma accepted16 v : ltyped (k4 16 v) 16 false -> accepted 16 (Push (k4 16 v)).
Proof. intros T. split; [exact T|]. intros q H. lia. Qed.
Lemma queue_counter : exists t a cs outs rs r v, arr4 t a /\ Z.min (pa_msb t) (pa_lsb t) = 0 /\ 65 <= bits t /\ Forall (accepted (pa_base t)) cs /\
  fifo (elems t) cs [] = Some outs /\ q_run t cs (mkQueue a 1 1) = Ok rs /\ nth_error outs 0 = Some v /\ nth_error rs 0 = Some r /\ sym_at v 0 = S1 /\ sym_at r 0 = S0.
Proof.
  pose (t := mkParrTy 16 false 4 0). pose (cs := map (fun v => Push (k4 16 v)) [7; 9; 5; 3; 1] ++ [Pop]).
  assert (R : exists rs, q_run t cs (mkQueue (k80 5 9) 1 1) = Ok rs) by (eexists; vm_compute; reflexivity). destruct R as [rs R].
  exists t, (k80 5 9), cs, [k4 16 7], rs, (hd (k4 16 0) rs), (k4 16 7).
  split; [apply packed_ex|]. split; [reflexivity|]. split; [vm_compute; discriminate|].
  split. { unfold cs. cbn [map app]. repeat apply Forall_cons; try apply Forall_nil; try exact I; apply accepted16; conc. }
  split; [vm_compute; reflexivity|]. split; [exact R|]. split; [reflexivity|].
  vm_compute in R. injection R as <-. split; [reflexivity|]. split; vm_compute; reflexivity.
Qed.
Lemma queue_ex : let t := mkParrTy 16 false 4 0 in let cs := [Push (k4 16 7); Push (k4 16 9); Pop; Push (k4 16 5); Push (k4 16 3); Push (k4 16 1); Pop; Pop; Pop; Push (k4 16 8); Pop; Pop] in
  arr4 t (k80 5 9) /\ Z.min (pa_msb t) (pa_lsb t) = 0 /\ (bits t <= 64 -> 2 <= pa_base t /\ bits t < storage (bits t)) /\ 0 <= 3 < elems t /\ Forall (accepted (pa_base t)) cs /\
  fifo (elems t - 1) cs [] = Some [k4 16 7; k4 16 9; k4 16 5; k4 16 3; k4 16 1; k4 16 8] /\
  damaged (elems t) 1 (map (fun v => Push (k4 16 v)) [7; 9; 5; 3; 1] ++ [Pop; Pop]) [] = Some [(k4 16 7, true); (k4 16 9, false)] /\
  (let t := mkParrTy 5 true 2 0 in bits t <= 64 /\ 2 <= pa_base t /\ bits t < storage (bits t)).
Proof.
  cbv zeta. split; [apply packed_ex|]. split; [reflexivity|]. split; [intros H; exfalso; vm_compute in H; congruence|]. split; [conc|].
  split. { repeat apply Forall_cons; try apply Forall_nil; try exact I; apply accepted16; conc. }
  split; [vm_compute; reflexivity|]. split; [vm_compute; reflexivity|]. conc.
Qed.
