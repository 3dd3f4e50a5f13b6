(** Sign query, negated reductions, arithmetic left shift and the remaining constructors. *)
From Coq Require Import ZArith List Bool Lia.
From Verif Require Import Cpp BigNum Bit Logic Arr Util More Rest Const Reach Spec SpecExact SpecMachine SpecWide SpecFour SpecConst SpecArr SpecText SpecIff ZBits Words BigNumProofs BitProofs BitMain BitMain2
  BitCmp LogicProofs LogicMain MachineProofs3 MachineProofs4 WideProofs Iff5 Iff6 FourProofs FourProofs2 FourProofs4 RestProofs2 FourProg BitOps ConstProofs ArrProofs TextProofs FourProofs3.
Import ListNotations.
Open Scope Z_scope.

Lemma snum_neg b : vec b -> (snum b <? 0) = Z.testbit (num b) (bw b - 1).
Proof.
  intros V. pose proof (num_range b) as R. unfold snum, twos. destruct (Z.testbit _ _); lia.
Qed.
Lemma negative_iff b : vec b -> tidy b ->
  (bit_negative b = IllFormed <-> 65 <= bw b /\ bsgn b = false) /\
  (bit_negative b = Ok (value b <? 0) <-> ~ (65 <= bw b /\ bsgn b = false) /\ ~ (bw b = 1 /\ bsgn b = true /\ num b = 1)).
Proof.
  intros V T. pose proof (num_range b) as R. destruct (vec_bounds b V) as (_ & _ & C). unfold bit_negative.
  destruct (vec_cases_n b (bw b) V eq_refl) as [(v & E & Hn & Hi & St & _)|(ws & E & Hn & W & _)]; rewrite E.
  - split; [split; [discriminate|lia]|].
    destruct (Z.eq_dec (bw b) 1) as [W1|W1].
    + assert (v = num b). { unfold tidy in T. rewrite E, W1, andb_false_r in T. unfold num. rewrite St, W1. rewrite Z.mod_small; lia. }
      rewrite W1 in R. unfold value, snum, twos. rewrite W1. destruct (bsgn b).
      * assert (D : num b = 0 \/ num b = 1) by lia. destruct D as [D|D]; rewrite ?H, D.
        -- split; [intros _; split; [lia|intros (_ & _ & X); lia]|reflexivity].
        -- split; [discriminate|intros [_ X]; exfalso; apply X; auto].
      * replace (v <? 0) with false by lia. replace (num b <? 0) with false by lia. split; [intros _; split; [lia|intros (_ & X & _); discriminate]|reflexivity].
    + rewrite <- (tidy_stored b V T) by lia. rewrite St. split; [intros _; split; lia|reflexivity].
  - destruct (bsgn b) eqn:Sg; cbn [requires].
    + split; [split; [discriminate|intros [_ X]; discriminate]|]. change (bsize b) with (bw b). rewrite bn_negative_spec by (exact W || lia).
      unfold value. rewrite Sg, snum_neg by exact V. unfold num, stored. rewrite E.
      rewrite Z.mod_pow2_bits_low by lia. split; [intros _; split; [intros [_ X]; discriminate|lia]|reflexivity].
    + split; [split; [intros _; split; [lia|reflexivity]|reflexivity]|]. split; [discriminate|]. intros [X _]. exfalso. apply X. split; [lia|reflexivity].
Qed.

Lemma nand_iff b n s : 1 <= n -> typed b n s -> tidy b ->
  (bit_r_nand b = true <-> exists p, 0 <= p < n /\ bit_at b p = false) <->
  (2 <= n <= 64 /\ (s = true -> num b <> 2 ^ n - 1 /\ num b <> 2 ^ (n - 1) - 1)) \/ (65 <= n /\ Z.odd (ones n (num b)) = (num b =? 2 ^ n - 1)).
Proof.
  intros Hn T D. rewrite <- (bit_r_and_iff b n s Hn T D). unfold bit_r_nand.
  assert (Q : (forall p, 0 <= p < n -> bit_at b p = true) <-> ~ exists p, 0 <= p < n /\ bit_at b p = false).
  { split; [intros F (p & Hp & X); rewrite (F p Hp) in X; discriminate|]. intros X p Hp. destruct (bit_at b p) eqn:Y; [reflexivity|]. exfalso. eauto. }
  assert (Dc : {exists p, 0 <= p < n /\ bit_at b p = false} + {~ exists p, 0 <= p < n /\ bit_at b p = false}).
  { destruct (Exists_dec (fun p => bit_at b p = false) (zrange 0 n)) as [Y|Y]; [intros p; apply bool_dec| |].
    - left. apply Exists_exists in Y as (p & Hp & X). apply in_zrange in Hp. eauto.
    - right. intros (p & Hp & X). apply Y. apply Exists_exists. exists p. split; [apply in_zrange; lia|exact X]. }
  rewrite Q. assert (T1 : true = true <-> True) by tauto. assert (F1 : false = true <-> False) by (split; [discriminate|tauto]).
  destruct (bit_r_and b); cbn [negb]; rewrite T1, F1; destruct Dc; tauto.
Qed.
Lemma nor_iff b : vec b -> tidy b ->
  (bit_r_nor b = true <-> forall p, 0 <= p < bw b -> (bw b <= 64 \/ p mod 64 < 32) -> bit_at b p = false).
Proof.
  intros V T. unfold bit_r_nor. pose proof (any_set_iff b V T) as Q. destruct (bit_any_set b); cbn [negb]; split; try discriminate; try reflexivity.
  - intros F. exfalso. destruct (proj1 Q eq_refl) as (p & Hp & X & Y). rewrite (F p Hp Y) in X. discriminate.
  - intros _ p Hp Y. destruct (bit_at b p) eqn:X; [|reflexivity]. discriminate (proj2 Q (ex_intro _ p (conj Hp (conj X Y)))).
Qed.

Lemma ashl_four a k : lvec a -> lvec k -> logic_ashl a k = four_shift any_left a k.
Proof. exact (shl_four a k). Qed.
Lemma ashl_bit_four a b : lvec a -> vec b ->
  logic_ashl_bit a b = let! k := four_of_bit (lmsb a) (llsb a) (lsgn a) b in four_shift any_left a k.
Proof.
  intros La Vb. unfold logic_ashl_bit. assert (D : declarable (lmsb a) (llsb a)) by (destruct La as ((_ & A & B & C) & _); unfold declarable; auto).
  rewrite (of_bit_four _ _ _ b D Vb). destruct (four_of_bit _ _ _ b) as [k| | | |] eqn:E; try reflexivity. cbn [bind].
  apply ashl_four; [exact La|]. unfold four_of_bit in E. destruct (_ && _); [|discriminate]. injection E as <-. unfold object4.
  destruct D as (A & B & C). repeat split; try (apply object_vec; assumption); assumption.
Qed.
Lemma default2_zero n : 1 <= n < 2 ^ 31 -> typed (packed_default2 n) n false /\ num (packed_default2 n) = 0 /\ tidy (packed_default2 n).
Proof.
  intros H. unfold packed_default2. destruct (zero_vec (n - 1) 0 false) as (V & M & L & S1 & _ & N0 & T); try (unfold int_ok, width; lia).
  split; [|auto]. split; [exact V|]. split; [split; assumption|exact S1].
Qed.
Lemma array_text t pre size base k s : 1 <= pa_base t -> pa_base t * elems t <= 64 -> prefix_ok pre size -> pow2_base base k -> digits_ok k s -> fits k s ->
  narrow_ok (pa_base t * elems t) k s -> (k = 1 -> forall p, 32 <= p -> unknown (text_sym 1 s p) = false) ->
  exists a, pa_of_str t (literal pre size base s) = Ok a /\ arr4 t a /\ forall i p, element t i -> 0 <= p < pa_base t -> sym_at a (start t i + p) = text_sym k s (start t i + p).
Proof.
  intros B1 W P Q D F Nw U. pose proof (elems_pos t) as Ep. unfold pa_of_str. rewrite pa_size_eq.
  destruct (logic_text (pa_base t * elems t) (pa_sgn t) pre size base k s) as (l & E & T & G & _); try assumption; [nia|].
  exists l. split; [exact E|]. split; [split; assumption|]. intros i p Hi Hp. apply G. pose proof (start_range t i B1 Hi). lia.
Qed.
