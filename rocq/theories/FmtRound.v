(** Lemmas about 2-state formatting and about reading formatted texts back. *)
From Coq Require Import ZArith List Bool Lia String Ascii.
From Verif Require Import Cpp BigNum Bit Logic Util Spec SpecText ZBits Words BigNumProofs BitProofs BitExt BitOps BigArith BitArith BitSlice BitShift BitCmp BitMain BitMain3 BitMain4 LogicMain TextProofs TextBig FmtProofs FmtMain FmtDec.
Import ListNotations.
Open Scope Z_scope.

(** * 2-state *)
Lemma bw_pos' b : 1 <= bw b. Proof. unfold bw, width. lia. Qed.
Lemma no_pad_bit b v base w core : bval b = HN v -> ~ among "0123456789" base -> (forall c, minus base c = 0) -> usual_width base (bw b) w -> bit_str b [48; base] = Ok core -> len core = w -> bit_str b [base] = Ok core.
Proof.
  intros V B M U E L. destruct (bit_padding b v [base] None base _ _ V (fmt1 base B) U E) as (s & Es & Ps). rewrite Es. f_equal. unfold padded, field_width in Ps. rewrite M, L in Ps. rewrite Ps. replace (Z.to_nat (w + 0 - w)) with 0%nat by lia. reflexivity.
Qed.
Lemma bit_bin_out b base : vec b -> bw b <= 64 -> among "bB" base ->
  exists core, bit_str b [base] = Ok core /\ bit_str b [48; base] = Ok core /\ len core = bw b /\ forall i, 0 <= i < bw b -> from_right core i = Some (if bit_at b i then 49 else 48).
Proof.
  intros V Hn B. assert (B' : pow2_fmt base 1) by (left; auto). pose proof (usual_pow2 base 1 (bw b) B' (bw_pos' b)) as U. assert (C1 : ceil_div (bw b) 1 = bw b) by (apply ceil_unique; lia). rewrite C1 in U.
  destruct (vec_cases b V) as [(v & E & Hb & I & S) | (ws & _ & Hb & _)]; [|lia]. assert (P : possible base (bsize b) = Ok (bw b)) by (apply possible_usual; [apply bsize_pos|]; rewrite bw_bsize in *; exact U).
  set (ss := bin_chars (bw b) (u64 v)). assert (E0 : bit_str b [48; base] = Ok (rev ss)).
  { rewrite (bit_str_core b v _ _ _ _ E (fmt0 base (nd_fmt _ _ B')) P). unfold bcore, bneg. rewrite E. destruct (stride_fmt base 1 B') as (_ & _ & D). rewrite D, andb_false_r. assert (core2 base (bsize b) (u64 v) = Ok ss) as -> by (change (bsize b) with (bw b); chars_cases B; reflexivity). cbn [bind]. rewrite finish0. reflexivity. }
  assert (L : len (rev ss) = bw b). { unfold len, ss, bin_chars. rewrite rev_length. apply map_len. lia. }
  exists (rev ss). split; [eapply no_pad_bit; eauto using nd_fmt; apply (pow2_pad _ _ B')|]. split; [exact E0|]. split; [exact L|]. intros i Hi. unfold from_right. rewrite rev_involutive. unfold ss, bin_chars.
  rewrite (nth_zrange_map (fun i => if Z.testbit (u64 v) i then 49 else 48)) by exact Hi. rewrite u64_bit by lia. now rewrite bit_at_stored, S by exact Hi.
Qed.
(** the digits of a 2-state octal or hexadecimal text come out in reverse order *)
Lemma bit_hex_out b base k : vec b -> bw b <= 64 -> clear_top b -> pow2_fmt base k -> k <> 1 -> exists t, is_numeral (2 ^ k) (num b) t /\ bit_str b [48; base] = Ok (rev t).
Proof.
  intros V Hn T B K. pose proof (usual_pow2 base k (bw b) B (bw_pos' b)) as U. destruct (vec_cases b V) as [(v & E & Hb & I & S) | (ws & _ & Hb & _)]; [|lia]. assert (P : possible base (bsize b) = Ok (ceil_div (bw b) k)) by (apply possible_usual; [apply bsize_pos|]; rewrite bw_bsize in *; exact U).
  pose proof (clear_stored b V T) as R. rewrite S in R. assert (2 ^ bw b <= 2 ^ 64) by (apply Z.pow_le_mono_r; lia). assert (N : num b = v) by (unfold num; rewrite S; apply Z.mod_small; lia).
  destruct (stride_fmt base k B) as (_ & Hk & D). assert (H2 : 2 <= 2 ^ k <= 16). { assert (Hk' : k = 3 \/ k = 4) by (destruct B as [[_ ->]|[[_ ->]|[_ ->]]]; lia). destruct Hk' as [-> | ->]; split; discriminate. }
  destruct (numeral_spec (2 ^ k) v H2 ltac:(lia)) as (t & Et & It). exists t. rewrite N. split; [exact It|]. rewrite (bit_str_core b v _ _ _ _ E (fmt0 base (nd_fmt _ _ B)) P). unfold bcore, bneg. rewrite E, D, andb_false_r.
  rewrite u64_id by lia. assert (core2 base (bsize b) v = numeral (2 ^ k) v) as -> by (destruct B as [[_ ->]|[[B ->]|[B ->]]]; [lia| |]; chars_cases B; reflexivity). rewrite Et. cbn [bind]. now rewrite finish0.
Qed.
Lemma numeral_digit b v t : 2 <= b <= 16 -> 0 <= v < b -> is_numeral b v t -> t = [dchar v].
Proof.
  intros Hb Hv (V & N & Z0 & F). destruct t as [|c t]; [congruence|]. assert (F' : Forall (hexdigit b) (c :: t)) by exact F. destruct (Z.eq_dec c 48) as [C|C].
  - cbn [hd] in Z0. specialize (Z0 C). rewrite Z0 in V. rewrite Z0. cbn in V. subst v. reflexivity.
  - pose proof (numeral_low b c t ltac:(lia) F' C) as L. rewrite V in L. destruct t as [|d t].
    + inversion F' as [|? ? [A Dv] _]; subst. assert (N1 : numeral_value b [c] = digit_value c) by (rewrite numeral_one, (proj2 (Z.eqb_neq c 95)); [reflexivity|]; chars_cases A; discriminate). rewrite N1. clear - A. chars_cases A; reflexivity.
    + exfalso. assert (b ^ 1 <= b ^ (len (c :: d :: t) - 1)) by (apply Z.pow_le_mono_r; [lia|]; unfold len; cbn [List.length]; lia). rewrite Z.pow_1_r in *. lia.
Qed.
Lemma repeat0_numeral b k s : numeral_value b (repeat 48 k ++ s) = numeral_value b s.
Proof. induction k as [|k IH]; [reflexivity|]. cbn [repeat app]. rewrite numeral_cons, IH. cbn. reflexivity. Qed.
Lemma bit_hex_digit b base k : vec b -> bw b <= 64 -> clear_top b -> pow2_fmt base k -> k <> 1 -> num b < 2 ^ k ->
  exists s, bit_str b [base] = Ok s /\ usual_width base (bw b) (len s) /\ Forall (among "0123456789abcdef") s /\ numeral_value (2 ^ k) s = num b.
Proof.
  intros V Hn T B K R. destruct (bit_hex_out b base k V Hn T B K) as (t & It & E). destruct (stride_fmt base k B) as (_ & Hk & D). assert (H2 : 2 <= 2 ^ k <= 16). { assert (Hk' : k = 3 \/ k = 4) by (destruct B as [[_ ->]|[[_ ->]|[_ ->]]]; lia). destruct Hk' as [-> | ->]; split; discriminate. }
  pose proof (num_range b) as Nr. rewrite (numeral_digit (2 ^ k) (num b) t H2 (conj (proj1 Nr) R) It) in E. cbn [rev app] in E. pose proof (usual_pow2 base k (bw b) B (bw_pos' b)) as U. destruct (vec_cases b V) as [(v & Ev & _) | (ws & _ & Hb & _)]; [|lia].
  destruct (bit_padding b v [base] None base _ _ Ev (fmt1 base (nd_fmt _ _ B)) U E) as (s & Es & Ps). exists s. split; [exact Es|]. unfold padded, field_width in Ps. destruct (pow2_pad base k B) as [Pc Pm]. rewrite Pc, Pm in Ps. pose proof (ceil_bounds (bw b) k ltac:(lia)) as Cb. pose proof (bw_pos' b).
  assert (C1 : 1 <= ceil_div (bw b) k) by nia. assert (dn : among "0123456789abcdef" (dchar (num b)) /\ digit_value (dchar (num b)) = num b /\ dchar (num b) <> 95) by (destruct (dchar_value (num b)) as (? & ? & _ & ?); [lia|auto]). destruct dn as (d1 & d2 & d3).
  subst s. split; [|split].
  - replace (len (repeat 48 (Z.to_nat (ceil_div (bw b) k + 0 - len [dchar (num b)])) ++ [dchar (num b)])) with (ceil_div (bw b) k); [exact U|]. unfold len. rewrite app_length, repeat_length. cbn [List.length]. lia.
  - apply Forall_app. split; [|constructor; [exact d1|constructor]]. apply Forall_forall. intros c Hc. apply repeat_spec in Hc. subst c. vm_compute. tauto.
  - rewrite repeat0_numeral, numeral_one, (proj2 (Z.eqb_neq _ 95) d3). exact d2.
Qed.

(** * reading back *)
Lemma text_of_right k s (f : Z -> Z) n p : 1 <= k -> 0 <= p -> len s = n -> (forall i, 0 <= i < n -> from_right s i = Some (f i)) -> no_underscore s -> text_sym k s p = if p / k <? n then digit_sym (f (p / k)) (p mod k) else S0.
Proof.
  intros Hk Hp L H N. unfold text_sym. rewrite clean_id by exact N. assert (0 <= p / k) by (apply Z.div_pos; lia). destruct (Z.ltb_spec (p / k) n) as [Q|Q].
  - specialize (H (p / k) ltac:(lia)). unfold from_right in H. now rewrite H.
  - rewrite (proj2 (nth_error_None _ _)); [reflexivity|]. rewrite rev_length. unfold len in L. lia.
Qed.
Lemma right_forall (P : Z -> Prop) s (f : Z -> Z) n : len s = n -> (forall i, 0 <= i < n -> from_right s i = Some (f i)) -> (forall i, 0 <= i < n -> P (f i)) -> Forall P s.
Proof.
  intros L H G. apply Forall_forall. intros c Hc. apply in_rev in Hc. apply In_nth_error in Hc. destruct Hc as (i & Hi). assert (R : 0 <= Z.of_nat i < n). { split; [lia|]. assert (i < List.length (rev s))%nat by (apply nth_error_Some; congruence). rewrite rev_length in *. unfold len in L. lia. }
  specialize (H _ R). unfold from_right in H. rewrite Nat2Z.id in H. rewrite H in Hi. injection Hi as <-. now apply G.
Qed.
Lemma hd_no s : no_underscore s -> hd 0 s <> 95. Proof. intros N. destruct s; [discriminate|]. now inversion N. Qed.
Lemma group_one l i : group_char (group l 1 i) = sym_char (sym_at l i).
Proof. unfold group. change (zrange 0 1) with [0]. cbn [map]. rewrite group1. do 2 f_equal. lia. Qed.
Lemma ltyped_lvec l n sg : 1 <= n -> ltyped l n sg -> lvec l /\ lw l = n.
Proof.
  intros Hn [T1 T2]. pose proof (typed_bw _ _ _ Hn T1) as W. destruct T1 as (V1 & [P1 P2] & _), T2 as (V2 & [Q1 Q2] & S). split; [|exact W]. split; [exact V1|]. split; [exact V2|]. split; [congruence|]. split; [congruence|exact S].
Qed.
Lemma pfx_ok : prefix_ok [] []. Proof. split; [intros []|constructor]. Qed.
Lemma bin_round l n sg : 1 <= n -> ltyped l n sg -> (n <= 64 \/ n mod 64 <> 0) -> (forall p, 0 <= p < n -> 32 <= p mod 64 -> unknown (sym_at l p) = false) ->
  exists s l', logic_str l (chars "b") = Ok s /\ logic_of_str (n - 1) 0 sg (chars "'b" ++ s) = Ok l' /\ ltyped l' n sg /\ (forall p, 0 <= p < n -> sym_at l' p = sym_at l p) /\ (sg = false \/ 65 <= n -> ltidy l').
Proof.
  intros Hn T C U. destruct (ltyped_lvec l n sg Hn T) as [V W]. assert (B : pow2_fmt 98 1) by (left; split; [vm_compute; tauto|reflexivity]).
  destruct (logic_out l 98 1 V B) as (s & E & _ & Uw & H); [left; apply Z.mod_1_r|rewrite W; destruct C; [left; lia|right; split; [lia|assumption]]|]. rewrite W in Uw.
  assert (L : len s = n). { pose proof (possible_usual 98 n _ Hn Uw) as P. pose proof (possible_usual 98 n _ Hn (usual_pow2 98 1 n B Hn)) as P'. rewrite P in P'. injection P' as ->. apply ceil_unique; lia. }
  rewrite L in H. assert (H' : forall i, 0 <= i < n -> from_right s i = Some (sym_char (sym_at l i))) by (intros i Hi; rewrite H, group_one by lia; reflexivity).
  assert (D : Forall (among "01xz_") s) by (apply (right_forall _ s _ n L H'); intros i Hi; destruct (sym_at l i); vm_compute; tauto).
  assert (N : no_underscore s) by (apply (right_forall _ s _ n L H'); intros i Hi; destruct (sym_at l i); discriminate).
  assert (S : forall p, 0 <= p -> text_sym 1 s p = sym_at l p). { intros p Hp. rewrite (text_of_right 1 s _ n p ltac:(lia) Hp L H' N). rewrite Z.div_1_r, Z.mod_1_r. destruct (Z.ltb_spec p n) as [Q|Q].
    - destruct (sym_at l p); reflexivity.
    - unfold sym_at. assert (Eb : bw (l_xz l) = lw l) by (destruct V as (_ & _ & M & Ll & _); unfold lw, bw; now rewrite M, Ll). rewrite !bit_at_high by (try rewrite Eb; unfold lw in *; lia). reflexivity. }
  assert (Lt : chars "'b" ++ s = literal [] [] 98 s) by reflexivity. assert (B' : pow2_base 98 1) by (left; split; [vm_compute; tauto|reflexivity]). assert (Cl : clean s = s) by now apply clean_id.
  exists s. destruct (Z.leb_spec n 64) as [N64|N64].
  - destruct (logic_text n sg [] [] 98 1 s ltac:(lia) pfx_ok B' D) as (l' & E' & T' & Q & Y).
    + split; [rewrite Cl; lia|now apply hd_no].
    + intros N1 p Hp. apply text_bound; [lia|lia|]. rewrite Cl. lia.
    + intros _ p Hp. destruct (Z.lt_ge_cases p n); [rewrite S by lia; apply U; [lia|rewrite Z.mod_small by lia; lia]|]. rewrite text_bound; [reflexivity|lia|lia|]. rewrite Cl. lia.
    + exists l'. rewrite Lt. split; [exact E|]. split; [exact E'|]. split; [exact T'|]. split; [intros p Hp; rewrite Q by lia; apply S; lia|]. intros [-> |]; [|lia]. apply Y; [reflexivity|]. rewrite Cl. lia.
  - pose proof (typed_lt _ _ _ Hn (proj1 T)). destruct (logic_text_big n sg [] [] 98 1 s ltac:(lia) pfx_ok B' ltac:(lia) D N) as (l' & E' & T' & Q & Y).
    + intros _ p Hp Hm. destruct (Z.lt_ge_cases p n); [rewrite S by lia; apply U; lia|]. rewrite text_bound; [reflexivity|lia|lia|]. rewrite Cl. lia.
    + exists l'. rewrite Lt. split; [exact E|]. split; [exact E'|]. split; [exact T'|]. split; [intros p Hp; rewrite Q by lia; apply S; lia|]. intros _. apply Y. lia.
Qed.
Lemma bit_bin_round b n sg : 1 <= n <= 64 -> typed b n sg ->
  exists s b', bit_str b (chars "b") = Ok s /\ bit_of_str (n - 1) 0 sg (chars "'b" ++ s) = Ok b' /\ typed b' n sg /\ num b' = num b.
Proof.
  intros Hn T. assert (H1 : 1 <= n) by lia. pose proof (typed_bw _ _ _ H1 T) as W. destruct (bit_bin_out b 98) as (s & E & _ & L & H); [apply T|lia|vm_compute; tauto|]. rewrite W in *.
  assert (D : Forall (among "01xz_") s) by (apply (right_forall _ s _ n L H); intros i Hi; destruct (bit_at b i); vm_compute; tauto).
  assert (N : no_underscore s) by (apply (right_forall _ s _ n L H); intros i Hi; destruct (bit_at b i); discriminate).
  assert (Cl : clean s = s) by now apply clean_id. assert (B' : pow2_base 98 1) by (left; split; [vm_compute; tauto|reflexivity]).
  destruct (bit_text n sg [] [] 98 1 s Hn pfx_ok B' D) as (b' & E' & T' & Q & _); [split; [rewrite Cl; lia|now apply hd_no]|intros N1 p Hp; apply text_bound; [lia|lia|]; rewrite Cl; lia|].
  exists s, b'. split; [exact E|]. split; [exact E'|]. split; [exact T'|]. pose proof (num_range b) as R. pose proof (num_range b') as R'. rewrite W in R. rewrite (typed_bw _ _ _ H1 T') in R'. apply Z.bits_inj'. intros p Hp. destruct (Z.lt_ge_cases p n).
  - change (bit_at b' p = bit_at b p). rewrite Q by lia. rewrite (text_of_right 1 s _ n p ltac:(lia) Hp L H N), Z.div_1_r, Z.mod_1_r. rewrite (proj2 (Z.ltb_lt p n)) by lia. now destruct (bit_at b p).
  - now rewrite !(testbit_small _ n).
Qed.
Lemma dec_digits v s : is_numeral 10 v s -> Forall (among "0123456789_") s.
Proof. intros (_ & _ & _ & F). revert F. apply Forall_impl. intros c [A D]. chars_cases A; try (vm_compute; tauto); vm_compute in D; discriminate. Qed.
Lemma decimal_nonneg v s : 0 <= v -> decimal_text v s -> is_numeral 10 v s. Proof. intros N. unfold decimal_text. now rewrite (proj2 (Z.ltb_ge v 0) N). Qed.
Lemma unsigned_prints b : bsgn b = false -> prints b. Proof. intros S Q. congruence. Qed.
Lemma pow_mod1 z : 0 <= z < 2 ^ 1 -> z < 2. Proof. change (2 ^ 1) with 2. lia. Qed.
Lemma dec_round n : 1 <= n <= 64 ->
  (forall b, typed b n false -> tidy b -> exists s b', bit_str b (chars "0d") = Ok s /\ bit_of_str (n - 1) 0 false (chars "'d" ++ s) = Ok b' /\ typed b' n false /\ num b' = num b) /\
  (forall l, ltyped l n false -> ltidy l -> known l -> exists s l', logic_str l (chars "0d") = Ok s /\ logic_of_str (n - 1) 0 false (chars "'d" ++ s) = Ok l' /\ ltyped l' n false /\ known l' /\ num (l_val l') = num (l_val l)).
Proof.
  intros Hn. assert (H1 : 1 <= n) by lia. assert (A : among "dD" 100) by (vm_compute; tauto). split.
  - intros b T Y. pose proof (typed_bw _ _ _ H1 T) as W. assert (S : bsgn b = false) by apply T. destruct (bit_decimal b 100) as (s & E & D); [apply T|lia|exact Y|now apply unsigned_prints|exact A|]. unfold value in D. rewrite S in D. pose proof (num_range b) as R. rewrite W in R.
    apply decimal_nonneg in D; [|lia]. pose proof (dec_digits _ _ D) as F. destruct D as (V & _).
    destruct (bit_dec n false [] [] 100 s Hn pfx_ok A F) as (b' & E' & T' & Q & _); [intros N1; rewrite V; rewrite N1 in R; now apply pow_mod1|]. exists s, b'. split; [exact E|]. split; [exact E'|]. split; [exact T'|]. rewrite Q, V. apply Z.mod_small. exact R.
  - intros l T Y K. destruct (ltyped_lvec l n false H1 T) as [Vl W]. assert (S : bsgn (l_val l) = false) by apply T. destruct (logic_decimal l 100) as (s & E & D); [exact Vl|lia|exact K|exact Y|now apply unsigned_prints|exact A|]. unfold value in D. rewrite S in D. pose proof (num_range (l_val l)) as R. fold (lw l) in R. rewrite W in R.
    apply decimal_nonneg in D; [|lia]. pose proof (dec_digits _ _ D) as F. destruct D as (V & _).
    destruct (logic_dec n false [] [] 100 s Hn pfx_ok A F) as (l' & E' & T' & K' & Q & _); [intros N1; rewrite V; rewrite N1 in R; now apply pow_mod1|]. exists s, l'. split; [exact E|]. split; [exact E'|]. split; [exact T'|]. split; [exact K'|]. rewrite Q, V. apply Z.mod_small. exact R.
Qed.
Lemma dig10 c : among "0123456789" c -> among "0123456789xz" c /\ ((c =? 120) || (c =? 88)) = false /\ ((c =? 122) || (c =? 90)) = false.
Proof. intros A. chars_cases A; (split; [vm_compute; tauto|]); split; reflexivity. Qed.
Lemma dig12 c : among "0123456789xz" c -> among "0123456789ABCDEFxXzZ_" c /\ c <> 95.
Proof. intros A. chars_cases A; (split; [vm_compute; tauto|discriminate]). Qed.
Lemma range4 : zrange 0 4 = [0; 1; 2; 3]. Proof. reflexivity. Qed.
Lemma hex_round l n sg : 1 <= n -> ltyped l n sg -> top_ok l 4 -> (n <= 64 \/ n mod 64 <> 0) -> plain_groups l ->
  exists s l', logic_str l (chars "h") = Ok s /\ logic_of_str (n - 1) 0 sg (chars "'h" ++ s) = Ok l' /\ ltyped l' n sg /\ (forall p, 0 <= p < n -> sym_at l' p = sym_at l p).
Proof.
  intros Hn T Tp C G. destruct (ltyped_lvec l n sg Hn T) as [V W]. assert (B : pow2_fmt 104 4) by (do 2 right; split; [vm_compute; tauto|reflexivity]).
  destruct (logic_out l 104 4 V B Tp) as (s & E & _ & Uw & H); [rewrite W; destruct C; [left; lia|right; split; [lia|assumption]]|]. rewrite W in Uw.
  assert (L : len s = ceil_div n 4). { pose proof (possible_usual 104 n _ Hn Uw) as P. pose proof (possible_usual 104 n _ Hn (usual_pow2 104 4 n B Hn)) as P'. rewrite P in P'. now injection P' as ->. }
  rewrite L in H. pose proof (ceil_bounds n 4 ltac:(lia)) as Cb. set (m := ceil_div n 4) in *.
  assert (Gc : forall i, 0 <= i < m -> among "0123456789xz" (group_char (group l 4 i)) /\ forall j, 0 <= j < 4 -> digit_sym (group_char (group l 4 i)) j = sym_at l (4 * i + j)).
  { intros i Hi. destruct (G i ltac:(lia) ltac:(lia)) as [(d & Hd & Q)|[Q|Q]].
    - unfold group. rewrite (group_known 4 _ d ltac:(lia) Q). rewrite Z.mod_small by (change (2 ^ 4) with 16; lia). destruct (dchar_value d ltac:(lia)) as (_ & Dv & _). assert (A : among "0123456789" (dchar d)).
      { assert (Ed : d = 0 \/ d = 1 \/ d = 2 \/ d = 3 \/ d = 4 \/ d = 5 \/ d = 6 \/ d = 7 \/ d = 8 \/ d = 9) by lia. repeat (destruct Ed as [-> | Ed]; [vm_compute; tauto|]). subst d. vm_compute. tauto. }
      destruct (dig10 _ A) as (A1 & A2 & A3). split; [exact A1|]. intros j Hj. rewrite Q by exact Hj. unfold digit_sym. now rewrite Dv, A2, A3.
    - assert (group l 4 i = [SX; SX; SX; SX]) as ->. { unfold group. rewrite range4. cbn [map]. now rewrite !Q by lia. } split; [vm_compute; tauto|]. intros j Hj. now rewrite Q.
    - assert (group l 4 i = [SZ; SZ; SZ; SZ]) as ->. { unfold group. rewrite range4. cbn [map]. now rewrite !Q by lia. } split; [vm_compute; tauto|]. intros j Hj. now rewrite Q. }
  assert (D : Forall (among "0123456789ABCDEFxXzZ_") s) by (apply (right_forall _ s _ m L H); intros i Hi; exact (proj1 (dig12 _ (proj1 (Gc i Hi))))).
  assert (N : no_underscore s) by (apply (right_forall _ s _ m L H); intros i Hi; exact (proj2 (dig12 _ (proj1 (Gc i Hi))))).
  assert (S : forall p, 0 <= p -> text_sym 4 s p = sym_at l p). { intros p Hp. rewrite (text_of_right 4 s _ m p ltac:(lia) Hp L H N). pose proof (Z.div_mod p 4 ltac:(lia)) as DM. pose proof (Z.mod_pos_bound p 4 ltac:(lia)). destruct (Z.ltb_spec (p / 4) m) as [Q|Q].
    - rewrite (proj2 (Gc (p / 4) ltac:(split; [apply Z.div_pos; lia|lia]))) by lia. f_equal. lia.
    - unfold sym_at. assert (Eb : bw (l_xz l) = lw l) by (destruct V as (_ & _ & M & Ll & _); unfold lw, bw; now rewrite M, Ll). rewrite !bit_at_high by (try rewrite Eb; unfold lw in *; lia). reflexivity. }
  assert (Lt : chars "'h" ++ s = literal [] [] 104 s) by reflexivity. assert (B' : pow2_base 104 4) by (do 2 right; split; [vm_compute; tauto|reflexivity]). assert (Cl : clean s = s) by now apply clean_id.
  exists s. destruct (Z.leb_spec n 64) as [N64|N64].
  - destruct (logic_text n sg [] [] 104 4 s ltac:(lia) pfx_ok B' D) as (l' & E' & T' & Q & _); [split; [rewrite Cl; lia|now apply hd_no]| |lia|].
    + intros N1 p Hp. rewrite S by lia. unfold sym_at. assert (Eb : bw (l_xz l) = lw l) by (destruct V as (_ & _ & M & Ll & _); unfold lw, bw; now rewrite M, Ll). rewrite !bit_at_high by (try rewrite Eb; unfold lw in *; lia). reflexivity.
    + exists l'. rewrite Lt. split; [exact E|]. split; [exact E'|]. split; [exact T'|]. intros p Hp. rewrite Q by lia. apply S. lia.
  - pose proof (typed_lt _ _ _ Hn (proj1 T)). destruct (logic_text_big n sg [] [] 104 4 s ltac:(lia) pfx_ok B' ltac:(lia) D N ltac:(lia)) as (l' & E' & T' & Q & _).
    exists l'. rewrite Lt. split; [exact E|]. split; [exact E'|]. split; [exact T'|]. intros p Hp. rewrite Q by lia. apply S. lia.
Qed.
