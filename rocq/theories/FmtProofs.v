(** Lemmas about formatting. *)
From Coq Require Import ZArith List Bool Lia String Ascii.
From Verif Require Import Cpp BigNum Bit Logic Util Spec SpecText ZBits Words BigNumProofs BitProofs BitExt BitMain4 TextProofs.
Import ListNotations.
Open Scope Z_scope.

(** * numerals *)
Lemma dchar_value d : 0 <= d < 16 -> among "0123456789abcdef" (dchar d) /\ digit_value (dchar d) = d /\ (dchar d = 48 -> d = 0) /\ dchar d <> 95.
Proof.
  intros H. assert (E : d = 0 \/ d = 1 \/ d = 2 \/ d = 3 \/ d = 4 \/ d = 5 \/ d = 6 \/ d = 7 \/ d = 8 \/ d = 9 \/ d = 10 \/ d = 11 \/ d = 12 \/ d = 13 \/ d = 14 \/ d = 15) by lia.
  repeat (destruct E as [-> | E]; [split; [vm_compute; tauto|split; [reflexivity|split; [reflexivity + discriminate|discriminate]]]|]). subst. split; [vm_compute; tauto|split; [reflexivity|split; [discriminate|discriminate]]].
Qed.
Definition hexdigit (b c : Z) : Prop := among "0123456789abcdef" c /\ digit_value c < b.
Lemma numeral_snoc b s c : c <> 95 -> numeral_value b (s ++ [c]) = numeral_value b s * b + digit_value c.
Proof. intros H. rewrite numeral_app, numeral_one. rewrite (proj2 (Z.eqb_neq c 95) H). unfold clean, len. cbn [filter]. rewrite (proj2 (Z.eqb_neq c 95) H). cbn [negb List.length]. change (Z.of_nat 1) with 1. rewrite Z.pow_1_r. reflexivity. Qed.
Lemma digits_spec b : 2 <= b <= 16 -> forall fuel v, 0 <= v < 2 ^ Z.of_nat fuel ->
  exists t, digits_lsf fuel b v = Ok t /\ numeral_value b (rev t) = v /\ Forall (hexdigit b) t /\ (v <> 0 -> t <> [] /\ hd 0 (rev t) <> 48) /\ (v = 0 -> t = []).
Proof.
  intros Hb. induction fuel as [|f IH]; intros v Hv.
  - assert (v = 0) as -> by (change (2 ^ Z.of_nat 0) with 1 in Hv; lia). exists []. cbn. repeat split; auto; try congruence; lia.
  - cbn [digits_lsf]. destruct (Z.eqb_spec v 0) as [->|N].
    + exists []. cbn. repeat split; auto; congruence.
    + assert (Hd : 0 <= v mod b < b) by (apply Z.mod_pos_bound; lia). assert (Hq : 0 <= v / b < 2 ^ Z.of_nat f).
      { split; [apply Z.div_pos; lia|]. apply Z.div_lt_upper_bound; [lia|]. rewrite Nat2Z.inj_succ, Z.pow_succ_r in Hv by lia. assert (0 < 2 ^ Z.of_nat f) by (apply Z.pow_pos_nonneg; lia). nia. }
      destruct (IH _ Hq) as (t & E & V & F & NZ & Z0). rewrite E. cbn [bind]. exists (dchar (v mod b) :: t). split; [reflexivity|].
      destruct (dchar_value (v mod b) ltac:(lia)) as (A & DV & D48 & D95). cbn [rev]. split; [rewrite numeral_snoc by exact D95; rewrite V, DV; rewrite (Z.mul_comm (v / b)); symmetry; apply Z.div_mod; lia|].
      split; [constructor; [split; [exact A|lia]|exact F]|]. split; [intros _; split; [discriminate|]|congruence].
      destruct (Z.eq_dec (v / b) 0) as [Q0|Q0].
      * rewrite (Z0 Q0). cbn. intros D. apply D48 in D. pose proof (Z.div_mod v b ltac:(lia)). rewrite Q0, D in *. lia.
      * destruct (NZ Q0) as [T H]. destruct (rev t) eqn:R; [apply (f_equal (@rev Z)) in R; rewrite rev_involutive in R; cbn in R; congruence|]. cbn in *. exact H.
Qed.
Lemma forall_rev {A} (P : A -> Prop) l : Forall P l -> Forall P (rev l).
Proof. rewrite !Forall_forall. intros H x Hx. apply H. now apply in_rev. Qed.
Lemma digits_numeral b fuel v : 2 <= b <= 16 -> 0 < v < 2 ^ Z.of_nat fuel -> exists t, digits_lsf fuel b v = Ok t /\ is_numeral b v (rev t).
Proof.
  intros Hb Hv. destruct (digits_spec b Hb fuel v ltac:(lia)) as (t & E & V & F & NZ & _). exists t. split; [exact E|]. destruct (NZ ltac:(lia)) as [T H]. split; [exact V|]. split.
  - intros R. apply (f_equal (@rev Z)) in R. rewrite rev_involutive in R. cbn in R. congruence.
  - split; [congruence|]. apply forall_rev. exact F.
Qed.
Lemma numeral0 b : 2 <= b -> is_numeral b 0 [48].
Proof. intros H. split; [reflexivity|]. split; [discriminate|]. split; [reflexivity|]. constructor; [|constructor]. split; [vm_compute; tauto|cbn; lia]. Qed.
Lemma numeral_spec b v : 2 <= b <= 16 -> 0 <= v < 2 ^ 64 -> exists t, numeral b v = Ok t /\ is_numeral b v t.
Proof.
  intros Hb Hv. unfold numeral. destruct (Z.eqb_spec v 0) as [->|N]; [exists [48]; split; [reflexivity|apply numeral0; lia]|]. change 64 with (Z.of_nat 64) in Hv.
  destruct (digits_numeral b 64 v Hb ltac:(lia)) as (t & E & I). rewrite E. exists (rev t). auto.
Qed.
Lemma dec_lsf_spec v : 0 <= v < 2 ^ 64 -> exists t, dec_lsf 64 v = Ok t /\ is_numeral 10 v (rev t).
Proof.
  intros Hv. unfold dec_lsf. destruct (Z.eqb_spec v 0) as [->|N]; [exists [48]; split; [reflexivity|apply numeral0; lia]|]. change 64 with (Z.of_nat 64) in Hv. apply digits_numeral; lia.
Qed.
Lemma numeral_bound b s : 2 <= b -> Forall (fun c => digit_value c < b) s -> numeral_value b s < b ^ len s.
Proof.
  intros Hb. induction s as [|c s IH] using rev_ind; intros F; [cbn; lia|]. apply Forall_app in F. destruct F as [F1 F2]. inversion F2; subst. specialize (IH F1).
  rewrite numeral_app, numeral_one. unfold len in *. rewrite app_length, Nat2Z.inj_add. cbn [List.length]. change (Z.of_nat 1) with 1. rewrite Z.pow_add_r, Z.pow_1_r by lia. pose proof (numeral_nonneg b s ltac:(lia)).
  destruct (Z.eqb_spec c 95) as [->|N].
  - cbn [clean filter negb Z.eqb Pos.eqb List.length]. change (Z.of_nat 0) with 0. rewrite Z.pow_0_r. assert (0 < b ^ Z.of_nat (List.length s)) by (apply Z.pow_pos_nonneg; lia). nia.
  - unfold clean. cbn [filter]. rewrite (proj2 (Z.eqb_neq c 95) N). cbn [negb List.length]. change (Z.of_nat 1) with 1. rewrite Z.pow_1_r. nia.
Qed.

(** * format strings *)
Lemma not_digit_among c : ~ among "0123456789" c -> is_digit c = false.
Proof.
  intros H. destruct (is_digit c) eqn:E; [|reflexivity]. exfalso. apply H. unfold is_digit in E. assert (48 <= c <= 57) by lia.
  assert (D : c = 48 \/ c = 49 \/ c = 50 \/ c = 51 \/ c = 52 \/ c = 53 \/ c = 54 \/ c = 55 \/ c = 56 \/ c = 57) by lia. repeat (destruct D as [-> | D]; [vm_compute; tauto|]). subst. vm_compute. tauto.
Qed.
Lemma fmt_find ds base rest : Forall (among "0123456789") ds -> ~ among "0123456789" base -> find_first (fun c => negb (is_digit c)) (ds ++ base :: rest) = Some (len ds).
Proof. intros F B. apply find_first_app; [|now rewrite not_digit_among]. revert F. apply Forall_impl. intros c H. now rewrite digit_among. Qed.
Lemma fmt_base ds base rest : char_at (ds ++ base :: rest) (len ds) = base.
Proof. unfold char_at. apply nth_len. unfold len. lia. Qed.
Lemma stoul_digits ds : Forall (among "0123456789") ds -> ds <> [] -> numeral_value 10 ds < 2 ^ 64 -> stoul ds = Ok (numeral_value 10 ds).
Proof.
  intros F N L. unfold stoul. destruct ds as [|c ds]; [congruence|]. assert (E : forall l a, Forall (among "0123456789") l -> fold_left (fun a c => a * 10 + (c - 48)) l a = fold_left (fun a c => a * 10 + digit_value c) (clean l) a).
  { clear. induction l as [|c l IH]; intros a F; [reflexivity|]. inversion F; subst. cbn [fold_left clean filter]. assert (D : c <> 95 /\ digit_value c = c - 48) by (chars_cases H1; split; (discriminate || reflexivity)). destruct D as [D1 D2].
    rewrite (proj2 (Z.eqb_neq c 95) D1). cbn [negb fold_left]. rewrite D2. now apply IH. }
  rewrite E by exact F. change (fold_left (fun a c => a * 10 + digit_value c) (clean (c :: ds)) 0) with (numeral_value 10 (c :: ds)). rewrite (proj2 (Z.ltb_lt _ _) L). reflexivity.
Qed.
Definition possible (base size : Z) : outcome Z :=
  if is_one_of base "bB" then Ok size
  else if is_one_of base "oO" then Ok (ceil_div size 3)
  else if is_one_of base "dD" then (if 128 <? size then Ok size else decimal_size size)
  else if is_one_of base "xXhH" then Ok (ceil_div size 4)
  else if is_one_of base "sS" then Ok (ceil_div size 8)
  else Ok size.
Definition asked (width : option Z) (base w : Z) : Z * Z * bool :=
  match width with None => (base, w, true) | Some r => if r =? 0 then (base, w, false) else (base, Z.max w r, true) end.
Lemma fmt_parse fmt width base size : format fmt width base -> parse_fmt fmt size = let! w := possible base size in Ok (asked width base w).
Proof.
  intros (ds & rest & -> & F & B & W & L). unfold parse_fmt. rewrite (fmt_find ds base rest F B). rewrite fmt_base.
  destruct ds as [|c ds].
  - subst width. unfold len. cbn [List.length]. change (Z.of_nat 0) with 0. cbn [bind]. unfold asked. fold (possible base size). destruct (possible base size); reflexivity.
  - assert (E : firstn (Z.to_nat (len (c :: ds))) ((c :: ds) ++ base :: rest) = c :: ds). { unfold len. rewrite Nat2Z.id. rewrite firstn_app, Nat.sub_diag, firstn_all. cbn [firstn]. apply app_nil_r. }
    destruct (len (c :: ds)) as [|p|p] eqn:Le; [unfold len in Le; cbn in Le; lia| |unfold len in Le; cbn in Le; lia]. rewrite E. rewrite stoul_digits by (auto; discriminate). cbn [omap bind]. fold (possible base size). subst width. destruct (possible base size); reflexivity.
Qed.
Lemma fmt_out fmt width base : format fmt width base -> get_output_base fmt = base.
Proof. intros (ds & rest & -> & F & B & W & L). unfold get_output_base. rewrite (fmt_find ds base rest F B). apply fmt_base. Qed.
Lemma fmt0 base : ~ among "0123456789" base -> format [48; base] (Some 0) base.
Proof. intros B. exists [48], []. split; [reflexivity|]. split; [constructor; [vm_compute; tauto|constructor]|]. split; [exact B|]. split; [reflexivity|]. now vm_compute. Qed.
Lemma fmt1 base : ~ among "0123456789" base -> format [base] None base.
Proof. intros B. exists [], []. split; [reflexivity|]. split; [constructor|]. split; [exact B|]. split; [reflexivity|]. now vm_compute. Qed.

(** * padding *)
Definition core_of (neg : bool) (base : Z) (ss : list Z) : list Z := rev (if neg && is_one_of base "dD" then ss ++ [45] else ss).
Lemma pad_padded neg base width w ss :
  exists s, pad_result neg base (snd (fst (asked width base w))) (snd (asked width base w)) ss = s /\
    padded (match width with Some 0 => 0 | _ => field_width width w + (if neg && is_one_of base "dD" then 1 else 0) end) (pad_char base) (core_of neg base ss) s.
Proof.
  eexists. split; [reflexivity|]. unfold padded, pad_result, core_of. fold (is_one_of base "dDsS"). unfold pad_char. fold (is_one_of base "dDsS").
  change (chr "-"%char) with 45. set (core := if neg && is_one_of base "dD" then ss ++ [45] else ss). fold core.
  assert (Lr : len (rev core) = len core) by (unfold len; now rewrite rev_length). rewrite Lr. change (slen core) with (len core). pose proof (len_nonneg core).
  assert (Rr : forall (c : Z) k, rev (repeat c k) = repeat c k). { intros c k. induction k as [|k IH]; [reflexivity|]. cbn [repeat rev]. rewrite IH. symmetry. apply (repeat_cons k c). }
  unfold asked, field_width. destruct width as [r|].
  - destruct r as [|r|r]; cbn [Z.eqb].
    + cbn [fst snd]. replace (Z.to_nat (0 - len core)) with 0%nat by lia. reflexivity.
    + cbn [fst snd]. rewrite rev_app_distr, Rr. f_equal. f_equal. destruct (neg && is_one_of base "dD"); f_equal; lia.
    + cbn [fst snd]. rewrite rev_app_distr, Rr. f_equal. f_equal. destruct (neg && is_one_of base "dD"); f_equal; lia.
  - cbn [fst snd]. rewrite rev_app_distr, Rr. f_equal. f_equal. destruct (neg && is_one_of base "dD"); f_equal; lia.
Qed.

(** * the text without padding *)
Definition core4 (base size value xz : Z) : outcome (list Z) :=
  if is_one_of base "bB" then Ok (bin4_chars size value xz)
  else if is_one_of base "oOhHxX" then fmt_value base size value xz
  else if is_one_of base "dD" then fmt_decimal size value xz
  else if is_one_of base "sS" then fmt_char size value
  else Ok [].
Definition finish (neg : bool) (width : option Z) (base w : Z) (ss : list Z) : list Z := pad_result neg base (snd (fst (asked width base w))) (snd (asked width base w)) ss.
Lemma asked_base width base w : asked width base w = (base, snd (fst (asked width base w)), snd (asked width base w)).
Proof. unfold asked. destruct width as [r|]; [destruct (r =? 0)|]; reflexivity. Qed.
Lemma str4_ fmt width base size v x neg up : format fmt width base ->
  to_string4_ fmt size v x neg up = let! w := possible base size in let! ss := core4 base size v x in Ok (if up then finish neg width base w ss else ss).
Proof.
  intros F. unfold to_string4_. rewrite (fmt_parse fmt width base size F). destruct (possible base size) as [w| | | |]; try reflexivity. cbn [bind]. rewrite asked_base. reflexivity.
Qed.
Lemma possible_ok base size : is_one_of base "dD" = false -> exists w, possible base size = Ok w.
Proof. intros H. unfold possible. rewrite H. destruct (is_one_of base "bB"); [eauto|]. destruct (is_one_of base "oO"); [eauto|]. destruct (is_one_of base "xXhH"); [eauto|]. destruct (is_one_of base "sS"); eauto. Qed.
Lemma str4_core fmt width base size v x neg : format fmt width base -> is_one_of base "dD" = false -> to_string4_ fmt size v x neg false = core4 base size v x.
Proof. intros F D. rewrite (str4_ _ _ _ _ _ _ _ _ F). destruct (possible_ok base size D) as [w ->]. cbn [bind]. now destruct (core4 base size v x). Qed.
Definition core4_big (base size : Z) (ws xs : list Z) : outcome (list Z) :=
  if negb (is_one_of base "dD") then
    if is_one_of base "oO" then
      ofold (fun acc i => let! v := oct_chunk ws i in let! x := oct_chunk xs i in let! t := core4 base 3 v x in Ok (acc ++ t)) (zrange 0 (ceil_div size 3)) []
    else
      let! lo := ofold (fun acc i => let! t := core4 base 64 (word ws i) (word xs i) in Ok (acc ++ t)) (zrange 0 (nwords size - 1)) [] in
      if negb (size mod 64 =? 0) then let! t := core4 base (size mod 64) (word ws (nwords size - 1)) (word xs (nwords size - 1)) in Ok (lo ++ t) else Ok lo
  else
    let v := if 64 <? size then word ws 1 * 2 ^ 64 + word ws 0 else word ws 0 in
    let x := if 64 <? size then word xs 1 * 2 ^ 64 + word xs 0 else word xs 0 in
    if negb (x =? 0) then
      if x =? 2 ^ 128 - 1 then Ok [if v =? 0 then chr "x" else if v =? 2 ^ 128 - 1 then chr "z" else chr "X"]
      else Ok [if existsb (fun i => Z.testbit x i && negb (Z.testbit v i)) (zrange 0 (Z.min 128 size)) then chr "X" else chr "Z"]
    else digits_lsf 128 10 v.
Lemma str4_big fmt width base size ws xs neg : format fmt width base ->
  to_string4_big fmt size ws xs neg = let! w := possible base size in let! ss := core4_big base size ws xs in Ok (finish neg width base w ss).
Proof.
  intros F. unfold to_string4_big. rewrite (fmt_parse fmt width base size F). destruct (possible base size) as [w| | | |]; try reflexivity. cbn [bind]. rewrite asked_base. unfold core4_big. fold (finish neg width base w).
  destruct (is_one_of base "dD") eqn:D; cbn [negb]; [reflexivity|]. destruct (is_one_of base "oO") eqn:O.
  - rewrite (ofold_ext _ (fun acc i => let! v := oct_chunk ws i in let! x := oct_chunk xs i in let! t := core4 base 3 v x in Ok (acc ++ t))); [reflexivity|].
    intros acc i. destruct (oct_chunk ws i); try reflexivity. cbn [bind]. destruct (oct_chunk xs i); try reflexivity. cbn [bind]. now rewrite (str4_core _ _ _ _ _ _ _ F D).
  - rewrite (ofold_ext _ (fun acc i => let! t := core4 base 64 (word ws i) (word xs i) in Ok (acc ++ t))); [rewrite (str4_core _ _ _ _ _ _ _ F D); reflexivity|].
    intros acc i. now rewrite (str4_core _ _ _ _ _ _ _ F D).
Qed.
(** the sign and the unpadded text of a 4-state vector *)
Definition lneg (l : logic) (base : Z) : bool :=
  lsgn l && (match bval (l_val l) with HN v => v <? 0 | HB ws => bn_negative (lsize l) ws end) && is_one_of base "dD".
Definition lcore (l : logic) (base : Z) : outcome (list Z) :=
  match bval (l_val l), bval (l_xz l) with
  | HN v, HN x => if lneg l base then let! neg := bit_negate (l_val l) in core4 base (lsize l) (bit_to_uint64 neg) (u64 x) else core4 base (lsize l) (u64 v) (u64 x)
  | HB ws, HB xs => if lneg l base then core4_big base (lsize l) (bn_negate (lsize l) ws) xs else core4_big base (lsize l) ws xs
  | _, _ => IllFormed
  end.
Lemma logic_str_core l fmt width base w : format fmt width base -> possible base (lsize l) = Ok w ->
  logic_str l fmt = let! ss := lcore l base in Ok (finish (lneg l base) width base w ss).
Proof.
  intros F P. unfold logic_str, lcore, lneg. unfold decimal_fmt. rewrite (fmt_out _ _ _ F). destruct (bval (l_val l)) as [v|ws], (bval (l_xz l)) as [x|xs]; try reflexivity.
  - destruct (lsgn l && (v <? 0) && is_one_of base "dD").
    + destruct (bit_negate (l_val l)); try reflexivity. cbn [bind]. unfold to_string4. rewrite (str4_ _ _ _ _ _ _ _ _ F), P. reflexivity.
    + unfold to_string4. rewrite (str4_ _ _ _ _ _ _ _ _ F), P. reflexivity.
  - destruct (lsgn l && bn_negative (lsize l) ws && is_one_of base "dD"); rewrite (str4_big _ _ _ _ _ _ _ F), P; reflexivity.
Qed.

(** 2-state *)
Definition core2 (base size value : Z) : outcome (list Z) :=
  if is_one_of base "bB" then Ok (bin_chars size value)
  else if is_one_of base "oOxhXH" then format_value_2power base value
  else if is_one_of base "sS" then
    ofold (fun acc k => let i := 8 * k in let! c := c_shr TU64 value (i * 8) in let! t := numeral 10 (Z.land c 255) in Ok (acc ++ t)) (zrange 0 (ceil_div size 8)) []
  else if is_one_of base "dD" then dec_lsf 64 value
  else Ok [].
Lemma str2 fmt width base size v neg : format fmt width base -> to_string2 fmt size v neg = let! w := possible base size in let! ss := core2 base size v in Ok (finish neg width base w ss).
Proof.
  intros F. unfold to_string2. rewrite (fmt_parse fmt width base size F). destruct (possible base size) as [w| | | |]; try reflexivity. cbn [bind]. rewrite asked_base. reflexivity.
Qed.
Definition bneg (b : bit) (base : Z) : bool := bsgn b && (match bval b with HN v => v <? 0 | HB ws => bn_negative (bsize b) ws end) && is_one_of base "dD".
Definition bcore (b : bit) (base : Z) : outcome (list Z) :=
  match bval b with
  | HN v => if bneg b base then let! n := bit_negate b in core2 base (bsize b) (bit_to_uint64 n) else core2 base (bsize b) (u64 v)
  | HB _ => IllFormed
  end.
Lemma bit_str_core b v fmt width base w : bval b = HN v -> format fmt width base -> possible base (bsize b) = Ok w ->
  bit_str b fmt = let! ss := bcore b base in Ok (finish (bneg b base) width base w ss).
Proof.
  intros V F P. unfold bit_str, bcore, bneg. rewrite V. unfold decimal_fmt. rewrite (fmt_out _ _ _ F). destruct (bsgn b && (v <? 0) && is_one_of base "dD").
  - destruct (bit_negate b); try reflexivity. cbn [bind]. now rewrite (str2 _ _ _ _ _ _ F), P.
  - now rewrite (str2 _ _ _ _ _ _ F), P.
Qed.

(** * widths *)
Lemma ceil_unique a b w : 1 <= b -> b * (w - 1) < a <= b * w -> ceil_div a b = w.
Proof. intros Hb H. unfold ceil_div. symmetry. apply (Z.div_unique (a + b - 1) b w (a + b - 1 - b * w)); lia. Qed.
Lemma pow_unique v a b : 1 <= v -> 10 ^ (a - 1) <= v < 10 ^ a -> 10 ^ (b - 1) <= v < 10 ^ b -> a = b.
Proof.
  intros V A B. assert (0 <= a). { destruct (Z.lt_ge_cases a 0); [|lia]. rewrite (Z.pow_neg_r 10 a) in A by lia. lia. }
  assert (0 <= b). { destruct (Z.lt_ge_cases b 0); [|lia]. rewrite (Z.pow_neg_r 10 b) in B by lia. lia. }
  destruct (Z.lt_trichotomy a b) as [L|[L|L]]; [exfalso| exact L |exfalso].
  - pose proof (Z.pow_le_mono_r 10 a (b - 1) ltac:(lia) ltac:(lia)). lia.
  - pose proof (Z.pow_le_mono_r 10 b (a - 1) ltac:(lia) ltac:(lia)). lia.
Qed.
Lemma hex95 b c : hexdigit b c -> c <> 95. Proof. intros [A _]. chars_cases A; discriminate. Qed.
Lemma hex_clean b s : Forall (hexdigit b) s -> clean s = s.
Proof. intros F. apply clean_id. revert F. apply Forall_impl. intros c. apply hex95. Qed.
Lemma hex0 b c : hexdigit b c -> c <> 48 -> 1 <= digit_value c. Proof. intros [A _] N. chars_cases A; try congruence; vm_compute; discriminate. Qed.
Lemma numeral_low b c s : 2 <= b -> Forall (hexdigit b) (c :: s) -> c <> 48 -> b ^ (len (c :: s) - 1) <= numeral_value b (c :: s).
Proof.
  intros Hb F N. rewrite numeral_cons. inversion F as [|? ? H1 H2]; subst. rewrite (proj2 (Z.eqb_neq c 95) (hex95 _ _ H1)). rewrite (hex_clean b s H2). pose proof (hex0 b c H1 N). pose proof (numeral_nonneg b s ltac:(lia)).
  replace (len (c :: s) - 1) with (len s) by (unfold len; cbn [List.length]; lia). assert (0 <= b ^ len s) by (apply Z.pow_nonneg; lia). nia.
Qed.
Lemma possible_usual base n w : 1 <= n -> usual_width base n w -> possible base n = Ok w.
Proof.
  intros Hn [[B ->]|[[B H]|[[B H]|[[B H]|(B & N & H)]]]]; unfold possible.
  - chars_cases B; reflexivity.
  - rewrite (ceil_unique n 3 w) by lia. chars_cases B; reflexivity.
  - rewrite (ceil_unique n 4 w) by lia. chars_cases B; reflexivity.
  - rewrite (ceil_unique n 8 w) by lia. chars_cases B; reflexivity.
  - assert (E : (if 128 <? n then Ok n else decimal_size n) = Ok w); [|chars_cases B; exact E]. destruct (Z.ltb_spec n 128) as [L|L]; [|subst w; destruct (Z.ltb_spec 128 n); [reflexivity|lia]].
    replace (128 <? n) with false by lia. unfold decimal_size. replace ((0 <=? n) && (n <? 128)) with true by lia. replace (n =? 0) with false by lia.
    assert (2 <= 2 ^ n) by (change 2 with (2 ^ 1) at 1; apply Z.pow_le_mono_r; lia). assert (2 ^ n <= 2 ^ Z.of_nat 128) by (apply Z.pow_le_mono_r; lia).
    destruct (digits_spec 10 ltac:(lia) 128 (2 ^ n - 1) ltac:(lia)) as (t & E & V & F & NZ & _). rewrite E. cbn [omap bind]. f_equal. change (slen t) with (len t). destruct (NZ ltac:(lia)) as [T H48].
    assert (Lr : len (rev t) = len t) by (unfold len; now rewrite rev_length). apply (pow_unique (2 ^ n - 1)); [lia| |exact H]. rewrite <- V, <- Lr. split.
    + apply forall_rev in F. destruct (rev t) as [|c r] eqn:R; [apply (f_equal (@rev Z)) in R; rewrite rev_involutive in R; cbn in R; congruence|]. apply numeral_low; [lia|exact F|exact H48].
    + apply numeral_bound; [lia|]. apply forall_rev. revert F. apply Forall_impl. now intros c [_ D].
Qed.
Lemma finish0 neg base w ss : finish neg (Some 0) base w ss = core_of neg base ss.
Proof. unfold finish. destruct (pad_padded neg base (Some 0) w ss) as (s & E & P). rewrite E. unfold padded in P. rewrite P. replace (Z.to_nat (0 - len (core_of neg base ss))) with 0%nat; [reflexivity|]. pose proof (len_nonneg (core_of neg base ss)). lia. Qed.
Lemma finish_padded neg width base w ss : (is_one_of base "dD" = true -> Forall (fun c => c <> 45) ss) -> padded (field_width width w + minus base (core_of neg base ss)) (pad_char base) (core_of neg base ss) (finish neg width base w ss).
Proof.
  intros H. unfold finish. destruct (pad_padded neg base width w ss) as (s & E & P). rewrite E. unfold padded in *. rewrite P. f_equal. f_equal. set (core := core_of neg base ss) in *.
  assert (M : minus base core = if neg && is_one_of base "dD" then 1 else 0).
  { unfold minus. fold (is_one_of base "dD"). unfold core, core_of. destruct (is_one_of base "dD") eqn:D; [|now rewrite andb_false_r]. rewrite andb_true_r. cbn [andb]. destruct neg.
    - rewrite rev_app_distr. reflexivity.
    - specialize (H eq_refl). apply forall_rev in H. destruct (rev ss) as [|c r]; [reflexivity|]. inversion H; subst. cbn [hd]. now rewrite (proj2 (Z.eqb_neq c 45)). }
  rewrite M. destruct width as [[|r|r]|]; try reflexivity. unfold field_width. cbn [Z.eqb]. destruct (neg && is_one_of base "dD") eqn:N; [|reflexivity].
  assert (1 <= len core). { unfold core, core_of. rewrite N. rewrite rev_app_distr. unfold len. cbn [List.length rev app]. lia. } lia.
Qed.
Lemma dchar45 d : 0 <= d < 16 -> dchar d <> 45. Proof. intros H. unfold dchar. destruct (d <? 10); lia. Qed.
Lemma digits45 fuel : forall v t, digits_lsf fuel 10 v = Ok t -> Forall (fun c => c <> 45) t.
Proof.
  induction fuel as [|f IH]; intros v t; cbn [digits_lsf]; (destruct (v =? 0); [intros E; injection E as <-; constructor|]); [discriminate|].
  destruct (digits_lsf f 10 (v / 10)) as [r| | | |] eqn:E; try discriminate. cbn [bind]. intros Q. injection Q as <-. constructor; [apply dchar45; pose proof (Z.mod_pos_bound v 10); lia|]. eapply IH. exact E.
Qed.
Lemma if45 (b : bool) x y : x <> 45 -> y <> 45 -> (if b then x else y) <> 45. Proof. now destruct b. Qed.
Lemma dec_lsf45 v t : dec_lsf 64 v = Ok t -> Forall (fun c => c <> 45) t.
Proof. unfold dec_lsf. destruct (v =? 0); [intros [=<-]; constructor; [discriminate|constructor]|apply digits45]. Qed.
Lemma core4_45 base n v x t : is_one_of base "dD" = true -> core4 base n v x = Ok t -> Forall (fun c => c <> 45) t.
Proof.
  intros D. assert (B : among "dD" base) by (now apply among_iff). assert (core4 base n v x = fmt_decimal n v x) as -> by (chars_cases B; reflexivity). unfold fmt_decimal. destruct (negb (x =? 0)); [|apply dec_lsf45].
  destruct (c_shr TU64 u64max (64 - n)) as [m| | | |]; try discriminate. cbn [bind]. destruct (x =? m); intros [=<-]; constructor; try constructor; repeat apply if45; discriminate.
Qed.
Lemma core4_big45 base n ws xs t : is_one_of base "dD" = true -> core4_big base n ws xs = Ok t -> Forall (fun c => c <> 45) t.
Proof.
  intros D. unfold core4_big. rewrite D. cbn [negb]. destruct (negb _); [|apply digits45]. destruct (_ =? 2 ^ 128 - 1); intros [=<-]; constructor; try constructor; repeat apply if45; discriminate.
Qed.
Lemma lcore45 l base t : is_one_of base "dD" = true -> lcore l base = Ok t -> Forall (fun c => c <> 45) t.
Proof.
  intros D. unfold lcore. destruct (bval (l_val l)) as [v|ws], (bval (l_xz l)) as [x|xs]; try discriminate.
  - destruct (lneg l base); [|now apply core4_45]. destruct (bit_negate (l_val l)); try discriminate. cbn [bind]. now apply core4_45.
  - destruct (lneg l base); now apply core4_big45.
Qed.
Lemma bsize_pos b : 1 <= bsize b. Proof. unfold bsize, vsize. lia. Qed.
Lemma logic_padding l fmt width base w core : format fmt width base -> usual_width base (lw l) w -> logic_str l [48; base] = Ok core ->
  exists s, logic_str l fmt = Ok s /\ padded (field_width width w + minus base core) (pad_char base) core s.
Proof.
  intros F U C. unfold lw in U. rewrite bw_bsize in U. change (bsize (l_val l)) with (lsize l) in U. pose proof (possible_usual _ _ _ (bsize_pos (l_val l)) U) as P. change (bsize (l_val l)) with (lsize l) in P.
  rewrite (logic_str_core _ _ _ _ _ F P). assert (B : ~ among "0123456789" base) by (destruct F as (ds & rest & _ & _ & B & _); exact B). rewrite (logic_str_core _ _ _ _ _ (fmt0 base B) P) in C.
  destruct (lcore l base) as [ss| | | |] eqn:E; try discriminate. cbn [bind] in *. rewrite finish0 in C. injection C as <-. eexists. split; [reflexivity|]. apply finish_padded. intros D. eapply lcore45; eassumption.
Qed.
Lemma core2_45 base n v t : is_one_of base "dD" = true -> core2 base n v = Ok t -> Forall (fun c => c <> 45) t.
Proof. intros D. assert (B : among "dD" base) by (now apply among_iff). assert (core2 base n v = dec_lsf 64 v) as -> by (chars_cases B; reflexivity). apply dec_lsf45. Qed.
Lemma bit_padding b v fmt width base w core : bval b = HN v -> format fmt width base -> usual_width base (bw b) w -> bit_str b [48; base] = Ok core ->
  exists s, bit_str b fmt = Ok s /\ padded (field_width width w + minus base core) (pad_char base) core s.
Proof.
  intros V F U C. rewrite bw_bsize in U. pose proof (possible_usual _ _ _ (bsize_pos b) U) as P.
  rewrite (bit_str_core _ _ _ _ _ _ V F P). assert (B : ~ among "0123456789" base) by (destruct F as (ds & rest & _ & _ & B & _); exact B). rewrite (bit_str_core _ _ _ _ _ _ V (fmt0 base B) P) in C.
  destruct (bcore b base) as [ss| | | |] eqn:E; try discriminate. cbn [bind] in *. rewrite finish0 in C. injection C as <-. eexists. split; [reflexivity|]. apply finish_padded. intros D. unfold bcore in E. rewrite V in E.
  destruct (bneg b base); [|eapply core2_45; eassumption]. destruct (bit_negate b); try discriminate. cbn [bind] in E. eapply core2_45; eassumption.
Qed.

(** * symbols *)
Lemma nth_zrange_map {A} (f : Z -> A) n p : 0 <= p < n -> nth_error (map f (zrange 0 n)) (Z.to_nat p) = Some (f p).
Proof.
  intros H. apply map_nth_error. unfold zrange. rewrite Z.sub_0_r. replace p with (0 + Z.of_nat (Z.to_nat p)) at 2 by lia. apply (map_nth_error (fun k => 0 + Z.of_nat k)).
  rewrite (nth_error_nth' _ 0%nat) by (rewrite seq_length; lia). rewrite seq_nth by lia. reflexivity.
Qed.
Lemma len_zrange n : 0 <= n -> len (zrange 0 n) = n.
Proof. intros H. unfold len, zrange. rewrite map_length, seq_length. lia. Qed.
Definition gsyms (v x k i : Z) : list sym := map (fun j => sym_of (Z.testbit v (k * i + j)) (Z.testbit x (k * i + j))) (zrange 0 k).
Lemma in_zrange a b i : In i (zrange a b) <-> a <= i < b.
Proof.
  unfold zrange. rewrite in_map_iff. split.
  - intros (k & <- & H). apply in_seq in H. lia.
  - intros H. exists (Z.to_nat (i - a)). split; [lia|]. apply in_seq. lia.
Qed.
Lemma zrange_snoc n : 0 <= n -> zrange 0 (n + 1) = zrange 0 n ++ [n].
Proof. intros H. unfold zrange. rewrite !Z.sub_0_r. replace (Z.to_nat (n + 1)) with (S (Z.to_nat n)) by lia. rewrite seq_S, map_app. cbn [map]. do 2 f_equal. lia. Qed.
Lemma ofold_concat (g : Z -> outcome (list Z)) h n : 0 <= n -> (forall i, 0 <= i < n -> g i = Ok (h i)) ->
  ofold (fun acc i => let! t := g i in Ok (acc ++ t)) (zrange 0 n) [] = Ok (List.concat (map h (zrange 0 n))).
Proof.
  intros Hn. pattern n. apply natlike_ind; [intros _; reflexivity| |exact Hn]. clear n Hn. intros n Hn IH H. unfold Z.succ in *. rewrite zrange_snoc by lia. rewrite ofold_app, IH by (intros; apply H; lia). cbn [bind ofold].
  rewrite H by lia. cbn [bind]. now rewrite map_app, concat_app; cbn [map List.concat]; rewrite app_nil_r.
Qed.
Lemma concat_single {A} (f : Z -> A) l : List.concat (map (fun i => [f i]) l) = map f l.
Proof. induction l as [|a l IH]; [reflexivity|]. cbn [map List.concat app]. now rewrite IH. Qed.
Lemma concat_blocks {A} (f : Z -> A) D m : 0 <= D -> 0 <= m -> List.concat (map (fun i => map (fun j => f (D * i + j)) (zrange 0 D)) (zrange 0 m)) = map f (zrange 0 (D * m)).
Proof.
  intros HD Hm. pattern m. apply natlike_ind; [rewrite Z.mul_0_r; reflexivity| |exact Hm]. clear m Hm. intros m Hm IH. unfold Z.succ. rewrite zrange_snoc by lia. rewrite map_app, concat_app, IH. cbn [map List.concat]. rewrite app_nil_r.
  rewrite Z.mul_add_distr_l, Z.mul_1_r. clear IH. unfold zrange. rewrite !Z.sub_0_r. rewrite (Z2Nat.inj_add (D * m) D) by nia. rewrite seq_app, !map_app, !map_map. f_equal.
  assert (G : forall k s, map (fun x => f (D * m + (0 + Z.of_nat x))) (seq s k) = map (fun x => f (0 + Z.of_nat x)) (seq (Z.to_nat (D * m) + s) k)).
  { induction k as [|k IH]; intros s; [reflexivity|]. cbn [seq map]. rewrite IH. f_equal; [f_equal; lia|]. now rewrite Nat.add_succ_r. }
  rewrite G. rewrite !Nat.add_0_r. reflexivity.
Qed.
(** one digit *)
Definition digit_check (base k : Z) : bool :=
  forallb (fun v => forallb (fun x => match fmt_digit base k v x with Ok [c] => c =? group_char (gsyms v x k 0) | _ => false end) (zrange 0 (2 ^ k))) (zrange 0 (2 ^ k)).
Lemma digit_right base k v x : pow2_fmt base k -> k <> 1 -> 0 <= v < 2 ^ k -> 0 <= x < 2 ^ k -> fmt_digit base k v x = Ok [group_char (gsyms v x k 0)].
Proof.
  intros B K Hv Hx. assert (C : digit_check base k = true).
  { destruct B as [[_ ->]|[[B ->]|[B ->]]]; [lia| |]; chars_cases B; vm_compute; reflexivity. }
  unfold digit_check in C. rewrite forallb_forall in C. specialize (C v (proj2 (in_zrange 0 (2 ^ k) v) Hv)). rewrite forallb_forall in C. specialize (C x (proj2 (in_zrange 0 (2 ^ k) x) Hx)).
  destruct (fmt_digit base k v x) as [[|c [|? ?]]| | | |]; try discriminate. apply Z.eqb_eq in C. now rewrite C.
Qed.
Lemma group1 s : group_char [s] = sym_char s. Proof. destruct s; reflexivity. Qed.
Lemma stride_fmt base k : pow2_fmt base k -> get_stride base = k /\ 1 <= k <= 4 /\ is_one_of base "dD" = false.
Proof. intros [[B ->]|[[B ->]|[B ->]]]; chars_cases B; (split; [reflexivity|split; [lia|reflexivity]]). Qed.
Lemma mask_val k : 1 <= k <= 4 -> get_mask k = 2 ^ k - 1.
Proof. intros H. assert (E : k = 1 \/ k = 2 \/ k = 3 \/ k = 4) by lia. destruct E as [-> |[-> |[-> | ->]]]; reflexivity. Qed.
Lemma core4_digits base k n v x : pow2_fmt base k -> 1 <= n <= 64 -> core4 base n v x = Ok (map (fun i => group_char (gsyms v x k i)) (zrange 0 (ceil_div n k))).
Proof.
  intros B Hn. destruct (stride_fmt base k B) as (St & Hk & _). destruct (Z.eq_dec k 1) as [K1|K1].
  - assert (core4 base n v x = Ok (bin4_chars n v x)) as ->. { destruct B as [[B _]|[[_ K]|[_ K]]]; [|lia|lia]. chars_cases B; reflexivity. }
    f_equal. unfold bin4_chars. assert (ceil_div n k = n) as -> by (apply ceil_unique; lia). apply map_ext_in. intros i Hi. unfold gsyms. rewrite K1. change (zrange 0 1) with [0]. cbn [map]. rewrite group1. replace (1 * i + 0) with i by lia.
    destruct (Z.testbit x i), (Z.testbit v i); reflexivity.
  - assert (core4 base n v x = fmt_value base n v x) as ->. { destruct B as [[_ K]|[[B _]|[B _]]]; [lia| |]; chars_cases B; reflexivity. }
    unfold fmt_value. rewrite St. rewrite mask_val by lia.
    rewrite (ofold_ext _ (fun acc i => let! t := (let! a := c_shr TU64 v (i * k) in let! b := c_shr TU64 x (i * k) in fmt_digit base k (Z.land a (2 ^ k - 1)) (Z.land b (2 ^ k - 1))) in Ok (acc ++ t))).
    2: { intros acc i. destruct (c_shr TU64 v (i * k)); try reflexivity. cbn [bind]. destruct (c_shr TU64 x (i * k)); reflexivity. }
    assert (Hc : 0 <= ceil_div n k) by (unfold ceil_div; apply Z.div_pos; lia).
    rewrite (ofold_concat _ (fun i => [group_char (gsyms v x k i)])); [now rewrite concat_single|exact Hc|]. intros i Hi.
    assert (Hik : 0 <= i * k < 64). { unfold ceil_div in Hi. pose proof (Z.mul_div_le (n + k - 1) k ltac:(lia)). nia. }
    unfold c_shr. cbn [promote]. change (iwidth TU64) with 64. replace ((0 <=? i * k) && (i * k <? 64)) with true by lia. cbn [bind].
    assert (L : forall z, Z.land (Z.shiftr z (i * k)) (2 ^ k - 1) = Z.shiftr z (i * k) mod 2 ^ k). { intros z. rewrite <- Z.land_ones by lia. f_equal. rewrite Z.ones_equiv. lia. }
    rewrite !L. assert (0 < 2 ^ k) by (apply Z.pow_pos_nonneg; lia). rewrite (digit_right base k) by (auto using Z.mod_pos_bound). do 3 f_equal. unfold gsyms. apply map_ext_in. intros j Hj. apply in_zrange in Hj.
    rewrite !testbit_mod_pow2 by lia. replace (k * 0 + j <? k) with true by lia. cbn [andb]. rewrite !Z.shiftr_spec by lia. f_equal; f_equal; lia.
Qed.
Lemma word_syms ws xs k i j : wf ws -> wf xs -> 1 <= k -> (64 / k) * k = 64 -> 0 <= i -> 0 <= j < 64 / k -> gsyms (word ws i) (word xs i) k j = gsyms (words_num ws) (words_num xs) k (64 / k * i + j).
Proof.
  intros W X Hk HD Hi Hj. unfold gsyms. apply map_ext_in. intros q Hq. apply in_zrange in Hq. assert (Hp : 0 <= k * j + q < 64) by nia.
  assert (E : k * (64 / k * i + j) + q = (k * j + q) + i * 64). { rewrite Z.mul_add_distr_l. replace (k * (64 / k * i)) with (64 / k * k * i) by ring. rewrite HD. ring. }
  rewrite E. rewrite !words_num_testbit by (auto; lia). rewrite Z.div_add, Z.mod_add, Z.div_small, Z.mod_small by lia. now rewrite Z.add_0_l.
Qed.
Lemma core4_big_digits base k n ws xs : pow2_fmt base k -> k <> 3 -> 65 <= n -> wfn n ws -> wfn n xs ->
  core4_big base n ws xs = Ok (map (fun i => group_char (gsyms (words_num ws) (words_num xs) k i)) (zrange 0 (if n mod 64 =? 0 then (n - 64) / k else ceil_div n k))).
Proof.
  intros B K Hn [W Lw] [X Lx]. destruct (stride_fmt base k B) as (St & Hk & D). assert (Hk' : k = 1 \/ k = 4) by (destruct B as [[_ ->]|[[_ ->]|[_ ->]]]; lia).
  assert (HD : 64 / k * k = 64) by (destruct Hk' as [-> | ->]; reflexivity). assert (HD1 : 1 <= 64 / k) by (destruct Hk' as [-> | ->]; cbn; lia). pose proof (nwords_bounds n ltac:(lia)) as Nw.
  unfold core4_big. rewrite D. cbn [negb]. assert (is_one_of base "oO" = false) as ->. { destruct B as [[B _]|[[_ K']|[B _]]]; [|lia|]; chars_cases B; reflexivity. }
  set (F := fun i => group_char (gsyms (words_num ws) (words_num xs) k i)).
  rewrite (ofold_concat _ (fun i => map (fun j => F (64 / k * i + j)) (zrange 0 (64 / k)))).
  - cbn [bind]. rewrite concat_blocks by lia. destruct (Z.eqb_spec (n mod 64) 0) as [M|M]; cbn [negb].
    + do 3 f_equal. assert (E : n - 64 = (64 / k * (nwords n - 1)) * k). { replace (64 / k * (nwords n - 1) * k) with (64 / k * k * (nwords n - 1)) by ring. rewrite HD. pose proof (Z.div_mod n 64 ltac:(lia)). lia. }
      rewrite E, Z.div_mul by lia. reflexivity.
    + pose proof (Z.mod_pos_bound n 64 ltac:(lia)) as Mb. rewrite (core4_digits base k) by (auto; lia). cbn [bind]. f_equal.
      assert (En : n = 64 * (nwords n - 1) + n mod 64). { pose proof (Z.div_mod n 64 ltac:(lia)). nia. }
      assert (C : ceil_div n k = 64 / k * (nwords n - 1) + ceil_div (n mod 64) k).
      { unfold ceil_div. rewrite En at 1. replace (64 * (nwords n - 1) + n mod 64 + k - 1) with ((n mod 64 + k - 1) + (64 / k * (nwords n - 1)) * k) by (replace (64 / k * (nwords n - 1) * k) with (64 / k * k * (nwords n - 1)) by ring; rewrite HD; lia). rewrite Z.div_add by lia. lia. }
      rewrite C. assert (Hc : 0 <= ceil_div (n mod 64) k <= 64 / k). { unfold ceil_div. split; [apply Z.div_pos; lia|]. apply Z.lt_succ_r. apply Z.div_lt_upper_bound; [lia|]. unfold Z.succ. nia. }
      set (m := 64 / k * (nwords n - 1)) in *. assert (Hm : 0 <= m) by (unfold m; nia). set (c := ceil_div (n mod 64) k) in *.
      assert (S : zrange 0 (m + c) = zrange 0 m ++ map (fun j => m + j) (zrange 0 c)).
      { unfold zrange. rewrite !Z.sub_0_r, Z2Nat.inj_add, seq_app, map_app, map_map by lia. f_equal. cbn [Nat.add]. rewrite <- (Nat.add_0_r (Z.to_nat m)) at 1. assert (G : forall q s, map (fun k => 0 + Z.of_nat k) (seq (Z.to_nat m + s) q) = map (fun x => m + (0 + Z.of_nat x)) (seq s q)).
        { induction q as [|q IH]; intros s; [reflexivity|]. cbn [seq map]. rewrite <- Nat.add_succ_r, IH. f_equal. lia. } apply G. }
      rewrite S, map_app, map_map. f_equal. apply map_ext_in. intros j Hj. apply in_zrange in Hj. unfold F. f_equal. unfold m. apply word_syms; auto; lia.
  - lia.
  - intros i Hi. rewrite (core4_digits base k) by (auto; lia). f_equal. assert (ceil_div 64 k = 64 / k) as -> by (destruct Hk' as [-> | ->]; reflexivity). apply map_ext_in. intros j Hj. apply in_zrange in Hj. unfold F. f_equal. apply word_syms; auto; lia.
Qed.
Lemma clear_stored b : vec b -> clear_top b -> 0 <= stored b < 2 ^ bw b.
Proof.
  intros V [T C]. unfold tidy in T. destruct (vec_cases b V) as [(v & E & Hn & I & S) | (ws & E & Hn & I & S)]; rewrite E in T; rewrite S; [|exact T].
  destruct (bsgn b) eqn:Sg; cbn [andb] in T; [|exact T]. destruct (Z.ltb_spec 1 (bw b)) as [L|L]; [|exact T].
  specialize (C eq_refl ltac:(lia)). assert (P2 : 2 ^ bw b = 2 * 2 ^ (bw b - 1)) by (rewrite <- Z.pow_succ_r by lia; f_equal; lia). split; [|lia]. destruct (Z.lt_ge_cases v 0); [exfalso|assumption].
  rewrite bit_at_stored, S in C by lia. rewrite <- (Z.sub_add (2 ^ (bw b - 1)) v) in C. assert (Z.testbit v (bw b - 1) = true); [|rewrite Z.sub_add in C; congruence].
  rewrite <- (Z.sub_add (2 ^ bw b) v). rewrite Z.add_comm. replace (2 ^ bw b + (v - 2 ^ bw b)) with v by lia. rewrite Z.testbit_true by lia. replace (v / 2 ^ (bw b - 1)) with (-1); [reflexivity|]. apply (Z.div_unique v (2 ^ (bw b - 1)) (-1) (v + 2 ^ (bw b - 1))); lia.
Qed.
Lemma tidy_u b : vec b -> bsgn b = false -> tidy b -> 0 <= stored b < 2 ^ bw b.
Proof. intros V S T. apply clear_stored; [exact V|]. split; [exact T|]. congruence. Qed.
Lemma u64_bit v p : 0 <= p < 64 -> Z.testbit (u64 v) p = Z.testbit v p.
Proof. intros H. unfold u64. rewrite testbit_mod_pow2 by lia. replace (p <? 64) with true by lia. reflexivity. Qed.
Lemma u64_id v : 0 <= v < 2 ^ 64 -> u64 v = v. Proof. intros H. unfold u64. now apply Z.mod_small. Qed.
Lemma ceil_bounds n k : 1 <= k -> k * (ceil_div n k - 1) < n <= k * ceil_div n k.
Proof. intros H. unfold ceil_div. pose proof (Z.mul_div_le (n + k - 1) k ltac:(lia)). pose proof (Z.mul_succ_div_gt (n + k - 1) k ltac:(lia)). nia. Qed.
Lemma lvec_cases l : lvec l ->
  (exists v x, bval (l_val l) = HN v /\ bval (l_xz l) = HN x /\ 1 <= lw l <= 64 /\ stored (l_val l) = v /\ stored (l_xz l) = x /\ bw (l_xz l) = lw l) \/
  (exists ws xs, bval (l_val l) = HB ws /\ bval (l_xz l) = HB xs /\ 65 <= lw l < 2 ^ 31 /\ wfn (lw l) ws /\ wfn (lw l) xs /\ stored (l_val l) = words_num ws /\ stored (l_xz l) = words_num xs /\ bw (l_xz l) = lw l).
Proof.
  intros (V & X & M & L & S). assert (E : bw (l_xz l) = lw l) by (unfold lw, bw; now rewrite M, L).
  destruct (vec_cases _ V) as [(v & E1 & Hn & I & S1) | (ws & E1 & Hn & I & S1)]; destruct (vec_cases _ X) as [(x & E2 & Hn' & I' & S2) | (xs & E2 & Hn' & I' & S2)]; rewrite E in *; unfold lw in *; try lia.
  - left. exists v, x. auto 10.
  - right. exists ws, xs. auto 10.
Qed.
Lemma logic_digits l base k : lvec l -> pow2_fmt base k -> top_ok l k -> (lw l <= 64 \/ (k <> 3 /\ lw l mod 64 <> 0)) ->
  lcore l base = Ok (map (fun i => group_char (group l k i)) (zrange 0 (ceil_div (lw l) k))).
Proof.
  intros V B T C. destruct (stride_fmt base k B) as (St & Hk & D). assert (Nn : lneg l base = false) by (unfold lneg; rewrite D; apply andb_false_r).
  assert (Hz : lsize l = lw l) by (unfold lw; now rewrite bw_bsize).
  assert (G : forall a b, (forall p, 0 <= p < lw l -> Z.testbit a p = Z.testbit (stored (l_val l)) p) -> (forall p, 0 <= p < lw l -> Z.testbit b p = Z.testbit (stored (l_xz l)) p) ->
            (lw l mod k = 0 \/ forall p, lw l <= p -> Z.testbit a p = false /\ Z.testbit b p = false) ->
            map (fun i => group_char (gsyms a b k i)) (zrange 0 (ceil_div (lw l) k)) = map (fun i => group_char (group l k i)) (zrange 0 (ceil_div (lw l) k))).
  { intros a b Ha Hb Hh. apply map_ext_in. intros i Hi. apply in_zrange in Hi. f_equal. unfold gsyms, group. apply map_ext_in. intros j Hj. apply in_zrange in Hj. unfold sym_at.
    assert (Eb : bw (l_xz l) = lw l) by (destruct V as (_ & _ & M & L & _); unfold lw, bw; now rewrite M, L).
    destruct (Z.lt_ge_cases (k * i + j) (lw l)) as [P|P].
    - rewrite !bit_at_stored by (try rewrite Eb; unfold lw in *; nia). rewrite Ha, Hb by nia. reflexivity.
    - rewrite !bit_at_high by (try rewrite Eb; unfold lw in *; lia). destruct Hh as [Hh|Hh]; [exfalso|destruct (Hh _ P) as [-> ->]; reflexivity].
      pose proof (ceil_bounds (lw l) k ltac:(lia)). pose proof (Z.div_mod (lw l) k ltac:(lia)) as Q. rewrite Hh, Z.add_0_r in Q. set (q := lw l / k) in *. set (c := ceil_div (lw l) k) in *.
      assert (c = q) by nia. nia. }
  destruct (lvec_cases l V) as [(v & x & E1 & E2 & Hn & S1 & S2 & Eb) | (ws & xs & E1 & E2 & Hn & W & X & S1 & S2 & Eb)]; unfold lcore; rewrite E1, E2, Nn, Hz.
  - rewrite (core4_digits base k) by auto. f_equal. apply G.
    + intros p Hp. rewrite S1. apply u64_bit. lia.
    + intros p Hp. rewrite S2. apply u64_bit. lia.
    + destruct T as [T|[T|[T1 T2]]]; [now left| |]; right; intros p Hp.
      * split; (apply (testbit_small _ 64); [apply Z.mod_pos_bound; lia|lia]).
      * destruct V as (V1 & V2 & _ & _ & Us). pose proof (clear_stored _ V1 T1) as R1. pose proof (tidy_u _ V2 Us T2) as R2. rewrite S1 in R1. rewrite S2, Eb in R2. fold (lw l) in R1. assert (2 ^ lw l <= 2 ^ 64) by (apply Z.pow_le_mono_r; lia).
        rewrite !u64_id by lia. split; apply (testbit_small _ (lw l)); lia.
  - destruct C as [C|[K3 M]]; [lia|]. rewrite (core4_big_digits base k) by (auto; lia). rewrite (proj2 (Z.eqb_neq _ _) M). f_equal. apply G.
    + intros p Hp. now rewrite S1.
    + intros p Hp. now rewrite S2.
    + destruct T as [T|[T|[T1 T2]]]; [now left|lia|]. right. intros p Hp. destruct V as (V1 & V2 & _ & _ & Us). pose proof (clear_stored _ V1 T1) as R1. pose proof (tidy_u _ V2 Us T2) as R2. rewrite S1 in R1. rewrite S2, Eb in R2. fold (lw l) in R1.
      split; apply (testbit_small _ (lw l)); lia.
Qed.
