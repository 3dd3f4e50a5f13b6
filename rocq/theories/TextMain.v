(** Literals as numbers; counterexamples and examples for PropsText.v. *)
From Coq Require Import ZArith List Bool String Lia.
From Verif Require Import Cpp BigNum Bit Logic Util Spec SpecText ZBits Words BitProofs BitExt BitMain LogicProofs LogicMain TextProofs TextBig FmtProofs FmtMain FmtDec FmtRound.
Import ListNotations.
Open Scope Z_scope.

Lemma among_impl s t c : (forall x, among s x -> among t x) -> among s c -> among t c. Proof. auto. Qed.
Lemma number_digits base k s : pow2_base base k -> number_ok k s -> digits_ok k s /\ plain_digits k s.
Proof.
  intros B N. assert (K : k = 1 \/ k = 3 \/ k = 4) by (destruct B as [[_ ->]|[[_ ->]|[_ ->]]]; auto).
  split; revert N; unfold number_ok, digits_ok, plain_digits; apply Forall_impl; intros c A; destruct K as [-> |[-> | ->]]; cbn [Z.eqb Pos.eqb] in *; chars_cases A; try (vm_compute; tauto); try (left; reflexivity); right; (split; [split; vm_compute; congruence|reflexivity]).
Qed.
Lemma num_of_bits b n v : 0 <= n -> 0 <= v -> bw b = n -> (forall p, 0 <= p < n -> bit_at b p = Z.testbit v p) -> num b = v mod 2 ^ n.
Proof.
  intros Hn Hv W H. apply Z.bits_inj'. intros p Hp. destruct (Z.lt_ge_cases p n).
  - rewrite Z.mod_pow2_bits_low by lia. rewrite <- H by lia. reflexivity.
  - rewrite Z.mod_pow2_bits_high by lia. apply (testbit_small _ n); [|lia]. rewrite <- W. apply num_range.
Qed.
Lemma sym_val_of b : sym_val (sym_of_bool b) = b. Proof. now destruct b. Qed.
Lemma known_of_bits l n v : 1 <= n -> ltyped l n (lsgn l) -> 0 <= v -> (forall p, 0 <= p < n -> sym_at l p = sym_of_bool (Z.testbit v p)) -> known l /\ num (l_val l) = v mod 2 ^ n.
Proof.
  intros Hn T Hv H. destruct (ltyped_lvec l n _ Hn T) as [_ W]. split.
  - intros p Hp. rewrite W in Hp. rewrite H by lia. now destruct (Z.testbit v p).
  - apply num_of_bits; [lia|lia|exact W|]. intros p Hp. specialize (H p Hp). unfold sym_at in H. destruct (bit_at (l_xz l) p), (bit_at (l_val l) p), (Z.testbit v p); cbn in H; congruence.
Qed.
Lemma ltyped_sgn l n s : ltyped l n s -> ltyped l n (lsgn l). Proof. intros T. assert (lsgn l = s) as -> by apply T. exact T. Qed.
Lemma number_bound k s n : 1 <= k -> plain_digits k s -> n = 1 -> numeral_value (2 ^ k) s < 2 -> forall p, 1 <= p -> text_sym k s p = S0.
Proof.
  intros Hk D _ V p Hp. destruct (numeral_bits k s Hk D) as [N H]. rewrite H by lia. rewrite (testbit_small _ 1); [reflexivity|change (2 ^ 1) with 2; lia|lia].
Qed.
Lemma text_number n sg pre size base k s : 1 <= n <= 64 -> prefix_ok pre size -> pow2_base base k -> number_ok k s -> fits k s -> (n = 1 -> numeral_value (2 ^ k) s < 2) ->
  (exists b, bit_of_str (n - 1) 0 sg (literal pre size base s) = Ok b /\ typed b n sg /\ num b = numeral_value (2 ^ k) s mod 2 ^ n) /\
  (exists l, logic_of_str (n - 1) 0 sg (literal pre size base s) = Ok l /\ ltyped l n sg /\ known l /\ num (l_val l) = numeral_value (2 ^ k) s mod 2 ^ n).
Proof.
  intros Hn P B N F V. destruct (number_digits _ _ _ B N) as [D Q]. pose proof (base_k base k B) as Hk. destruct (numeral_bits k s ltac:(lia) Q) as [V0 H].
  assert (Nw : narrow_ok n k s) by (intros E; apply (number_bound k s n); [lia|exact Q|exact E|auto]). split.
  - destruct (bit_text n sg pre size base k s Hn P B D F Nw) as (b & E & T & G & _). exists b. split; [exact E|]. split; [exact T|]. apply num_of_bits; [lia|lia|apply (typed_bw _ n sg); [lia|exact T]|]. intros p Hp. rewrite G, H, sym_val_of by lia. reflexivity.
  - destruct (logic_text n sg pre size base k s Hn P B D F Nw) as (l & E & T & G & _).
    { intros K1 p Hp. rewrite K1 in *. rewrite H by lia. now destruct (Z.testbit _ p). }
    exists l. split; [exact E|]. split; [exact T|]. apply known_of_bits; [lia|eapply ltyped_sgn; exact T|lia|]. intros p Hp. rewrite G, H by lia. reflexivity.
Qed.
Lemma text_number_big n sg pre size base k s : 65 <= n < 2 ^ 31 -> prefix_ok pre size -> pow2_base base k -> k <> 3 -> number_ok k s -> no_underscore s ->
  (exists b, bit_of_str (n - 1) 0 sg (literal pre size base s) = Ok b /\ typed b n sg /\ num b = numeral_value (2 ^ k) s mod 2 ^ n) /\
  (exists l, logic_of_str (n - 1) 0 sg (literal pre size base s) = Ok l /\ ltyped l n sg /\ known l /\ num (l_val l) = numeral_value (2 ^ k) s mod 2 ^ n).
Proof.
  intros Hn P B K3 N F. destruct (number_digits _ _ _ B N) as [D Q]. pose proof (base_k base k B) as Hk. destruct (numeral_bits k s ltac:(lia) Q) as [V0 H]. split.
  - destruct (bit_text_big n sg pre size base k s Hn P B K3 D F) as (b & E & T & G & _). exists b. split; [exact E|]. split; [exact T|]. apply num_of_bits; [lia|lia|apply (typed_bw _ n sg); [lia|exact T]|]. intros p Hp. rewrite G, H, sym_val_of by lia. reflexivity.
  - destruct (logic_text_big n sg pre size base k s Hn P B K3 D F) as (l & E & T & G & _).
    { intros K1 p Hp _. rewrite K1 in *. rewrite H by lia. now destruct (Z.testbit _ p). }
    exists l. split; [exact E|]. split; [exact T|]. apply known_of_bits; [lia|eapply ltyped_sgn; exact T|lia|]. intros p Hp. rewrite G, H by lia. reflexivity.
Qed.

(** * examples *)
Fixpoint rep (n : nat) (s : string) : string := match n with O => ""%string | S n => append s (rep n s) end.
Definition v4 (n v m : Z) : logic := mkLogic (bit_of_native (n - 1) 0 false v) (bit_of_native (n - 1) 0 false m).
Definition v4s (n v m : Z) : logic := mkLogic (bit_of_native (n - 1) 0 true v) (bit_of_native (n - 1) 0 false m).
Definition big (n : Z) (s : bool) (ws : list Z) : bit := mkBit (n - 1) 0 s (HB ws).
Definition lbig (n : Z) (s : bool) (ws xs : list Z) : logic := mkLogic (big n s ws) (big n false xs).
Definition lit (base : string) (s : string) : list Z := literal [] [] (hd 0 (chars base)) (chars s).

Lemma known_zero l : num (l_xz l) = 0 -> known l.
Proof. intros E p Hp. unfold sym_at, bit_at. rewrite E, Z.bits_0. now destruct (Z.testbit _ p). Qed.
Ltac all_among := match goal with |- Forall _ ?s => let s' := eval vm_compute in s in change s with s' end; repeat (apply Forall_cons; [vm_compute; tauto|]); apply Forall_nil.
Lemma bin_counter :
  (exists s, Forall (among "01xz") s /\ len s = 34 /\ logic_of_str 39 0 false (literal [] [] 98 s) = UB) /\
  (exists s l, Forall (among "01X") s /\ logic_of_str 7 0 false (literal [] [] 98 s) = Ok l /\ text_sym 1 s 1 = SX /\ sym_at l 1 = S0).
Proof.
  split.
  - exists (chars (append "x" (rep 33 "0"))). split; [|split; vm_compute; reflexivity]. all_among.
  - exists (chars "X1"). eexists. split; [all_among|]. split; [vm_compute; reflexivity|]. conc.
Qed.
Lemma hex_counter : exists s b, Forall (among "0123456789abcdef") s /\ bit_of_str 7 0 false (literal [] [] 104 s) = Ok b /\ numeral_value 16 s = 255 /\ num b = 85.
Proof. exists (chars "ff"). eexists. split; [all_among|]. split; [vm_compute; reflexivity|]. conc. Qed.
Lemma oct_counter :
  (exists s, Forall (among "01234567") s /\ numeral_value 8 s = 5 /\ logic_of_str 63 0 false (literal [] [] 111 s) = UB) /\
  (exists s l, Forall (among "01234567") s /\ numeral_value 8 s mod 2 ^ 1 = 0 /\ logic_of_str 0 0 false (literal [] [] 111 s) = Ok l /\ num (l_val l) = 1).
Proof.
  split.
  - exists (chars (append (rep 22 "0") "5")). split; [all_among|]. split; vm_compute; reflexivity.
  - exists (chars "2"). eexists. split; [all_among|]. split; [reflexivity|]. split; [vm_compute; reflexivity|]. conc.
Qed.
Lemma big_text_counter :
  (exists s l, Forall (among "0123456789_") s /\ logic_of_str 69 0 false (literal [] [] 104 s) = Ok l /\ numeral_value 16 s = 2 ^ 64 /\ num (l_val l) = 2 ^ 68) /\
  (exists s l, Forall (among "01234567") s /\ logic_of_str 69 0 false (literal [] [] 111 s) = Ok l /\ numeral_value 8 s = 2 ^ 63 /\ num (l_val l) = 2 ^ 64) /\
  (exists s l, Forall (among "0123456789") s /\ logic_of_str 69 0 false (literal [] [] 100 s) = Ok l /\ numeral_value 10 s = 2 * 10 ^ 19 /\ num (l_val l) = 2 * 10 ^ 19 - 2 ^ 64).
Proof.
  split; [|split].
  - exists (chars (append "1" (append (rep 8 "0") (append "_" (rep 8 "0"))))). eexists. split; [all_among|]. split; [vm_compute; reflexivity|]. conc.
  - exists (chars (append "1" (rep 21 "0"))). eexists. split; [all_among|]. split; [vm_compute; reflexivity|]. conc.
  - exists (chars (append "2" (rep 19 "0"))). eexists. split; [all_among|]. split; [vm_compute; reflexivity|]. conc.
Qed.
Lemma bin_out_counter :
  (exists l s, ltyped l 128 false /\ ltidy l /\ sym_at l 127 = S1 /\ logic_str l (chars "b") = Ok s /\ from_right s 127 = Some 48) /\
  (exists b s, typed b 70 true /\ tidy b /\ bit_at b 0 = true /\ bit_str b (chars "b") = Ok s /\ from_right s 0 = Some 48) /\
  bit_str (big 70 false [5; 3]) (chars "b") = IllFormed.
Proof.
  split; [|split; [|vm_compute; reflexivity]].
  - exists (lbig 128 false [5; 2 ^ 63] [0; 0]). eexists. split; [conc|]. split; [conc|]. split; [conc|]. split; [vm_compute; reflexivity|conc].
  - exists (big 70 true [5; 3]). eexists. split; [conc|]. split; [conc|]. split; [conc|]. split; [vm_compute; reflexivity|conc].
Qed.
Lemma hex_out_counter :
  (exists b s, typed b 8 false /\ tidy b /\ num b = 18 /\ bit_str b (chars "x") = Ok s /\ numeral_value 16 s = 33) /\
  (exists b s, typed b 8 false /\ tidy b /\ num b = 10 /\ bit_str b (chars "o") = Ok s /\ numeral_value 8 s = 17) /\
  (exists l s, ltyped l 6 true /\ ltidy l /\ known l /\ num (l_val l) = 63 /\ logic_str l (chars "x") = Ok s /\ numeral_value 16 s = 255) /\
  (exists l s, ltyped l 70 false /\ ltidy l /\ known l /\ num (l_val l) = 3 * 2 ^ 63 /\ logic_str l (chars "o") = Ok s /\ numeral_value 8 s = 2 ^ 63) /\
  (exists l, ltyped l 128 false /\ ltidy l /\ known l /\ logic_str l (chars "o") = UB).
Proof.
  split; [|split; [|split; [|split]]].
  - exists (bit_of_native 7 0 false 18). eexists. split; [conc|]. split; [conc|]. split; [conc|]. split; [vm_compute; reflexivity|conc].
  - exists (bit_of_native 7 0 false 10). eexists. split; [conc|]. split; [conc|]. split; [conc|]. split; [vm_compute; reflexivity|conc].
  - exists (v4s 6 (-1) 0). eexists. split; [conc|]. split; [conc|]. split; [|split; [conc|split; [vm_compute; reflexivity|conc]]]. intros p Hp. change (lw (v4s 6 (-1) 0)) with 6 in Hp. assert (E : p = 0 \/ p = 1 \/ p = 2 \/ p = 3 \/ p = 4 \/ p = 5) by lia. destruct E as [-> |[-> |[-> |[-> |[-> | ->]]]]]; vm_compute; reflexivity.
  - exists (lbig 70 false [2 ^ 63; 1] [0; 0]). eexists. split; [conc|]. split; [conc|]. split; [apply known_zero; conc|]. split; [conc|]. split; [vm_compute; reflexivity|conc].
  - exists (lbig 128 false [5; 1] [0; 0]). split; [conc|]. split; [conc|]. split; [apply known_zero; conc|]. vm_compute. reflexivity.
Qed.
Lemma dec_out_counter :
  (exists l, ltyped l 32 true /\ ltidy l /\ known l /\ logic_str l (chars "0d") = UB) /\
  (exists l, ltyped l 70 true /\ ltidy l /\ known l /\ value (l_val l) = 0 /\ logic_str l (chars "0d") = Ok []) /\
  (exists l, ltyped l 128 false /\ ltidy l /\ known l /\ value (l_val l) = 1 /\ logic_str l (chars "0d") = UB) /\
  (exists l s, ltyped l 70 true /\ ltidy l /\ known l /\ value (l_val l) = -1 /\ logic_str l (chars "0d") = Ok s /\ numeral_value 10 (tl s) = 2 ^ 128 - 2 ^ 70 + 1) /\
  (exists b s, typed b 1 true /\ tidy b /\ value b = -1 /\ bit_str b (chars "0d") = Ok s /\ s = chars "1").
Proof.
  split; [|split; [|split; [|split]]].
  - exists (v4s 32 (- 2 ^ 31) 0). split; [conc|]. split; [conc|]. split; [apply known_zero; conc|vm_compute; reflexivity].
  - exists (lbig 70 true [0; 0] [0; 0]). split; [conc|]. split; [conc|]. split; [apply known_zero; conc|]. split; [conc|vm_compute; reflexivity].
  - exists (lbig 128 false [1; 0] [0; 0]). split; [conc|]. split; [conc|]. split; [apply known_zero; conc|]. split; [conc|vm_compute; reflexivity].
  - exists (lbig 70 true [2 ^ 64 - 1; 63] [0; 0]). eexists. split; [conc|]. split; [conc|]. split; [apply known_zero; conc|]. split; [conc|]. split; [vm_compute; reflexivity|conc].
  - exists (bit_of_native 0 0 true 1). eexists. split; [conc|]. split; [conc|]. split; [conc|]. split; [vm_compute; reflexivity|reflexivity].
Qed.
Lemma xz_out_counter :
  (exists l s, ltyped l 6 false /\ ltidy l /\ all_x l /\ logic_str l (chars "x") = Ok s /\ from_right s 1 = Some 88) /\
  (exists l, ltyped l 6 true /\ ltidy l /\ (forall p, 0 <= p < 6 -> sym_at l p = SZ) /\ logic_str l (chars "0d") = Ok (chars "-X")) /\
  (exists l, ltyped l 70 false /\ ltidy l /\ all_x l /\ logic_str l (chars "0d") = Ok (chars "X")).
Proof.
  split; [|split].
  - exists (v4 6 0 63). eexists. split; [conc|]. split; [conc|]. split; [|split; [vm_compute; reflexivity|conc]]. intros p Hp. change (lw (v4 6 0 63)) with 6 in Hp. assert (E : p = 0 \/ p = 1 \/ p = 2 \/ p = 3 \/ p = 4 \/ p = 5) by lia. destruct E as [-> |[-> |[-> |[-> |[-> | ->]]]]]; vm_compute; reflexivity.
  - exists (v4s 6 (-1) 63). split; [conc|]. split; [conc|]. split; [|vm_compute; reflexivity]. intros p Hp. assert (E : p = 0 \/ p = 1 \/ p = 2 \/ p = 3 \/ p = 4 \/ p = 5) by lia. destruct E as [-> |[-> |[-> |[-> |[-> | ->]]]]]; vm_compute; reflexivity.
  - exists (lbig 70 false [0; 0] [2 ^ 64 - 1; 63]). split; [conc|]. split; [conc|]. split; [|vm_compute; reflexivity]. intros p Hp. change (lw (lbig 70 false [0; 0] [2 ^ 64 - 1; 63])) with 70 in Hp. unfold sym_at. assert (E1 : bit_at (l_val (lbig 70 false [0; 0] [2 ^ 64 - 1; 63])) p = false). { unfold bit_at. assert (num (l_val (lbig 70 false [0; 0] [2 ^ 64 - 1; 63])) = 0) as -> by (vm_compute; reflexivity). apply Z.bits_0. }
    assert (E2 : bit_at (l_xz (lbig 70 false [0; 0] [2 ^ 64 - 1; 63])) p = true). { unfold bit_at. assert (num (l_xz (lbig 70 false [0; 0] [2 ^ 64 - 1; 63])) = Z.ones 70) as -> by (vm_compute; reflexivity). rewrite Z.testbit_ones_nonneg by lia. now apply Z.ltb_lt. } now rewrite E1, E2.
Qed.
Lemma round_counter :
  (exists l s l', ltyped l 8 false /\ ltidy l /\ known l /\ logic_str l (chars "h") = Ok s /\ logic_of_str 7 0 false (chars "'h" ++ s) = Ok l' /\ num (l_val l) = 171 /\ num (l_val l') = 1) /\
  (exists l s, ltyped l 40 false /\ ltidy l /\ logic_str l (chars "b") = Ok s /\ logic_of_str 39 0 false (chars "'b" ++ s) = UB).
Proof.
  split.
  - exists (v4 8 171 0). eexists. eexists. split; [conc|]. split; [conc|]. split; [apply known_zero; conc|split; [vm_compute; reflexivity|split; [vm_compute; reflexivity|conc]]].
  - exists (v4 40 0 (2 ^ 33)). eexists. split; [conc|]. split; [conc|]. split; [vm_compute; reflexivity|]. vm_compute. reflexivity.
Qed.
Lemma width_counter :
  (exists b core s, typed b 70 true /\ tidy b /\ bit_str b (chars "0b") = Ok core /\ bit_str b (chars "100b") = Ok s /\ forall n, s <> repeat 48 n ++ core) /\
  (exists b, typed b 8 false /\ tidy b /\ bit_str b (chars "99999999999999999999x") = Exn).
Proof.
  split.
  - exists (big 70 true [5; 3]). eexists. eexists. split; [conc|]. split; [conc|]. split; [vm_compute; reflexivity|]. split; [vm_compute; reflexivity|]. intros n. destruct n; discriminate.
  - exists (bit_of_native 7 0 false 5). split; [conc|]. split; [conc|]. vm_compute. reflexivity.
Qed.
Lemma logic_bin l base : lvec l -> among "bB" base -> (lw l <= 64 \/ lw l mod 64 <> 0) ->
  exists s, logic_str l [base] = Ok s /\ logic_str l [48; base] = Ok s /\ len s = lw l /\ forall i, 0 <= i < lw l -> from_right s i = Some (sym_char (sym_at l i)).
Proof.
  intros V A C. destruct (logic_out l base 1 V) as (s & E & E0 & U & H); [left; auto|left; apply Z.mod_1_r|destruct C; [now left|right; split; [lia|assumption]]|].
  assert (L : len s = lw l). { destruct U as [[_ L]|[[A' _]|[[A' _]|[[A' _]|[A' _]]]]]; [exact L|chars_cases A; vm_compute in A'; repeat (destruct A' as [A'|A']; [discriminate|]); destruct A'..]. }
  exists s. split; [exact E|]. split; [exact E0|]. split; [exact L|]. intros i Hi. rewrite H, group_one by lia. reflexivity.
Qed.
Lemma not_known l p : 0 <= p < lw l -> unknown (sym_at l p) = true -> ~ known l.
Proof. intros Hp U K. rewrite K in U by exact Hp. discriminate. Qed.
Lemma hex_out_ex : lvec (v4s 7 42 0) /\ known (v4s 7 42 0) /\ pow2_fmt 111 3 /\ top_ok (v4s 7 42 0) 3 /\ pow2_fmt 104 4 /\ top_ok (v4s 7 42 0) 4 /\
  lvec (lbig 70 false [5; 32] [0; 0]) /\ known (lbig 70 false [5; 32] [0; 0]) /\ top_ok (lbig 70 false [5; 32] [0; 0]) 4 /\ vec (bit_of_native 7 0 false 7) /\ clear_top (bit_of_native 7 0 false 7).
Proof.
  split; [conc|]. split; [apply known_zero; conc|]. split; [right; left; split; [vm_compute; tauto|reflexivity]|]. split; [right; right; conc|]. split; [right; right; split; [vm_compute; tauto|reflexivity]|]. split; [right; right; conc|].
  split; [conc|]. split; [apply known_zero; conc|]. split; [right; right; conc|]. split; [conc|]. split; [conc|]. discriminate.
Qed.
Lemma dec_out_ex : lvec (v4s 7 (-42) 0) /\ known (v4s 7 (-42) 0) /\ ltidy (v4s 7 (-42) 0) /\ prints (l_val (v4s 7 (-42) 0)) /\ value (l_val (v4s 7 (-42) 0)) = -42 /\
  lvec (lbig 70 true [5; 3] [0; 0]) /\ known (lbig 70 true [5; 3] [0; 0]) /\ ltidy (lbig 70 true [5; 3] [0; 0]) /\ 0 < value (l_val (lbig 70 true [5; 3] [0; 0])) < 2 ^ 128.
Proof.
  split; [conc|]. split; [apply known_zero; conc|]. split; [conc|]. split; [intros _; split; [conc|]; intros [E|E]; discriminate|]. split; [conc|]. split; [conc|]. split; [apply known_zero; conc|]. conc.
Qed.
Lemma xz_out_ex : lvec (v4 7 40 12) /\ ~ known (v4 7 40 12) /\ top_ok (v4 7 40 12) 4 /\ clear_top (l_val (v4 7 40 12)) /\ tidy (l_xz (v4 7 40 12)) /\
  group_char (group (v4 7 40 12) 4 0) = 88 /\ group_char (group (v4 7 40 12) 4 1) = 50 /\
  lvec (lbig 70 true [5; 3] [1; 0]) /\ ~ known (lbig 70 true [5; 3] [1; 0]) /\ ltidy (lbig 70 true [5; 3] [1; 0]) /\ unknown (sym_at (lbig 70 true [5; 3] [1; 0]) 69) = false.
Proof.
  assert (C : clear_top (l_val (v4 7 40 12))) by (split; [conc|discriminate]).
  split; [conc|]. split; [apply (not_known _ 2); conc|]. split; [right; right; split; [exact C|conc]|]. split; [exact C|]. split; [conc|]. split; [conc|]. split; [conc|].
  split; [conc|]. split; [apply (not_known _ 0); conc|]. conc.
Qed.
Lemma round_ex : ltyped (lbig 70 true [5; 3] [1; 0]) 70 true /\ 70 mod 64 <> 0 /\ ltyped (v4 8 130 0) 8 false /\ ltidy (v4 8 130 0) /\ known (v4 8 130 0) /\ top_ok (v4 8 130 0) 4 /\ plain_groups (v4 8 130 0).
Proof.
  split; [conc|]. split; [conc|]. split; [conc|]. split; [conc|]. split; [apply known_zero; conc|]. split; [left; conc|]. intros i Hi Hw. change (lw (v4 8 130 0)) with 8 in Hw. left.
  assert (E : i = 0 \/ i = 1) by lia. destruct E as [-> | ->]; [exists 2|exists 8]; (split; [lia|]); intros j Hj; assert (Ej : j = 0 \/ j = 1 \/ j = 2 \/ j = 3) by lia; destruct Ej as [-> |[-> |[-> | ->]]]; vm_compute; reflexivity.
Qed.
Lemma width_ex : format (chars "12x") (Some 12) 120 /\ format (chars "d") None 100 /\ usual_width 120 7 2 /\ usual_width 100 7 3 /\ logic_str (v4 7 42 0) (chars "0x") = Ok (chars "2a") /\
  logic_str (v4 7 42 0) (chars "12x") = Ok (chars "00000000002a") /\ logic_str (v4 7 42 0) (chars "d") = Ok (chars " 42").
Proof.
  assert (N : forall c, c = 120 \/ c = 100 -> ~ among "0123456789" c) by (intros c [-> | ->] A; vm_compute in A; repeat (destruct A as [A|A]; [discriminate|]); exact A).
  split; [exists (chars "12"), []; split; [reflexivity|]; split; [all_among|]; split; [apply N; auto|]; conc|].
  split; [exists [], []; split; [reflexivity|]; split; [constructor|]; split; [apply N; auto|]; conc|].
  split; [do 2 right; left; split; [vm_compute; tauto|lia]|]. split; [do 4 right; split; [vm_compute; tauto|]; split; [lia|]; vm_compute; split; congruence|]. conc.
Qed.
