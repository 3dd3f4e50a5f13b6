(** Exactly when a field is filled up right. *)
From Coq Require Import ZArith String Ascii List Bool Lia.
From Verif Require Import Cpp BigNum Bit Logic Util Spec SpecText SpecExact SpecMachine SpecWide SpecRead SpecPrint SpecIff6 BitExt ZBits Words BitProofs TextProofs FmtProofs FmtMain BitMain FmtDec FmtRound WideProofs ReadProofs ReadExact PrintProofs PrintExact.
Import ListNotations.
Open Scope Z_scope.
Local Ltac Zify.zify_post_hook ::= idtac.

Lemma among_is s c : existsb (Z.eqb c) (chars s) = member s c.
Proof. destruct (member s c) eqn:E; [apply member_among in E; apply existsb_exists; exists c; split; [exact E|apply Z.eqb_refl]|].
  destruct (existsb (Z.eqb c) (chars s)) eqn:F; [|reflexivity]. apply existsb_exists in F. destruct F as (d & I & Q). apply Z.eqb_eq in Q. subst d. apply member_among in I. congruence. Qed.

Lemma layout_padded req base w (neg : bool) cs : req <> Bad -> (neg = true -> member "dD" base = true) -> (member "dD" base = true -> neg = false -> hd 0 (rev cs) <> 45) ->
  SpecText.padded (columns req w + minus base (signed_text neg cs)) (pad_char base) (signed_text neg cs) (layout req base w neg cs).
Proof.
  intros R P H. unfold SpecText.padded, layout, minus, pad_char. rewrite !among_is. cbn zeta. unfold signed_text. set (body := (if neg then [45] else []) ++ rev cs).
  assert (M : (if member "dD" base && (hd 0 body =? 45) then 1 else 0) = if neg then 1 else 0).
  { destruct neg. { rewrite P by reflexivity. reflexivity. } destruct (member "dD" base) eqn:D; [|reflexivity]. cbn [andb]. unfold body. cbn [app]. now rewrite (proj2 (Z.eqb_neq _ _) (H eq_refl eq_refl)). }
  rewrite M. f_equal. f_equal. destruct req as [|r|]; [reflexivity| |contradiction]. unfold columns. destruct r as [|p|p]; [|reflexivity|reflexivity].
  destruct neg; [|reflexivity]. unfold body. unfold len. cbn [length app]. lia.
Qed.
Lemma asks_plain fmt req base : asks fmt req base -> asks [48; base] (Columns 0) base.
Proof.
  intros A. assert (N : ~ among "0123456789" base). { destruct A; auto. vm_compute. intuition discriminate. }
  exact (Sized [48] base [] ltac:(discriminate) ltac:(constructor; [vm_compute; tauto|constructor]) N).
Qed.
Lemma digits_no_minus v : 0 <= v < 2 ^ 128 -> hd 0 (rev (digits 10 v)) <> 45.
Proof.
  intros Hv. pose proof (digits_is v Hv) as (_ & _ & _ & F). destruct (rev (digits 10 v)) as [|c r]; [discriminate|]. inversion F as [|? ? [A _] ?]. cbn [hd]. intros ->. vm_compute in A. intuition discriminate.
Qed.
Lemma unknown_no_minus n m v x : unknown_decimal n m v x <> 45.
Proof. unfold unknown_decimal. repeat match goal with |- context [if ?c then _ else _] => destruct c end; discriminate. Qed.
Lemma magnitude_native base b : vec b -> bw b <= 64 -> 0 <= magnitude base b < 2 ^ 128.
Proof.
  intros V H. pose proof (bw_pos b). unfold magnitude. replace (bw b <=? 64) with true by lia. assert (P0 : 0 < 2 ^ bw b) by (apply Z.pow_pos_nonneg; lia). assert (P64 : 2 ^ bw b <= 2 ^ 64) by (apply Z.pow_le_mono_r; lia). assert (2 ^ 64 < 2 ^ 128) by reflexivity.
  destruct (negative_decimal base b); [pose proof (Z.mod_pos_bound (- stored b) (2 ^ bw b) P0); lia|]. pose proof (Z.mod_pos_bound (stored b) (2 ^ 64) ltac:(lia)). lia.
Qed.
Lemma decimal_only base : member "dD" base = true -> member "bB" base = false /\ member "oO" base = false /\ member "xXhH" base = false /\ member "sS" base = false.
Proof. intros D. apply member_among in D. chars_cases D; repeat split; reflexivity. Qed.
Lemma negative_dd base b : negative_decimal base b = true -> member "dD" base = true.
Proof. unfold negative_decimal. destruct (member "dD" base); auto. Qed.

Theorem logic_width_exact l fmt req base w core : lvec l -> asks fmt req base -> natural base (lw l) = Ok w -> logic_str l [48; base] = Ok core ->
  (exists s, logic_str l fmt = Ok s /\ SpecText.padded (columns req w + minus base core) (pad_char base) core s) <-> req <> Bad.
Proof.
  intros L A W C. rewrite (logic_str_print l fmt req base L A). rewrite (logic_str_print l _ _ base L (asks_plain fmt req base A)) in C. unfold logic_print in *. rewrite W in *. cbn [bind valid] in *. cbn zeta in C |- *.
  destruct (negative_decimal base (l_val l) && no_magnitude (l_val l)); [discriminate|]. set (m := if lw l <=? 64 then _ else _) in *.
  destruct m as [cs| | | |] eqn:E; try discriminate. cbn [bind] in *. rewrite layout0 in C. injection C as <-. split; [intros (s & Q & _) ->; discriminate|]. intros R.
  exists (layout req base w (negative_decimal base (l_val l)) cs). split; [destruct req; [reflexivity|reflexivity|contradiction]|]. apply layout_padded; [exact R|apply negative_dd|].
  intros D _. destruct (decimal_only base D) as (Nb & No & Nx & Ns). unfold m in E. destruct (Z.leb_spec (lw l) 64) as [S|S].
  - injection E as <-. unfold four_chars. rewrite Nb, No, Nx, Ns, D. destruct (stored (l_xz l) =? 0); [|cbn; apply unknown_no_minus]. apply digits_no_minus, magnitude_native; [apply L|exact S].
  - unfold four_wide in E. rewrite D in E. apply (f_equal (fun o => match o with Ok a => a | _ => [] end)) in E. cbv beta iota in E. subst cs. destruct (stored (l_xz l) mod 2 ^ 128 =? 0); [|cbn [rev app hd]; apply unknown_no_minus]. destruct (magnitude base (l_val l) mod 2 ^ 128 =? 0); [discriminate|]. apply digits_no_minus, Z.mod_pos_bound. reflexivity.
Qed.
Theorem bit_width_exact b fmt req base w core : vec b -> bw b <= 64 \/ among "dD" base -> asks fmt req base -> natural base (bw b) = Ok w -> bit_str b [48; base] = Ok core ->
  (exists s, bit_str b fmt = Ok s /\ SpecText.padded (columns req w + minus base core) (pad_char base) core s) <-> req <> Bad.
Proof.
  intros V Hb A W C. rewrite (bit_str_print b fmt req base V A). rewrite (bit_str_print b _ _ base V (asks_plain fmt req base A)) in C. unfold bit_print in *. rewrite W in *. cbn [bind valid] in *. cbn zeta in C |- *.
  destruct ((64 <? bw b) && negb (bsgn b)); [discriminate|]. destruct (negative_decimal base b && no_magnitude b); [discriminate|].
  assert (E2 : (if bw b <=? 64 then two_chars base (bw b) (magnitude base b) else two_wide req base (bw b) (magnitude base b)) = (if bw b <=? 64 then two_chars base (bw b) (magnitude base b) else two_wide (Columns 0) base (bw b) (magnitude base b))).
  { destruct (Z.leb_spec (bw b) 64) as [S|S]; [reflexivity|]. destruct Hb as [Hb|Hb]; [lia|]. unfold two_wide. apply member_among in Hb. now rewrite Hb. }
  rewrite E2. set (m := if bw b <=? 64 then two_chars _ _ _ else two_wide _ _ _ _) in *.
  destruct m as [cs| | | |] eqn:E; try discriminate. cbn [bind] in *. rewrite layout0 in C. injection C as <-. split; [intros (s & Q & _) ->; discriminate|]. intros R.
  exists (layout req base w (negative_decimal base b) cs). split; [destruct req; [reflexivity|reflexivity|contradiction]|]. apply layout_padded; [exact R|apply negative_dd|].
  intros D _. destruct (decimal_only base D) as (Nb & No & Nx & Ns). unfold m in E. destruct (Z.leb_spec (bw b) 64) as [S|S].
  - unfold two_chars in E. rewrite Nb, No, Nx, Ns, D in E. injection E as <-. apply digits_no_minus, magnitude_native; [exact V|exact S].
  - unfold two_wide in E. rewrite D in E. apply (f_equal (fun o => match o with Ok a => a | _ => [] end)) in E. cbv beta iota in E. subst cs. destruct (magnitude base b mod 2 ^ 128 =? 0); [discriminate|]. apply digits_no_minus, Z.mod_pos_bound. reflexivity.
Qed.
