(** A multi-word vector whose mask has bits outside the declared positions. *)
From Coq Require Import ZArith String Ascii List Bool Lia.
From Verif Require Import Cpp BigNum Bit Logic Util Spec Reach.
Import ListNotations.
Open Scope Z_scope.
Definition hidden : list Z := map (fun c => Z.of_N (N_of_ascii c)) (list_ascii_of_string "70'hx000000000000000000").
Lemma hidden_x : exists l, made4 l /\ lw l = 70 /\ ~ tidy (l_xz l) /\ (forall p, 0 <= p < 70 -> sym_at l p = S0) /\ omap (fun r => sym_at r 0) (logic_eq l l) = Ok SX.
Proof.
  exists (mkLogic (mkBit 69 0 false (HB [0; 0])) (mkBit 69 0 false (HB [0; 3840]))). split.
  { apply (M4_text 69 0 false hidden); [unfold declarable, int_ok, width; cbn; lia|vm_compute; reflexivity]. }
  split; [reflexivity|]. split; [intros [_ H]; vm_compute in H; discriminate|]. split; [|vm_compute; reflexivity].
  intros p Hp. assert (F : forallb (fun q => match sym_at (mkLogic (mkBit 69 0 false (HB [0; 0])) (mkBit 69 0 false (HB [0; 3840]))) q with S0 => true | _ => false end) (zrange 0 70) = true) by (vm_compute; reflexivity).
  rewrite forallb_forall in F. specialize (F p). assert (I : In p (zrange 0 70)) by (unfold zrange; apply in_map_iff; exists (Z.to_nat p); split; [lia|apply in_seq; lia]).
  specialize (F I). destruct (sym_at _ p); [reflexivity|discriminate..].
Qed.
