(** Buffet lift and compressibility drag: claim C60. *)
From Coq Require Import Reals Lra Lia.
From Coquelicot Require Import Coquelicot.
From Verif Require Import Base Calc MathModel MathProofs Comp CompMore CompFun FAeroModel FAeroProofs.
Local Open Scope R_scope.

Section Buffet.
Variables BUFT BUFT1 BUFT2 : R -> R -> R.
Theorem C60_BuffetLift op : exact_nodes BuffetLift_shared (BuffetLift BUFT BUFT1 BUFT2 op) (fun e =>
  positive [Aircraft_Wing_THICKNESS_TO_CHORD] e /\ cos (e Aircraft_Wing_SWEEP / (PI / 180)) <> 0 /\
  smooth_at BUFT BUFT1 BUFT2 (e Aircraft_Wing_THICKNESS_TO_CHORD ** (2 / 3)) (e Dynamic_Atmosphere_MACH - e Aircraft_Design_MACH)) [].
Proof.
  pose proof PI_RGT_0 as Pi. apply nodes_exact. exact_start; table_prepare.
  all: match goal with |- is_derive (fun t => BUFT (@?u t) (@?v t) * (@?w t)) ?x _ =>
    eapply is_derive_eq; [apply (two_factors (fun t => BUFT (u t) (v t)) w x); [apply (table_rate BUFT BUFT1 BUFT2 u v); [assumption|inner|inner]|inner]|] end.
  all: cbv beta; change (@zero R_NormedModule) with 0;  change (@one R_AbsRing) with 1; match goal with |- @eq _ ?l ?r => change (@eq R l r) end.
  all: try (field; repeat split; nonzero).
  replace (2 / 3 - 1) with (- 1 / 3) by lra. field. assumption.
Qed.
End Buffet.
Print Assumptions C60_BuffetLift.
Example C60_witness_BuffetLift : let e : env := fun v => if String.eqb v Aircraft_Wing_SWEEP then 0 else 1 in
  out (BuffetLift (fun x y => x + y + 10) (fun _ _ => 1) (fun _ _ => 1) unit_options) e v_DELCLB = 121 / 10.
Proof.
  pose proof PI_RGT_0. cbv [out BuffetLift c_run BuffetLift_compute dget]. simpl. replace (0 / (PI / 180)) with 0 by (field; lra). rewrite cos_0.
  rewrite pw_1. lra.
Qed.
(** The sweep is given in degrees, and divided by pi / 180 instead of multiplied: a sweep of pi^2 / 180 degrees, about 0.055
    degrees, turns the lift for buffet around. *)
Theorem C60_buffet_sweep_refuted B B1 B2 op e :
  out (BuffetLift B B1 B2 op) (upd e Aircraft_Wing_SWEEP (PI ^ 2 / 180)) v_DELCLB =
  - out (BuffetLift B B1 B2 op) (upd e Aircraft_Wing_SWEEP 0) v_DELCLB.
Proof.
  pose proof PI_RGT_0 as P. cbv [out BuffetLift c_run BuffetLift_compute dget upd]. simpl.
  replace (PI * (PI * 1) / 180 / (PI / 180)) with PI by (field; lra). replace (0 / (PI / 180)) with 0 by (field; lra).
  rewrite cos_PI, cos_0. field.
Qed.
Print Assumptions C60_buffet_sweep_refuted.
Example C60_witness_buffet_sweep : PI ^ 2 / 180 < 1.
Proof. pose proof PI_4. pose proof PI_RGT_0. simpl. nra. Qed.


Ltac near_pos :=
  try (rewrite (ltb_intro 0) by assumption);
  match goal with
  | |- is_derive ?f ?x _ =>
      lazymatch f with
      | context [ltb 0 _] => eapply (is_derive_near _ _ _ _ (fun t => 0 < t));
          [apply (locally_pos (fun t => t)); [apply continuous_id|assumption]
          |let y := fresh "y" in let Hy := fresh "Hy" in intros y Hy; rewrite (ltb_intro 0 y) by exact Hy; red_comp; reflexivity|]
      | _ => idtac
      end
  end; try (rewrite (ltb_intro 0) by assumption).
Ltac pw_once :=
  repeat match goal with
  | |- context [?x ** (5 / 3 - 1)] => replace (5 / 3 - 1) with (2 / 3) by lra
  | |- context [?x ** (2 / 3 - 1)] => replace (2 / 3 - 1) with (- 1 / 3) by lra
  end.
Ltac value_goal := cbv beta; change (@zero R_NormedModule) with 0; change (@one R_AbsRing) with 1;
  match goal with |- @eq _ ?l ?r => change (@eq R l r) end; pw_once.
Ltac finish := value_goal; repeat match goal with |- context [if ?c then _ else _] => destruct c end; field; repeat split; nonzero.
Section Sub.
Variables PCW PCW1 PCW2 BSUB BSUB1 BSUB2 : R -> R -> R.
Theorem C60_CompressSub op : exact_nodes CompressSub_shared (CompressSub PCW PCW1 PCW2 BSUB BSUB1 BSUB2 op) (fun e =>
  let dM := e Dynamic_Atmosphere_MACH - e Aircraft_Design_MACH in let tc := e Aircraft_Wing_THICKNESS_TO_CHORD ** (2 / 3) in
  let m := e Dynamic_Atmosphere_MACH in let s := 1 + e Aircraft_Design_BASE_AREA / e Aircraft_Fuselage_CROSS_SECTION in
  positive [Aircraft_Wing_THICKNESS_TO_CHORD; Aircraft_Wing_AREA; Aircraft_Fuselage_CROSS_SECTION; Aircraft_Fuselage_LENGTH_TO_DIAMETER] e /\
  smooth_at PCW PCW1 PCW2 dM tc /\ PCW dM tc <> 0 /\ smooth_at BSUB BSUB1 BSUB2 m s /\ BSUB m s <> 0) [].
Proof.
  apply nodes_exact. exact_start; table_prepare.
  all: near_pos.
  all: try match goal with |- is_derive (fun _ => ?c) _ _ => apply (is_derive_const (V := R_NormedModule)) end.
  all: match goal with |- is_derive (fun t => (if leb (PCW (@?u t) (@?v t)) 0 then _ else _) * (@?w t) + (if leb (BSUB (@?p t) (@?q t)) 0 then _ else _) * (@?z t)) ?x ?d =>
    eapply is_derive_eq; [apply (two_terms (fun t => if leb (PCW (u t) (v t)) 0 then 0 else PCW (u t) (v t)) w
                                 (fun t => if leb (BSUB (p t) (q t)) 0 then 0 else BSUB (p t) (q t)) z x);
      [apply (clamped_rate PCW PCW1 PCW2 u v); [assumption|assumption|inner|inner]|inner
      |apply (clamped_rate BSUB BSUB1 BSUB2 p q); [assumption|assumption|inner|inner]|inner]|] end.
  all: try finish.
Qed.
End Sub.
Print Assumptions C60_CompressSub.
Example C60_witness_CompressSub : smooth_at (fun x y => x + y + 10) (fun _ _ => 1) (fun _ _ => 1) 0 1 /\ (fun x y => x + y + 10) 0 1 <> 0 /\ 0 < 1.
Proof. repeat split; [apply smooth_sum|lra|lra]. Qed.

Lemma three_terms (a b c d p q : R -> R) x da db dc dd dp dq : is_derive a x da -> is_derive b x db -> is_derive c x dc -> is_derive d x dd ->
  is_derive p x dp -> is_derive q x dq ->
  is_derive (fun t => a t * b t + c t * d t + p t * q t) x (da * b x + a x * db + (dc * d x + c x * dd) + (dp * q x + p x * dq)).
Proof.
  intros A B C D P Q. apply (is_derive_plus (fun t => a t * b t + c t * d t) (fun t => p t * q t)).
  - now apply two_terms.
  - now apply two_factors.
Qed.
Lemma eqb_false_intro a b : a <> b -> eqb a b = false.
Proof. intro N. destruct (eqb a b) eqn:E; [apply eqb_true in E; contradiction|reflexivity]. Qed.
Lemma locally_other x : x <> 1 -> locally x (fun t => t <> 1).
Proof. intro N. apply (open_neq 1). exact N. Qed.
Ltac near_by P L tac :=
  eapply (is_derive_near _ _ _ _ P); [exact L|let y := fresh "y" in let Hy := fresh "Hy" in intros y Hy; cbv beta in Hy; tac y Hy; red_comp; reflexivity|].
Section Super.
Variables PCAR PCAR1 PCAR2 BSUP BSUP1 BSUP2 WFI WFI1 WFI2 : R -> R -> R.
Definition art (e : env) : R := e Aircraft_Wing_ASPECT_RATIO * tan (e Aircraft_Wing_SWEEP / (572958 / 10000)) +
  (1 - e Aircraft_Wing_TAPER_RATIO) / (1 + e Aircraft_Wing_TAPER_RATIO).
Definition super_dom (e : env) : Prop :=
  let dM := e Dynamic_Atmosphere_MACH - e Aircraft_Design_MACH in let m := e Dynamic_Atmosphere_MACH in
  let s := 1 + e Aircraft_Design_BASE_AREA / e Aircraft_Fuselage_CROSS_SECTION in
  positive [Aircraft_Wing_THICKNESS_TO_CHORD; Aircraft_Wing_AREA; Aircraft_Fuselage_CROSS_SECTION; Aircraft_Fuselage_LENGTH_TO_DIAMETER;
    Aircraft_Wing_TAPER_RATIO] e /\ cos (e Aircraft_Wing_SWEEP / (572958 / 10000)) <> 0 /\
  smooth_at PCAR PCAR1 PCAR2 dM (art e) /\ PCAR dM (art e) <> 0 /\ smooth_at BSUP BSUP1 BSUP2 m s /\ BSUP m s <> 0.
Ltac above := 
  try (rewrite (leb_intro 1) by lra); try (rewrite eqb_false_intro by assumption); red_comp;
  try match goal with |- is_derive ?f ?x _ => lazymatch f with
  | context [leb 1 _] => near_by (fun t : R => 1 < t) (open_gt 1 x ltac:(assumption)) ltac:(fun y Hy => rewrite (leb_intro 1 y) by lra)
  | context [eqb _ 1] => near_by (fun t : R => t <> 1) (locally_other x ltac:(assumption)) ltac:(fun y Hy => rewrite (eqb_false_intro y) by exact Hy)
  end end.
Ltac below := 
  try (rewrite (leb_intro_false 1) by lra); red_comp;
  try match goal with |- is_derive ?f ?x _ => lazymatch f with
  | context [leb 1 _] => near_by (fun t : R => t < 1) (open_lt 1 x ltac:(assumption)) ltac:(fun y Hy => rewrite (leb_intro_false 1 y) by lra)
  end end.
Ltac super_terms :=
  match goal with
  | |- is_derive (fun t => (if leb (PCAR (@?u t) (@?v t)) 0 then _ else _) * (@?w t) + (if leb (BSUP (@?p t) (@?q t)) 0 then _ else _) * (@?z t) +
         WFI (@?g t) (@?h t) * (@?k t)) ?x ?d =>
    eapply is_derive_eq; [apply (three_terms (fun t => if leb (PCAR (u t) (v t)) 0 then 0 else PCAR (u t) (v t)) w
                                 (fun t => if leb (BSUP (p t) (q t)) 0 then 0 else BSUP (p t) (q t)) z (fun t => WFI (g t) (h t)) k x);
      [apply (clamped_rate PCAR PCAR1 PCAR2 u v); [assumption|assumption|inner|inner]|inner
      |apply (clamped_rate BSUP BSUP1 BSUP2 p q); [assumption|assumption|inner|inner]|inner
      |apply (table_rate WFI WFI1 WFI2 g h); [assumption|inner|inner]|inner]|]
  | |- is_derive (fun t => (if leb (PCAR (@?u t) (@?v t)) 0 then _ else _) * (@?w t) + (if leb (BSUP (@?p t) (@?q t)) 0 then _ else _) * (@?z t)) ?x ?d =>
    eapply is_derive_eq; [apply (two_terms (fun t => if leb (PCAR (u t) (v t)) 0 then 0 else PCAR (u t) (v t)) w
                                 (fun t => if leb (BSUP (p t) (q t)) 0 then 0 else BSUP (p t) (q t)) z x);
      [apply (clamped_rate PCAR PCAR1 PCAR2 u v); [assumption|assumption|inner|inner]|inner
      |apply (clamped_rate BSUP BSUP1 BSUP2 p q); [assumption|assumption|inner|inner]|inner]|]
  end.
Ltac super_finish :=
  value_goal; rewrite ?Rinv_mult; repeat match goal with |- context [if ?c then _ else _] => destruct c end;
  field; repeat split; first [assumption | nonzero | intro; lra | idtac].
Theorem C60_CompressSuper op : exact_nodes CompressSuper_shared (CompressSuper PCAR PCAR1 PCAR2 BSUP BSUP1 BSUP2 WFI WFI1 WFI2 op) (fun e =>
  super_dom e /\ 1 < e Dynamic_Atmosphere_MACH /\ e Aircraft_Wing_TAPER_RATIO <> 1 /\
  smooth_at WFI WFI1 WFI2 (e Dynamic_Atmosphere_MACH) (e Aircraft_Fuselage_DIAMETER_TO_WING_SPAN)) [].
Proof.
  apply nodes_exact. exact_start; table_prepare.
  all: try match goal with H : ?r <> 1 |- _ => assert (1 - r <> 0) by lra end.
  all: near_pos; above.
  all: try match goal with |- is_derive (fun _ => ?c) _ _ => apply (is_derive_const (V := R_NormedModule)) end.
  all: super_terms; super_finish.
Qed.
Theorem C60_CompressSuper_below op : exact_nodes CompressSuper_shared (CompressSuper PCAR PCAR1 PCAR2 BSUP BSUP1 BSUP2 WFI WFI1 WFI2 op) (fun e =>
  super_dom e /\ e Dynamic_Atmosphere_MACH < 1) [].
Proof.
  apply nodes_exact. exact_start; table_prepare.
  all: near_pos; below.
  all: try match goal with |- is_derive (fun _ => ?c) _ _ => apply (is_derive_const (V := R_NormedModule)) end.
  all: super_terms; super_finish.
Qed.
End Super.
Print Assumptions C60_CompressSuper.
Print Assumptions C60_CompressSuper_below.
Example C60_witness_CompressSuper : let e : env := fun v => if String.eqb v Aircraft_Wing_SWEEP then 0 else if String.eqb v Aircraft_Wing_TAPER_RATIO then 1 / 2 else if String.eqb v Dynamic_Atmosphere_MACH then 2 else 1 in
  super_dom (fun x y => x + y + 10) (fun _ _ => 1) (fun _ _ => 1) (fun x y => x + y + 10) (fun _ _ => 1) (fun _ _ => 1) e /\ 1 < e Dynamic_Atmosphere_MACH /\ e Aircraft_Wing_TAPER_RATIO <> 1.
Proof.
  cbv zeta. unfold super_dom, art. simpl. replace (0 / (572958 / 10000)) with 0 by field. rewrite cos_0, tan_0.
  repeat split; try apply smooth_sum; try lra; repeat constructor; simpl; lra.
Qed.
Example C60_witness_CompressSuper_below : let e : env := fun v => if String.eqb v Aircraft_Wing_SWEEP then 0 else if String.eqb v Dynamic_Atmosphere_MACH then 1 / 2 else 1 in
  super_dom (fun x y => x + y + 10) (fun _ _ => 1) (fun _ _ => 1) (fun x y => x + y + 10) (fun _ _ => 1) (fun _ _ => 1) e /\ e Dynamic_Atmosphere_MACH < 1.
Proof.
  cbv zeta. unfold super_dom, art. simpl. replace (0 / (572958 / 10000)) with 0 by field. rewrite cos_0, tan_0.
  repeat split; try apply smooth_sum; try lra; repeat constructor; simpl; lra.
Qed.

(** A wing with taper ratio 1 has the interference drag of a wing with taper ratio one half. *)
Theorem C60_taper_one P P1 P2 B B1 B2 W W1 W2 op e : e Aircraft_Wing_TAPER_RATIO = 1 -> 1 <= e Dynamic_Atmosphere_MACH -> 0 < e Aircraft_Fuselage_CROSS_SECTION ->
  out (CompressSuper P P1 P2 B B1 B2 W W1 W2 op) e v_compress_drag_coeff =
  out (CompressSuper P P1 P2 B B1 B2 (fun _ _ => 0) W1 W2 op) e v_compress_drag_coeff +
  2 * W (e Dynamic_Atmosphere_MACH) (e Aircraft_Fuselage_DIAMETER_TO_WING_SPAN) / cos (e Aircraft_Wing_SWEEP / (572958 / 10000)).
Proof.
  intros T M C. cbv [out CompressSuper c_run CompressSuper_compute]. rewrite T, (ltb_intro _ _ C), (leb_intro _ _ M).
  assert (Q : eqb 1 1 = true) by (destruct (eqb 1 1) eqn:Z; [reflexivity|apply eqb_false in Z; lra]). rewrite Q. cbv [dget]. simpl.
  replace (1 - 5 / 10) with (1 / 2) by lra. unfold Rdiv. replace (/ (1 * / 2)) with 2 by lra. ring.
Qed.
Print Assumptions C60_taper_one.
Example C60_witness_taper_one : 2 * 1 / cos 0 = 2.
Proof. rewrite cos_0. lra. Qed.

