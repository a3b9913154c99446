(** Properties of the GASP masses of tails: claim C57. *)
From Coq Require Import Reals Lra Lia.
From Coquelicot Require Import Coquelicot.
From Verif Require Import Base MathModel MathProofs Comp CompMore CompFun GaspStructModel.
Local Open Scope R_scope.

Lemma log10_pos x : 1 < x -> 0 < log10 x.
Proof.
  intro H. Transparent log10. unfold log10. apply Rdiv_lt_0_compat; [|exact ln10_pos].
  rewrite <- ln_1. apply ln_increasing; lra.
Qed.
Opaque log10.
Ltac facts ::=
  cases_of; rewrite ?cos_0, ?sin_0;
  repeat match goal with H : 1 < ?v |- _ => assert (0 < v) by lra; pose proof (log10_pos v H); revert H end; intros; pose proof ln10_pos;
  repeat match goal with H : ?r = 1 |- _ => is_var r; subst r end.
Ltac tan_goal :=
  match goal with C : cos ?r <> 0 |- context [1 + tan ?r * (tan ?r * 1)] =>
    replace (1 + tan r * (tan r * 1)) with ((1 / cos r) ^ 2) by (rewrite <- tan_sq by exact C; ring)
  end; field; repeat split; nonzero.

Lemma scaled_iff c e o i k :
  is_derive (fun t => out c (upd e i t) o) (e i) (k * jac c e o i) -> (exact_at c e o i <-> k = 1 \/ jac c e o i = 0).
Proof.
  intro S. unfold exact_at. split.
  - intro E. apply is_derive_unique in E. apply is_derive_unique in S. rewrite E in S.
    destruct (Req_dec (jac c e o i) 0) as [Z|Z]; [now right|left].
    apply (Rmult_eq_reg_r (jac c e o i)); [|exact Z]. rewrite Rmult_1_l. now symmetry.
  - intro E. eapply is_derive_eq; [exact S|]. destruct E as [-> | ->]; [apply Rmult_1_l | apply Rmult_0_r].
Qed.

Theorem C57_HorizontalTailMass op : exact_except (HorizontalTailMass op) (fun e =>
  positive [Aircraft_Design_GROSS_MASS; Aircraft_HorizontalTail_MASS_COEFFICIENT; Aircraft_Fuselage_LENGTH; Aircraft_HorizontalTail_SPAN; Aircraft_LandingGear_TAIL_HOOK_MASS_SCALER; Aircraft_HorizontalTail_TAPER_RATIO; Aircraft_HorizontalTail_AREA; Aircraft_HorizontalTail_MOMENT_ARM; Aircraft_HorizontalTail_THICKNESS_TO_CHORD; Aircraft_HorizontalTail_ROOT_CHORD; Aircraft_HorizontalTail_MASS_SCALER] e /\ 1 < e v_min_dive_vel)
  [(Aircraft_HorizontalTail_MASS, Aircraft_Design_GROSS_MASS);
   (Aircraft_HorizontalTail_MASS, Aircraft_HorizontalTail_MASS_COEFFICIENT);
   (Aircraft_HorizontalTail_MASS, Aircraft_Fuselage_LENGTH);
   (Aircraft_HorizontalTail_MASS, Aircraft_HorizontalTail_SPAN);
   (Aircraft_HorizontalTail_MASS, Aircraft_LandingGear_TAIL_HOOK_MASS_SCALER);
   (Aircraft_HorizontalTail_MASS, Aircraft_HorizontalTail_TAPER_RATIO);
   (Aircraft_HorizontalTail_MASS, Aircraft_HorizontalTail_AREA);
   (Aircraft_HorizontalTail_MASS, v_min_dive_vel);
   (Aircraft_HorizontalTail_MASS, Aircraft_HorizontalTail_MOMENT_ARM);
   (Aircraft_HorizontalTail_MASS, Aircraft_HorizontalTail_THICKNESS_TO_CHORD);
   (Aircraft_HorizontalTail_MASS, Aircraft_HorizontalTail_ROOT_CHORD)].
Proof. except_start; more_goals. Qed.
Print Assumptions C57_HorizontalTailMass.
Example C57_witness_tail_domain : 1 < 2 /\ 0 < log10 2 /\ cos 0 <> 0.
Proof. pose proof (log10_pos 2 ltac:(lra)). rewrite cos_0. lra. Qed.

Theorem C57_VerticalTailMass op : exact_except (VerticalTailMass op) (fun e =>
  positive [Aircraft_VerticalTail_TAPER_RATIO; Aircraft_VerticalTail_ASPECT_RATIO; Aircraft_VerticalTail_SPAN; Aircraft_Design_GROSS_MASS; Aircraft_HorizontalTail_MASS_COEFFICIENT; Aircraft_Fuselage_LENGTH; Aircraft_HorizontalTail_SPAN; Aircraft_LandingGear_TAIL_HOOK_MASS_SCALER; Aircraft_HorizontalTail_TAPER_RATIO; Aircraft_VerticalTail_MASS_COEFFICIENT; Aircraft_Wing_SPAN; Aircraft_HorizontalTail_AREA; Aircraft_HorizontalTail_MOMENT_ARM; Aircraft_HorizontalTail_THICKNESS_TO_CHORD; Aircraft_HorizontalTail_ROOT_CHORD; Aircraft_HorizontalTail_VERTICAL_TAIL_MOUNT_LOCATION; Aircraft_VerticalTail_AREA; Aircraft_VerticalTail_MOMENT_ARM; Aircraft_VerticalTail_THICKNESS_TO_CHORD; Aircraft_VerticalTail_ROOT_CHORD; Aircraft_VerticalTail_MASS_SCALER; Aircraft_HorizontalTail_MASS_SCALER] e /\ 1 < e v_min_dive_vel /\ cos (e Aircraft_VerticalTail_SWEEP) <> 0)
  [(Aircraft_VerticalTail_MASS, Aircraft_Design_GROSS_MASS);
   (Aircraft_VerticalTail_MASS, Aircraft_VerticalTail_MASS_COEFFICIENT);
   (Aircraft_VerticalTail_MASS, Aircraft_Fuselage_LENGTH);
   (Aircraft_VerticalTail_MASS, Aircraft_Wing_SPAN);
   (Aircraft_VerticalTail_MASS, Aircraft_VerticalTail_SPAN);
   (Aircraft_VerticalTail_MASS, Aircraft_VerticalTail_TAPER_RATIO);
   (Aircraft_VerticalTail_MASS, Aircraft_HorizontalTail_MASS_COEFFICIENT);
   (Aircraft_VerticalTail_MASS, Aircraft_HorizontalTail_SPAN);
   (Aircraft_VerticalTail_MASS, Aircraft_LandingGear_TAIL_HOOK_MASS_SCALER);
   (Aircraft_VerticalTail_MASS, Aircraft_HorizontalTail_TAPER_RATIO);
   (Aircraft_VerticalTail_MASS, Aircraft_HorizontalTail_VERTICAL_TAIL_MOUNT_LOCATION);
   (Aircraft_VerticalTail_MASS, Aircraft_VerticalTail_AREA);
   (Aircraft_VerticalTail_MASS, v_min_dive_vel);
   (Aircraft_VerticalTail_MASS, Aircraft_VerticalTail_MOMENT_ARM);
   (Aircraft_VerticalTail_MASS, Aircraft_VerticalTail_THICKNESS_TO_CHORD);
   (Aircraft_VerticalTail_MASS, Aircraft_VerticalTail_ROOT_CHORD)].
Proof. except_start; more_goals; tan_goal. Qed.
Print Assumptions C57_VerticalTailMass.
Example C57_witness_vtail_domain : let e := fun n => if String.eqb n v_min_dive_vel then 2 else if String.eqb n Aircraft_VerticalTail_SWEEP then 0 else 1 in
  positive [Aircraft_VerticalTail_TAPER_RATIO; Aircraft_VerticalTail_ASPECT_RATIO; Aircraft_VerticalTail_SPAN; Aircraft_Design_GROSS_MASS; Aircraft_HorizontalTail_MASS_COEFFICIENT; Aircraft_Fuselage_LENGTH; Aircraft_HorizontalTail_SPAN; Aircraft_LandingGear_TAIL_HOOK_MASS_SCALER; Aircraft_HorizontalTail_TAPER_RATIO; Aircraft_VerticalTail_MASS_COEFFICIENT; Aircraft_Wing_SPAN; Aircraft_HorizontalTail_AREA; Aircraft_HorizontalTail_MOMENT_ARM; Aircraft_HorizontalTail_THICKNESS_TO_CHORD; Aircraft_HorizontalTail_ROOT_CHORD; Aircraft_HorizontalTail_VERTICAL_TAIL_MOUNT_LOCATION; Aircraft_VerticalTail_AREA; Aircraft_VerticalTail_MOMENT_ARM; Aircraft_VerticalTail_THICKNESS_TO_CHORD; Aircraft_VerticalTail_ROOT_CHORD; Aircraft_VerticalTail_MASS_SCALER; Aircraft_HorizontalTail_MASS_SCALER] e /\ 1 < e v_min_dive_vel /\ cos (e Aircraft_VerticalTail_SWEEP) <> 0.
Proof. intro e. split; [cbn; lra|split; [cbn; lra|]]. cbn. rewrite cos_0. lra. Qed.

Lemma htail_scaled op e i :
  positive [Aircraft_Design_GROSS_MASS; Aircraft_HorizontalTail_MASS_COEFFICIENT; Aircraft_Fuselage_LENGTH; Aircraft_HorizontalTail_SPAN; Aircraft_LandingGear_TAIL_HOOK_MASS_SCALER; Aircraft_HorizontalTail_TAPER_RATIO; Aircraft_HorizontalTail_AREA; Aircraft_HorizontalTail_MOMENT_ARM; Aircraft_HorizontalTail_THICKNESS_TO_CHORD; Aircraft_HorizontalTail_ROOT_CHORD; Aircraft_HorizontalTail_MASS_SCALER] e /\ 1 < e v_min_dive_vel ->
  In i [Aircraft_Design_GROSS_MASS;
   Aircraft_HorizontalTail_MASS_COEFFICIENT;
   Aircraft_Fuselage_LENGTH;
   Aircraft_HorizontalTail_SPAN;
   Aircraft_LandingGear_TAIL_HOOK_MASS_SCALER;
   Aircraft_HorizontalTail_TAPER_RATIO;
   Aircraft_HorizontalTail_AREA;
   v_min_dive_vel;
   Aircraft_HorizontalTail_MOMENT_ARM;
   Aircraft_HorizontalTail_THICKNESS_TO_CHORD;
   Aircraft_HorizontalTail_ROOT_CHORD] ->
  is_derive (fun t => out (HorizontalTailMass op) (upd e i t) Aircraft_HorizontalTail_MASS) (e i) (e Aircraft_HorizontalTail_MASS_SCALER * jac (HorizontalTailMass op) e Aircraft_HorizontalTail_MASS i).
Proof. intros D Hi. split_in Hi; subst i; more_goals. Qed.
(** compute multiplies the mass by the scaler (L639), compute_partials does not (L727-L851): the partials are exact only for scaler 1. *)
Theorem C57_htail_scaler op e i :
  positive [Aircraft_Design_GROSS_MASS; Aircraft_HorizontalTail_MASS_COEFFICIENT; Aircraft_Fuselage_LENGTH; Aircraft_HorizontalTail_SPAN; Aircraft_LandingGear_TAIL_HOOK_MASS_SCALER; Aircraft_HorizontalTail_TAPER_RATIO; Aircraft_HorizontalTail_AREA; Aircraft_HorizontalTail_MOMENT_ARM; Aircraft_HorizontalTail_THICKNESS_TO_CHORD; Aircraft_HorizontalTail_ROOT_CHORD; Aircraft_HorizontalTail_MASS_SCALER] e /\ 1 < e v_min_dive_vel ->
  In i [Aircraft_Design_GROSS_MASS;
   Aircraft_HorizontalTail_MASS_COEFFICIENT;
   Aircraft_Fuselage_LENGTH;
   Aircraft_HorizontalTail_SPAN;
   Aircraft_LandingGear_TAIL_HOOK_MASS_SCALER;
   Aircraft_HorizontalTail_TAPER_RATIO;
   Aircraft_HorizontalTail_AREA;
   v_min_dive_vel;
   Aircraft_HorizontalTail_MOMENT_ARM;
   Aircraft_HorizontalTail_THICKNESS_TO_CHORD;
   Aircraft_HorizontalTail_ROOT_CHORD] ->
  (exact_at (HorizontalTailMass op) e Aircraft_HorizontalTail_MASS i <-> e Aircraft_HorizontalTail_MASS_SCALER = 1 \/ jac (HorizontalTailMass op) e Aircraft_HorizontalTail_MASS i = 0).
Proof. intros D Hi. exact (scaled_iff _ _ _ _ _ (htail_scaled op e i D Hi)). Qed.
Print Assumptions C57_htail_scaler.

Lemma vtail_scaled op e i :
  positive [Aircraft_VerticalTail_TAPER_RATIO; Aircraft_VerticalTail_ASPECT_RATIO; Aircraft_VerticalTail_SPAN; Aircraft_Design_GROSS_MASS; Aircraft_HorizontalTail_MASS_COEFFICIENT; Aircraft_Fuselage_LENGTH; Aircraft_HorizontalTail_SPAN; Aircraft_LandingGear_TAIL_HOOK_MASS_SCALER; Aircraft_HorizontalTail_TAPER_RATIO; Aircraft_VerticalTail_MASS_COEFFICIENT; Aircraft_Wing_SPAN; Aircraft_HorizontalTail_AREA; Aircraft_HorizontalTail_MOMENT_ARM; Aircraft_HorizontalTail_THICKNESS_TO_CHORD; Aircraft_HorizontalTail_ROOT_CHORD; Aircraft_HorizontalTail_VERTICAL_TAIL_MOUNT_LOCATION; Aircraft_VerticalTail_AREA; Aircraft_VerticalTail_MOMENT_ARM; Aircraft_VerticalTail_THICKNESS_TO_CHORD; Aircraft_VerticalTail_ROOT_CHORD; Aircraft_VerticalTail_MASS_SCALER; Aircraft_HorizontalTail_MASS_SCALER] e /\ 1 < e v_min_dive_vel /\ cos (e Aircraft_VerticalTail_SWEEP) <> 0 ->
  In i [Aircraft_Design_GROSS_MASS;
   Aircraft_VerticalTail_MASS_COEFFICIENT;
   Aircraft_Fuselage_LENGTH;
   Aircraft_Wing_SPAN;
   Aircraft_VerticalTail_SPAN;
   Aircraft_VerticalTail_TAPER_RATIO;
   Aircraft_HorizontalTail_MASS_COEFFICIENT;
   Aircraft_HorizontalTail_SPAN;
   Aircraft_LandingGear_TAIL_HOOK_MASS_SCALER;
   Aircraft_HorizontalTail_TAPER_RATIO;
   Aircraft_HorizontalTail_VERTICAL_TAIL_MOUNT_LOCATION;
   Aircraft_VerticalTail_AREA;
   v_min_dive_vel;
   Aircraft_VerticalTail_MOMENT_ARM;
   Aircraft_VerticalTail_THICKNESS_TO_CHORD;
   Aircraft_VerticalTail_ROOT_CHORD] ->
  is_derive (fun t => out (VerticalTailMass op) (upd e i t) Aircraft_VerticalTail_MASS) (e i) (e Aircraft_VerticalTail_MASS_SCALER * jac (VerticalTailMass op) e Aircraft_VerticalTail_MASS i).
Proof. intros D Hi. split_in Hi; subst i; more_goals. Qed.
(** The same for the vertical tail (L997, L1197-L1327). *)
Theorem C57_vtail_scaler op e i :
  positive [Aircraft_VerticalTail_TAPER_RATIO; Aircraft_VerticalTail_ASPECT_RATIO; Aircraft_VerticalTail_SPAN; Aircraft_Design_GROSS_MASS; Aircraft_HorizontalTail_MASS_COEFFICIENT; Aircraft_Fuselage_LENGTH; Aircraft_HorizontalTail_SPAN; Aircraft_LandingGear_TAIL_HOOK_MASS_SCALER; Aircraft_HorizontalTail_TAPER_RATIO; Aircraft_VerticalTail_MASS_COEFFICIENT; Aircraft_Wing_SPAN; Aircraft_HorizontalTail_AREA; Aircraft_HorizontalTail_MOMENT_ARM; Aircraft_HorizontalTail_THICKNESS_TO_CHORD; Aircraft_HorizontalTail_ROOT_CHORD; Aircraft_HorizontalTail_VERTICAL_TAIL_MOUNT_LOCATION; Aircraft_VerticalTail_AREA; Aircraft_VerticalTail_MOMENT_ARM; Aircraft_VerticalTail_THICKNESS_TO_CHORD; Aircraft_VerticalTail_ROOT_CHORD; Aircraft_VerticalTail_MASS_SCALER; Aircraft_HorizontalTail_MASS_SCALER] e /\ 1 < e v_min_dive_vel /\ cos (e Aircraft_VerticalTail_SWEEP) <> 0 ->
  In i [Aircraft_Design_GROSS_MASS;
   Aircraft_VerticalTail_MASS_COEFFICIENT;
   Aircraft_Fuselage_LENGTH;
   Aircraft_Wing_SPAN;
   Aircraft_VerticalTail_SPAN;
   Aircraft_VerticalTail_TAPER_RATIO;
   Aircraft_HorizontalTail_MASS_COEFFICIENT;
   Aircraft_HorizontalTail_SPAN;
   Aircraft_LandingGear_TAIL_HOOK_MASS_SCALER;
   Aircraft_HorizontalTail_TAPER_RATIO;
   Aircraft_HorizontalTail_VERTICAL_TAIL_MOUNT_LOCATION;
   Aircraft_VerticalTail_AREA;
   v_min_dive_vel;
   Aircraft_VerticalTail_MOMENT_ARM;
   Aircraft_VerticalTail_THICKNESS_TO_CHORD;
   Aircraft_VerticalTail_ROOT_CHORD] ->
  (exact_at (VerticalTailMass op) e Aircraft_VerticalTail_MASS i <-> e Aircraft_VerticalTail_MASS_SCALER = 1 \/ jac (VerticalTailMass op) e Aircraft_VerticalTail_MASS i = 0).
Proof. intros D Hi. exact (scaled_iff _ _ _ _ _ (vtail_scaled op e i D Hi)). Qed.
Print Assumptions C57_vtail_scaler.
