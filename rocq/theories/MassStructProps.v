(** C48, C50 and C51 for the FLOPS airframe masses. *)
From Coq Require Import Reals Lra.
From Coquelicot Require Import Coquelicot.
From Verif Require Import Base Calc MathModel MathProofs Comp MassDistModel MassDistProofs MassStructModel.
Open Scope list_scope.
Open Scope string_scope.
Local Open Scope R_scope.

Theorem C48_CanardMass op : exact_partials (CanardMass op) (positive [Aircraft_Design_GROSS_MASS]).
Proof. exact_solve. Qed.
Print Assumptions C48_CanardMass.
Example C48_witness_CanardMass : out (CanardMass unit_options) (fun _ => 1) Aircraft_Canard_MASS = 159 / 200.
Proof. unit_value. Qed.

Theorem C48_FinMass op : exact_partials (FinMass op) (positive [Aircraft_Design_GROSS_MASS; Aircraft_Fins_AREA]).
Proof. exact_solve. Qed.
Print Assumptions C48_FinMass.
Example C48_witness_FinMass : out (FinMass unit_options) (fun _ => 1) Aircraft_Fins_MASS = 12 / 25.
Proof. unit_value. Qed.

Theorem C48_TransportFuselageMass op : exact_partials (TransportFuselageMass op) (positive
  [Aircraft_Fuselage_LENGTH; Aircraft_Fuselage_REF_DIAMETER]).
Proof. exact_solve. Qed.
Print Assumptions C48_TransportFuselageMass.
Example C48_witness_TransportFuselageMass : out (TransportFuselageMass unit_options) (fun _ => 1)
  Aircraft_Fuselage_MASS = 567 / 400.
Proof. unit_value. Qed.

Theorem C48_AltFuselageMass op : exact_partials (AltFuselageMass op) (positive [Aircraft_Fuselage_MAX_HEIGHT;
  Aircraft_Fuselage_MAX_WIDTH]).
Proof. exact_solve. Qed.
Print Assumptions C48_AltFuselageMass.
Example C48_witness_AltFuselageMass : out (AltFuselageMass unit_options) (fun _ => 1) Aircraft_Fuselage_MASS = 3939
  / 1000.
Proof. unit_value. Qed.

Theorem C48_BWBFuselageMass op : exact_partials (BWBFuselageMass op) (positive [Aircraft_Design_GROSS_MASS;
  Aircraft_Fuselage_CABIN_AREA]).
Proof. exact_solve. Qed.
Print Assumptions C48_BWBFuselageMass.
Example C48_witness_BWBFuselageMass : out (BWBFuselageMass unit_options) (fun _ => 1) Aircraft_Fuselage_MASS = 9 /
  5.
Proof. unit_value. Qed.

Theorem C48_HorizontalTailMass op : exact_partials (HorizontalTailMass op) (positive [Aircraft_Design_GROSS_MASS]).
Proof. exact_solve. Qed.
Print Assumptions C48_HorizontalTailMass.
Example C48_witness_HorizontalTailMass : out (HorizontalTailMass unit_options) (fun _ => 1)
  Aircraft_HorizontalTail_MASS = 159 / 200.
Proof. unit_value. Qed.

Theorem C48_AltHorizontalTailMass op : exact_partials (AltHorizontalTailMass op) everywhere.
Proof. exact_solve. Qed.
Print Assumptions C48_AltHorizontalTailMass.
Example C48_witness_AltHorizontalTailMass : out (AltHorizontalTailMass unit_options) (fun _ => 1)
  Aircraft_HorizontalTail_MASS = 27 / 5.
Proof. unit_value. Qed.

Theorem C48_VerticalTailMass op : exact_partials (VerticalTailMass op) (positive [Aircraft_VerticalTail_AREA;
  Aircraft_Design_GROSS_MASS]).
Proof. exact_solve. Qed.
Print Assumptions C48_VerticalTailMass.
Example C48_witness_VerticalTailMass : out (VerticalTailMass unit_options) (fun _ => 1) Aircraft_VerticalTail_MASS
  = 12 / 25.
Proof. unit_value. Qed.

Theorem C48_AltVerticalTailMass op : exact_partials (AltVerticalTailMass op) everywhere.
Proof. exact_solve. Qed.
Print Assumptions C48_AltVerticalTailMass.
Example C48_witness_AltVerticalTailMass : out (AltVerticalTailMass unit_options) (fun _ => 1)
  Aircraft_VerticalTail_MASS = 6.
Proof. unit_value. Qed.

Theorem C48_LandingGearTotalMass op : exact_partials (LandingGearTotalMass op) everywhere.
Proof. exact_solve. Qed.
Print Assumptions C48_LandingGearTotalMass.
Example C48_witness_LandingGearTotalMass : out (LandingGearTotalMass unit_options) (fun _ => 1)
  Aircraft_LandingGear_TOTAL_MASS = 2.
Proof. unit_value. Qed.

Theorem C48_MainGearMass op : exact_partials (MainGearMass op) (positive
  [Aircraft_LandingGear_MAIN_GEAR_OLEO_LENGTH; Aircraft_Design_TOUCHDOWN_MASS_MAX]).
Proof. exact_solve. Qed.
Print Assumptions C48_MainGearMass.
Example C48_witness_MainGearMass : out (MainGearMass unit_options) (fun _ => 1) Aircraft_LandingGear_MAIN_GEAR_MASS
  = 117 / 10000.
Proof. unit_value. Qed.

Theorem C48_NoseGearMass op : exact_partials (NoseGearMass op) (positive
  [Aircraft_LandingGear_NOSE_GEAR_OLEO_LENGTH; Aircraft_Design_TOUCHDOWN_MASS_MAX]).
Proof. exact_solve. Qed.
Print Assumptions C48_NoseGearMass.
Example C48_witness_NoseGearMass : out (NoseGearMass unit_options) (fun _ => 1) Aircraft_LandingGear_NOSE_GEAR_MASS
  = 6 / 125.
Proof. unit_value. Qed.

Theorem C48_AltLandingGearMass op : exact_partials (AltLandingGearMass op) everywhere.
Proof. exact_solve. Qed.
Print Assumptions C48_AltLandingGearMass.
Example C48_witness_AltLandingGearMass_LandingGear_MAIN_GEAR_MASS : out (AltLandingGearMass unit_options) (fun _ =>
  1) Aircraft_LandingGear_MAIN_GEAR_MASS = 51170821763 / 2000000000000.
Proof. unit_value. Qed.
Example C48_witness_AltLandingGearMass_LandingGear_NOSE_GEAR_MASS : out (AltLandingGearMass unit_options) (fun _ =>
  1) Aircraft_LandingGear_NOSE_GEAR_MASS = 9030145017 / 2000000000000.
Proof. unit_value. Qed.

Theorem C48_LandingTakeoffMassRatio op : exact_partials (LandingTakeoffMassRatio op) everywhere.
Proof. exact_solve. Qed.
Print Assumptions C48_LandingTakeoffMassRatio.
Example C48_witness_LandingTakeoffMassRatio :
  out (LandingTakeoffMassRatio unit_options) (fun _ => 1) Aircraft_Design_LANDING_TO_TAKEOFF_MASS_RATIO
    = 1 - 65 / 1000000.
Proof. red_comp. replace (-1000 * (1 - 1)) with 0 by ring. rewrite exp_0. lra. Qed.

Theorem C48_LandingMass op : exact_partials (LandingMass op) everywhere.
Proof. exact_solve. Qed.
Print Assumptions C48_LandingMass.
Example C48_witness_LandingMass : out (LandingMass unit_options) (fun _ => 1) Aircraft_Design_TOUCHDOWN_MASS_MAX =
  1.
Proof. unit_value. Qed.

Lemma vfact_pos v c : 0 <= v <= 1 -> 0 < c <= 1 -> 0 < 1 + v * (96 / 100 / c - 1).
Proof.
  intros V C. assert (96 / 100 <= 96 / 100 / c).
  { unfold Rdiv at 2. rewrite <- (Rmult_1_r (96 / 100)) at 1. apply Rmult_le_compat_l; [lra|].
    rewrite <- Rinv_1. apply Rinv_le_contravar; lra. }
  nra.
Qed.
(** Ranges with a positive denominator. *)
Definition wing_bending_range (e : env) : Prop :=
  positive [Aircraft_Wing_SPAN; Aircraft_Wing_BENDING_MATERIAL_FACTOR; Aircraft_Wing_ULTIMATE_LOAD_FACTOR; Aircraft_Wing_LOAD_FRACTION;
     Aircraft_Wing_SHEAR_CONTROL_MASS_SCALER; Aircraft_Wing_MISC_MASS_SCALER] e /\
  -90 < e Aircraft_Wing_SWEEP < 90 /\ 0 <= e Aircraft_Wing_VAR_SWEEP_MASS_PENALTY <= 1 /\
  e Aircraft_Wing_COMPOSITE_FRACTION <= 1 /\ e Aircraft_Wing_AEROELASTIC_TAILORING_FACTOR <= 1.

Lemma bending_outer (W : R -> R) g c a b s x dw : is_derive W x dw -> 0 < W x ->
  is_derive (fun t => ((g * 1 * c * W t + a + b) / (1 + W t) - a - b) * s / 1) x
    (s * (g * 1 * c * (1 / (1 + W x)) - (g * 1 * c * W x + a + b) * (1 / (1 + W x)) ^ 2) * dw / 1).
Proof.
  intros HW P. assert (E : ex_derive W x) by (exists dw; exact HW). 
  auto_derive; [repeat split; trivial; lra|]. assert (U : Derive (fun y : R => W y) x = dw) by (apply is_derive_unique; exact HW). rewrite U. field. lra.
Qed.

Theorem C48_WingBendingMass op : exact_partials (WingBendingMass op) wing_bending_range.
Proof.
  exact_start.
  all: match goal with
  | op : options |- is_derive (fun t => out ?c (upd ?e _ t) _) _ _ =>
      match goal with D : context [e] |- _ =>
        revert D; let l := eval hnf in (c_ins c) in table e l; intro D; red_comp_in D
      end end. 
  all: assert (CF : forall b : bool, 0 < if b then 5 / 10 else 1) by (intros []; lra).
  all: red_comp.
  all: conjuncts.
  all: match goal with |- context [if ?b then 5 / 10 else 1] => generalize (CF b); generalize (if b then 5 / 10 else 1); intros cayf CY end.
  all: match goal with H : -90 < ?s, H' : ?s < 90, V : 0 <= ?v, V' : ?v <= 1 |- _ =>
     let CP := fresh "CP" in
     assert (CP := cos_deg_pos s (conj H H')); assert (VP := vfact_pos v _ (conj V V') (conj CP (proj2 (COS_bound _)))) end.
  all: try (match goal with |- context [1 + (88 / 10 * ?a * ?b * ?c * ?d * ?ff * ?g * ?h * ?i * ?j * ?k)] => 
     let P := fresh "P" in assert (P : 0 < 88 / 10 * a * b * c * d * ff * g * h * i * j * k) by pos; revert P;
     generalize (88 / 10 * a * b * c * d * ff * g * h * i * j * k); intros end; lazymatch goal with |- context [(88 / 10)] => fail | |- _ => idtac end; derive_goal; (solve [pw_field])).
  all: (eapply is_derive_eq; [apply bending_outer; [auto_derive; [minus_div; derive_side|reflexivity]|pos]|]).
  all: repeat match goal with |- context [?a / ?b * 1] => replace (a / b * 1) with (a * 1 / b) by (unfold Rdiv; ring) end.
  all: match goal with |- ?s * ?A * ?x / 1 = ?s * ?A * ?y / 1 => replace x with y; [reflexivity|symmetry; solve [pw_field]] end.
Qed.
Print Assumptions C48_WingBendingMass.
Example C48_witness_WingBendingMass :
  out (WingBendingMass unit_options)
    (upd (upd (upd (fun _ => 1) Aircraft_Wing_SPAN (625 / 100)) Aircraft_Wing_SWEEP 0) Aircraft_Design_GROSS_MASS 3)
    Aircraft_Wing_BENDING_MATERIAL_MASS = 57024 / 1000057024.
Proof.
  red_comp; cbv [on ob oe unit_options]; branches; decided. replace (PI / 180 * 0) with 0 by ring. rewrite cos_0.
  replace (625 / 100 / (625 / 100)) with 1 by field. rewrite pw_1. lra.
Qed.

Theorem C48_WingShearControlMass op : exact_partials (WingShearControlMass op) (positive
  [Aircraft_Wing_CONTROL_SURFACE_AREA; Aircraft_Design_GROSS_MASS]).
Proof. exact_solve. Qed.
Print Assumptions C48_WingShearControlMass.
Example C48_witness_WingShearControlMass : out (WingShearControlMass unit_options) (fun _ => 1)
  Aircraft_Wing_SHEAR_CONTROL_MASS = 1411 / 2500.
Proof. unit_value. Qed.

Theorem C48_WingMiscMass op : exact_partials (WingMiscMass op) (positive [Aircraft_Wing_AREA]).
Proof. exact_solve. Qed.
Print Assumptions C48_WingMiscMass.
Example C48_witness_WingMiscMass : out (WingMiscMass unit_options) (fun _ => 1) Aircraft_Wing_MISC_MASS = 49 /
  2000.
Proof. unit_value. Qed.

Theorem C48_BWBWingMiscMass op : exact_partials (BWBWingMiscMass op) (positive [v_calculated_wing_area]).
Proof. exact_solve. Qed.
Print Assumptions C48_BWBWingMiscMass.
Example C48_witness_BWBWingMiscMass : out (BWBWingMiscMass unit_options) (fun _ => 1) Aircraft_Wing_MISC_MASS = 49
  / 2000.
Proof. unit_value. Qed.

Theorem C48_WingTotalMass op : exact_partials (WingTotalMass op) everywhere.
Proof. exact_solve. Qed.
Print Assumptions C48_WingTotalMass.
Example C48_witness_WingTotalMass : out (WingTotalMass unit_options) (fun _ => 1) Aircraft_Wing_MASS = 4.
Proof. unit_value. Qed.

Theorem C50_MassStruct op : Forall (fun '(c, o, i) => proportional c o i)
  [(CanardMass op, Aircraft_Canard_MASS,
     Aircraft_Canard_MASS_SCALER);
   (FinMass op, Aircraft_Fins_MASS,
     Aircraft_Fins_MASS_SCALER);
   (TransportFuselageMass op, Aircraft_Fuselage_MASS,
     Aircraft_Fuselage_MASS_SCALER);
   (AltFuselageMass op, Aircraft_Fuselage_MASS,
     Aircraft_Fuselage_MASS_SCALER);
   (BWBFuselageMass op, Aircraft_Fuselage_MASS,
     Aircraft_Fuselage_MASS_SCALER);
   (HorizontalTailMass op, Aircraft_HorizontalTail_MASS,
     Aircraft_HorizontalTail_MASS_SCALER);
   (AltHorizontalTailMass op, Aircraft_HorizontalTail_MASS,
     Aircraft_HorizontalTail_MASS_SCALER);
   (VerticalTailMass op, Aircraft_VerticalTail_MASS,
     Aircraft_VerticalTail_MASS_SCALER);
   (AltVerticalTailMass op, Aircraft_VerticalTail_MASS,
     Aircraft_VerticalTail_MASS_SCALER);
   (MainGearMass op, Aircraft_LandingGear_MAIN_GEAR_MASS,
     Aircraft_LandingGear_MAIN_GEAR_MASS_SCALER);
   (NoseGearMass op, Aircraft_LandingGear_NOSE_GEAR_MASS,
     Aircraft_LandingGear_NOSE_GEAR_MASS_SCALER);
   (AltLandingGearMass op, Aircraft_LandingGear_MAIN_GEAR_MASS,
     Aircraft_LandingGear_MAIN_GEAR_MASS_SCALER);
   (AltLandingGearMass op, Aircraft_LandingGear_NOSE_GEAR_MASS,
     Aircraft_LandingGear_NOSE_GEAR_MASS_SCALER);
   (WingBendingMass op, Aircraft_Wing_BENDING_MATERIAL_MASS,
     Aircraft_Wing_BENDING_MATERIAL_MASS_SCALER);
   (WingShearControlMass op, Aircraft_Wing_SHEAR_CONTROL_MASS,
     Aircraft_Wing_SHEAR_CONTROL_MASS_SCALER);
   (WingMiscMass op, Aircraft_Wing_MISC_MASS,
     Aircraft_Wing_MISC_MASS_SCALER);
   (BWBWingMiscMass op, Aircraft_Wing_MISC_MASS,
     Aircraft_Wing_MISC_MASS_SCALER);
   (WingTotalMass op, Aircraft_Wing_MASS,
     Aircraft_Wing_MASS_SCALER)].
Proof. repeat apply Forall_cons; try apply Forall_nil. all: proportional_solve. Qed.
Print Assumptions C50_MassStruct.

Theorem C51_MassStruct op : positive [Aircraft_Fins_NUM_FINS; Aircraft_Fuselage_NUM_FUSELAGES; Aircraft_Propulsion_TOTAL_NUM_FUSELAGE_ENGINES; Aircraft_VerticalTail_NUM_TAILS] (on op) ->
  Forall (fun '(c, o) => positive_output c o)
  [(CanardMass op, Aircraft_Canard_MASS);
   (FinMass op, Aircraft_Fins_MASS);
   (TransportFuselageMass op, Aircraft_Fuselage_MASS);
   (AltFuselageMass op, Aircraft_Fuselage_MASS);
   (BWBFuselageMass op, Aircraft_Fuselage_MASS);
   (AltHorizontalTailMass op, Aircraft_HorizontalTail_MASS);
   (VerticalTailMass op, Aircraft_VerticalTail_MASS);
   (AltVerticalTailMass op, Aircraft_VerticalTail_MASS);
   (LandingGearTotalMass op, Aircraft_LandingGear_TOTAL_MASS);
   (MainGearMass op, Aircraft_LandingGear_MAIN_GEAR_MASS);
   (NoseGearMass op, Aircraft_LandingGear_NOSE_GEAR_MASS);
   (AltLandingGearMass op, Aircraft_LandingGear_MAIN_GEAR_MASS);
   (AltLandingGearMass op, Aircraft_LandingGear_NOSE_GEAR_MASS);
   (LandingMass op, Aircraft_Design_TOUCHDOWN_MASS_MAX);
   (WingTotalMass op, Aircraft_Wing_MASS)].
Proof. intros; repeat apply Forall_cons; try apply Forall_nil. all: positive_solve. Qed.
Print Assumptions C51_MassStruct.

