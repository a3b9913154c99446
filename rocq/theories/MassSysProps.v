(** C46, C50 and C51 for the FLOPS system and equipment masses. *)
From Coq Require Import Reals Lra.
From Coquelicot Require Import Coquelicot.
From Verif Require Import Base Calc MathModel MathProofs Comp MassDistModel MassDistProofs MassSysModel.
Open Scope list_scope.
Open Scope string_scope.
Local Open Scope R_scope.

Theorem C46_TransportAirCondMass op : exact_partials (TransportAirCondMass op) (positive
  [Aircraft_Fuselage_MAX_HEIGHT; Aircraft_Fuselage_PLANFORM_AREA]).
Proof. exact_solve. Qed.
Print Assumptions C46_TransportAirCondMass.
Example C46_witness_TransportAirCondMass : out (TransportAirCondMass unit_options) (fun _ => 1)
  Aircraft_AirConditioning_MASS = 491 / 40.
Proof. unit_value. Qed.

Theorem C46_AltAirCondMass op : exact_partials (AltAirCondMass op) everywhere.
Proof. exact_solve. Qed.
Print Assumptions C46_AltAirCondMass.
Example C46_witness_AltAirCondMass : out (AltAirCondMass unit_options) (fun _ => 1) Aircraft_AirConditioning_MASS =
  26.
Proof. unit_value. Qed.

Theorem C46_TransportAPUMass op : exact_partials (TransportAPUMass op) (positive
  [Aircraft_Fuselage_PLANFORM_AREA]).
Proof. exact_solve. Qed.
Print Assumptions C46_TransportAPUMass.
Example C46_witness_TransportAPUMass : out (TransportAPUMass unit_options) (fun _ => 1) Aircraft_APU_MASS = 297 /
  5.
Proof. unit_value. Qed.

Theorem C46_TransportAvionicsMass op : exact_partials (TransportAvionicsMass op) (positive
  [Aircraft_Fuselage_PLANFORM_AREA; Aircraft_Design_RANGE]).
Proof. exact_solve. Qed.
Print Assumptions C46_TransportAvionicsMass.
Example C46_witness_TransportAvionicsMass : out (TransportAvionicsMass unit_options) (fun _ => 1)
  Aircraft_Avionics_MASS = 79 / 5.
Proof. unit_value. Qed.

Theorem C46_ElectricalMass op : exact_partials (ElectricalMass op) (positive [Aircraft_Fuselage_LENGTH;
  Aircraft_Fuselage_MAX_WIDTH]).
Proof. exact_solve. Qed.
Print Assumptions C46_ElectricalMass.
Example C46_witness_ElectricalMass : out (ElectricalMass unit_options) (fun _ => 1) Aircraft_Electrical_MASS =
  48093 / 500.
Proof. unit_value. Qed.

Theorem C46_AltElectricalMass op : exact_partials (AltElectricalMass op) everywhere.
Proof. exact_solve. Qed.
Print Assumptions C46_AltElectricalMass.
Example C46_witness_AltElectricalMass : out (AltElectricalMass unit_options) (fun _ => 1) Aircraft_Electrical_MASS
  = 163 / 10.
Proof. unit_value. Qed.

Theorem C46_TransportHydraulicsGroupMass op : positive [Mission_Constraints_MAX_MACH] (on op) ->
  exact_except (TransportHydraulicsGroupMass op) (positive [Aircraft_Hydraulics_SYSTEM_PRESSURE])
    [(Aircraft_Hydraulics_MASS, Aircraft_Hydraulics_SYSTEM_PRESSURE)].
Proof. intros Dop. except_solve. Qed.
Print Assumptions C46_TransportHydraulicsGroupMass.

(** The partial with respect to the system pressure holds 0.57 * 0.35 * 3000 ** 0.35 as a 16 digit number. *)
Lemma hyd_const : Rabs (3288026727706387 / 1000000000000000 - 1995 / 10000 * pw (35 / 100) 3000)
  <= 1 / 10000000000000000 * (1995 / 10000 * pw (35 / 100) 3000).
Proof.
  pose (lo := 3288026727706387 / 1000000000000000 / (1995 / 10000) ).
  assert (L : lo <= pw (35 / 100) 3000).
  { apply (pw_above 7 19); [rewrite !INR_IZR_INZ; cbn -[IZR]; lra|lra|unfold lo; lra|]. unfold lo. lra. }
  assert (U : pw (35 / 100) 3000 <= lo * (1 + 9 / 100000000000000000)).
  { apply (pw_below 7 19); [rewrite !INR_IZR_INZ; cbn -[IZR]; lra|lra|unfold lo; lra|]. unfold lo. lra. }
  unfold lo in *. apply Rabs_le. lra.
Qed.

Theorem C46_hydraulics_pressure op e : positive [Mission_Constraints_MAX_MACH] (on op) ->
  0 < e Aircraft_Hydraulics_SYSTEM_PRESSURE ->
  exact_within (TransportHydraulicsGroupMass op) e Aircraft_Hydraulics_MASS Aircraft_Hydraulics_SYSTEM_PRESSURE
    (1 / 10000000000000000).
Proof.
  intros Dop P. eexists. split.
  - red_comp. eapply (is_derive_near _ _ _ _ (fun t => 0 < t)).
    + apply locally_gt, P.
    + intros y Hy. branches; decided. reflexivity.
    + auto_derive; [derive_side|reflexivity].
  - red_comp. red_comp_in P. red_comp_in Dop. branches; decided. facts. numbers e. intros. numbers (on op); intros.
    match goal with |- Rabs (?a - ?b) <= _ => set (X := a); set (Y := b) end.
    pose (G := (r1 + 27 / 100 * r2) * (1 + 3 / 100 * r + 5 / 100 * r0) * r3 ** (-135 / 100) *
               (1 + 4 / 100 * r4) * r6 ** (33 / 100) * r5).
    assert (EX : X = - (3288026727706387 / 1000000000000000) * G) by (unfold X, G; field).
    assert (EY : Y = - (1995 / 10000 * pw (35 / 100) 3000) * G) by (unfold Y, G; minus_div; pw_norm; field; repeat split; nonzero).
    rewrite EX, EY. pose proof hyd_const as K. assert (KP : 0 < 1995 / 10000 * pw (35 / 100) 3000) by pos.
    set (K0 := 1995 / 10000 * pw (35 / 100) 3000) in *.
    replace (_ - _) with ((3288026727706387 / 1000000000000000 - K0) * - G) by ring.
    set (K1 := 3288026727706387 / 1000000000000000 - K0) in *.
    rewrite !Rabs_mult, !Rabs_Ropp, (Rabs_pos_eq K0) by lra.
    pose proof (Rabs_pos G) as GP. nra.
Qed.
Print Assumptions C46_hydraulics_pressure.
Example C46_witness_TransportHydraulicsGroupMass :
  out (TransportHydraulicsGroupMass unit_options) (upd (fun _ => 1) Aircraft_Hydraulics_SYSTEM_PRESSURE 3000)
    Aircraft_Hydraulics_MASS = 81308448 / 100000000.
Proof.
  red_comp; cbv [on ob oe unit_options]; unit_facts; branches; decided.
  replace (3000 / 3000) with 1 by field. pw_products. lra.
Qed.

Theorem C46_AltHydraulicsGroupMass op : exact_partials (AltHydraulicsGroupMass op) (positive
  [Aircraft_HorizontalTail_THICKNESS_TO_CHORD]).
Proof. exact_solve. Qed.
Print Assumptions C46_AltHydraulicsGroupMass.
Example C46_witness_AltHydraulicsGroupMass : out (AltHydraulicsGroupMass unit_options) (fun _ => 1)
  Aircraft_Hydraulics_MASS = 1099267171 / 596750000.
Proof. unit_value. Qed.

Theorem C46_TransportInstrumentMass op : exact_partials (TransportInstrumentMass op) (positive
  [Aircraft_Fuselage_PLANFORM_AREA]).
Proof. exact_solve. Qed.
Print Assumptions C46_TransportInstrumentMass.
Example C46_witness_TransportInstrumentMass : out (TransportInstrumentMass unit_options) (fun _ => 1)
  Aircraft_Instruments_MASS = 36 / 5.
Proof. unit_value. Qed.

Theorem C46_TransportFurnishingsGroupMass op : exact_partials (TransportFurnishingsGroupMass op) everywhere.
Proof. exact_solve. Qed.
Print Assumptions C46_TransportFurnishingsGroupMass.
Example C46_witness_TransportFurnishingsGroupMass : out (TransportFurnishingsGroupMass unit_options) (fun _ => 1)
  Aircraft_Furnishings_MASS = 1831 / 5.
Proof. unit_value. Qed.

Theorem C46_BWBFurnishingsGroupMass op : exact_partials (BWBFurnishingsGroupMass op)
  (fun e => positive [Aircraft_Fuselage_MAX_WIDTH] e /\
            cos (e Aircraft_BWB_PASSENGER_LEADING_EDGE_SWEEP * PI / 180) <> 0).
Proof. exact_solve. Qed.
Print Assumptions C46_BWBFurnishingsGroupMass.
Example C46_witness_BWBFurnishingsGroupMass :
  out (BWBFurnishingsGroupMass unit_options) (upd (fun _ => 1) Aircraft_BWB_PASSENGER_LEADING_EDGE_SWEEP 0)
    Aircraft_Furnishings_MASS = 3714 / 10.
Proof.
  red_comp; cbv [on ob oe unit_options]; branches; decided. replace (PI / 180 * 0) with 0 by ring. rewrite cos_0. lra.
Qed.

Theorem C46_AltFurnishingsGroupMassBase op : exact_partials (AltFurnishingsGroupMassBase op) everywhere.
Proof. exact_solve. Qed.
Print Assumptions C46_AltFurnishingsGroupMassBase.
Example C46_witness_AltFurnishingsGroupMassBase : out (AltFurnishingsGroupMassBase unit_options) (fun _ => 1)
  Aircraft_Furnishings_MASS_BASE = 73643 / 20.
Proof. unit_value. Qed.

Theorem C46_AltFurnishingsGroupMass op : exact_partials (AltFurnishingsGroupMass op) everywhere.
Proof. exact_solve. Qed.
Print Assumptions C46_AltFurnishingsGroupMass.
Example C46_witness_AltFurnishingsGroupMass : out (AltFurnishingsGroupMass unit_options) (fun _ => 1)
  Aircraft_Furnishings_MASS = 103 / 100.
Proof. unit_value. Qed.

Theorem C46_SurfaceControlMass op : exact_partials (SurfaceControlMass op) (positive [Aircraft_Design_GROSS_MASS;
  Aircraft_Wing_CONTROL_SURFACE_AREA_RATIO; Aircraft_Wing_AREA]).
Proof. exact_solve. Qed.
Print Assumptions C46_SurfaceControlMass.
Example C46_witness_SurfaceControlMass_Wing_SURFACE_CONTROL_MASS : out (SurfaceControlMass unit_options) (fun _ =>
  1) Aircraft_Wing_SURFACE_CONTROL_MASS = 11 / 10.
Proof. unit_value. Qed.
Example C46_witness_SurfaceControlMass_Wing_CONTROL_SURFACE_AREA : out (SurfaceControlMass unit_options) (fun _ =>
  1) Aircraft_Wing_CONTROL_SURFACE_AREA = 1.
Proof. unit_value. Qed.

Theorem C46_AltSurfaceControlMass op : exact_partials (AltSurfaceControlMass op) (positive
  [Aircraft_HorizontalTail_THICKNESS_TO_CHORD]).
Proof. exact_solve. Qed.
Print Assumptions C46_AltSurfaceControlMass.
Example C46_witness_AltSurfaceControlMass_Wing_CONTROL_SURFACE_AREA : out (AltSurfaceControlMass unit_options) (fun
  _ => 1) Aircraft_Wing_CONTROL_SURFACE_AREA = 1.
Proof. unit_value. Qed.
Example C46_witness_AltSurfaceControlMass_Wing_SURFACE_CONTROL_MASS : out (AltSurfaceControlMass unit_options) (fun
  _ => 1) Aircraft_Wing_SURFACE_CONTROL_MASS = 115444233 / 238700.
Proof. unit_value. Qed.

Theorem C50_MassSys op : Forall (fun '(c, o, i) => proportional c o i)
  [(TransportAirCondMass op, Aircraft_AirConditioning_MASS,
     Aircraft_AirConditioning_MASS_SCALER);
   (AltAirCondMass op, Aircraft_AirConditioning_MASS,
     Aircraft_AirConditioning_MASS_SCALER);
   (TransportAPUMass op, Aircraft_APU_MASS,
     Aircraft_APU_MASS_SCALER);
   (TransportAvionicsMass op, Aircraft_Avionics_MASS,
     Aircraft_Avionics_MASS_SCALER);
   (ElectricalMass op, Aircraft_Electrical_MASS,
     Aircraft_Electrical_MASS_SCALER);
   (AltElectricalMass op, Aircraft_Electrical_MASS,
     Aircraft_Electrical_MASS_SCALER);
   (TransportHydraulicsGroupMass op, Aircraft_Hydraulics_MASS,
     Aircraft_Hydraulics_MASS_SCALER);
   (AltHydraulicsGroupMass op, Aircraft_Hydraulics_MASS,
     Aircraft_Hydraulics_MASS_SCALER);
   (TransportInstrumentMass op, Aircraft_Instruments_MASS,
     Aircraft_Instruments_MASS_SCALER);
   (TransportFurnishingsGroupMass op, Aircraft_Furnishings_MASS,
     Aircraft_Furnishings_MASS_SCALER);
   (BWBFurnishingsGroupMass op, Aircraft_Furnishings_MASS,
     Aircraft_Furnishings_MASS_SCALER);
   (AltFurnishingsGroupMassBase op, Aircraft_Furnishings_MASS_BASE,
     Aircraft_Furnishings_MASS_SCALER);
   (SurfaceControlMass op, Aircraft_Wing_SURFACE_CONTROL_MASS,
     Aircraft_Wing_SURFACE_CONTROL_MASS_SCALER);
   (AltSurfaceControlMass op, Aircraft_Wing_SURFACE_CONTROL_MASS,
     Aircraft_Wing_SURFACE_CONTROL_MASS_SCALER)].
Proof. repeat apply Forall_cons; try apply Forall_nil. all: proportional_solve. Qed.
Print Assumptions C50_MassSys.

Theorem C51_MassSys op : positive [Aircraft_CrewPayload_Design_NUM_BUSINESS_CLASS; Aircraft_CrewPayload_Design_NUM_ECONOMY_CLASS; Aircraft_CrewPayload_Design_NUM_FIRST_CLASS; Aircraft_CrewPayload_Design_NUM_PASSENGERS; Aircraft_CrewPayload_NUM_FLIGHT_CREW; Aircraft_Fuselage_NUM_FUSELAGES; Aircraft_Propulsion_TOTAL_NUM_ENGINES; Aircraft_Propulsion_TOTAL_NUM_FUSELAGE_ENGINES; Aircraft_Propulsion_TOTAL_NUM_WING_ENGINES; Mission_Constraints_MAX_MACH] (on op) ->
  Forall (fun '(c, o) => positive_output c o)
  [(TransportAirCondMass op, Aircraft_AirConditioning_MASS);
   (AltAirCondMass op, Aircraft_AirConditioning_MASS);
   (TransportAPUMass op, Aircraft_APU_MASS);
   (TransportAvionicsMass op, Aircraft_Avionics_MASS);
   (ElectricalMass op, Aircraft_Electrical_MASS);
   (AltElectricalMass op, Aircraft_Electrical_MASS);
   (TransportHydraulicsGroupMass op, Aircraft_Hydraulics_MASS);
   (AltHydraulicsGroupMass op, Aircraft_Hydraulics_MASS);
   (TransportInstrumentMass op, Aircraft_Instruments_MASS);
   (TransportFurnishingsGroupMass op, Aircraft_Furnishings_MASS);
   (AltFurnishingsGroupMassBase op, Aircraft_Furnishings_MASS_BASE);
   (AltFurnishingsGroupMass op, Aircraft_Furnishings_MASS);
   (SurfaceControlMass op, Aircraft_Wing_SURFACE_CONTROL_MASS);
   (SurfaceControlMass op, Aircraft_Wing_CONTROL_SURFACE_AREA);
   (AltSurfaceControlMass op, Aircraft_Wing_CONTROL_SURFACE_AREA);
   (AltSurfaceControlMass op, Aircraft_Wing_SURFACE_CONTROL_MASS)].
Proof. intros; repeat apply Forall_cons; try apply Forall_nil. all: positive_solve. Qed.
Print Assumptions C51_MassSys.

