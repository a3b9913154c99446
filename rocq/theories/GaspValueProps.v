(** Values and orders of the GASP based masses: claims C56 and C57. *)
From Coq Require Import Reals Lra Lia.
From Coquelicot Require Import Coquelicot.
From Verif Require Import Base Calc MathModel MathProofs Comp CompMore CompFun GaspSysModel GaspStructModel.
Local Open Scope R_scope.

(** Options with [n] passengers (and [n] for every other number), no smoothing. *)
Definition seats (n : R) : options := {| on := fun _ => n; ob := fun _ => false; oe := fun _ => ""%string |}.
Definition turbojet : options := {| on := fun _ => 2; ob := fun _ => false; oe := fun _ => "TURBOJET"%string |}.
(** An environment with the listed values and 1 elsewhere. *)
Definition given (l : list (string * R)) : env := fun n => fold_right (fun p r => if String.eqb n (fst p) then snd p else r) 1 l.
Ltac given_start := red_comp; cbv [given seats turbojet fold_right fst snd String.eqb Ascii.eqb Bool.eqb on ob oe unit_options].
Ltac decide_one := match goal with
  | |- context [ltb ?a ?b] => first [rewrite (ltb_intro_false a b) by lra | rewrite (ltb_intro a b) by lra]
  | |- context [leb ?a ?b] => first [rewrite (leb_intro_false a b) by lra | rewrite (leb_intro a b) by lra] end.
Ltac given_value := given_start; repeat decide_one; try lra; try (field; lra).

(** The main gear and the nose gear together are the landing gear. *)
Theorem C56_gear_split op e :
  out (LandingGearMass op) e Aircraft_LandingGear_MAIN_GEAR_MASS + out (LandingGearMass op) e Aircraft_LandingGear_NOSE_GEAR_MASS = e Aircraft_LandingGear_TOTAL_MASS.
Proof. red_comp. ring. Qed.
Print Assumptions C56_gear_split.
Example C56_witness_gear_split : out (LandingGearMass unit_options) (given [(Aircraft_LandingGear_MAIN_GEAR_MASS_FRACTION, 3 / 4); (Aircraft_LandingGear_TOTAL_MASS, 8)]) Aircraft_LandingGear_NOSE_GEAR_MASS = 2.
Proof. given_value. Qed.

(** More passengers never need less emergency equipment, oxygen or service. *)
Theorem C56_emergency_monotone n m e : n <= m ->
  out (EmergencyEquipment (seats n)) e Aircraft_Design_EMERGENCY_EQUIPMENT_MASS <= out (EmergencyEquipment (seats m)) e Aircraft_Design_EMERGENCY_EQUIPMENT_MASS.
Proof. intro L. red_comp. cbv [seats on ob oe]. branches; lra. Qed.
Print Assumptions C56_emergency_monotone.
Example C56_witness_emergency : out (EmergencyEquipment (seats 150)) (fun _ => 1) Aircraft_Design_EMERGENCY_EQUIPMENT_MASS = 90.
Proof. given_value. Qed.

Theorem C56_oxygen_monotone n m e : n <= m ->
  out (OxygenSystemMass (seats n)) e Aircraft_OxygenSystem_MASS <= out (OxygenSystemMass (seats m)) e Aircraft_OxygenSystem_MASS.
Proof. intro L. red_comp. cbv [seats on ob oe]. branches; lra. Qed.
Print Assumptions C56_oxygen_monotone.
Example C56_witness_oxygen : out (OxygenSystemMass (seats 150)) (fun _ => 1) Aircraft_OxygenSystem_MASS = 50.
Proof. given_value. Qed.
Example C56_witness_oxygen_small : out (OxygenSystemMass (seats 4)) (fun _ => 3001) Aircraft_OxygenSystem_MASS = 3.
Proof. given_value. Qed.

Theorem C56_service_monotone n m e : 0 <= n <= m ->
  0 <= e Aircraft_CrewPayload_PASSENGER_SERVICE_MASS_PER_PASSENGER -> 0 <= e Aircraft_CrewPayload_WATER_MASS_PER_OCCUPANT -> 0 <= e Aircraft_CrewPayload_CATERING_ITEMS_MASS_PER_PASSENGER ->
  out (PassengerServiceMass (seats n)) e Aircraft_CrewPayload_PASSENGER_SERVICE_MASS <= out (PassengerServiceMass (seats m)) e Aircraft_CrewPayload_PASSENGER_SERVICE_MASS.
Proof.
  intros L A B C. red_comp_in A. red_comp_in B. red_comp_in C. red_comp. cbv [seats on ob oe].
  repeat match type of A with 0 <= ?a => generalize dependent a end; intros.
  repeat match type of B with 0 <= ?a => generalize dependent a end; intros.
  repeat match type of C with 0 <= ?a => generalize dependent a end; intros.
  assert (0 <= r * n <= r * m) by nra. assert (0 <= r0 * n <= r0 * m) by nra. assert (0 <= r1 * n <= r1 * m) by nra.
  branches; lra.
Qed.
Print Assumptions C56_service_monotone.
Example C56_witness_service : out (PassengerServiceMass (seats 150)) (fun _ => 1) Aircraft_CrewPayload_PASSENGER_SERVICE_MASS = 498.
Proof. given_value. Qed.

(** The cabin crew mass falls from 39 to 40 passengers: the bags weigh 10 per attendant and 25 below 40 seats, 20 per attendant from there on (crew.py L58-61). *)
Theorem C56_cabin_crew_refuted : exists n m e, n < m /\
  out (CabinCrewMass (seats m)) e Aircraft_CrewPayload_CABIN_CREW_MASS < out (CabinCrewMass (seats n)) e Aircraft_CrewPayload_CABIN_CREW_MASS.
Proof. exists 39, 40, (fun _ => 1). split; [lra|]. given_value. Qed.
Print Assumptions C56_cabin_crew_refuted.
(** On either side of 40 it never falls. *)
Theorem C56_cabin_crew_monotone n m e : n <= m -> (m < 40 \/ 40 <= n) -> 0 <= e Aircraft_CrewPayload_WATER_MASS_PER_OCCUPANT ->
  out (CabinCrewMass (seats n)) e Aircraft_CrewPayload_CABIN_CREW_MASS <= out (CabinCrewMass (seats m)) e Aircraft_CrewPayload_CABIN_CREW_MASS.
Proof. intros L S W. red_comp_in W. red_comp. cbv [seats on ob oe]. destruct S; branches; lra. Qed.
Print Assumptions C56_cabin_crew_monotone.
Example C56_witness_cabin_crew : out (CabinCrewMass (seats 150)) (fun _ => 1) Aircraft_CrewPayload_CABIN_CREW_MASS = 594.
Proof. given_value. Qed.

Example C56_witness_apu : out (APUMass (seats 100)) (fun _ => 1) Aircraft_APU_MASS = 262 / 10 * pw (944 / 1000) 100 - 1360.
Proof. given_value. Qed.
Example C56_witness_cockpit_control : out (MiscControlMass unit_options) (given [(Aircraft_Design_GROSS_MASS, 1000); (Aircraft_Design_COCKPIT_CONTROL_MASS_COEFFICIENT, 3)]) Aircraft_Controls_COCKPIT_CONTROL_MASS = 3.
Proof. given_start. replace (1000 * 1 / 1000) with 1 by field. rewrite pw_1. field. Qed.
Example C56_witness_surface_control : out (SurfaceControlMass unit_options) (given [(Aircraft_Design_GROSS_MASS, 1000); (Aircraft_Wing_SURFACE_CONTROL_MASS_COEFFICIENT, 3); (v_min_dive_vel, sqrt 391 / (115 / 100))]) Aircraft_Wing_SURFACE_CONTROL_MASS = 2.
Proof.
  given_start. replace (1000 * 1 / 1000) with 1 by field.
  replace ((115 / 100 * (sqrt 391 / (115 / 100))) ^ 2 / 391) with 1.
  2: { replace (115 / 100 * (sqrt 391 / (115 / 100))) with (sqrt 391) by field. rewrite pow2_sqrt by lra. field. }
  rewrite !pw_1. field.
Qed.
Example C56_witness_engine_oil : out (EngineOilMass turbojet) (fun _ => 10000) Aircraft_Propulsion_TOTAL_ENGINE_OIL_MASS = 132.
Proof. given_start. cbn. field. Qed.
Example C56_witness_anti_icing : out (AntiIcingMass unit_options) (given [(Aircraft_Wing_AREA, 398)]) Aircraft_AntiIcing_MASS = 69.
Proof.
  given_start. replace (398 + 1 + 1) with (20 ^ 2) by ring. rewrite (pw_Rpower (5 / 10)) by lra.
  replace (Rpower (20 ^ 2) (5 / 10)) with 20; [repeat decide_one; field|].
  replace (5 / 10) with (/ 2) by field. rewrite Rpower_sqrt by lra. symmetry. apply sqrt_pow2. lra.
Qed.

Example C57_witness_vtail_chord : out (VerticalTailMass unit_options) (fun _ => 1) v_loc_MAC_vtail = tan 1 / 2.
Proof. given_start. field. Qed.
Example C57_witness_pylon_mass : out (TotalEngineMass unit_options) (given [(Aircraft_Engine_MASS_SPECIFIC, 1 / 2); (Aircraft_Nacelle_MASS_SPECIFIC, 1 / 2); (Aircraft_Engine_PYLON_FACTOR, 3)]) v_pylon_mass = 3.
Proof. given_start. replace (1 / 2 * 1 * 1 + 1 * (1 / 2 * 1) * 1) with 1 by field. rewrite pw_1. field. Qed.
Example C57_witness_half_sweep : out (MassParameters unit_options) (given [(Aircraft_Wing_SWEEP, 0)]) v_half_sweep = 0.
Proof. given_start. rewrite tan_0. replace (0 - (1 - 1) / (1 + 1) / 1) with 0 by field. apply atan_0. Qed.
Example C57_witness_half_sweep_taper : out (MassParameters unit_options) (given [(Aircraft_Wing_SWEEP, 0); (Aircraft_Wing_TAPER_RATIO, 0)]) v_half_sweep = - (PI / 4).
Proof. given_start. rewrite tan_0. replace (0 - (1 - 0) / (1 + 0) / 1) with (- (1)) by field. rewrite atan_opp, atan_1. reflexivity. Qed.
Example C57_witness_material : out (MassParameters unit_options) (given [(Aircraft_Wing_SWEEP, 0)]) Aircraft_Wing_MATERIAL_FACTOR = 7 / 2.
Proof. given_start. rewrite tan_0. replace (0 - (1 - 1) / (1 + 1) / 1) with 0 by field. rewrite atan_0, cos_0. replace (1 / 1) with 1 by field. rewrite pw_1. field. Qed.
