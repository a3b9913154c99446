(** Model of the GASP mass summation components, /repo/aviary/subsystems/mass/gasp_based/mass_summation.py.

    Generated by tools/py2coq.py from the source text; see the header of that file for the rules.  Decimal
    literals are exact and numbers are real numbers. *)
From Coq Require Import Reals.
From Verif Require Import Base Comp.
Open Scope list_scope.
Open Scope string_scope.
Local Open Scope R_scope.

(** ** Variable names, /repo/aviary/variable_info/variables.py *)
Definition Aircraft_APU_MASS := "aircraft:apu:mass".
Definition Aircraft_AirConditioning_MASS := "aircraft:air_conditioning:mass".
Definition Aircraft_AntiIcing_MASS := "aircraft:anti_icing:mass".
Definition Aircraft_Avionics_MASS := "aircraft:avionics:mass".
Definition Aircraft_Battery_MASS := "aircraft:battery:mass".
Definition Aircraft_Controls_MASS := "aircraft:controls:mass".
Definition Aircraft_CrewPayload_CABIN_CREW_MASS := "aircraft:crew_and_payload:cabin_crew_mass".
Definition Aircraft_CrewPayload_CARGO_CONTAINER_MASS := "aircraft:crew_and_payload:cargo_container_mass".
Definition Aircraft_CrewPayload_FLIGHT_CREW_MASS := "aircraft:crew_and_payload:flight_crew_mass".
Definition Aircraft_CrewPayload_PASSENGER_SERVICE_MASS := "aircraft:crew_and_payload:passenger_service_mass".
Definition Aircraft_CrewPayload_TOTAL_PAYLOAD_MASS := "aircraft:crew_and_payload:total_payload_mass".
Definition Aircraft_Design_EMERGENCY_EQUIPMENT_MASS := "aircraft:design:emergency_equipment_mass".
Definition Aircraft_Design_EMPENNAGE_MASS := "aircraft:design:empennage_mass".
Definition Aircraft_Design_EMPTY_MASS := "aircraft:design:empty_mass".
Definition Aircraft_Design_EXTERNAL_SUBSYSTEMS_MASS := "aircraft:design:external_subsystems_mass".
Definition Aircraft_Design_GROSS_MASS := "aircraft:design:gross_mass".
Definition Aircraft_Design_STRUCTURAL_MASS_INCREMENT := "aircraft:design:structural_mass_increment".
Definition Aircraft_Design_STRUCTURE_MASS := "aircraft:design:structure_mass".
Definition Aircraft_Design_SYSTEMS_AND_EQUIPMENT_MASS := "aircraft:design:systems_and_equipment_mass".
Definition Aircraft_Design_USEFUL_LOAD_MASS := "aircraft:design:useful_load_mass".
Definition Aircraft_Electrical_MASS := "aircraft:electrical:mass".
Definition Aircraft_Fuel_FUEL_SYSTEM_MASS := "aircraft:fuel:fuel_system_mass".
Definition Aircraft_Fuel_UNUSABLE_FUEL_MASS := "aircraft:fuel:unusable_fuel_mass".
Definition Aircraft_Furnishings_MASS := "aircraft:furnishings:mass".
Definition Aircraft_Fuselage_MASS := "aircraft:fuselage:mass".
Definition Aircraft_HorizontalTail_MASS := "aircraft:horizontal_tail:mass".
Definition Aircraft_Hydraulics_MASS := "aircraft:hydraulics:mass".
Definition Aircraft_Instruments_MASS := "aircraft:instruments:mass".
Definition Aircraft_LandingGear_TOTAL_MASS := "aircraft:landing_gear:total_mass".
Definition Aircraft_OxygenSystem_MASS := "aircraft:oxygen_system:mass".
Definition Aircraft_Propulsion_MASS := "aircraft:propulsion:mass".
Definition Aircraft_Propulsion_TOTAL_ENGINE_OIL_MASS := "aircraft:propulsion:total_engine_oil_mass".
Definition Aircraft_Propulsion_TOTAL_ENGINE_POD_MASS := "aircraft:propulsion:total_engine_pod_mass".
Definition Aircraft_VerticalTail_MASS := "aircraft:vertical_tail:mass".
Definition Aircraft_Wing_MASS := "aircraft:wing:mass".
Definition Mission_OPERATING_ITEMS_MASS := "mission:operating_items_mass".
Definition Mission_OPERATING_ITEMS_MASS_ADDITIONAL := "mission:operating_items_mass_additional".
Definition Mission_OPERATING_MASS := "mission:operating_mass".
Definition Mission_ZERO_FUEL_MASS := "mission:zero_fuel_mass".
Definition v_eng_comb_mass := "eng_comb_mass".
Definition v_prop_mass_sum := "prop_mass_sum".


(** EmpennageMass.compute, /repo/aviary/subsystems/mass/gasp_based/mass_summation.py L68-72 *)
Definition EmpennageMass_compute (op : options) (e : env) : list (string * R) :=
  let htail_mass := e Aircraft_HorizontalTail_MASS in  (* L69 *)
  let vtail_mass := e Aircraft_VerticalTail_MASS in  (* L70 *)
  let o_Design_EMPENNAGE_MASS := htail_mass + vtail_mass in  (* L72 *)
  [(Aircraft_Design_EMPENNAGE_MASS, o_Design_EMPENNAGE_MASS)].

Definition EmpennageMass_partials (op : options) (e : env) : list (string * string * R) := [].

(** Inputs, outputs and declared partials: /repo/aviary/subsystems/mass/gasp_based/mass_summation.py L59-66 *)
Definition EmpennageMass (op : options) : comp := {|
  c_ins := [Aircraft_HorizontalTail_MASS;
            Aircraft_VerticalTail_MASS];
  c_outs := [Aircraft_Design_EMPENNAGE_MASS];
  c_decl := [(Aircraft_Design_EMPENNAGE_MASS, Aircraft_HorizontalTail_MASS, 1);
             (Aircraft_Design_EMPENNAGE_MASS, Aircraft_VerticalTail_MASS, 1)];
  c_run := EmpennageMass_compute op; c_jac := EmpennageMass_partials op |}.

(** StructureMass.compute, /repo/aviary/subsystems/mass/gasp_based/mass_summation.py L89-104 *)
Definition StructureMass_compute (op : options) (e : env) : list (string * R) :=
  let empennage_mass := e Aircraft_Design_EMPENNAGE_MASS in  (* L90 *)
  let fuselage_mass := e Aircraft_Fuselage_MASS in  (* L91 *)
  let landing_gear_mass := e Aircraft_LandingGear_TOTAL_MASS in  (* L92 *)
  let pod_mass := e Aircraft_Propulsion_TOTAL_ENGINE_POD_MASS in  (* L93 *)
  let wing_mass := e Aircraft_Wing_MASS in  (* L94 *)
  let delta_struct_wt := e Aircraft_Design_STRUCTURAL_MASS_INCREMENT in  (* L95 *)
  let o_Design_STRUCTURE_MASS := wing_mass + empennage_mass + fuselage_mass + landing_gear_mass + pod_mass +
      delta_struct_wt in  (* L97 *)
  [(Aircraft_Design_STRUCTURE_MASS, o_Design_STRUCTURE_MASS)].

Definition StructureMass_partials (op : options) (e : env) : list (string * string * R) := [].

(** Inputs, outputs and declared partials: /repo/aviary/subsystems/mass/gasp_based/mass_summation.py L76-87 *)
Definition StructureMass (op : options) : comp := {|
  c_ins := [Aircraft_Design_EMPENNAGE_MASS;
            Aircraft_Fuselage_MASS;
            Aircraft_LandingGear_TOTAL_MASS;
            Aircraft_Propulsion_TOTAL_ENGINE_POD_MASS;
            Aircraft_Wing_MASS;
            Aircraft_Design_STRUCTURAL_MASS_INCREMENT];
  c_outs := [Aircraft_Design_STRUCTURE_MASS];
  c_decl := [(Aircraft_Design_STRUCTURE_MASS, Aircraft_Design_EMPENNAGE_MASS, 1);
             (Aircraft_Design_STRUCTURE_MASS, Aircraft_Fuselage_MASS, 1);
             (Aircraft_Design_STRUCTURE_MASS, Aircraft_LandingGear_TOTAL_MASS, 1);
             (Aircraft_Design_STRUCTURE_MASS, Aircraft_Propulsion_TOTAL_ENGINE_POD_MASS, 1);
             (Aircraft_Design_STRUCTURE_MASS, Aircraft_Wing_MASS, 1);
             (Aircraft_Design_STRUCTURE_MASS, Aircraft_Design_STRUCTURAL_MASS_INCREMENT, 1)];
  c_run := StructureMass_compute op; c_jac := StructureMass_partials op |}.

(** PropulsionMass.compute, /repo/aviary/subsystems/mass/gasp_based/mass_summation.py L122-130 *)
Definition PropulsionMass_compute (op : options) (e : env) : list (string * R) :=
  let fuel_sys_mass := e Aircraft_Fuel_FUEL_SYSTEM_MASS in  (* L123 *)
  let eng_comb_mass := e v_eng_comb_mass in  (* L124 *)
  let prop_mass_sum := e v_prop_mass_sum in  (* L125 *)
  let battery_mass := e Aircraft_Battery_MASS in  (* L126 *)
  let o_Propulsion_MASS := fuel_sys_mass + eng_comb_mass + prop_mass_sum + battery_mass in  (* L128 *)
  [(Aircraft_Propulsion_MASS, o_Propulsion_MASS)].

Definition PropulsionMass_partials (op : options) (e : env) : list (string * string * R) := [].

(** Inputs, outputs and declared partials: /repo/aviary/subsystems/mass/gasp_based/mass_summation.py L108-120 *)
Definition PropulsionMass (op : options) : comp := {|
  c_ins := [Aircraft_Fuel_FUEL_SYSTEM_MASS;
            v_eng_comb_mass;
            v_prop_mass_sum;
            Aircraft_Battery_MASS];
  c_outs := [Aircraft_Propulsion_MASS];
  c_decl := [(Aircraft_Propulsion_MASS, Aircraft_Fuel_FUEL_SYSTEM_MASS, 1);
             (Aircraft_Propulsion_MASS, v_eng_comb_mass, 1);
             (Aircraft_Propulsion_MASS, v_prop_mass_sum, 1);
             (Aircraft_Propulsion_MASS, Aircraft_Battery_MASS, 1)];
  c_run := PropulsionMass_compute op; c_jac := PropulsionMass_partials op |}.

(** SystemsEquipmentMass.compute, /repo/aviary/subsystems/mass/gasp_based/mass_summation.py L151-174 *)
Definition SystemsEquipmentMass_compute (op : options) (e : env) : list (string * R) :=
  let AC_mass := e Aircraft_AirConditioning_MASS in  (* L152 *)
  let anti_icing_mass := e Aircraft_AntiIcing_MASS in  (* L153 *)
  let APU_mass := e Aircraft_APU_MASS in  (* L154 *)
  let avionics_mass := e Aircraft_Avionics_MASS in  (* L155 *)
  let elec_mass := e Aircraft_Electrical_MASS in  (* L156 *)
  let furnish_mass := e Aircraft_Furnishings_MASS in  (* L157 *)
  let hydraulics_mass := e Aircraft_Hydraulics_MASS in  (* L158 *)
  let instrument_mass := e Aircraft_Instruments_MASS in  (* L159 *)
  let controls_mass := e Aircraft_Controls_MASS in  (* L160 *)
  let oxygen_mass := e Aircraft_OxygenSystem_MASS in  (* L161 *)
  let o_Design_SYSTEMS_AND_EQUIPMENT_MASS := APU_mass + instrument_mass + hydraulics_mass + elec_mass + avionics_mass
      + furnish_mass + AC_mass + anti_icing_mass + controls_mass + oxygen_mass in  (* L163 *)
  [(Aircraft_Design_SYSTEMS_AND_EQUIPMENT_MASS, o_Design_SYSTEMS_AND_EQUIPMENT_MASS)].

Definition SystemsEquipmentMass_partials (op : options) (e : env) : list (string * string * R) := [].

(** Inputs, outputs and declared partials: /repo/aviary/subsystems/mass/gasp_based/mass_summation.py L134-149 *)
Definition SystemsEquipmentMass (op : options) : comp := {|
  c_ins := [Aircraft_AirConditioning_MASS;
            Aircraft_AntiIcing_MASS;
            Aircraft_APU_MASS;
            Aircraft_Avionics_MASS;
            Aircraft_Electrical_MASS;
            Aircraft_Furnishings_MASS;
            Aircraft_Hydraulics_MASS;
            Aircraft_Instruments_MASS;
            Aircraft_Controls_MASS;
            Aircraft_OxygenSystem_MASS];
  c_outs := [Aircraft_Design_SYSTEMS_AND_EQUIPMENT_MASS];
  c_decl := [(Aircraft_Design_SYSTEMS_AND_EQUIPMENT_MASS, Aircraft_AirConditioning_MASS, 1);
             (Aircraft_Design_SYSTEMS_AND_EQUIPMENT_MASS, Aircraft_AntiIcing_MASS, 1);
             (Aircraft_Design_SYSTEMS_AND_EQUIPMENT_MASS, Aircraft_APU_MASS, 1);
             (Aircraft_Design_SYSTEMS_AND_EQUIPMENT_MASS, Aircraft_Avionics_MASS, 1);
             (Aircraft_Design_SYSTEMS_AND_EQUIPMENT_MASS, Aircraft_Electrical_MASS, 1);
             (Aircraft_Design_SYSTEMS_AND_EQUIPMENT_MASS, Aircraft_Furnishings_MASS, 1);
             (Aircraft_Design_SYSTEMS_AND_EQUIPMENT_MASS, Aircraft_Hydraulics_MASS, 1);
             (Aircraft_Design_SYSTEMS_AND_EQUIPMENT_MASS, Aircraft_Instruments_MASS, 1);
             (Aircraft_Design_SYSTEMS_AND_EQUIPMENT_MASS, Aircraft_Controls_MASS, 1);
             (Aircraft_Design_SYSTEMS_AND_EQUIPMENT_MASS, Aircraft_OxygenSystem_MASS, 1)];
  c_run := SystemsEquipmentMass_compute op; c_jac := SystemsEquipmentMass_partials op |}.

(** EmptyMass.compute, /repo/aviary/subsystems/mass/gasp_based/mass_summation.py L189-197 *)
Definition EmptyMass_compute (op : options) (e : env) : list (string * R) :=
  let structure_mass := e Aircraft_Design_STRUCTURE_MASS in  (* L190 *)
  let prop_mass := e Aircraft_Propulsion_MASS in  (* L191 *)
  let sys_equip_mass := e Aircraft_Design_SYSTEMS_AND_EQUIPMENT_MASS in  (* L192 *)
  let subsystems_mass := e Aircraft_Design_EXTERNAL_SUBSYSTEMS_MASS in  (* L193 *)
  let o_Design_EMPTY_MASS := structure_mass + prop_mass + sys_equip_mass + subsystems_mass in  (* L195 *)
  [(Aircraft_Design_EMPTY_MASS, o_Design_EMPTY_MASS)].

Definition EmptyMass_partials (op : options) (e : env) : list (string * string * R) := [].

(** Inputs, outputs and declared partials: /repo/aviary/subsystems/mass/gasp_based/mass_summation.py L178-187 *)
Definition EmptyMass (op : options) : comp := {|
  c_ins := [Aircraft_Design_STRUCTURE_MASS;
            Aircraft_Propulsion_MASS;
            Aircraft_Design_SYSTEMS_AND_EQUIPMENT_MASS;
            Aircraft_Design_EXTERNAL_SUBSYSTEMS_MASS];
  c_outs := [Aircraft_Design_EMPTY_MASS];
  c_decl := [(Aircraft_Design_EMPTY_MASS, Aircraft_Design_STRUCTURE_MASS, 1);
             (Aircraft_Design_EMPTY_MASS, Aircraft_Propulsion_MASS, 1);
             (Aircraft_Design_EMPTY_MASS, Aircraft_Design_SYSTEMS_AND_EQUIPMENT_MASS, 1);
             (Aircraft_Design_EMPTY_MASS, Aircraft_Design_EXTERNAL_SUBSYSTEMS_MASS, 1)];
  c_run := EmptyMass_compute op; c_jac := EmptyMass_partials op |}.

(** OperatingItemsMass.compute, /repo/aviary/subsystems/mass/gasp_based/mass_summation.py L216-235 *)
Definition OperatingItemsMass_compute (op : options) (e : env) : list (string * R) :=
  let cargo_container_mass := e Aircraft_CrewPayload_CARGO_CONTAINER_MASS in  (* L217 *)
  let cabin_crew_mass := e Aircraft_CrewPayload_CABIN_CREW_MASS in  (* L218 *)
  let flight_crew_mass := e Aircraft_CrewPayload_FLIGHT_CREW_MASS in  (* L219 *)
  let oil_mass := e Aircraft_Propulsion_TOTAL_ENGINE_OIL_MASS in  (* L220 *)
  let pass_service_mass := e Aircraft_CrewPayload_PASSENGER_SERVICE_MASS in  (* L221 *)
  let unusable_fuel_mass := e Aircraft_Fuel_UNUSABLE_FUEL_MASS in  (* L222 *)
  let emergency_equip_mass := e Aircraft_Design_EMERGENCY_EQUIPMENT_MASS in  (* L223 *)
  let additional_operating_mass := e Mission_OPERATING_ITEMS_MASS_ADDITIONAL in  (* L224 *)
  let o_OPERATING_ITEMS_MASS := cabin_crew_mass + flight_crew_mass + unusable_fuel_mass + oil_mass + pass_service_mass
      + cargo_container_mass + emergency_equip_mass + additional_operating_mass in  (* L226 *)
  [(Mission_OPERATING_ITEMS_MASS, o_OPERATING_ITEMS_MASS)].

Definition OperatingItemsMass_partials (op : options) (e : env) : list (string * string * R) := [].

(** Inputs, outputs and declared partials: /repo/aviary/subsystems/mass/gasp_based/mass_summation.py L201-214 *)
Definition OperatingItemsMass (op : options) : comp := {|
  c_ins := [Aircraft_CrewPayload_CARGO_CONTAINER_MASS;
            Aircraft_CrewPayload_CABIN_CREW_MASS;
            Aircraft_CrewPayload_FLIGHT_CREW_MASS;
            Aircraft_CrewPayload_PASSENGER_SERVICE_MASS;
            Aircraft_Fuel_UNUSABLE_FUEL_MASS;
            Aircraft_Propulsion_TOTAL_ENGINE_OIL_MASS;
            Aircraft_Design_EMERGENCY_EQUIPMENT_MASS;
            Mission_OPERATING_ITEMS_MASS_ADDITIONAL];
  c_outs := [Mission_OPERATING_ITEMS_MASS];
  c_decl := [(Mission_OPERATING_ITEMS_MASS, Aircraft_CrewPayload_CARGO_CONTAINER_MASS, 1);
             (Mission_OPERATING_ITEMS_MASS, Aircraft_CrewPayload_CABIN_CREW_MASS, 1);
             (Mission_OPERATING_ITEMS_MASS, Aircraft_CrewPayload_FLIGHT_CREW_MASS, 1);
             (Mission_OPERATING_ITEMS_MASS, Aircraft_CrewPayload_PASSENGER_SERVICE_MASS, 1);
             (Mission_OPERATING_ITEMS_MASS, Aircraft_Fuel_UNUSABLE_FUEL_MASS, 1);
             (Mission_OPERATING_ITEMS_MASS, Aircraft_Propulsion_TOTAL_ENGINE_OIL_MASS, 1);
             (Mission_OPERATING_ITEMS_MASS, Aircraft_Design_EMERGENCY_EQUIPMENT_MASS, 1);
             (Mission_OPERATING_ITEMS_MASS, Mission_OPERATING_ITEMS_MASS_ADDITIONAL, 1)];
  c_run := OperatingItemsMass_compute op; c_jac := OperatingItemsMass_partials op |}.

(** OperatingMass.compute, /repo/aviary/subsystems/mass/gasp_based/mass_summation.py L248-252 *)
Definition OperatingMass_compute (op : options) (e : env) : list (string * R) :=
  let operating_items_mass := e Mission_OPERATING_ITEMS_MASS in  (* L249 *)
  let empty_mass := e Aircraft_Design_EMPTY_MASS in  (* L250 *)
  let o_OPERATING_MASS := empty_mass + operating_items_mass in  (* L252 *)
  [(Mission_OPERATING_MASS, o_OPERATING_MASS)].

Definition OperatingMass_partials (op : options) (e : env) : list (string * string * R) := [].

(** Inputs, outputs and declared partials: /repo/aviary/subsystems/mass/gasp_based/mass_summation.py L239-246 *)
Definition OperatingMass (op : options) : comp := {|
  c_ins := [Aircraft_Design_EMPTY_MASS;
            Mission_OPERATING_ITEMS_MASS];
  c_outs := [Mission_OPERATING_MASS];
  c_decl := [(Mission_OPERATING_MASS, Aircraft_Design_EMPTY_MASS, 1);
             (Mission_OPERATING_MASS, Mission_OPERATING_ITEMS_MASS, 1)];
  c_run := OperatingMass_compute op; c_jac := OperatingMass_partials op |}.

(** ZeroFuelMass.compute, /repo/aviary/subsystems/mass/gasp_based/mass_summation.py L265-269 *)
Definition ZeroFuelMass_compute (op : options) (e : env) : list (string * R) :=
  let payload_mass := e Aircraft_CrewPayload_TOTAL_PAYLOAD_MASS in  (* L266 *)
  let operating_mass := e Mission_OPERATING_MASS in  (* L267 *)
  let o_ZERO_FUEL_MASS := operating_mass + payload_mass in  (* L269 *)
  [(Mission_ZERO_FUEL_MASS, o_ZERO_FUEL_MASS)].

Definition ZeroFuelMass_partials (op : options) (e : env) : list (string * string * R) := [].

(** Inputs, outputs and declared partials: /repo/aviary/subsystems/mass/gasp_based/mass_summation.py L256-263 *)
Definition ZeroFuelMass (op : options) : comp := {|
  c_ins := [Aircraft_CrewPayload_TOTAL_PAYLOAD_MASS;
            Mission_OPERATING_MASS];
  c_outs := [Mission_ZERO_FUEL_MASS];
  c_decl := [(Mission_ZERO_FUEL_MASS, Aircraft_CrewPayload_TOTAL_PAYLOAD_MASS, 1);
             (Mission_ZERO_FUEL_MASS, Mission_OPERATING_MASS, 1)];
  c_run := ZeroFuelMass_compute op; c_jac := ZeroFuelMass_partials op |}.

(** UsefulLoadMass.compute, /repo/aviary/subsystems/mass/gasp_based/mass_summation.py L283-287 *)
Definition UsefulLoadMass_compute (op : options) (e : env) : list (string * R) :=
  let gross_mass := e Aircraft_Design_GROSS_MASS in  (* L284 *)
  let empty_mass := e Aircraft_Design_EMPTY_MASS in  (* L285 *)
  let o_Design_USEFUL_LOAD_MASS := gross_mass - empty_mass in  (* L287 *)
  [(Aircraft_Design_USEFUL_LOAD_MASS, o_Design_USEFUL_LOAD_MASS)].

Definition UsefulLoadMass_partials (op : options) (e : env) : list (string * string * R) := [].

(** Inputs, outputs and declared partials: /repo/aviary/subsystems/mass/gasp_based/mass_summation.py L273-281 *)
Definition UsefulLoadMass (op : options) : comp := {|
  c_ins := [Aircraft_Design_GROSS_MASS;
            Aircraft_Design_EMPTY_MASS];
  c_outs := [Aircraft_Design_USEFUL_LOAD_MASS];
  c_decl := [(Aircraft_Design_USEFUL_LOAD_MASS, Aircraft_Design_GROSS_MASS, 1);
             (Aircraft_Design_USEFUL_LOAD_MASS, Aircraft_Design_EMPTY_MASS, - 1)];
  c_run := UsefulLoadMass_compute op; c_jac := UsefulLoadMass_partials op |}.
