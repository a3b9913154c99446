(** FLOPS based mass summation, /repo/aviary/subsystems/mass/flops_based/mass_summation.py.

    Generated by tools/py2coq.py from the source text; see the header of that file for the rules.  Decimal
    literals are exact and numbers are real numbers. *)
From Coq Require Import Reals.
From Verif Require Import Base Comp MathModel MassDistModel.
Open Scope list_scope.
Open Scope string_scope.
Local Open Scope R_scope.

(** ** Variable names, /repo/aviary/variable_info/variables.py *)
Definition Aircraft_APU_MASS := "aircraft:apu:mass".
Definition Aircraft_AirConditioning_MASS := "aircraft:air_conditioning:mass".
Definition Aircraft_AntiIcing_MASS := "aircraft:anti_icing:mass".
Definition Aircraft_Avionics_MASS := "aircraft:avionics:mass".
Definition Aircraft_Battery_MASS := "aircraft:battery:mass".
Definition Aircraft_Canard_MASS := "aircraft:canard:mass".
Definition Aircraft_Controls_MASS := "aircraft:controls:mass".
Definition Aircraft_CrewPayload_CABIN_CREW_MASS := "aircraft:crew_and_payload:cabin_crew_mass".
Definition Aircraft_CrewPayload_CARGO_CONTAINER_MASS := "aircraft:crew_and_payload:cargo_container_mass".
Definition Aircraft_CrewPayload_FLIGHT_CREW_MASS := "aircraft:crew_and_payload:flight_crew_mass".
Definition Aircraft_CrewPayload_PASSENGER_SERVICE_MASS := "aircraft:crew_and_payload:passenger_service_mass".
Definition Aircraft_CrewPayload_TOTAL_PAYLOAD_MASS := "aircraft:crew_and_payload:total_payload_mass".
Definition Aircraft_Design_EMPENNAGE_MASS := "aircraft:design:empennage_mass".
Definition Aircraft_Design_EMPTY_MASS := "aircraft:design:empty_mass".
Definition Aircraft_Design_EMPTY_MASS_MARGIN := "aircraft:design:empty_mass_margin".
Definition Aircraft_Design_EXTERNAL_SUBSYSTEMS_MASS := "aircraft:design:external_subsystems_mass".
Definition Aircraft_Design_GROSS_MASS := "aircraft:design:gross_mass".
Definition Aircraft_Design_STRUCTURE_MASS := "aircraft:design:structure_mass".
Definition Aircraft_Design_SYSTEMS_AND_EQUIPMENT_MASS := "aircraft:design:systems_and_equipment_mass".
Definition Aircraft_Design_SYSTEMS_AND_EQUIPMENT_MASS_BASE := "aircraft:design:systems_and_equipment_mass_base".
Definition Aircraft_Design_USEFUL_LOAD_MASS := "aircraft:design:useful_load_mass".
Definition Aircraft_Electrical_MASS := "aircraft:electrical:mass".
Definition Aircraft_Fins_MASS := "aircraft:fins:mass".
Definition Aircraft_Fuel_FUEL_SYSTEM_MASS := "aircraft:fuel:fuel_system_mass".
Definition Aircraft_Fuel_UNUSABLE_FUEL_MASS := "aircraft:fuel:unusable_fuel_mass".
Definition Aircraft_Furnishings_MASS := "aircraft:furnishings:mass".
Definition Aircraft_Furnishings_MASS_BASE := "aircraft:furnishings:mass_base".
Definition Aircraft_HorizontalTail_MASS := "aircraft:horizontal_tail:mass".
Definition Aircraft_Hydraulics_MASS := "aircraft:hydraulics:mass".
Definition Aircraft_Instruments_MASS := "aircraft:instruments:mass".
Definition Aircraft_Propulsion_MASS := "aircraft:propulsion:mass".
Definition Aircraft_Propulsion_TOTAL_ENGINE_MASS := "aircraft:propulsion:total_engine_mass".
Definition Aircraft_Propulsion_TOTAL_ENGINE_OIL_MASS := "aircraft:propulsion:total_engine_oil_mass".
Definition Aircraft_Propulsion_TOTAL_MISC_MASS := "aircraft:propulsion:total_misc_mass".
Definition Aircraft_Propulsion_TOTAL_THRUST_REVERSERS_MASS := "aircraft:propulsion:total_thrust_reversers_mass".
Definition Aircraft_VerticalTail_MASS := "aircraft:vertical_tail:mass".
Definition Aircraft_Wing_SURFACE_CONTROL_MASS := "aircraft:wing:surface_control_mass".
Definition Mission_OPERATING_ITEMS_MASS := "mission:operating_items_mass".
Definition Mission_OPERATING_ITEMS_MASS_ADDITIONAL := "mission:operating_items_mass_additional".
Definition Mission_OPERATING_MASS := "mission:operating_mass".
Definition Mission_ZERO_FUEL_MASS := "mission:zero_fuel_mass".


(** EmpennageMass.compute, /repo/aviary/subsystems/mass/flops_based/mass_summation.py L96-102 *)
Definition EmpennageMass_compute (op : options) (e : env) : list (string * R) :=
  let canard_mass := e Aircraft_Canard_MASS in  (* L97 *)
  let fin_mass := e Aircraft_Fins_MASS in  (* L98 *)
  let htail_mass := e Aircraft_HorizontalTail_MASS in  (* L99 *)
  let vtail_mass := e Aircraft_VerticalTail_MASS in  (* L100 *)
  let o_Design_EMPENNAGE_MASS := canard_mass + fin_mass + htail_mass + vtail_mass in  (* L102 *)
  [(Aircraft_Design_EMPENNAGE_MASS, o_Design_EMPENNAGE_MASS)].

Definition EmpennageMass_partials (op : options) (e : env) : list (string * string * R) := [].

(** Inputs, outputs and declared partials: /repo/aviary/subsystems/mass/flops_based/mass_summation.py L85-94 *)
Definition EmpennageMass (op : options) : comp := {|
  c_ins := [Aircraft_Canard_MASS;
            Aircraft_Fins_MASS;
            Aircraft_HorizontalTail_MASS;
            Aircraft_VerticalTail_MASS];
  c_outs := [Aircraft_Design_EMPENNAGE_MASS];
  c_decl := [(Aircraft_Design_EMPENNAGE_MASS, Aircraft_Canard_MASS, 1);
             (Aircraft_Design_EMPENNAGE_MASS, Aircraft_Fins_MASS, 1);
             (Aircraft_Design_EMPENNAGE_MASS, Aircraft_HorizontalTail_MASS, 1);
             (Aircraft_Design_EMPENNAGE_MASS, Aircraft_VerticalTail_MASS, 1)];
  c_run := EmpennageMass_compute op; c_jac := EmpennageMass_partials op |}.

(** PropulsionMass.compute, /repo/aviary/subsystems/mass/flops_based/mass_summation.py L165-174 *)
Definition PropulsionMass_compute (op : options) (e : env) : list (string * R) :=
  let fuel_sys_mass := e Aircraft_Fuel_FUEL_SYSTEM_MASS in  (* L166 *)
  let misc_prop_mass := e Aircraft_Propulsion_TOTAL_MISC_MASS in  (* L167 *)
  let thrust_rev_mass := e Aircraft_Propulsion_TOTAL_THRUST_REVERSERS_MASS in  (* L168 *)
  let total_eng_mass := e Aircraft_Propulsion_TOTAL_ENGINE_MASS in  (* L169 *)
  let battery_mass := e Aircraft_Battery_MASS in  (* L170 *)
  let o_Propulsion_MASS := thrust_rev_mass + misc_prop_mass + fuel_sys_mass + total_eng_mass + battery_mass in  (* L172 *)
  [(Aircraft_Propulsion_MASS, o_Propulsion_MASS)].

Definition PropulsionMass_partials (op : options) (e : env) : list (string * string * R) := [].

(** Inputs, outputs and declared partials: /repo/aviary/subsystems/mass/flops_based/mass_summation.py L153-163 *)
Definition PropulsionMass (op : options) : comp := {|
  c_ins := [Aircraft_Fuel_FUEL_SYSTEM_MASS;
            Aircraft_Propulsion_TOTAL_MISC_MASS;
            Aircraft_Propulsion_TOTAL_THRUST_REVERSERS_MASS;
            Aircraft_Propulsion_TOTAL_ENGINE_MASS;
            Aircraft_Battery_MASS];
  c_outs := [Aircraft_Propulsion_MASS];
  c_decl := [(Aircraft_Propulsion_MASS, Aircraft_Fuel_FUEL_SYSTEM_MASS, 1);
             (Aircraft_Propulsion_MASS, Aircraft_Propulsion_TOTAL_MISC_MASS, 1);
             (Aircraft_Propulsion_MASS, Aircraft_Propulsion_TOTAL_THRUST_REVERSERS_MASS, 1);
             (Aircraft_Propulsion_MASS, Aircraft_Propulsion_TOTAL_ENGINE_MASS, 1);
             (Aircraft_Propulsion_MASS, Aircraft_Battery_MASS, 1)];
  c_run := PropulsionMass_compute op; c_jac := PropulsionMass_partials op |}.

(** FlightControls.compute, /repo/aviary/subsystems/mass/flops_based/mass_summation.py L187-188 *)
Definition FlightControls_compute (op : options) (e : env) : list (string * R) :=
  let o_Controls_MASS := e Aircraft_Wing_SURFACE_CONTROL_MASS in  (* L188 *)
  [(Aircraft_Controls_MASS, o_Controls_MASS)].

Definition FlightControls_partials (op : options) (e : env) : list (string * string * R) := [].

(** Inputs, outputs and declared partials: /repo/aviary/subsystems/mass/flops_based/mass_summation.py L179-185 *)
Definition FlightControls (op : options) : comp := {|
  c_ins := [Aircraft_Wing_SURFACE_CONTROL_MASS];
  c_outs := [Aircraft_Controls_MASS];
  c_decl := [(Aircraft_Controls_MASS, Aircraft_Wing_SURFACE_CONTROL_MASS, 1)];
  c_run := FlightControls_compute op; c_jac := FlightControls_partials op |}.

(** SystemsEquipmentMass.compute, /repo/aviary/subsystems/mass/flops_based/mass_summation.py L208-229 *)
Definition SystemsEquipmentMass_compute (op : options) (e : env) : list (string * R) :=
  let AC_mass := e Aircraft_AirConditioning_MASS in  (* L209 *)
  let anti_icing_mass := e Aircraft_AntiIcing_MASS in  (* L210 *)
  let APU_mass := e Aircraft_APU_MASS in  (* L211 *)
  let avionics_mass := e Aircraft_Avionics_MASS in  (* L212 *)
  let elec_mass := e Aircraft_Electrical_MASS in  (* L213 *)
  let furnish_mass := e Aircraft_Furnishings_MASS in  (* L214 *)
  let hydraulics_mass := e Aircraft_Hydraulics_MASS in  (* L215 *)
  let instrument_mass := e Aircraft_Instruments_MASS in  (* L216 *)
  let surface_controls_mass := e Aircraft_Wing_SURFACE_CONTROL_MASS in  (* L217 *)
  let o_Design_SYSTEMS_AND_EQUIPMENT_MASS := APU_mass + instrument_mass + hydraulics_mass + elec_mass + avionics_mass
      + furnish_mass + AC_mass + anti_icing_mass + surface_controls_mass in  (* L219 *)
  [(Aircraft_Design_SYSTEMS_AND_EQUIPMENT_MASS, o_Design_SYSTEMS_AND_EQUIPMENT_MASS)].

Definition SystemsEquipmentMass_partials (op : options) (e : env) : list (string * string * R) := [].

(** Inputs, outputs and declared partials: /repo/aviary/subsystems/mass/flops_based/mass_summation.py L192-206 *)
Definition SystemsEquipmentMass (op : options) : comp := {|
  c_ins := [Aircraft_AirConditioning_MASS;
            Aircraft_AntiIcing_MASS;
            Aircraft_APU_MASS;
            Aircraft_Avionics_MASS;
            Aircraft_Electrical_MASS;
            Aircraft_Furnishings_MASS;
            Aircraft_Hydraulics_MASS;
            Aircraft_Instruments_MASS;
            Aircraft_Wing_SURFACE_CONTROL_MASS];
  c_outs := [Aircraft_Design_SYSTEMS_AND_EQUIPMENT_MASS];
  c_decl := [(Aircraft_Design_SYSTEMS_AND_EQUIPMENT_MASS, Aircraft_AirConditioning_MASS, 1);
             (Aircraft_Design_SYSTEMS_AND_EQUIPMENT_MASS, Aircraft_AntiIcing_MASS, 1);
             (Aircraft_Design_SYSTEMS_AND_EQUIPMENT_MASS, Aircraft_APU_MASS, 1);
             (Aircraft_Design_SYSTEMS_AND_EQUIPMENT_MASS, Aircraft_Avionics_MASS, 1);
             (Aircraft_Design_SYSTEMS_AND_EQUIPMENT_MASS, Aircraft_Electrical_MASS, 1);
             (Aircraft_Design_SYSTEMS_AND_EQUIPMENT_MASS, Aircraft_Furnishings_MASS, 1);
             (Aircraft_Design_SYSTEMS_AND_EQUIPMENT_MASS, Aircraft_Hydraulics_MASS, 1);
             (Aircraft_Design_SYSTEMS_AND_EQUIPMENT_MASS, Aircraft_Instruments_MASS, 1);
             (Aircraft_Design_SYSTEMS_AND_EQUIPMENT_MASS, Aircraft_Wing_SURFACE_CONTROL_MASS, 1)];
  c_run := SystemsEquipmentMass_compute op; c_jac := SystemsEquipmentMass_partials op |}.

(** AltSystemsEquipmentMassBase.compute, /repo/aviary/subsystems/mass/flops_based/mass_summation.py L249-270 *)
Definition AltSystemsEquipmentMassBase_compute (op : options) (e : env) : list (string * R) :=
  let AC_mass := e Aircraft_AirConditioning_MASS in  (* L250 *)
  let anti_icing_mass := e Aircraft_AntiIcing_MASS in  (* L251 *)
  let APU_mass := e Aircraft_APU_MASS in  (* L252 *)
  let avionics_mass := e Aircraft_Avionics_MASS in  (* L253 *)
  let elec_mass := e Aircraft_Electrical_MASS in  (* L254 *)
  let furnish_mass_base := e Aircraft_Furnishings_MASS_BASE in  (* L255 *)
  let hydraulics_mass := e Aircraft_Hydraulics_MASS in  (* L256 *)
  let instrument_mass := e Aircraft_Instruments_MASS in  (* L257 *)
  let surf_control_mass := e Aircraft_Wing_SURFACE_CONTROL_MASS in  (* L258 *)
  let o_Design_SYSTEMS_AND_EQUIPMENT_MASS_BASE := surf_control_mass + APU_mass + instrument_mass + hydraulics_mass +
      elec_mass + avionics_mass + furnish_mass_base + AC_mass + anti_icing_mass in  (* L260 *)
  [(Aircraft_Design_SYSTEMS_AND_EQUIPMENT_MASS_BASE, o_Design_SYSTEMS_AND_EQUIPMENT_MASS_BASE)].

Definition AltSystemsEquipmentMassBase_partials (op : options) (e : env) : list (string * string * R) := [].

(** Inputs, outputs and declared partials: /repo/aviary/subsystems/mass/flops_based/mass_summation.py L233-247 *)
Definition AltSystemsEquipmentMassBase (op : options) : comp := {|
  c_ins := [Aircraft_AirConditioning_MASS;
            Aircraft_AntiIcing_MASS;
            Aircraft_APU_MASS;
            Aircraft_Avionics_MASS;
            Aircraft_Electrical_MASS;
            Aircraft_Furnishings_MASS_BASE;
            Aircraft_Hydraulics_MASS;
            Aircraft_Instruments_MASS;
            Aircraft_Wing_SURFACE_CONTROL_MASS];
  c_outs := [Aircraft_Design_SYSTEMS_AND_EQUIPMENT_MASS_BASE];
  c_decl := [(Aircraft_Design_SYSTEMS_AND_EQUIPMENT_MASS_BASE, Aircraft_AirConditioning_MASS, 1);
             (Aircraft_Design_SYSTEMS_AND_EQUIPMENT_MASS_BASE, Aircraft_AntiIcing_MASS, 1);
             (Aircraft_Design_SYSTEMS_AND_EQUIPMENT_MASS_BASE, Aircraft_APU_MASS, 1);
             (Aircraft_Design_SYSTEMS_AND_EQUIPMENT_MASS_BASE, Aircraft_Avionics_MASS, 1);
             (Aircraft_Design_SYSTEMS_AND_EQUIPMENT_MASS_BASE, Aircraft_Electrical_MASS, 1);
             (Aircraft_Design_SYSTEMS_AND_EQUIPMENT_MASS_BASE, Aircraft_Furnishings_MASS_BASE, 1);
             (Aircraft_Design_SYSTEMS_AND_EQUIPMENT_MASS_BASE, Aircraft_Hydraulics_MASS, 1);
             (Aircraft_Design_SYSTEMS_AND_EQUIPMENT_MASS_BASE, Aircraft_Instruments_MASS, 1);
             (Aircraft_Design_SYSTEMS_AND_EQUIPMENT_MASS_BASE, Aircraft_Wing_SURFACE_CONTROL_MASS, 1)];
  c_run := AltSystemsEquipmentMassBase_compute op; c_jac := AltSystemsEquipmentMassBase_partials op |}.

(** AltSystemsEquipmentMass.compute, /repo/aviary/subsystems/mass/flops_based/mass_summation.py L294-301 *)
Definition AltSystemsEquipmentMass_compute (op : options) (e : env) : list (string * R) :=
  let sys_equip_mass_base := e Aircraft_Design_SYSTEMS_AND_EQUIPMENT_MASS_BASE in  (* L295 *)
  let structure_mass := e Aircraft_Design_STRUCTURE_MASS in  (* L296 *)
  let prop_mass := e Aircraft_Propulsion_MASS in  (* L297 *)
  let o_Design_SYSTEMS_AND_EQUIPMENT_MASS := sys_equip_mass_base + 1 / 100 * (structure_mass + prop_mass +
      sys_equip_mass_base) in  (* L299 *)
  [(Aircraft_Design_SYSTEMS_AND_EQUIPMENT_MASS, o_Design_SYSTEMS_AND_EQUIPMENT_MASS)].

Definition AltSystemsEquipmentMass_partials (op : options) (e : env) : list (string * string * R) := [].

(** Inputs, outputs and declared partials: /repo/aviary/subsystems/mass/flops_based/mass_summation.py L274-292 *)
Definition AltSystemsEquipmentMass (op : options) : comp := {|
  c_ins := [Aircraft_Design_SYSTEMS_AND_EQUIPMENT_MASS_BASE;
            Aircraft_Design_STRUCTURE_MASS;
            Aircraft_Propulsion_MASS];
  c_outs := [Aircraft_Design_SYSTEMS_AND_EQUIPMENT_MASS];
  c_decl := [(Aircraft_Design_SYSTEMS_AND_EQUIPMENT_MASS, Aircraft_Design_STRUCTURE_MASS, 1 / 100);
             (Aircraft_Design_SYSTEMS_AND_EQUIPMENT_MASS, Aircraft_Propulsion_MASS, 1 / 100);
             (Aircraft_Design_SYSTEMS_AND_EQUIPMENT_MASS, Aircraft_Design_SYSTEMS_AND_EQUIPMENT_MASS_BASE, 101 /
                 100)];
  c_run := AltSystemsEquipmentMass_compute op; c_jac := AltSystemsEquipmentMass_partials op |}.

(** EmptyMass.compute, /repo/aviary/subsystems/mass/flops_based/mass_summation.py L340-349 *)
Definition EmptyMass_compute (op : options) (e : env) : list (string * R) :=
  let structure_mass := e Aircraft_Design_STRUCTURE_MASS in  (* L341 *)
  let prop_mass := e Aircraft_Propulsion_MASS in  (* L342 *)
  let sys_equip_mass := e Aircraft_Design_SYSTEMS_AND_EQUIPMENT_MASS in  (* L343 *)
  let empty_mass_margin := e Aircraft_Design_EMPTY_MASS_MARGIN in  (* L344 *)
  let subsystems_mass := e Aircraft_Design_EXTERNAL_SUBSYSTEMS_MASS in  (* L345 *)
  let o_Design_EMPTY_MASS := structure_mass + prop_mass + sys_equip_mass + empty_mass_margin + subsystems_mass in  (* L347 *)
  [(Aircraft_Design_EMPTY_MASS, o_Design_EMPTY_MASS)].

Definition EmptyMass_partials (op : options) (e : env) : list (string * string * R) := [].

(** Inputs, outputs and declared partials: /repo/aviary/subsystems/mass/flops_based/mass_summation.py L328-338 *)
Definition EmptyMass (op : options) : comp := {|
  c_ins := [Aircraft_Design_EMPTY_MASS_MARGIN;
            Aircraft_Design_STRUCTURE_MASS;
            Aircraft_Propulsion_MASS;
            Aircraft_Design_SYSTEMS_AND_EQUIPMENT_MASS;
            Aircraft_Design_EXTERNAL_SUBSYSTEMS_MASS];
  c_outs := [Aircraft_Design_EMPTY_MASS];
  c_decl := [(Aircraft_Design_EMPTY_MASS, Aircraft_Design_EMPTY_MASS_MARGIN, 1);
             (Aircraft_Design_EMPTY_MASS, Aircraft_Design_STRUCTURE_MASS, 1);
             (Aircraft_Design_EMPTY_MASS, Aircraft_Propulsion_MASS, 1);
             (Aircraft_Design_EMPTY_MASS, Aircraft_Design_SYSTEMS_AND_EQUIPMENT_MASS, 1);
             (Aircraft_Design_EMPTY_MASS, Aircraft_Design_EXTERNAL_SUBSYSTEMS_MASS, 1)];
  c_run := EmptyMass_compute op; c_jac := EmptyMass_partials op |}.

(** AltEmptyMass.compute, /repo/aviary/subsystems/mass/flops_based/mass_summation.py L378-389 *)
Definition AltEmptyMass_compute (op : options) (e : env) : list (string * R) :=
  let structure_mass := e Aircraft_Design_STRUCTURE_MASS in  (* L379 *)
  let prop_mass := e Aircraft_Propulsion_MASS in  (* L380 *)
  let sys_equip_mass_base := e Aircraft_Design_SYSTEMS_AND_EQUIPMENT_MASS_BASE in  (* L381 *)
  let empty_mass_margin := e Aircraft_Design_EMPTY_MASS_MARGIN in  (* L382 *)
  let subsystems_mass := e Aircraft_Design_EXTERNAL_SUBSYSTEMS_MASS in  (* L383 *)
  let o_Design_EMPTY_MASS := 101 / 100 * (structure_mass + prop_mass + sys_equip_mass_base) + empty_mass_margin +
      subsystems_mass in  (* L385 *)
  [(Aircraft_Design_EMPTY_MASS, o_Design_EMPTY_MASS)].

Definition AltEmptyMass_partials (op : options) (e : env) : list (string * string * R) := [].

(** Inputs, outputs and declared partials: /repo/aviary/subsystems/mass/flops_based/mass_summation.py L353-376 *)
Definition AltEmptyMass (op : options) : comp := {|
  c_ins := [Aircraft_Design_EMPTY_MASS_MARGIN;
            Aircraft_Design_STRUCTURE_MASS;
            Aircraft_Propulsion_MASS;
            Aircraft_Design_SYSTEMS_AND_EQUIPMENT_MASS_BASE;
            Aircraft_Design_EXTERNAL_SUBSYSTEMS_MASS];
  c_outs := [Aircraft_Design_EMPTY_MASS];
  c_decl := [(Aircraft_Design_EMPTY_MASS, Aircraft_Design_STRUCTURE_MASS, 101 / 100);
             (Aircraft_Design_EMPTY_MASS, Aircraft_Propulsion_MASS, 101 / 100);
             (Aircraft_Design_EMPTY_MASS, Aircraft_Design_SYSTEMS_AND_EQUIPMENT_MASS_BASE, 101 / 100);
             (Aircraft_Design_EMPTY_MASS, Aircraft_Design_EMPTY_MASS_MARGIN, 1);
             (Aircraft_Design_EMPTY_MASS, Aircraft_Design_EXTERNAL_SUBSYSTEMS_MASS, 1)];
  c_run := AltEmptyMass_compute op; c_jac := AltEmptyMass_partials op |}.

(** OperatingItemsMass.compute, /repo/aviary/subsystems/mass/flops_based/mass_summation.py L407-424 *)
Definition OperatingItemsMass_compute (op : options) (e : env) : list (string * R) :=
  let cargo_container_mass := e Aircraft_CrewPayload_CARGO_CONTAINER_MASS in  (* L408 *)
  let cabin_crew_mass := e Aircraft_CrewPayload_CABIN_CREW_MASS in  (* L409 *)
  let flight_crew_mass := e Aircraft_CrewPayload_FLIGHT_CREW_MASS in  (* L410 *)
  let oil_mass := e Aircraft_Propulsion_TOTAL_ENGINE_OIL_MASS in  (* L411 *)
  let pass_service_mass := e Aircraft_CrewPayload_PASSENGER_SERVICE_MASS in  (* L412 *)
  let unusable_fuel_mass := e Aircraft_Fuel_UNUSABLE_FUEL_MASS in  (* L413 *)
  let additional_operating_mass := e Mission_OPERATING_ITEMS_MASS_ADDITIONAL in  (* L414 *)
  let o_OPERATING_ITEMS_MASS := cabin_crew_mass + flight_crew_mass + unusable_fuel_mass + oil_mass + pass_service_mass
      + cargo_container_mass + additional_operating_mass in  (* L416 *)
  [(Mission_OPERATING_ITEMS_MASS, o_OPERATING_ITEMS_MASS)].

Definition OperatingItemsMass_partials (op : options) (e : env) : list (string * string * R) := [].

(** Inputs, outputs and declared partials: /repo/aviary/subsystems/mass/flops_based/mass_summation.py L393-405 *)
Definition OperatingItemsMass (op : options) : comp := {|
  c_ins := [Aircraft_CrewPayload_CARGO_CONTAINER_MASS;
            Aircraft_CrewPayload_CABIN_CREW_MASS;
            Aircraft_CrewPayload_FLIGHT_CREW_MASS;
            Aircraft_CrewPayload_PASSENGER_SERVICE_MASS;
            Aircraft_Fuel_UNUSABLE_FUEL_MASS;
            Aircraft_Propulsion_TOTAL_ENGINE_OIL_MASS;
            Mission_OPERATING_ITEMS_MASS_ADDITIONAL];
  c_outs := [Mission_OPERATING_ITEMS_MASS];
  c_decl := [(Mission_OPERATING_ITEMS_MASS, Aircraft_CrewPayload_CARGO_CONTAINER_MASS, 1);
             (Mission_OPERATING_ITEMS_MASS, Aircraft_CrewPayload_CABIN_CREW_MASS, 1);
             (Mission_OPERATING_ITEMS_MASS, Aircraft_CrewPayload_FLIGHT_CREW_MASS, 1);
             (Mission_OPERATING_ITEMS_MASS, Aircraft_CrewPayload_PASSENGER_SERVICE_MASS, 1);
             (Mission_OPERATING_ITEMS_MASS, Aircraft_Fuel_UNUSABLE_FUEL_MASS, 1);
             (Mission_OPERATING_ITEMS_MASS, Aircraft_Propulsion_TOTAL_ENGINE_OIL_MASS, 1);
             (Mission_OPERATING_ITEMS_MASS, Mission_OPERATING_ITEMS_MASS_ADDITIONAL, 1)];
  c_run := OperatingItemsMass_compute op; c_jac := OperatingItemsMass_partials op |}.

(** OperatingMass.compute, /repo/aviary/subsystems/mass/flops_based/mass_summation.py L437-441 *)
Definition OperatingMass_compute (op : options) (e : env) : list (string * R) :=
  let operating_items_mass := e Mission_OPERATING_ITEMS_MASS in  (* L438 *)
  let empty_mass := e Aircraft_Design_EMPTY_MASS in  (* L439 *)
  let o_OPERATING_MASS := empty_mass + operating_items_mass in  (* L441 *)
  [(Mission_OPERATING_MASS, o_OPERATING_MASS)].

Definition OperatingMass_partials (op : options) (e : env) : list (string * string * R) := [].

(** Inputs, outputs and declared partials: /repo/aviary/subsystems/mass/flops_based/mass_summation.py L428-435 *)
Definition OperatingMass (op : options) : comp := {|
  c_ins := [Aircraft_Design_EMPTY_MASS;
            Mission_OPERATING_ITEMS_MASS];
  c_outs := [Mission_OPERATING_MASS];
  c_decl := [(Mission_OPERATING_MASS, Aircraft_Design_EMPTY_MASS, 1);
             (Mission_OPERATING_MASS, Mission_OPERATING_ITEMS_MASS, 1)];
  c_run := OperatingMass_compute op; c_jac := OperatingMass_partials op |}.

(** ZeroFuelMass.compute, /repo/aviary/subsystems/mass/flops_based/mass_summation.py L454-458 *)
Definition ZeroFuelMass_compute (op : options) (e : env) : list (string * R) :=
  let payload_mass := e Aircraft_CrewPayload_TOTAL_PAYLOAD_MASS in  (* L455 *)
  let operating_mass := e Mission_OPERATING_MASS in  (* L456 *)
  let o_ZERO_FUEL_MASS := operating_mass + payload_mass in  (* L458 *)
  [(Mission_ZERO_FUEL_MASS, o_ZERO_FUEL_MASS)].

Definition ZeroFuelMass_partials (op : options) (e : env) : list (string * string * R) := [].

(** Inputs, outputs and declared partials: /repo/aviary/subsystems/mass/flops_based/mass_summation.py L445-452 *)
Definition ZeroFuelMass (op : options) : comp := {|
  c_ins := [Aircraft_CrewPayload_TOTAL_PAYLOAD_MASS;
            Mission_OPERATING_MASS];
  c_outs := [Mission_ZERO_FUEL_MASS];
  c_decl := [(Mission_ZERO_FUEL_MASS, Aircraft_CrewPayload_TOTAL_PAYLOAD_MASS, 1);
             (Mission_ZERO_FUEL_MASS, Mission_OPERATING_MASS, 1)];
  c_run := ZeroFuelMass_compute op; c_jac := ZeroFuelMass_partials op |}.

(** UsefulLoadMass.compute, /repo/aviary/subsystems/mass/flops_based/mass_summation.py L472-476 *)
Definition UsefulLoadMass_compute (op : options) (e : env) : list (string * R) :=
  let gross_mass := e Aircraft_Design_GROSS_MASS in  (* L473 *)
  let empty_mass := e Aircraft_Design_EMPTY_MASS in  (* L474 *)
  let o_Design_USEFUL_LOAD_MASS := gross_mass - empty_mass in  (* L476 *)
  [(Aircraft_Design_USEFUL_LOAD_MASS, o_Design_USEFUL_LOAD_MASS)].

Definition UsefulLoadMass_partials (op : options) (e : env) : list (string * string * R) := [].

(** Inputs, outputs and declared partials: /repo/aviary/subsystems/mass/flops_based/mass_summation.py L462-470 *)
Definition UsefulLoadMass (op : options) : comp := {|
  c_ins := [Aircraft_Design_GROSS_MASS;
            Aircraft_Design_EMPTY_MASS];
  c_outs := [Aircraft_Design_USEFUL_LOAD_MASS];
  c_decl := [(Aircraft_Design_USEFUL_LOAD_MASS, Aircraft_Design_GROSS_MASS, 1);
             (Aircraft_Design_USEFUL_LOAD_MASS, Aircraft_Design_EMPTY_MASS, - 1)];
  c_run := UsefulLoadMass_compute op; c_jac := UsefulLoadMass_partials op |}.
