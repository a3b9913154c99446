(** FLOPS based masses of payload, crew and operating items, /repo/aviary/subsystems/mass/flops_based.

    Generated by tools/py2coq.py from the source text; see the header of that file for the rules.  Decimal
    literals are exact and numbers are real numbers. *)
From Coq Require Import Reals.
From Verif Require Import Base Comp MathModel MassDistModel.
Open Scope list_scope.
Open Scope string_scope.
Local Open Scope R_scope.

(** ** Variable names, /repo/aviary/variable_info/variables.py *)
Definition Aircraft_CrewPayload_BAGGAGE_MASS := "aircraft:crew_and_payload:baggage_mass".
Definition Aircraft_CrewPayload_BAGGAGE_MASS_PER_PASSENGER := "aircraft:crew_and_payload:baggage_mass_per_passenger".
Definition Aircraft_CrewPayload_CABIN_CREW_MASS := "aircraft:crew_and_payload:cabin_crew_mass".
Definition Aircraft_CrewPayload_CABIN_CREW_MASS_SCALER := "aircraft:crew_and_payload:cabin_crew_mass_scaler".
Definition Aircraft_CrewPayload_CARGO_CONTAINER_MASS := "aircraft:crew_and_payload:cargo_container_mass".
Definition Aircraft_CrewPayload_CARGO_CONTAINER_MASS_SCALER :=
    "aircraft:crew_and_payload:cargo_container_mass_scaler".
Definition Aircraft_CrewPayload_CARGO_MASS := "aircraft:crew_and_payload:cargo_mass".
Definition Aircraft_CrewPayload_Design_NUM_BUSINESS_CLASS := "aircraft:crew_and_payload:design:num_business_class".
Definition Aircraft_CrewPayload_Design_NUM_ECONOMY_CLASS := "aircraft:crew_and_payload:design:num_economy_class".
Definition Aircraft_CrewPayload_Design_NUM_FIRST_CLASS := "aircraft:crew_and_payload:design:num_first_class".
Definition Aircraft_CrewPayload_Design_NUM_PASSENGERS := "aircraft:crew_and_payload:design:num_passengers".
Definition Aircraft_CrewPayload_FLIGHT_CREW_MASS := "aircraft:crew_and_payload:flight_crew_mass".
Definition Aircraft_CrewPayload_FLIGHT_CREW_MASS_SCALER := "aircraft:crew_and_payload:flight_crew_mass_scaler".
Definition Aircraft_CrewPayload_MASS_PER_PASSENGER := "aircraft:crew_and_payload:mass_per_passenger".
Definition Aircraft_CrewPayload_MISC_CARGO := "aircraft:crew_and_payload:misc_cargo".
Definition Aircraft_CrewPayload_NUM_FLIGHT_ATTENDANTS := "aircraft:crew_and_payload:num_flight_attendants".
Definition Aircraft_CrewPayload_NUM_FLIGHT_CREW := "aircraft:crew_and_payload:num_flight_crew".
Definition Aircraft_CrewPayload_NUM_GALLEY_CREW := "aircraft:crew_and_payload:num_galley_crew".
Definition Aircraft_CrewPayload_NUM_PASSENGERS := "aircraft:crew_and_payload:num_passengers".
Definition Aircraft_CrewPayload_PASSENGER_MASS_TOTAL := "aircraft:crew_and_payload:passenger_mass_total".
Definition Aircraft_CrewPayload_PASSENGER_PAYLOAD_MASS := "aircraft:crew_and_payload:passenger_payload_mass".
Definition Aircraft_CrewPayload_PASSENGER_SERVICE_MASS := "aircraft:crew_and_payload:passenger_service_mass".
Definition Aircraft_CrewPayload_PASSENGER_SERVICE_MASS_SCALER :=
    "aircraft:crew_and_payload:passenger_service_mass_scaler".
Definition Aircraft_CrewPayload_TOTAL_PAYLOAD_MASS := "aircraft:crew_and_payload:total_payload_mass".
Definition Aircraft_CrewPayload_WING_CARGO := "aircraft:crew_and_payload:wing_cargo".
Definition Aircraft_Design_EMPTY_MASS_MARGIN := "aircraft:design:empty_mass_margin".
Definition Aircraft_Design_EMPTY_MASS_MARGIN_SCALER := "aircraft:design:empty_mass_margin_scaler".
Definition Aircraft_Design_RANGE := "aircraft:design:range".
Definition Aircraft_Design_STRUCTURE_MASS := "aircraft:design:structure_mass".
Definition Aircraft_Design_SYSTEMS_AND_EQUIPMENT_MASS := "aircraft:design:systems_and_equipment_mass".
Definition Aircraft_Design_TOTAL_WETTED_AREA := "aircraft:design:total_wetted_area".
Definition Aircraft_Fuel_DENSITY := "aircraft:fuel:density".
Definition Aircraft_Fuel_MAX_CAPACITY_MASS := "aircraft:fuel:max_capacity_mass".
Definition Aircraft_Fuel_MAX_CAPACITY_VOLUME := "aircraft:fuel:max_capacity_volume".
Definition Aircraft_Fuel_NUM_TANKS := "aircraft:fuel:num_tanks".
Definition Aircraft_Fuel_UNUSABLE_FUEL_MASS := "aircraft:fuel:unusable_fuel_mass".
Definition Aircraft_Fuel_UNUSABLE_FUEL_MASS_SCALER := "aircraft:fuel:unusable_fuel_mass_scaler".
Definition Aircraft_Paint_MASS := "aircraft:paint:mass".
Definition Aircraft_Paint_MASS_PER_UNIT_AREA := "aircraft:paint:mass_per_unit_area".
Definition Aircraft_Propulsion_ENGINE_OIL_MASS_SCALER := "aircraft:propulsion:engine_oil_mass_scaler".
Definition Aircraft_Propulsion_MASS := "aircraft:propulsion:mass".
Definition Aircraft_Propulsion_TOTAL_ENGINE_OIL_MASS := "aircraft:propulsion:total_engine_oil_mass".
Definition Aircraft_Propulsion_TOTAL_NUM_ENGINES := "aircraft:propulsion:total_num_engines".
Definition Aircraft_Propulsion_TOTAL_SCALED_SLS_THRUST := "aircraft:propulsion:total_scaled_sls_thrust".
Definition Aircraft_Wing_AREA := "aircraft:wing:area".
Definition Mission_Constraints_MAX_MACH := "mission:constraints:max_mach".


(** TransportCargoContainersMass.compute, /repo/aviary/subsystems/mass/flops_based/cargo_containers.py L27-38 *)
Definition TransportCargoContainersMass_compute (op : options) (e : env) : list (string * R) :=
  let scaler := e Aircraft_CrewPayload_CARGO_CONTAINER_MASS_SCALER in  (* L28 *)
  let cargo := e Aircraft_CrewPayload_CARGO_MASS in  (* L29 *)
  let baggage := e Aircraft_CrewPayload_BAGGAGE_MASS in  (* L30 *)
  let temp := (cargo + baggage) / 950 + 99 / 100 in  (* L32 *)
  let container_count := sin_int4 temp in  (* L33 *)
  let cargo_container_weight := container_count * 175 * scaler in  (* L34 *)
  let o_CrewPayload_CARGO_CONTAINER_MASS := cargo_container_weight / GRAV_ENGLISH_LBM in  (* L36 *)
  [(Aircraft_CrewPayload_CARGO_CONTAINER_MASS, o_CrewPayload_CARGO_CONTAINER_MASS)].

(** TransportCargoContainersMass.compute_partials, /repo/aviary/subsystems/mass/flops_based/cargo_containers.py L40-61 *)
Definition TransportCargoContainersMass_partials (op : options) (e : env) : list (string * string * R) :=
  let scaler := e Aircraft_CrewPayload_CARGO_CONTAINER_MASS_SCALER in  (* L41 *)
  let cargo := e Aircraft_CrewPayload_CARGO_MASS in  (* L42 *)
  let baggage := e Aircraft_CrewPayload_BAGGAGE_MASS in  (* L43 *)
  let temp := (cargo + baggage) / 950 + 99 / 100 in  (* L45 *)
  let container_count := sin_int4 temp in  (* L46 *)
  let partial := dydx_sin_int4 temp / 950 * 175 in  (* L48 *)
  let d_CrewPayload_CARGO_CONTAINER_MASS__CrewPayload_CARGO_CONTAINER_MASS_SCALER := container_count * 175 /
      GRAV_ENGLISH_LBM in  (* L50 *)
  let d_CrewPayload_CARGO_CONTAINER_MASS__CrewPayload_CARGO_MASS := partial * scaler / GRAV_ENGLISH_LBM in  (* L55 *)
  let d_CrewPayload_CARGO_CONTAINER_MASS__CrewPayload_BAGGAGE_MASS := partial * scaler / GRAV_ENGLISH_LBM in  (* L59 *)
  [(Aircraft_CrewPayload_CARGO_CONTAINER_MASS, Aircraft_CrewPayload_CARGO_CONTAINER_MASS_SCALER,
      d_CrewPayload_CARGO_CONTAINER_MASS__CrewPayload_CARGO_CONTAINER_MASS_SCALER);
   (Aircraft_CrewPayload_CARGO_CONTAINER_MASS, Aircraft_CrewPayload_CARGO_MASS,
       d_CrewPayload_CARGO_CONTAINER_MASS__CrewPayload_CARGO_MASS);
   (Aircraft_CrewPayload_CARGO_CONTAINER_MASS, Aircraft_CrewPayload_BAGGAGE_MASS,
       d_CrewPayload_CARGO_CONTAINER_MASS__CrewPayload_BAGGAGE_MASS)].

(** Inputs, outputs and declared partials: /repo/aviary/subsystems/mass/flops_based/cargo_containers.py L17-25 *)
Definition TransportCargoContainersMass (op : options) : comp := {|
  c_ins := [Aircraft_CrewPayload_CARGO_CONTAINER_MASS_SCALER;
            Aircraft_CrewPayload_CARGO_MASS;
            Aircraft_CrewPayload_BAGGAGE_MASS];
  c_outs := [Aircraft_CrewPayload_CARGO_CONTAINER_MASS];
  c_decl := [(Aircraft_CrewPayload_CARGO_CONTAINER_MASS, Aircraft_CrewPayload_CARGO_CONTAINER_MASS_SCALER, 0);
             (Aircraft_CrewPayload_CARGO_CONTAINER_MASS, Aircraft_CrewPayload_CARGO_MASS, 0);
             (Aircraft_CrewPayload_CARGO_CONTAINER_MASS, Aircraft_CrewPayload_BAGGAGE_MASS, 0)];
  c_run := TransportCargoContainersMass_compute op; c_jac := TransportCargoContainersMass_partials op |}.

(** CabinCrewMass.compute, /repo/aviary/subsystems/mass/flops_based/crew.py L30-42 *)
Definition CabinCrewMass_compute (op : options) (e : env) : list (string * R) :=
  let flight_attendants_count := on op Aircraft_CrewPayload_NUM_FLIGHT_ATTENDANTS in  (* L31 *)
  let galley_crew_count := on op Aircraft_CrewPayload_NUM_GALLEY_CREW in  (* L32 *)
  let mass_per_flight_attendant := 155 in  (* L34 *)
  let mass_per_galley_crew := 200 in  (* L35 *)
  let mass_scaler := e Aircraft_CrewPayload_CABIN_CREW_MASS_SCALER in  (* L37 *)
  let o_CrewPayload_CABIN_CREW_MASS := (flight_attendants_count * mass_per_flight_attendant + galley_crew_count *
      mass_per_galley_crew) * mass_scaler in  (* L39 *)
  [(Aircraft_CrewPayload_CABIN_CREW_MASS, o_CrewPayload_CABIN_CREW_MASS)].

(** CabinCrewMass.compute_partials, /repo/aviary/subsystems/mass/flops_based/crew.py L44-57 *)
Definition CabinCrewMass_partials (op : options) (e : env) : list (string * string * R) :=
  let flight_attendants_count := on op Aircraft_CrewPayload_NUM_FLIGHT_ATTENDANTS in  (* L45 *)
  let galley_crew_count := on op Aircraft_CrewPayload_NUM_GALLEY_CREW in  (* L46 *)
  let mass_per_flight_attendant := 155 in  (* L48 *)
  let mass_per_galley_crew := 200 in  (* L49 *)
  let d_CrewPayload_CABIN_CREW_MASS__CrewPayload_CABIN_CREW_MASS_SCALER := flight_attendants_count *
      mass_per_flight_attendant + galley_crew_count * mass_per_galley_crew in  (* L51 *)
  [(Aircraft_CrewPayload_CABIN_CREW_MASS, Aircraft_CrewPayload_CABIN_CREW_MASS_SCALER,
      d_CrewPayload_CABIN_CREW_MASS__CrewPayload_CABIN_CREW_MASS_SCALER)].

(** Inputs, outputs and declared partials: /repo/aviary/subsystems/mass/flops_based/crew.py L19-28 *)
Definition CabinCrewMass (op : options) : comp := {|
  c_ins := [Aircraft_CrewPayload_CABIN_CREW_MASS_SCALER];
  c_outs := [Aircraft_CrewPayload_CABIN_CREW_MASS];
  c_decl := [(Aircraft_CrewPayload_CABIN_CREW_MASS, Aircraft_CrewPayload_CABIN_CREW_MASS_SCALER, 0)];
  c_run := CabinCrewMass_compute op; c_jac := CabinCrewMass_partials op |}.

(** FlightCrewMass.compute, /repo/aviary/subsystems/mass/flops_based/crew.py L79-88 *)
Definition FlightCrewMass_compute (op : options) (e : env) : list (string * R) :=
  let flight_crew_count := on op Aircraft_CrewPayload_NUM_FLIGHT_CREW in  (* L80 *)
  let mass_per_flight_crew := 
      let mass_per_flight_crew := 225 in  (* L105 *)
      mass_per_flight_crew in  (* L82 *)
  let mass_scaler := e Aircraft_CrewPayload_FLIGHT_CREW_MASS_SCALER in  (* L84 *)
  let o_CrewPayload_FLIGHT_CREW_MASS := flight_crew_count * mass_per_flight_crew * mass_scaler in  (* L86 *)
  [(Aircraft_CrewPayload_FLIGHT_CREW_MASS, o_CrewPayload_FLIGHT_CREW_MASS)].

(** FlightCrewMass.compute_partials, /repo/aviary/subsystems/mass/flops_based/crew.py L90-97 *)
Definition FlightCrewMass_partials (op : options) (e : env) : list (string * string * R) :=
  let flight_crew_count := on op Aircraft_CrewPayload_NUM_FLIGHT_CREW in  (* L91 *)
  let mass_per_flight_crew := 
      let mass_per_flight_crew := 225 in  (* L105 *)
      mass_per_flight_crew in  (* L93 *)
  let d_CrewPayload_FLIGHT_CREW_MASS__CrewPayload_FLIGHT_CREW_MASS_SCALER := flight_crew_count * mass_per_flight_crew
      in  (* L95 *)
  [(Aircraft_CrewPayload_FLIGHT_CREW_MASS, Aircraft_CrewPayload_FLIGHT_CREW_MASS_SCALER,
      d_CrewPayload_FLIGHT_CREW_MASS__CrewPayload_FLIGHT_CREW_MASS_SCALER)].

(** Inputs, outputs and declared partials: /repo/aviary/subsystems/mass/flops_based/crew.py L69-77 *)
Definition FlightCrewMass (op : options) : comp := {|
  c_ins := [Aircraft_CrewPayload_FLIGHT_CREW_MASS_SCALER];
  c_outs := [Aircraft_CrewPayload_FLIGHT_CREW_MASS];
  c_decl := [(Aircraft_CrewPayload_FLIGHT_CREW_MASS, Aircraft_CrewPayload_FLIGHT_CREW_MASS_SCALER, 0)];
  c_run := FlightCrewMass_compute op; c_jac := FlightCrewMass_partials op |}.

(** EmptyMassMargin.compute, /repo/aviary/subsystems/mass/flops_based/empty_margin.py L21-29 *)
Definition EmptyMassMargin_compute (op : options) (e : env) : list (string * R) :=
  let prop_mass := e Aircraft_Propulsion_MASS in  (* L22 *)
  let struct_mass := e Aircraft_Design_STRUCTURE_MASS in  (* L23 *)
  let sys_eq_mass := e Aircraft_Design_SYSTEMS_AND_EQUIPMENT_MASS in  (* L24 *)
  let scaler := e Aircraft_Design_EMPTY_MASS_MARGIN_SCALER in  (* L25 *)
  let o_Design_EMPTY_MASS_MARGIN := (prop_mass + struct_mass + sys_eq_mass) * scaler in  (* L27 *)
  [(Aircraft_Design_EMPTY_MASS_MARGIN, o_Design_EMPTY_MASS_MARGIN)].

(** EmptyMassMargin.compute_partials, /repo/aviary/subsystems/mass/flops_based/empty_margin.py L31-42 *)
Definition EmptyMassMargin_partials (op : options) (e : env) : list (string * string * R) :=
  let prop_mass := e Aircraft_Propulsion_MASS in  (* L32 *)
  let struct_mass := e Aircraft_Design_STRUCTURE_MASS in  (* L33 *)
  let sys_eq_mass := e Aircraft_Design_SYSTEMS_AND_EQUIPMENT_MASS in  (* L34 *)
  let scaler := e Aircraft_Design_EMPTY_MASS_MARGIN_SCALER in  (* L35 *)
  let d_Design_EMPTY_MASS_MARGIN__Propulsion_MASS := scaler in  (* L37 *)
  let d_Design_EMPTY_MASS_MARGIN__Design_STRUCTURE_MASS := scaler in  (* L38 *)
  let d_Design_EMPTY_MASS_MARGIN__Design_SYSTEMS_AND_EQUIPMENT_MASS := scaler in  (* L39 *)
  let d_Design_EMPTY_MASS_MARGIN__Design_EMPTY_MASS_MARGIN_SCALER := prop_mass + struct_mass + sys_eq_mass in  (* L40 *)
  [(Aircraft_Design_EMPTY_MASS_MARGIN, Aircraft_Propulsion_MASS, d_Design_EMPTY_MASS_MARGIN__Propulsion_MASS);
   (Aircraft_Design_EMPTY_MASS_MARGIN, Aircraft_Design_STRUCTURE_MASS,
       d_Design_EMPTY_MASS_MARGIN__Design_STRUCTURE_MASS);
   (Aircraft_Design_EMPTY_MASS_MARGIN, Aircraft_Design_SYSTEMS_AND_EQUIPMENT_MASS,
       d_Design_EMPTY_MASS_MARGIN__Design_SYSTEMS_AND_EQUIPMENT_MASS);
   (Aircraft_Design_EMPTY_MASS_MARGIN, Aircraft_Design_EMPTY_MASS_MARGIN_SCALER,
       d_Design_EMPTY_MASS_MARGIN__Design_EMPTY_MASS_MARGIN_SCALER)].

(** Inputs, outputs and declared partials: /repo/aviary/subsystems/mass/flops_based/empty_margin.py L10-19 *)
Definition EmptyMassMargin (op : options) : comp := {|
  c_ins := [Aircraft_Propulsion_MASS;
            Aircraft_Design_STRUCTURE_MASS;
            Aircraft_Design_SYSTEMS_AND_EQUIPMENT_MASS;
            Aircraft_Design_EMPTY_MASS_MARGIN_SCALER];
  c_outs := [Aircraft_Design_EMPTY_MASS_MARGIN];
  c_decl := [(Aircraft_Design_EMPTY_MASS_MARGIN, Aircraft_Propulsion_MASS, 0);
             (Aircraft_Design_EMPTY_MASS_MARGIN, Aircraft_Design_STRUCTURE_MASS, 0);
             (Aircraft_Design_EMPTY_MASS_MARGIN, Aircraft_Design_SYSTEMS_AND_EQUIPMENT_MASS, 0);
             (Aircraft_Design_EMPTY_MASS_MARGIN, Aircraft_Design_EMPTY_MASS_MARGIN_SCALER, 0)];
  c_run := EmptyMassMargin_compute op; c_jac := EmptyMassMargin_partials op |}.

(** TransportEngineOilMass.compute, /repo/aviary/subsystems/mass/flops_based/engine_oil.py L37-46 *)
Definition TransportEngineOilMass_compute (op : options) (e : env) : list (string * R) :=
  let scaler := e Aircraft_Propulsion_ENGINE_OIL_MASS_SCALER in  (* L38 *)
  let num_eng := on op Aircraft_Propulsion_TOTAL_NUM_ENGINES in  (* L39 *)
  let num_eng_fact := distributed_engine_count_factor num_eng in  (* L40 *)
  let max_sls_thrust := e Aircraft_Propulsion_TOTAL_SCALED_SLS_THRUST in  (* L41 *)
  let thrust_factor := distributed_thrust_factor max_sls_thrust num_eng in  (* L42 *)
  let o_Propulsion_TOTAL_ENGINE_OIL_MASS := 82 / 1000 * num_eng_fact * thrust_factor ** (65 / 100) * scaler /
      GRAV_ENGLISH_LBM in  (* L44 *)
  [(Aircraft_Propulsion_TOTAL_ENGINE_OIL_MASS, o_Propulsion_TOTAL_ENGINE_OIL_MASS)].

(** TransportEngineOilMass.compute_partials, /repo/aviary/subsystems/mass/flops_based/engine_oil.py L48-61 *)
Definition TransportEngineOilMass_partials (op : options) (e : env) : list (string * string * R) :=
  let scaler := e Aircraft_Propulsion_ENGINE_OIL_MASS_SCALER in  (* L49 *)
  let num_eng := on op Aircraft_Propulsion_TOTAL_NUM_ENGINES in  (* L50 *)
  let num_eng_fact := distributed_engine_count_factor num_eng in  (* L51 *)
  let max_sls_thrust := e Aircraft_Propulsion_TOTAL_SCALED_SLS_THRUST in  (* L52 *)
  let thrust_factor := distributed_thrust_factor max_sls_thrust num_eng in  (* L53 *)
  let d_Propulsion_TOTAL_ENGINE_OIL_MASS__Propulsion_ENGINE_OIL_MASS_SCALER := 82 / 1000 * num_eng_fact *
      thrust_factor ** (65 / 100) / GRAV_ENGLISH_LBM in  (* L55 *)
  let d_Propulsion_TOTAL_ENGINE_OIL_MASS__Propulsion_TOTAL_SCALED_SLS_THRUST := 533 / 10000 * thrust_factor ** (- 35 /
      100) * scaler / GRAV_ENGLISH_LBM in  (* L59 *)
  [(Aircraft_Propulsion_TOTAL_ENGINE_OIL_MASS, Aircraft_Propulsion_ENGINE_OIL_MASS_SCALER,
      d_Propulsion_TOTAL_ENGINE_OIL_MASS__Propulsion_ENGINE_OIL_MASS_SCALER);
   (Aircraft_Propulsion_TOTAL_ENGINE_OIL_MASS, Aircraft_Propulsion_TOTAL_SCALED_SLS_THRUST,
       d_Propulsion_TOTAL_ENGINE_OIL_MASS__Propulsion_TOTAL_SCALED_SLS_THRUST)].

(** Inputs, outputs and declared partials: /repo/aviary/subsystems/mass/flops_based/engine_oil.py L28-35 *)
Definition TransportEngineOilMass (op : options) : comp := {|
  c_ins := [Aircraft_Propulsion_ENGINE_OIL_MASS_SCALER;
            Aircraft_Propulsion_TOTAL_SCALED_SLS_THRUST];
  c_outs := [Aircraft_Propulsion_TOTAL_ENGINE_OIL_MASS];
  c_decl := [(Aircraft_Propulsion_TOTAL_ENGINE_OIL_MASS, Aircraft_Propulsion_ENGINE_OIL_MASS_SCALER, 0);
             (Aircraft_Propulsion_TOTAL_ENGINE_OIL_MASS, Aircraft_Propulsion_TOTAL_SCALED_SLS_THRUST, 0)];
  c_run := TransportEngineOilMass_compute op; c_jac := TransportEngineOilMass_partials op |}.

(** AltEngineOilMass.compute, /repo/aviary/subsystems/mass/flops_based/engine_oil.py L82-89 *)
Definition AltEngineOilMass_compute (op : options) (e : env) : list (string * R) :=
  let pax := on op Aircraft_CrewPayload_Design_NUM_PASSENGERS in  (* L83 *)
  let scaler := e Aircraft_Propulsion_ENGINE_OIL_MASS_SCALER in  (* L85 *)
  let o_Propulsion_TOTAL_ENGINE_OIL_MASS := 240 * floorR ((pax + 39) / 40) * scaler / GRAV_ENGLISH_LBM in  (* L87 *)
  [(Aircraft_Propulsion_TOTAL_ENGINE_OIL_MASS, o_Propulsion_TOTAL_ENGINE_OIL_MASS)].

(** AltEngineOilMass.compute_partials, /repo/aviary/subsystems/mass/flops_based/engine_oil.py L91-96 *)
Definition AltEngineOilMass_partials (op : options) (e : env) : list (string * string * R) :=
  let pax := on op Aircraft_CrewPayload_Design_NUM_PASSENGERS in  (* L92 *)
  let d_Propulsion_TOTAL_ENGINE_OIL_MASS__Propulsion_ENGINE_OIL_MASS_SCALER := 240 * floorR ((pax + 39) / 40) /
      GRAV_ENGLISH_LBM in  (* L94 *)
  [(Aircraft_Propulsion_TOTAL_ENGINE_OIL_MASS, Aircraft_Propulsion_ENGINE_OIL_MASS_SCALER,
      d_Propulsion_TOTAL_ENGINE_OIL_MASS__Propulsion_ENGINE_OIL_MASS_SCALER)].

(** Inputs, outputs and declared partials: /repo/aviary/subsystems/mass/flops_based/engine_oil.py L74-80 *)
Definition AltEngineOilMass (op : options) : comp := {|
  c_ins := [Aircraft_Propulsion_ENGINE_OIL_MASS_SCALER];
  c_outs := [Aircraft_Propulsion_TOTAL_ENGINE_OIL_MASS];
  c_decl := [(Aircraft_Propulsion_TOTAL_ENGINE_OIL_MASS, Aircraft_Propulsion_ENGINE_OIL_MASS_SCALER, 0)];
  c_run := AltEngineOilMass_compute op; c_jac := AltEngineOilMass_partials op |}.

(** PaintMass.compute, /repo/aviary/subsystems/mass/flops_based/paint.py L19-23 *)
Definition PaintMass_compute (op : options) (e : env) : list (string * R) :=
  let wetted_area := e Aircraft_Design_TOTAL_WETTED_AREA in  (* L20 *)
  let mass_per_area := e Aircraft_Paint_MASS_PER_UNIT_AREA in  (* L21 *)
  let o_Paint_MASS := wetted_area * mass_per_area in  (* L23 *)
  [(Aircraft_Paint_MASS, o_Paint_MASS)].

(** PaintMass.compute_partials, /repo/aviary/subsystems/mass/flops_based/paint.py L25-31 *)
Definition PaintMass_partials (op : options) (e : env) : list (string * string * R) :=
  let wetted_area := e Aircraft_Design_TOTAL_WETTED_AREA in  (* L26 *)
  let mass_per_area := e Aircraft_Paint_MASS_PER_UNIT_AREA in  (* L27 *)
  let d_Paint_MASS__Design_TOTAL_WETTED_AREA := mass_per_area in  (* L29 *)
  let d_Paint_MASS__Paint_MASS_PER_UNIT_AREA := wetted_area in  (* L31 *)
  [(Aircraft_Paint_MASS, Aircraft_Design_TOTAL_WETTED_AREA, d_Paint_MASS__Design_TOTAL_WETTED_AREA);
   (Aircraft_Paint_MASS, Aircraft_Paint_MASS_PER_UNIT_AREA, d_Paint_MASS__Paint_MASS_PER_UNIT_AREA)].

(** Inputs, outputs and declared partials: /repo/aviary/subsystems/mass/flops_based/paint.py L10-17 *)
Definition PaintMass (op : options) : comp := {|
  c_ins := [Aircraft_Design_TOTAL_WETTED_AREA;
            Aircraft_Paint_MASS_PER_UNIT_AREA];
  c_outs := [Aircraft_Paint_MASS];
  c_decl := [(Aircraft_Paint_MASS, Aircraft_Design_TOTAL_WETTED_AREA, 0);
             (Aircraft_Paint_MASS, Aircraft_Paint_MASS_PER_UNIT_AREA, 0)];
  c_run := PaintMass_compute op; c_jac := PaintMass_partials op |}.

(** PassengerServiceMass.compute, /repo/aviary/subsystems/mass/flops_based/passenger_service.py L35-52 *)
Definition PassengerServiceMass_compute (op : options) (e : env) : list (string * R) :=
  let first_class_count := on op Aircraft_CrewPayload_Design_NUM_FIRST_CLASS in  (* L36 *)
  let business_class_count := on op Aircraft_CrewPayload_Design_NUM_BUSINESS_CLASS in  (* L37 *)
  let economy_class_count := on op Aircraft_CrewPayload_Design_NUM_ECONOMY_CLASS in  (* L38 *)
  let design_range := e Aircraft_Design_RANGE in  (* L40 *)
  let max_mach := on op Mission_Constraints_MAX_MACH in  (* L41 *)
  let passenger_service_mass_scaler := e Aircraft_CrewPayload_PASSENGER_SERVICE_MASS_SCALER in  (* L43 *)
  let passenger_service_weight := (5164 / 1000 * first_class_count + 3846 / 1000 * business_class_count + 2529 / 1000
      * economy_class_count) * (design_range / max_mach) ** (225 / 1000) * passenger_service_mass_scaler in  (* L45 *)
  let o_CrewPayload_PASSENGER_SERVICE_MASS := passenger_service_weight / GRAV_ENGLISH_LBM in  (* L50 *)
  [(Aircraft_CrewPayload_PASSENGER_SERVICE_MASS, o_CrewPayload_PASSENGER_SERVICE_MASS)].

(** PassengerServiceMass.compute_partials, /repo/aviary/subsystems/mass/flops_based/passenger_service.py L54-83 *)
Definition PassengerServiceMass_partials (op : options) (e : env) : list (string * string * R) :=
  let first_class_count := on op Aircraft_CrewPayload_Design_NUM_FIRST_CLASS in  (* L55 *)
  let business_class_count := on op Aircraft_CrewPayload_Design_NUM_BUSINESS_CLASS in  (* L56 *)
  let economy_class_count := on op Aircraft_CrewPayload_Design_NUM_ECONOMY_CLASS in  (* L57 *)
  let design_range := e Aircraft_Design_RANGE in  (* L59 *)
  let max_mach := on op Mission_Constraints_MAX_MACH in  (* L60 *)
  let passenger_service_mass_scaler := e Aircraft_CrewPayload_PASSENGER_SERVICE_MASS_SCALER in  (* L62 *)
  let d_CrewPayload_PASSENGER_SERVICE_MASS__Design_RANGE := passenger_service_mass_scaler * (5164 / 1000 *
      first_class_count + 3846 / 1000 * business_class_count + 2529 / 1000 * economy_class_count) * (225 / 1000) *
      (design_range / max_mach) ** (- 775 / 1000) / max_mach / GRAV_ENGLISH_LBM in  (* L64 *)
  let d_CrewPayload_PASSENGER_SERVICE_MASS__CrewPayload_PASSENGER_SERVICE_MASS_SCALER := (5164 / 1000 *
      first_class_count + 3846 / 1000 * business_class_count + 2529 / 1000 * economy_class_count) * (design_range /
      max_mach) ** (225 / 1000) / GRAV_ENGLISH_LBM in  (* L77 *)
  [(Aircraft_CrewPayload_PASSENGER_SERVICE_MASS, Aircraft_Design_RANGE,
      d_CrewPayload_PASSENGER_SERVICE_MASS__Design_RANGE);
   (Aircraft_CrewPayload_PASSENGER_SERVICE_MASS, Aircraft_CrewPayload_PASSENGER_SERVICE_MASS_SCALER,
       d_CrewPayload_PASSENGER_SERVICE_MASS__CrewPayload_PASSENGER_SERVICE_MASS_SCALER)].

(** Inputs, outputs and declared partials: /repo/aviary/subsystems/mass/flops_based/passenger_service.py L26-33 *)
Definition PassengerServiceMass (op : options) : comp := {|
  c_ins := [Aircraft_CrewPayload_PASSENGER_SERVICE_MASS_SCALER;
            Aircraft_Design_RANGE];
  c_outs := [Aircraft_CrewPayload_PASSENGER_SERVICE_MASS];
  c_decl := [(Aircraft_CrewPayload_PASSENGER_SERVICE_MASS, Aircraft_CrewPayload_PASSENGER_SERVICE_MASS_SCALER, 0);
             (Aircraft_CrewPayload_PASSENGER_SERVICE_MASS, Aircraft_Design_RANGE, 0)];
  c_run := PassengerServiceMass_compute op; c_jac := PassengerServiceMass_partials op |}.

(** AltPassengerServiceMass.compute, /repo/aviary/subsystems/mass/flops_based/passenger_service.py L104-113 *)
Definition AltPassengerServiceMass_compute (op : options) (e : env) : list (string * R) :=
  let passenger_count := on op Aircraft_CrewPayload_Design_NUM_PASSENGERS in  (* L105 *)
  let passenger_service_mass_scaler := e Aircraft_CrewPayload_PASSENGER_SERVICE_MASS_SCALER in  (* L107 *)
  let passenger_service_weight := 317 / 10 * passenger_count * passenger_service_mass_scaler in  (* L109 *)
  let o_CrewPayload_PASSENGER_SERVICE_MASS := passenger_service_weight / GRAV_ENGLISH_LBM in  (* L111 *)
  [(Aircraft_CrewPayload_PASSENGER_SERVICE_MASS, o_CrewPayload_PASSENGER_SERVICE_MASS)].

(** AltPassengerServiceMass.compute_partials, /repo/aviary/subsystems/mass/flops_based/passenger_service.py L115-121 *)
Definition AltPassengerServiceMass_partials (op : options) (e : env) : list (string * string * R) :=
  let passenger_count := on op Aircraft_CrewPayload_Design_NUM_PASSENGERS in  (* L116 *)
  let d_CrewPayload_PASSENGER_SERVICE_MASS__CrewPayload_PASSENGER_SERVICE_MASS_SCALER := 317 / 10 * passenger_count /
      GRAV_ENGLISH_LBM in  (* L118 *)
  [(Aircraft_CrewPayload_PASSENGER_SERVICE_MASS, Aircraft_CrewPayload_PASSENGER_SERVICE_MASS_SCALER,
      d_CrewPayload_PASSENGER_SERVICE_MASS__CrewPayload_PASSENGER_SERVICE_MASS_SCALER)].

(** Inputs, outputs and declared partials: /repo/aviary/subsystems/mass/flops_based/passenger_service.py L96-102 *)
Definition AltPassengerServiceMass (op : options) : comp := {|
  c_ins := [Aircraft_CrewPayload_PASSENGER_SERVICE_MASS_SCALER];
  c_outs := [Aircraft_CrewPayload_PASSENGER_SERVICE_MASS];
  c_decl := [(Aircraft_CrewPayload_PASSENGER_SERVICE_MASS, Aircraft_CrewPayload_PASSENGER_SERVICE_MASS_SCALER, 0)];
  c_run := AltPassengerServiceMass_compute op; c_jac := AltPassengerServiceMass_partials op |}.

(** TotalPayload.compute, /repo/aviary/subsystems/mass/flops_based/payload.py L40-44 *)
Definition TotalPayload_compute (op : options) (e : env) : list (string * R) :=
  let cargo_mass := e Aircraft_CrewPayload_CARGO_MASS in  (* L41 *)
  let passenger_payload_mass := e Aircraft_CrewPayload_PASSENGER_PAYLOAD_MASS in  (* L42 *)
  let o_CrewPayload_TOTAL_PAYLOAD_MASS := passenger_payload_mass + cargo_mass in  (* L44 *)
  [(Aircraft_CrewPayload_TOTAL_PAYLOAD_MASS, o_CrewPayload_TOTAL_PAYLOAD_MASS)].

Definition TotalPayload_partials (op : options) (e : env) : list (string * string * R) := [].

(** Inputs, outputs and declared partials: /repo/aviary/subsystems/mass/flops_based/payload.py L27-38 *)
Definition TotalPayload (op : options) : comp := {|
  c_ins := [Aircraft_CrewPayload_CARGO_MASS;
            Aircraft_CrewPayload_PASSENGER_PAYLOAD_MASS];
  c_outs := [Aircraft_CrewPayload_TOTAL_PAYLOAD_MASS];
  c_decl := [(Aircraft_CrewPayload_TOTAL_PAYLOAD_MASS, Aircraft_CrewPayload_CARGO_MASS, 1);
             (Aircraft_CrewPayload_TOTAL_PAYLOAD_MASS, Aircraft_CrewPayload_PASSENGER_PAYLOAD_MASS, 1)];
  c_run := TotalPayload_compute op; c_jac := TotalPayload_partials op |}.

(** CargoMass.compute, /repo/aviary/subsystems/mass/flops_based/payload.py L59-63 *)
Definition CargoMass_compute (op : options) (e : env) : list (string * R) :=
  let wing_cargo := e Aircraft_CrewPayload_WING_CARGO in  (* L60 *)
  let misc_cargo := e Aircraft_CrewPayload_MISC_CARGO in  (* L61 *)
  let o_CrewPayload_CARGO_MASS := wing_cargo + misc_cargo in  (* L63 *)
  [(Aircraft_CrewPayload_CARGO_MASS, o_CrewPayload_CARGO_MASS)].

Definition CargoMass_partials (op : options) (e : env) : list (string * string * R) := [].

(** Inputs, outputs and declared partials: /repo/aviary/subsystems/mass/flops_based/payload.py L50-57 *)
Definition CargoMass (op : options) : comp := {|
  c_ins := [Aircraft_CrewPayload_WING_CARGO;
            Aircraft_CrewPayload_MISC_CARGO];
  c_outs := [Aircraft_CrewPayload_CARGO_MASS];
  c_decl := [(Aircraft_CrewPayload_CARGO_MASS, Aircraft_CrewPayload_WING_CARGO, 1);
             (Aircraft_CrewPayload_CARGO_MASS, Aircraft_CrewPayload_MISC_CARGO, 1)];
  c_run := CargoMass_compute op; c_jac := CargoMass_partials op |}.

(** PaxPayloadMass.compute, /repo/aviary/subsystems/mass/flops_based/payload.py L103-114 *)
Definition PaxPayloadMass_compute (op : options) (e : env) : list (string * R) :=
  let passenger_count := on op Aircraft_CrewPayload_NUM_PASSENGERS in  (* L104 *)
  let mass_per_passenger := e Aircraft_CrewPayload_MASS_PER_PASSENGER in  (* L105 *)
  let baggage_mass_per_passenger := e Aircraft_CrewPayload_BAGGAGE_MASS_PER_PASSENGER in  (* L106 *)
  let pax_mass := mass_per_passenger * passenger_count in  (* L108 *)
  let baggage_mass := baggage_mass_per_passenger * passenger_count in  (* L109 *)
  let pax_payload := pax_mass + baggage_mass in  (* L110 *)
  let o_CrewPayload_PASSENGER_MASS_TOTAL := pax_mass in  (* L112 *)
  let o_CrewPayload_BAGGAGE_MASS := baggage_mass in  (* L113 *)
  let o_CrewPayload_PASSENGER_PAYLOAD_MASS := pax_payload in  (* L114 *)
  [(Aircraft_CrewPayload_PASSENGER_MASS_TOTAL, o_CrewPayload_PASSENGER_MASS_TOTAL);
   (Aircraft_CrewPayload_BAGGAGE_MASS, o_CrewPayload_BAGGAGE_MASS);
   (Aircraft_CrewPayload_PASSENGER_PAYLOAD_MASS, o_CrewPayload_PASSENGER_PAYLOAD_MASS)].

Definition PaxPayloadMass_partials (op : options) (e : env) : list (string * string * R) := [].

(** Inputs, outputs and declared partials: /repo/aviary/subsystems/mass/flops_based/payload.py L72-101 *)
Definition PaxPayloadMass (op : options) : comp := {|
  c_ins := [Aircraft_CrewPayload_BAGGAGE_MASS_PER_PASSENGER;
            Aircraft_CrewPayload_MASS_PER_PASSENGER];
  c_outs := [Aircraft_CrewPayload_PASSENGER_MASS_TOTAL;
             Aircraft_CrewPayload_BAGGAGE_MASS;
             Aircraft_CrewPayload_PASSENGER_PAYLOAD_MASS];
  c_decl := [(Aircraft_CrewPayload_PASSENGER_MASS_TOTAL, Aircraft_CrewPayload_MASS_PER_PASSENGER, (on op
      Aircraft_CrewPayload_NUM_PASSENGERS));
             (Aircraft_CrewPayload_BAGGAGE_MASS, Aircraft_CrewPayload_BAGGAGE_MASS_PER_PASSENGER, (on op
                 Aircraft_CrewPayload_NUM_PASSENGERS));
             (Aircraft_CrewPayload_PASSENGER_PAYLOAD_MASS, Aircraft_CrewPayload_BAGGAGE_MASS_PER_PASSENGER, (on op
                 Aircraft_CrewPayload_NUM_PASSENGERS));
             (Aircraft_CrewPayload_PASSENGER_PAYLOAD_MASS, Aircraft_CrewPayload_MASS_PER_PASSENGER, (on op
                 Aircraft_CrewPayload_NUM_PASSENGERS))];
  c_run := PaxPayloadMass_compute op; c_jac := PaxPayloadMass_partials op |}.

(** TransportUnusableFuelMass.compute, /repo/aviary/subsystems/mass/flops_based/unusable_fuel.py L57-83 *)
Definition TransportUnusableFuelMass_compute (op : options) (e : env) : list (string * R) :=
  let tank_count := on op Aircraft_Fuel_NUM_TANKS in  (* L58 *)
  let scaler := e Aircraft_Fuel_UNUSABLE_FUEL_MASS_SCALER in  (* L59 *)
  let density_ratio := e Aircraft_Fuel_DENSITY / (67 / 10) in  (* L61 *)
  let total_capacity := e Aircraft_Fuel_MAX_CAPACITY_MASS in  (* L62 *)
  let num_eng := on op Aircraft_Propulsion_TOTAL_NUM_ENGINES in  (* L63 *)
  let num_eng_fact := distributed_engine_count_factor num_eng in  (* L64 *)
  let max_sls_thrust := e Aircraft_Propulsion_TOTAL_SCALED_SLS_THRUST in  (* L65 *)
  let thrust_factor := distributed_thrust_factor max_sls_thrust num_eng in  (* L66 *)
  let wing_area := e Aircraft_Wing_AREA in  (* L67 *)
  let o_Fuel_UNUSABLE_FUEL_MASS := (115 / 10 * num_eng_fact * thrust_factor ** (2 / 10) + 7 / 100 * wing_area + 16 /
      10 * tank_count * total_capacity ** (28 / 100)) * density_ratio * scaler / GRAV_ENGLISH_LBM in  (* L72 *)
  [(Aircraft_Fuel_UNUSABLE_FUEL_MASS, o_Fuel_UNUSABLE_FUEL_MASS)].

(** TransportUnusableFuelMass.compute_partials, /repo/aviary/subsystems/mass/flops_based/unusable_fuel.py L85-127 *)
Definition TransportUnusableFuelMass_partials (op : options) (e : env) : list (string * string * R) :=
  let tank_count := on op Aircraft_Fuel_NUM_TANKS in  (* L86 *)
  let scaler := e Aircraft_Fuel_UNUSABLE_FUEL_MASS_SCALER in  (* L87 *)
  let density_ratio := e Aircraft_Fuel_DENSITY / (67 / 10) in  (* L88 *)
  let total_capacity := e Aircraft_Fuel_MAX_CAPACITY_MASS in  (* L89 *)
  let num_eng := on op Aircraft_Propulsion_TOTAL_NUM_ENGINES in  (* L90 *)
  let num_eng_fact := distributed_engine_count_factor num_eng in  (* L91 *)
  let max_sls_thrust := e Aircraft_Propulsion_TOTAL_SCALED_SLS_THRUST in  (* L92 *)
  let thrust_factor := distributed_thrust_factor max_sls_thrust num_eng in  (* L93 *)
  let wing_area := e Aircraft_Wing_AREA in  (* L94 *)
  let term1 := thrust_factor ** (2 / 10) in  (* L96 *)
  let term2 := total_capacity ** (28 / 100) in  (* L97 *)
  let d_Fuel_UNUSABLE_FUEL_MASS__Fuel_UNUSABLE_FUEL_MASS_SCALER := (115 / 10 * num_eng_fact * term1 + 7 / 100 *
      wing_area + 16 / 10 * tank_count * term2) * density_ratio / GRAV_ENGLISH_LBM in  (* L105 *)
  let d_Fuel_UNUSABLE_FUEL_MASS__Propulsion_TOTAL_SCALED_SLS_THRUST := 23 / 10 * thrust_factor ** (- 8 / 10) *
      density_ratio * scaler / GRAV_ENGLISH_LBM in  (* L111 *)
  let d_Fuel_UNUSABLE_FUEL_MASS__Wing_AREA := 7 / 100 * density_ratio * scaler / GRAV_ENGLISH_LBM in  (* L115 *)
  let d_Fuel_UNUSABLE_FUEL_MASS__Fuel_MAX_CAPACITY_MASS := 448 / 1000 * tank_count * total_capacity ** (- 72 / 100) *
      density_ratio * scaler / GRAV_ENGLISH_LBM in  (* L119 *)
  let d_Fuel_UNUSABLE_FUEL_MASS__Fuel_DENSITY := (115 / 10 * num_eng_fact * term1 + 7 / 100 * wing_area + 16 / 10 *
      tank_count * term2) / (67 / 10) * scaler / GRAV_ENGLISH_LBM in  (* L123 *)
  [(Aircraft_Fuel_UNUSABLE_FUEL_MASS, Aircraft_Fuel_UNUSABLE_FUEL_MASS_SCALER,
      d_Fuel_UNUSABLE_FUEL_MASS__Fuel_UNUSABLE_FUEL_MASS_SCALER);
   (Aircraft_Fuel_UNUSABLE_FUEL_MASS, Aircraft_Propulsion_TOTAL_SCALED_SLS_THRUST,
       d_Fuel_UNUSABLE_FUEL_MASS__Propulsion_TOTAL_SCALED_SLS_THRUST);
   (Aircraft_Fuel_UNUSABLE_FUEL_MASS, Aircraft_Wing_AREA, d_Fuel_UNUSABLE_FUEL_MASS__Wing_AREA);
   (Aircraft_Fuel_UNUSABLE_FUEL_MASS, Aircraft_Fuel_MAX_CAPACITY_MASS,
       d_Fuel_UNUSABLE_FUEL_MASS__Fuel_MAX_CAPACITY_MASS);
   (Aircraft_Fuel_UNUSABLE_FUEL_MASS, Aircraft_Fuel_DENSITY, d_Fuel_UNUSABLE_FUEL_MASS__Fuel_DENSITY)].

(** Inputs, outputs and declared partials: /repo/aviary/subsystems/mass/flops_based/unusable_fuel.py L28-55 *)
Definition TransportUnusableFuelMass (op : options) : comp := {|
  c_ins := [Aircraft_Fuel_UNUSABLE_FUEL_MASS_SCALER;
            Aircraft_Fuel_DENSITY;
            Aircraft_Fuel_MAX_CAPACITY_MASS;
            Aircraft_Propulsion_TOTAL_SCALED_SLS_THRUST;
            Aircraft_Wing_AREA];
  c_outs := [Aircraft_Fuel_MAX_CAPACITY_VOLUME;
             Aircraft_Fuel_UNUSABLE_FUEL_MASS];
  c_decl := [(Aircraft_Fuel_MAX_CAPACITY_VOLUME, Aircraft_Fuel_MAX_CAPACITY_MASS, 0);
             (Aircraft_Fuel_MAX_CAPACITY_VOLUME, Aircraft_Fuel_DENSITY, 0);
             (Aircraft_Fuel_UNUSABLE_FUEL_MASS, Aircraft_Fuel_UNUSABLE_FUEL_MASS_SCALER, 0);
             (Aircraft_Fuel_UNUSABLE_FUEL_MASS, Aircraft_Propulsion_TOTAL_SCALED_SLS_THRUST, 0);
             (Aircraft_Fuel_UNUSABLE_FUEL_MASS, Aircraft_Wing_AREA, 0);
             (Aircraft_Fuel_UNUSABLE_FUEL_MASS, Aircraft_Fuel_MAX_CAPACITY_MASS, 0);
             (Aircraft_Fuel_UNUSABLE_FUEL_MASS, Aircraft_Fuel_DENSITY, 0)];
  c_run := TransportUnusableFuelMass_compute op; c_jac := TransportUnusableFuelMass_partials op |}.

(** AltUnusableFuelMass.compute, /repo/aviary/subsystems/mass/flops_based/unusable_fuel.py L147-151 *)
Definition AltUnusableFuelMass_compute (op : options) (e : env) : list (string * R) :=
  let total_fuel_capacity := e Aircraft_Fuel_MAX_CAPACITY_MASS in  (* L148 *)
  let scaler := e Aircraft_Fuel_UNUSABLE_FUEL_MASS_SCALER in  (* L149 *)
  let o_Fuel_UNUSABLE_FUEL_MASS := 84 / 10000 * total_fuel_capacity * scaler in  (* L151 *)
  [(Aircraft_Fuel_UNUSABLE_FUEL_MASS, o_Fuel_UNUSABLE_FUEL_MASS)].

(** AltUnusableFuelMass.compute_partials, /repo/aviary/subsystems/mass/flops_based/unusable_fuel.py L153-161 *)
Definition AltUnusableFuelMass_partials (op : options) (e : env) : list (string * string * R) :=
  let total_fuel_capacity := e Aircraft_Fuel_MAX_CAPACITY_MASS in  (* L154 *)
  let scaler := e Aircraft_Fuel_UNUSABLE_FUEL_MASS_SCALER in  (* L155 *)
  let d_Fuel_UNUSABLE_FUEL_MASS__Fuel_UNUSABLE_FUEL_MASS_SCALER := 84 / 10000 * total_fuel_capacity in  (* L157 *)
  let d_Fuel_UNUSABLE_FUEL_MASS__Fuel_MAX_CAPACITY_MASS := 84 / 10000 * scaler in  (* L161 *)
  [(Aircraft_Fuel_UNUSABLE_FUEL_MASS, Aircraft_Fuel_UNUSABLE_FUEL_MASS_SCALER,
      d_Fuel_UNUSABLE_FUEL_MASS__Fuel_UNUSABLE_FUEL_MASS_SCALER);
   (Aircraft_Fuel_UNUSABLE_FUEL_MASS, Aircraft_Fuel_MAX_CAPACITY_MASS,
       d_Fuel_UNUSABLE_FUEL_MASS__Fuel_MAX_CAPACITY_MASS)].

(** Inputs, outputs and declared partials: /repo/aviary/subsystems/mass/flops_based/unusable_fuel.py L137-145 *)
Definition AltUnusableFuelMass (op : options) : comp := {|
  c_ins := [Aircraft_Fuel_UNUSABLE_FUEL_MASS_SCALER;
            Aircraft_Fuel_MAX_CAPACITY_MASS];
  c_outs := [Aircraft_Fuel_UNUSABLE_FUEL_MASS];
  c_decl := [(Aircraft_Fuel_UNUSABLE_FUEL_MASS, Aircraft_Fuel_UNUSABLE_FUEL_MASS_SCALER, 0);
             (Aircraft_Fuel_UNUSABLE_FUEL_MASS, Aircraft_Fuel_MAX_CAPACITY_MASS, 0)];
  c_run := AltUnusableFuelMass_compute op; c_jac := AltUnusableFuelMass_partials op |}.
