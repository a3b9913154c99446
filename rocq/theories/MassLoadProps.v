(** C47, C50 and C51 for the FLOPS payload, crew and operating item masses. *)
From Coq Require Import Reals Lra.
From Coquelicot Require Import Coquelicot.
From Verif Require Import Base Calc MathModel MathProofs Comp MassDistModel MassDistProofs MassLoadModel.
Open Scope list_scope.
Open Scope string_scope.
Local Open Scope R_scope.

Theorem C47_TransportCargoContainersMass op : exact_partials (TransportCargoContainersMass op) everywhere.
Proof. exact_solve. Qed.
Print Assumptions C47_TransportCargoContainersMass.
Example C47_witness_TransportCargoContainersMass :
  out (TransportCargoContainersMass unit_options) (fun _ => 19 / 4) Aircraft_CrewPayload_CARGO_CONTAINER_MASS = 3325 / 8.
Proof. red_comp. replace ((19 / 4 + 19 / 4) / 950 + 99 / 100) with (IZR 1) by lra. rewrite sin_int4_Z. lra. Qed.

Theorem C47_CabinCrewMass op : exact_partials (CabinCrewMass op) everywhere.
Proof. exact_solve. Qed.
Print Assumptions C47_CabinCrewMass.
Example C47_witness_CabinCrewMass : out (CabinCrewMass unit_options) (fun _ => 1)
  Aircraft_CrewPayload_CABIN_CREW_MASS = 355.
Proof. unit_value. Qed.

Theorem C47_FlightCrewMass op : exact_partials (FlightCrewMass op) everywhere.
Proof. exact_solve. Qed.
Print Assumptions C47_FlightCrewMass.
Example C47_witness_FlightCrewMass : out (FlightCrewMass unit_options) (fun _ => 1)
  Aircraft_CrewPayload_FLIGHT_CREW_MASS = 225.
Proof. unit_value. Qed.

Theorem C47_EmptyMassMargin op : exact_partials (EmptyMassMargin op) everywhere.
Proof. exact_solve. Qed.
Print Assumptions C47_EmptyMassMargin.
Example C47_witness_EmptyMassMargin : out (EmptyMassMargin unit_options) (fun _ => 1)
  Aircraft_Design_EMPTY_MASS_MARGIN = 3.
Proof. unit_value. Qed.

Theorem C47_TransportEngineOilMass op : positive [Aircraft_Propulsion_TOTAL_NUM_ENGINES] (on op) -> exact_partials
  (TransportEngineOilMass op) (positive [Aircraft_Propulsion_TOTAL_SCALED_SLS_THRUST]).
Proof. intros Dop. exact_solve. Qed.
Print Assumptions C47_TransportEngineOilMass.
Example C47_witness_TransportEngineOilMass : out (TransportEngineOilMass unit_options) (fun _ => 1)
  Aircraft_Propulsion_TOTAL_ENGINE_OIL_MASS = 41 / 500.
Proof. unit_value. Qed.

Theorem C47_AltEngineOilMass op : exact_partials (AltEngineOilMass op) everywhere.
Proof. exact_solve. Qed.
Print Assumptions C47_AltEngineOilMass.
Example C47_witness_AltEngineOilMass :
  out (AltEngineOilMass unit_options) (fun _ => 1) Aircraft_Propulsion_TOTAL_ENGINE_OIL_MASS = 240.
Proof.
  red_comp; cbv [on ob oe unit_options]. rewrite (floor_unique _ 1) by lra. lra.
Qed.

Theorem C47_PaintMass op : exact_partials (PaintMass op) everywhere.
Proof. exact_solve. Qed.
Print Assumptions C47_PaintMass.
Example C47_witness_PaintMass : out (PaintMass unit_options) (fun _ => 1) Aircraft_Paint_MASS = 1.
Proof. unit_value. Qed.

Theorem C47_PassengerServiceMass op : positive [Mission_Constraints_MAX_MACH] (on op) -> exact_partials
  (PassengerServiceMass op) (positive [Aircraft_Design_RANGE]).
Proof. intros Dop. exact_solve. Qed.
Print Assumptions C47_PassengerServiceMass.
Example C47_witness_PassengerServiceMass : out (PassengerServiceMass unit_options) (fun _ => 1)
  Aircraft_CrewPayload_PASSENGER_SERVICE_MASS = 11539 / 1000.
Proof. unit_value. Qed.

Theorem C47_AltPassengerServiceMass op : exact_partials (AltPassengerServiceMass op) everywhere.
Proof. exact_solve. Qed.
Print Assumptions C47_AltPassengerServiceMass.
Example C47_witness_AltPassengerServiceMass : out (AltPassengerServiceMass unit_options) (fun _ => 1)
  Aircraft_CrewPayload_PASSENGER_SERVICE_MASS = 317 / 10.
Proof. unit_value. Qed.

Theorem C47_TotalPayload op : exact_partials (TotalPayload op) everywhere.
Proof. exact_solve. Qed.
Print Assumptions C47_TotalPayload.
Example C47_witness_TotalPayload : out (TotalPayload unit_options) (fun _ => 1)
  Aircraft_CrewPayload_TOTAL_PAYLOAD_MASS = 2.
Proof. unit_value. Qed.

Theorem C47_CargoMass op : exact_partials (CargoMass op) everywhere.
Proof. exact_solve. Qed.
Print Assumptions C47_CargoMass.
Example C47_witness_CargoMass : out (CargoMass unit_options) (fun _ => 1) Aircraft_CrewPayload_CARGO_MASS = 2.
Proof. unit_value. Qed.

Theorem C47_PaxPayloadMass op : exact_partials (PaxPayloadMass op) everywhere.
Proof. exact_solve. Qed.
Print Assumptions C47_PaxPayloadMass.
Example C47_witness_PaxPayloadMass_CrewPayload_PASSENGER_MASS_TOTAL : out (PaxPayloadMass unit_options) (fun _ =>
  1) Aircraft_CrewPayload_PASSENGER_MASS_TOTAL = 1.
Proof. unit_value. Qed.
Example C47_witness_PaxPayloadMass_CrewPayload_BAGGAGE_MASS : out (PaxPayloadMass unit_options) (fun _ => 1)
  Aircraft_CrewPayload_BAGGAGE_MASS = 1.
Proof. unit_value. Qed.
Example C47_witness_PaxPayloadMass_CrewPayload_PASSENGER_PAYLOAD_MASS : out (PaxPayloadMass unit_options) (fun _ =>
  1) Aircraft_CrewPayload_PASSENGER_PAYLOAD_MASS = 2.
Proof. unit_value. Qed.

(** One declared output is never assigned; the other has exact partials. *)
Theorem C47_TransportUnusableFuelMass op : positive [Aircraft_Propulsion_TOTAL_NUM_ENGINES] (on op) ->
  only_declared (TransportUnusableFuelMass op) /\
  forall e, positive [Aircraft_Fuel_MAX_CAPACITY_MASS; Aircraft_Propulsion_TOTAL_SCALED_SLS_THRUST] e ->
  forall i, In i (c_ins (TransportUnusableFuelMass op)) ->
  exact_at (TransportUnusableFuelMass op) e Aircraft_Fuel_UNUSABLE_FUEL_MASS i.
Proof.
  intro Dop. split; [declared_tac|]. intros e D i Hi. split_in Hi; subst i; unfold exact_at. all: exact_goals.
Qed.
Print Assumptions C47_TransportUnusableFuelMass.
Theorem C47_unusable_outputs_refuted : ~ (forall op e o, In o (c_outs (TransportUnusableFuelMass op)) ->
  dget o (c_run (TransportUnusableFuelMass op) e) <> None).
Proof. intro H. apply (H unit_options (fun _ => 1) Aircraft_Fuel_MAX_CAPACITY_VOLUME); [now left|reflexivity]. Qed.
Print Assumptions C47_unusable_outputs_refuted.
Example C47_witness_TransportUnusableFuelMass_Fuel_MAX_CAPACITY_VOLUME : out (TransportUnusableFuelMass
  unit_options) (fun _ => 1) Aircraft_Fuel_MAX_CAPACITY_VOLUME = 0.
Proof. unit_value. Qed.
Example C47_witness_TransportUnusableFuelMass_Fuel_UNUSABLE_FUEL_MASS : out (TransportUnusableFuelMass
  unit_options) (fun _ => 1) Aircraft_Fuel_UNUSABLE_FUEL_MASS = 1317 / 670.
Proof. unit_value. Qed.

Theorem C47_AltUnusableFuelMass op : exact_partials (AltUnusableFuelMass op) everywhere.
Proof. exact_solve. Qed.
Print Assumptions C47_AltUnusableFuelMass.
Example C47_witness_AltUnusableFuelMass : out (AltUnusableFuelMass unit_options) (fun _ => 1)
  Aircraft_Fuel_UNUSABLE_FUEL_MASS = 21 / 2500.
Proof. unit_value. Qed.

Theorem C50_MassLoad op : Forall (fun '(c, o, i) => proportional c o i)
  [(TransportCargoContainersMass op, Aircraft_CrewPayload_CARGO_CONTAINER_MASS,
     Aircraft_CrewPayload_CARGO_CONTAINER_MASS_SCALER);
   (CabinCrewMass op, Aircraft_CrewPayload_CABIN_CREW_MASS,
     Aircraft_CrewPayload_CABIN_CREW_MASS_SCALER);
   (FlightCrewMass op, Aircraft_CrewPayload_FLIGHT_CREW_MASS,
     Aircraft_CrewPayload_FLIGHT_CREW_MASS_SCALER);
   (EmptyMassMargin op, Aircraft_Design_EMPTY_MASS_MARGIN,
     Aircraft_Design_EMPTY_MASS_MARGIN_SCALER);
   (TransportEngineOilMass op, Aircraft_Propulsion_TOTAL_ENGINE_OIL_MASS,
     Aircraft_Propulsion_ENGINE_OIL_MASS_SCALER);
   (AltEngineOilMass op, Aircraft_Propulsion_TOTAL_ENGINE_OIL_MASS,
     Aircraft_Propulsion_ENGINE_OIL_MASS_SCALER);
   (PassengerServiceMass op, Aircraft_CrewPayload_PASSENGER_SERVICE_MASS,
     Aircraft_CrewPayload_PASSENGER_SERVICE_MASS_SCALER);
   (AltPassengerServiceMass op, Aircraft_CrewPayload_PASSENGER_SERVICE_MASS,
     Aircraft_CrewPayload_PASSENGER_SERVICE_MASS_SCALER);
   (TransportUnusableFuelMass op, Aircraft_Fuel_UNUSABLE_FUEL_MASS,
     Aircraft_Fuel_UNUSABLE_FUEL_MASS_SCALER);
   (AltUnusableFuelMass op, Aircraft_Fuel_UNUSABLE_FUEL_MASS,
     Aircraft_Fuel_UNUSABLE_FUEL_MASS_SCALER)].
Proof. repeat apply Forall_cons; try apply Forall_nil. all: proportional_solve. Qed.
Print Assumptions C50_MassLoad.

Theorem C51_MassLoad op : positive [Aircraft_CrewPayload_Design_NUM_BUSINESS_CLASS; Aircraft_CrewPayload_Design_NUM_ECONOMY_CLASS; Aircraft_CrewPayload_Design_NUM_FIRST_CLASS; Aircraft_CrewPayload_Design_NUM_PASSENGERS; Aircraft_CrewPayload_NUM_FLIGHT_ATTENDANTS; Aircraft_CrewPayload_NUM_FLIGHT_CREW; Aircraft_CrewPayload_NUM_GALLEY_CREW; Aircraft_CrewPayload_NUM_PASSENGERS; Aircraft_Fuel_NUM_TANKS; Aircraft_Propulsion_TOTAL_NUM_ENGINES; Mission_Constraints_MAX_MACH] (on op) ->
  Forall (fun '(c, o) => positive_output c o)
  [(CabinCrewMass op, Aircraft_CrewPayload_CABIN_CREW_MASS);
   (FlightCrewMass op, Aircraft_CrewPayload_FLIGHT_CREW_MASS);
   (EmptyMassMargin op, Aircraft_Design_EMPTY_MASS_MARGIN);
   (TransportEngineOilMass op, Aircraft_Propulsion_TOTAL_ENGINE_OIL_MASS);
   (PaintMass op, Aircraft_Paint_MASS);
   (PassengerServiceMass op, Aircraft_CrewPayload_PASSENGER_SERVICE_MASS);
   (AltPassengerServiceMass op, Aircraft_CrewPayload_PASSENGER_SERVICE_MASS);
   (TotalPayload op, Aircraft_CrewPayload_TOTAL_PAYLOAD_MASS);
   (CargoMass op, Aircraft_CrewPayload_CARGO_MASS);
   (PaxPayloadMass op, Aircraft_CrewPayload_PASSENGER_MASS_TOTAL);
   (PaxPayloadMass op, Aircraft_CrewPayload_BAGGAGE_MASS);
   (PaxPayloadMass op, Aircraft_CrewPayload_PASSENGER_PAYLOAD_MASS);
   (TransportUnusableFuelMass op, Aircraft_Fuel_UNUSABLE_FUEL_MASS);
   (AltUnusableFuelMass op, Aircraft_Fuel_UNUSABLE_FUEL_MASS)].
Proof. intros; repeat apply Forall_cons; try apply Forall_nil. all: positive_solve. Qed.
Print Assumptions C51_MassLoad.

