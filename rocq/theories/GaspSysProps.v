(** Properties of the GASP system, equipment and landing gear masses: claim C56. *)
From Coq Require Import Reals Lra Lia.
From Coquelicot Require Import Coquelicot.
From Verif Require Import Base MathModel MathProofs Comp CompMore CompFun GaspSysModel.
Local Open Scope R_scope.
Notation SMOOTH := Aircraft_Design_SMOOTH_MASS_DISCONTINUITIES.

Lemma scaled_iff c e o i k :
  is_derive (fun t => out c (upd e i t) o) (e i) (k * jac c e o i) -> (exact_at c e o i <-> k = 1 \/ jac c e o i = 0).
Proof.
  intro S. unfold exact_at. split.
  - intro E. apply is_derive_unique in E. apply is_derive_unique in S. rewrite E in S.
    destruct (Req_dec (jac c e o i) 0) as [Z|Z]; [now right|left].
    apply (Rmult_eq_reg_r (jac c e o i)); [|exact Z]. rewrite Rmult_1_l. now symmetry.
  - intro E. eapply is_derive_eq; [exact S|]. destruct E as [-> | ->]; [apply Rmult_1_l | apply Rmult_0_r].
Qed.

Theorem C56_ACMass op : on op "mu" <> 0 -> exact_partials (ACMass op) (fun e =>
  positive [Aircraft_Fuselage_LENGTH; Aircraft_Fuselage_AVG_DIAMETER] e /\
  (ob op SMOOTH = true -> (e Aircraft_Design_GROSS_MASS - on op "x0") / on op "mu" <> -320) /\
  (ob op SMOOTH = false -> e Aircraft_Design_GROSS_MASS <> 3500)).
Proof. intros Dop. exact_start; more_goals. Qed.
Print Assumptions C56_ACMass.
Example C56_witness_ACMass : out (ACMass unit_options) (fun _ => 1) Aircraft_AirConditioning_MASS = 5.
Proof. unit_value. Qed.

Theorem C56_BWBACMass op : on op "mu" <> 0 -> exact_partials (BWBACMass op) (fun e =>
  positive [Aircraft_Fuselage_LENGTH; Aircraft_Fuselage_HYDRAULIC_DIAMETER] e /\
  (ob op SMOOTH = true -> (e Aircraft_Design_GROSS_MASS - on op "x0") / on op "mu" <> -320) /\
  (ob op SMOOTH = false -> e Aircraft_Design_GROSS_MASS <> 3500)).
Proof. intros Dop. exact_start; more_goals. Qed.
Print Assumptions C56_BWBACMass.
Example C56_witness_BWBACMass : out (BWBACMass unit_options) (fun _ => 1) Aircraft_AirConditioning_MASS = 5.
Proof. unit_value. Qed.

Theorem C56_AntiIcingMass op : on op "mu" <> 0 -> exact_partials (AntiIcingMass op) (fun e =>
  positive [Aircraft_Wing_AREA; Aircraft_HorizontalTail_AREA; Aircraft_VerticalTail_AREA] e /\
  (ob op SMOOTH = false ->
     227 / 10 * (e Aircraft_Wing_AREA + e Aircraft_HorizontalTail_AREA + e Aircraft_VerticalTail_AREA) ** (5 / 10) - 385 <> 0)).
Proof. intros Dop. exact_start; more_goals. Qed.
Print Assumptions C56_AntiIcingMass.
Example C56_witness_AntiIcingMass : out (AntiIcingMass unit_options) (fun _ => 1 / 3) Aircraft_AntiIcing_MASS = 0.
Proof. red_comp. cbv [ob unit_options]. replace (1 / 3 + 1 / 3 + 1 / 3) with 1 by lra. rewrite pw_1. branches; decided; lra. Qed.

Theorem C56_APUMass op : exact_partials (APUMass op) everywhere.
Proof. exact_start; more_goals. Qed.
Print Assumptions C56_APUMass.
Example C56_witness_APUMass : out (APUMass unit_options) (fun _ => 1) Aircraft_APU_MASS = 0.
Proof. unit_value. Qed.

Theorem C56_AvionicsMass op : exact_partials (AvionicsMass op) (fun e =>
  ob op SMOOTH = false -> e Aircraft_Design_GROSS_MASS <> 3000 /\ e Aircraft_Design_GROSS_MASS <> 5500 /\
    e Aircraft_Design_GROSS_MASS <> 7500 /\ e Aircraft_Design_GROSS_MASS <> 11000).
Proof. exact_start; more_goals. Qed.
Print Assumptions C56_AvionicsMass.
Example C56_witness_AvionicsMass : out (AvionicsMass unit_options) (fun _ => 1) Aircraft_Avionics_MASS = 27.
Proof. unit_value. Qed.

Theorem C56_CargoContainerMass op : exact_partials (CargoContainerMass op) everywhere.
Proof. exact_start; more_goals. Qed.
Print Assumptions C56_CargoContainerMass.
Example C56_witness_CargoContainerMass : out (CargoContainerMass unit_options) (fun _ => 1) Aircraft_CrewPayload_CARGO_CONTAINER_MASS = 330.
Proof. red_comp. cbv [on unit_options]. rewrite (floor_unique (1 * 1) 1) by lra. branches; lra. Qed.

Theorem C56_MiscControlMass op : exact_partials (MiscControlMass op) (positive [Aircraft_Design_GROSS_MASS]).
Proof. exact_start; more_goals. Qed.
Print Assumptions C56_MiscControlMass.
Example C56_witness_MiscControlMass_Controls_STABILITY_AUGMENTATION_SYSTEM_MASS : out (MiscControlMass unit_options) (fun _ => 1) Aircraft_Controls_STABILITY_AUGMENTATION_SYSTEM_MASS = 1.
Proof. unit_value. Qed.

Theorem C56_SumControlMass op : exact_partials (SumControlMass op) everywhere.
Proof. exact_start; more_goals. Qed.
Print Assumptions C56_SumControlMass.
Example C56_witness_SumControlMass : out (SumControlMass unit_options) (fun _ => 1) Aircraft_Controls_MASS = 4.
Proof. unit_value. Qed.

Theorem C56_CabinCrewMass op : exact_partials (CabinCrewMass op) everywhere.
Proof. exact_start; more_goals. Qed.
Print Assumptions C56_CabinCrewMass.
Example C56_witness_CabinCrewMass : out (CabinCrewMass unit_options) (fun _ => 1) Aircraft_CrewPayload_CABIN_CREW_MASS = 25.
Proof. unit_value. Qed.

Theorem C56_FlightCrewMass op : exact_partials (FlightCrewMass op) everywhere.
Proof. exact_start; more_goals. Qed.
Print Assumptions C56_FlightCrewMass.
Example C56_witness_FlightCrewMass : out (FlightCrewMass unit_options) (fun _ => 1) Aircraft_CrewPayload_FLIGHT_CREW_MASS = 223.
Proof. unit_value. Qed.

Theorem C56_ElectricalMass op : exact_partials (ElectricalMass op) everywhere.
Proof. exact_start; more_goals. Qed.
Print Assumptions C56_ElectricalMass.
Example C56_witness_ElectricalMass : out (ElectricalMass unit_options) (fun _ => 1) Aircraft_Electrical_MASS = -1996783 / 100000.
Proof. unit_value. Qed.

Theorem C56_EmergencyEquipment op : exact_partials (EmergencyEquipment op) everywhere.
Proof. exact_start; more_goals. Qed.
Print Assumptions C56_EmergencyEquipment.
Example C56_witness_EmergencyEquipment : out (EmergencyEquipment unit_options) (fun _ => 1) Aircraft_Design_EMERGENCY_EQUIPMENT_MASS = 0.
Proof. unit_value. Qed.

Theorem C56_EngineOilMass op : exact_partials (EngineOilMass op) everywhere.
Proof. exact_start; more_goals. Qed.
Print Assumptions C56_EngineOilMass.
Example C56_witness_EngineOilMass : out (EngineOilMass unit_options) (fun _ => 1) Aircraft_Propulsion_TOTAL_ENGINE_OIL_MASS = 0.
Proof. red_comp. cbv [on oe unit_options enum_is]. cbn [String.eqb orb]. lra. Qed.

Theorem C56_HydraulicsMass op : exact_partials (HydraulicsMass op) everywhere.
Proof. exact_start; more_goals. Qed.
Print Assumptions C56_HydraulicsMass.
Example C56_witness_HydraulicsMass : out (HydraulicsMass unit_options) (fun _ => 1) Aircraft_Hydraulics_MASS = 2.
Proof. unit_value. Qed.

Theorem C56_InstrumentMass op : exact_partials (InstrumentMass op)
  (positive [Aircraft_Design_GROSS_MASS; Aircraft_Fuselage_LENGTH; Aircraft_Wing_SPAN]).
Proof. exact_start; more_goals. Qed.
Print Assumptions C56_InstrumentMass.
Example C56_witness_InstrumentMass : out (InstrumentMass unit_options) (fun _ => 1) Aircraft_Instruments_MASS = 1.
Proof. unit_value. Qed.

Theorem C56_LandingMass op : exact_partials (LandingMass op) everywhere.
Proof. exact_start; more_goals. Qed.
Print Assumptions C56_LandingMass.
Example C56_witness_LandingMass : out (LandingMass unit_options) (fun _ => 1) Aircraft_Design_TOUCHDOWN_MASS_MAX = 1.
Proof. unit_value. Qed.

Theorem C56_LandingGearMass op : exact_partials (LandingGearMass op) everywhere.
Proof. exact_start; more_goals. Qed.
Print Assumptions C56_LandingGearMass.
Example C56_witness_LandingGearMass_LandingGear_MAIN_GEAR_MASS : out (LandingGearMass unit_options) (fun _ => 1) Aircraft_LandingGear_MAIN_GEAR_MASS = 1.
Proof. unit_value. Qed.
Example C56_witness_LandingGearMass_LandingGear_NOSE_GEAR_MASS : out (LandingGearMass unit_options) (fun _ => 1) Aircraft_LandingGear_NOSE_GEAR_MASS = 0.
Proof. unit_value. Qed.

(** compute_partials raises UnboundLocalError for fewer than 9 passengers, no smoothing and a gross weight of at most
    3000 (L56-68); such points are excluded. *)
Theorem C56_OxygenSystemMass op : exact_partials (OxygenSystemMass op) (fun e =>
  (ob op SMOOTH = true -> (e Aircraft_Design_GROSS_MASS / 3000 - 1) / (1 / 100) <> -320) /\
  (ob op SMOOTH = false -> 9 <= on op Aircraft_CrewPayload_Design_NUM_PASSENGERS \/ 3000 < e Aircraft_Design_GROSS_MASS)).
Proof. exact_start; more_goals. Qed.
Print Assumptions C56_OxygenSystemMass.
Example C56_witness_OxygenSystemMass : out (OxygenSystemMass unit_options) (fun _ => 1) Aircraft_OxygenSystem_MASS = 0.
Proof. unit_value. Qed.

(** The partial of the passenger service mass with respect to the mass per passenger is 0 for 10 to 19 passengers
    (L70-103), but the mass grows (L58-60). *)
Theorem C56_PassengerServiceMass op :
  on op Aircraft_CrewPayload_Design_NUM_PASSENGERS <= 9 \/ 19 < on op Aircraft_CrewPayload_Design_NUM_PASSENGERS ->
  exact_partials (PassengerServiceMass op) everywhere.
Proof. intros [Dop|Dop]. all: red_comp_in Dop; exact_start; more_goals. Qed.
Print Assumptions C56_PassengerServiceMass.
Example C56_witness_PassengerServiceMass : out (PassengerServiceMass unit_options) (fun _ => 1) Aircraft_CrewPayload_PASSENGER_SERVICE_MASS = 0.
Proof. unit_value. Qed.

(** The partials with respect to wing area, load factor and dive speed lack the surface control scaler (L199-235); the
    others are exact. *)
Definition surface_unscaled := [(Aircraft_Wing_SURFACE_CONTROL_MASS, Aircraft_Wing_AREA);
  (Aircraft_Wing_SURFACE_CONTROL_MASS, Aircraft_Wing_ULTIMATE_LOAD_FACTOR); (Aircraft_Wing_SURFACE_CONTROL_MASS, v_min_dive_vel)].
Definition surface_domain (e : env) : Prop :=
  positive [Aircraft_Wing_AREA; Aircraft_Design_GROSS_MASS; Aircraft_Wing_ULTIMATE_LOAD_FACTOR; v_min_dive_vel;
            Aircraft_Controls_COCKPIT_CONTROL_MASS_SCALER] e.
Theorem C56_SurfaceControlMass op : exact_except (SurfaceControlMass op) surface_domain surface_unscaled.
Proof. except_start; more_goals. Qed.
Print Assumptions C56_SurfaceControlMass.

Lemma surface_scaled op e i : surface_domain e -> In (Aircraft_Wing_SURFACE_CONTROL_MASS, i) surface_unscaled ->
  is_derive (fun t => out (SurfaceControlMass op) (upd e i t) Aircraft_Wing_SURFACE_CONTROL_MASS) (e i)
    (e Aircraft_Wing_SURFACE_CONTROL_MASS_SCALER * jac (SurfaceControlMass op) e Aircraft_Wing_SURFACE_CONTROL_MASS i).
Proof.
  intros D Hi. split_in Hi; injection Hi as <-.
  all: match goal with |- is_derive (fun t => out ?c (upd ?e _ t) _) _ _ => revert D; let l := eval hnf in (c_ins c) in table e l; intro D; red_comp_in D end; red_comp; conjuncts; derive_goal; first [pw_field | half_field | idtac].
Qed.
(** The true derivatives are the scaler times the given ones. *)
Theorem C56_surface_scaler op e i : surface_domain e -> In (Aircraft_Wing_SURFACE_CONTROL_MASS, i) surface_unscaled ->
  (exact_at (SurfaceControlMass op) e Aircraft_Wing_SURFACE_CONTROL_MASS i <->
   e Aircraft_Wing_SURFACE_CONTROL_MASS_SCALER = 1 \/ jac (SurfaceControlMass op) e Aircraft_Wing_SURFACE_CONTROL_MASS i = 0).
Proof.
  intros D Hi. exact (scaled_iff _ _ _ _ _ (surface_scaled op e i D Hi)).
Qed.
Print Assumptions C56_surface_scaler.
Example C56_witness_surface_domain : surface_domain (fun _ => 1).
Proof. unfold surface_domain. cbn. lra. Qed.

(** Total landing gear mass, for one engine type. *)
Definition gear_domain (e : env) : Prop :=
  in_range ((1 + e Aircraft_Nacelle_CLEARANCE_RATIO) * e Aircraft_Nacelle_AVG_DIAMETER) 6 (1 / 320) /\
  in_range (e Aircraft_Wing_VERTICAL_MOUNT_LOCATION) (5 / 1000) (1 / 100 / 320).
Ltac gear_start D :=
  match goal with |- is_derive (fun t => out ?c (upd ?e _ t) _) _ _ => revert D; let l := eval hnf in (c_ins c) in table e l; intro D; red_comp_in D end; red_comp; conjuncts;
  unfold in_range in *; derive_goal; try lra.
Ltac gear_signs :=
  replace (-1 / 320) with (- (1 / 320)) by lra; replace (-1 / 100 / 320) with (- (1 / 100 / 320)) by lra;
  rewrite ?dsigf_opp by (unfold in_range; lra).
Lemma gear_scaled op e i : gear_domain e ->
  In i [Aircraft_LandingGear_MASS_COEFFICIENT; Aircraft_Design_TOUCHDOWN_MASS_MAX; Aircraft_Nacelle_CLEARANCE_RATIO] ->
  is_derive (fun t => out (TotalLandingGearMass op) (upd e i t) Aircraft_LandingGear_TOTAL_MASS) (e i)
    (e Aircraft_LandingGear_TOTAL_MASS_SCALER * jac (TotalLandingGearMass op) e Aircraft_LandingGear_TOTAL_MASS i).
Proof. intros D Hi. split_in Hi; subst i; gear_start D; gear_signs; pw_field. Qed.
Lemma gear_by_scaler op e : gear_domain e ->
  exact_at (TotalLandingGearMass op) e Aircraft_LandingGear_TOTAL_MASS Aircraft_LandingGear_TOTAL_MASS_SCALER.
Proof. intros D. unfold exact_at. gear_start D; gear_signs; pw_field. Qed.
Theorem C56_TotalLandingGearMass op :
  exact_except (TotalLandingGearMass op) (fun e => gear_domain e /\ e Aircraft_LandingGear_TOTAL_MASS_SCALER = 1)
    [(Aircraft_LandingGear_TOTAL_MASS, Aircraft_Wing_VERTICAL_MOUNT_LOCATION);
     (Aircraft_LandingGear_TOTAL_MASS, Aircraft_Nacelle_AVG_DIAMETER)].
Proof.
  split; [assigned_tac|split; [declared_tac|]]. intros e [D S] o i Ho Hi Hb.
  destruct Ho as [<-|[]].
  assert (K : In i [Aircraft_LandingGear_MASS_COEFFICIENT; Aircraft_Design_TOUCHDOWN_MASS_MAX; Aircraft_Nacelle_CLEARANCE_RATIO] \/ i = Aircraft_LandingGear_TOTAL_MASS_SCALER).
  { cbn [In c_ins TotalLandingGearMass] in Hi. cbn [In] in Hb |- *.
    repeat destruct Hi as [<- | Hi]; tauto. }
  destruct K as [K| ->]; [|now apply gear_by_scaler].
  unfold exact_at. eapply is_derive_eq; [exact (gear_scaled op e i D K)|]. rewrite S. apply Rmult_1_l.
Qed.
Print Assumptions C56_TotalLandingGearMass.
(** TOTAL_MASS_SCALER is missing from the other partials (L159-173). *)
Theorem C56_gear_scaler op e i : gear_domain e ->
  In i [Aircraft_LandingGear_MASS_COEFFICIENT; Aircraft_Design_TOUCHDOWN_MASS_MAX; Aircraft_Nacelle_CLEARANCE_RATIO] ->
  (exact_at (TotalLandingGearMass op) e Aircraft_LandingGear_TOTAL_MASS i <->
   e Aircraft_LandingGear_TOTAL_MASS_SCALER = 1 \/ jac (TotalLandingGearMass op) e Aircraft_LandingGear_TOTAL_MASS i = 0).
Proof. intros D Hi. exact (scaled_iff _ _ _ _ _ (gear_scaled op e i D Hi)). Qed.
Print Assumptions C56_gear_scaler.
Lemma gear_diameter op e : gear_domain e -> e Aircraft_LandingGear_TOTAL_MASS_SCALER = 1 ->
  let h := (1 + e Aircraft_Nacelle_CLEARANCE_RATIO) * e Aircraft_Nacelle_AVG_DIAMETER in
  is_derive (fun t => out (TotalLandingGearMass op) (upd e Aircraft_Nacelle_AVG_DIAMETER t) Aircraft_LandingGear_TOTAL_MASS) (e Aircraft_Nacelle_AVG_DIAMETER)
    (jac (TotalLandingGearMass op) e Aircraft_LandingGear_TOTAL_MASS Aircraft_Nacelle_AVG_DIAMETER -
     e Aircraft_LandingGear_MASS_COEFFICIENT * (85 / 100) * (1765 / 10000) / 6 * e Aircraft_Design_TOUCHDOWN_MASS_MAX *
     (12 * dsigf 6 (1 / 320) h * (1 + e Aircraft_Nacelle_CLEARANCE_RATIO)) * sigf (5 / 1000) (- (1 / 100 / 320)) (e Aircraft_Wing_VERTICAL_MOUNT_LOCATION)).
Proof.
  intros D0 S h. subst h. pose proof (conj D0 S) as D. clear D0 S. gear_start D; subst; gear_signs; pw_field.
Qed.
(** The sign of one term in the partial with respect to the nacelle diameter (L140-143) is wrong, so it is never exact. *)
Theorem C56_gear_diameter_refuted op e : gear_domain e -> e Aircraft_LandingGear_TOTAL_MASS_SCALER = 1 ->
  0 < e Aircraft_LandingGear_MASS_COEFFICIENT -> 0 < e Aircraft_Design_TOUCHDOWN_MASS_MAX -> 0 < e Aircraft_Nacelle_CLEARANCE_RATIO ->
  ~ exact_at (TotalLandingGearMass op) e Aircraft_LandingGear_TOTAL_MASS Aircraft_Nacelle_AVG_DIAMETER.
Proof.
  intros D S A B C E. pose proof (gear_diameter op e D S) as G. cbv zeta in G. unfold exact_at in E.
  apply is_derive_unique in E. apply is_derive_unique in G. rewrite E in G.
  destruct D as [D1 D2].
  pose proof (dsigf_pos ((1 + e Aircraft_Nacelle_CLEARANCE_RATIO) * e Aircraft_Nacelle_AVG_DIAMETER) 6 (1 / 320) ltac:(lra) D1) as P.
  pose proof (sigf_pos (e Aircraft_Wing_VERTICAL_MOUNT_LOCATION) (5 / 1000) (- (1 / 100 / 320)) ltac:(lra) (in_range_opp (e Aircraft_Wing_VERTICAL_MOUNT_LOCATION) (5 / 1000) (1 / 100 / 320) ltac:(lra) D2)) as Q.
  match type of G with ?x = ?x - ?y => assert (0 < y); [|lra] end.
  unfold Rdiv. repeat apply Rmult_lt_0_compat; try assumption; lra.
Qed.
Print Assumptions C56_gear_diameter_refuted.
Example C56_witness_gear_domain : gear_domain (fun n =>
  if String.eqb n Aircraft_Nacelle_AVG_DIAMETER then 3 else if String.eqb n Aircraft_Wing_VERTICAL_MOUNT_LOCATION then 5 / 1000 else 1).
Proof. split; unfold in_range; cbn; split; lra. Qed.

Theorem C56_passenger_service_refuted op e :
  9 < on op Aircraft_CrewPayload_Design_NUM_PASSENGERS <= 19 ->
  ~ exact_at (PassengerServiceMass op) e Aircraft_CrewPayload_PASSENGER_SERVICE_MASS Aircraft_CrewPayload_PASSENGER_SERVICE_MASS_PER_PASSENGER.
Proof.
  intros D E. unfold exact_at in E. red_comp_in D. revert E.
  match goal with |- is_derive (fun t => out ?c (upd ?e _ t) _) _ _ -> _ => let l := eval hnf in (c_ins c) in table e l end.
  red_comp. branches; decided; intro F; apply is_derive_unique in F.
  match type of F with Derive ?f ?x = _ =>
    assert (Q : is_derive f x (on op "aircraft:crew_and_payload:design:num_passengers")) by (auto_derive; [trivial|ring]) end.
  apply is_derive_unique in Q. rewrite Q in F. lra.
Qed.
Print Assumptions C56_passenger_service_refuted.
