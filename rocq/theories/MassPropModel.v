(** FLOPS based masses of propulsion and fuel systems, /repo/aviary/subsystems/mass/flops_based.

    Generated by tools/py2coq.py from the source text; see the header of that file for the rules.  Decimal
    literals are exact and numbers are real numbers. *)
From Coq Require Import Reals.
From Verif Require Import Base Comp MathModel MassDistModel.
Open Scope list_scope.
Open Scope string_scope.
Local Open Scope R_scope.

(** ** Variable names, /repo/aviary/variable_info/variables.py *)
Definition Aircraft_Fuel_AUXILIARY_FUEL_MASS_CAPACITY := "aircraft:fuel:auxiliary_fuel_mass_capacity".
Definition Aircraft_Fuel_DENSITY := "aircraft:fuel:density".
Definition Aircraft_Fuel_FUEL_SYSTEM_MASS := "aircraft:fuel:fuel_system_mass".
Definition Aircraft_Fuel_FUEL_SYSTEM_MASS_SCALER := "aircraft:fuel:fuel_system_mass_scaler".
Definition Aircraft_Fuel_FUSELAGE_FUEL_MASS_CAPACITY := "aircraft:fuel:fuselage_fuel_mass_capacity".
Definition Aircraft_Fuel_MAX_CAPACITY_MASS := "aircraft:fuel:max_capacity_mass".
Definition Aircraft_Fuel_NUM_TANKS := "aircraft:fuel:num_tanks".
Definition Aircraft_Fuel_WING_FUEL_FRACTION := "aircraft:fuel:wing_fuel_fraction".
Definition Aircraft_Fuel_WING_FUEL_MASS_CAPACITY := "aircraft:fuel:wing_fuel_mass_capacity".
Definition Aircraft_Propulsion_TOTAL_ENGINE_CONTROLS_MASS := "aircraft:propulsion:total_engine_controls_mass".
Definition Aircraft_Propulsion_TOTAL_NUM_ENGINES := "aircraft:propulsion:total_num_engines".
Definition Aircraft_Propulsion_TOTAL_SCALED_SLS_THRUST := "aircraft:propulsion:total_scaled_sls_thrust".
Definition Aircraft_Wing_AREA := "aircraft:wing:area".
Definition Aircraft_Wing_SPAN := "aircraft:wing:span".
Definition Aircraft_Wing_TAPER_RATIO := "aircraft:wing:taper_ratio".
Definition Aircraft_Wing_THICKNESS_TO_CHORD := "aircraft:wing:thickness_to_chord".
Definition Mission_Constraints_MAX_MACH := "mission:constraints:max_mach".


(** TransportEngineCtrlsMass.compute, /repo/aviary/subsystems/mass/flops_based/engine_controls.py L42-53 *)
Definition TransportEngineCtrlsMass_compute (op : options) (e : env) : list (string * R) :=
  let num_engines := on op Aircraft_Propulsion_TOTAL_NUM_ENGINES in  (* L43 *)
  let num_engines_factor := distributed_engine_count_factor num_engines in  (* L44 *)
  let max_sls_thrust := e Aircraft_Propulsion_TOTAL_SCALED_SLS_THRUST in  (* L46 *)
  let thrust_factor := distributed_thrust_factor max_sls_thrust num_engines in  (* L47 *)
  let total_controls_weight := 26 / 100 * num_engines_factor * thrust_factor ** (5 / 10) in  (* L49 *)
  let o_Propulsion_TOTAL_ENGINE_CONTROLS_MASS := total_controls_weight / GRAV_ENGLISH_LBM in  (* L51 *)
  [(Aircraft_Propulsion_TOTAL_ENGINE_CONTROLS_MASS, o_Propulsion_TOTAL_ENGINE_CONTROLS_MASS)].

(** TransportEngineCtrlsMass.compute_partials, /repo/aviary/subsystems/mass/flops_based/engine_controls.py L55-65 *)
Definition TransportEngineCtrlsMass_partials (op : options) (e : env) : list (string * string * R) :=
  let num_engines := on op Aircraft_Propulsion_TOTAL_NUM_ENGINES in  (* L56 *)
  let max_sls_thrust := e Aircraft_Propulsion_TOTAL_SCALED_SLS_THRUST in  (* L57 *)
  let thrust_factor := distributed_thrust_factor max_sls_thrust num_engines in  (* L58 *)
  let distributed_thrust_factor_exp := thrust_factor ** (5 / 10) in  (* L60 *)
  let d_Propulsion_TOTAL_ENGINE_CONTROLS_MASS__Propulsion_TOTAL_SCALED_SLS_THRUST := 13 / 100 /
      distributed_thrust_factor_exp / GRAV_ENGLISH_LBM in  (* L62 *)
  [(Aircraft_Propulsion_TOTAL_ENGINE_CONTROLS_MASS, Aircraft_Propulsion_TOTAL_SCALED_SLS_THRUST,
      d_Propulsion_TOTAL_ENGINE_CONTROLS_MASS__Propulsion_TOTAL_SCALED_SLS_THRUST)].

(** Inputs, outputs and declared partials: /repo/aviary/subsystems/mass/flops_based/engine_controls.py L31-40 *)
Definition TransportEngineCtrlsMass (op : options) : comp := {|
  c_ins := [Aircraft_Propulsion_TOTAL_SCALED_SLS_THRUST];
  c_outs := [Aircraft_Propulsion_TOTAL_ENGINE_CONTROLS_MASS];
  c_decl := [(Aircraft_Propulsion_TOTAL_ENGINE_CONTROLS_MASS, Aircraft_Propulsion_TOTAL_SCALED_SLS_THRUST, 0)];
  c_run := TransportEngineCtrlsMass_compute op; c_jac := TransportEngineCtrlsMass_partials op |}.

(** FuselageFuelCapacity.compute, /repo/aviary/subsystems/mass/flops_based/fuel_capacity.py L60-63 *)
Definition FuselageFuelCapacity_compute (op : options) (e : env) : list (string * R) :=
  let o_Fuel_FUSELAGE_FUEL_MASS_CAPACITY := e Aircraft_Fuel_MAX_CAPACITY_MASS - e
      Aircraft_Fuel_WING_FUEL_MASS_CAPACITY in  (* L61 *)
  [(Aircraft_Fuel_FUSELAGE_FUEL_MASS_CAPACITY, o_Fuel_FUSELAGE_FUEL_MASS_CAPACITY)].

Definition FuselageFuelCapacity_partials (op : options) (e : env) : list (string * string * R) := [].

(** Inputs, outputs and declared partials: /repo/aviary/subsystems/mass/flops_based/fuel_capacity.py L45-58 *)
Definition FuselageFuelCapacity (op : options) : comp := {|
  c_ins := [Aircraft_Fuel_MAX_CAPACITY_MASS;
            Aircraft_Fuel_WING_FUEL_MASS_CAPACITY];
  c_outs := [Aircraft_Fuel_FUSELAGE_FUEL_MASS_CAPACITY];
  c_decl := [(Aircraft_Fuel_FUSELAGE_FUEL_MASS_CAPACITY, Aircraft_Fuel_MAX_CAPACITY_MASS, 1);
             (Aircraft_Fuel_FUSELAGE_FUEL_MASS_CAPACITY, Aircraft_Fuel_WING_FUEL_MASS_CAPACITY, - 1)];
  c_run := FuselageFuelCapacity_compute op; c_jac := FuselageFuelCapacity_partials op |}.

(** AuxFuelCapacity.compute, /repo/aviary/subsystems/mass/flops_based/fuel_capacity.py L90-95 *)
Definition AuxFuelCapacity_compute (op : options) (e : env) : list (string * R) :=
  let o_Fuel_AUXILIARY_FUEL_MASS_CAPACITY := e Aircraft_Fuel_MAX_CAPACITY_MASS - e
      Aircraft_Fuel_WING_FUEL_MASS_CAPACITY - e Aircraft_Fuel_FUSELAGE_FUEL_MASS_CAPACITY in  (* L91 *)
  [(Aircraft_Fuel_AUXILIARY_FUEL_MASS_CAPACITY, o_Fuel_AUXILIARY_FUEL_MASS_CAPACITY)].

Definition AuxFuelCapacity_partials (op : options) (e : env) : list (string * string * R) := [].

(** Inputs, outputs and declared partials: /repo/aviary/subsystems/mass/flops_based/fuel_capacity.py L69-88 *)
Definition AuxFuelCapacity (op : options) : comp := {|
  c_ins := [Aircraft_Fuel_MAX_CAPACITY_MASS;
            Aircraft_Fuel_WING_FUEL_MASS_CAPACITY;
            Aircraft_Fuel_FUSELAGE_FUEL_MASS_CAPACITY];
  c_outs := [Aircraft_Fuel_AUXILIARY_FUEL_MASS_CAPACITY];
  c_decl := [(Aircraft_Fuel_AUXILIARY_FUEL_MASS_CAPACITY, Aircraft_Fuel_MAX_CAPACITY_MASS, 1);
             (Aircraft_Fuel_AUXILIARY_FUEL_MASS_CAPACITY, Aircraft_Fuel_WING_FUEL_MASS_CAPACITY, - 1);
             (Aircraft_Fuel_AUXILIARY_FUEL_MASS_CAPACITY, Aircraft_Fuel_FUSELAGE_FUEL_MASS_CAPACITY, - 1)];
  c_run := AuxFuelCapacity_compute op; c_jac := AuxFuelCapacity_partials op |}.

(** TotalFuelCapacity.compute, /repo/aviary/subsystems/mass/flops_based/fuel_capacity.py L118-123 *)
Definition TotalFuelCapacity_compute (op : options) (e : env) : list (string * R) :=
  let o_Fuel_MAX_CAPACITY_MASS := e Aircraft_Fuel_WING_FUEL_MASS_CAPACITY + e
      Aircraft_Fuel_FUSELAGE_FUEL_MASS_CAPACITY + e Aircraft_Fuel_AUXILIARY_FUEL_MASS_CAPACITY in  (* L119 *)
  [(Aircraft_Fuel_MAX_CAPACITY_MASS, o_Fuel_MAX_CAPACITY_MASS)].

Definition TotalFuelCapacity_partials (op : options) (e : env) : list (string * string * R) := [].

(** Inputs, outputs and declared partials: /repo/aviary/subsystems/mass/flops_based/fuel_capacity.py L101-116 *)
Definition TotalFuelCapacity (op : options) : comp := {|
  c_ins := [Aircraft_Fuel_WING_FUEL_MASS_CAPACITY;
            Aircraft_Fuel_FUSELAGE_FUEL_MASS_CAPACITY;
            Aircraft_Fuel_AUXILIARY_FUEL_MASS_CAPACITY];
  c_outs := [Aircraft_Fuel_MAX_CAPACITY_MASS];
  c_decl := [(Aircraft_Fuel_MAX_CAPACITY_MASS, Aircraft_Fuel_WING_FUEL_MASS_CAPACITY, 1);
             (Aircraft_Fuel_MAX_CAPACITY_MASS, Aircraft_Fuel_FUSELAGE_FUEL_MASS_CAPACITY, 1);
             (Aircraft_Fuel_MAX_CAPACITY_MASS, Aircraft_Fuel_AUXILIARY_FUEL_MASS_CAPACITY, 1)];
  c_run := TotalFuelCapacity_compute op; c_jac := TotalFuelCapacity_partials op |}.

(** WingFuelCapacity.compute, /repo/aviary/subsystems/mass/flops_based/fuel_capacity.py L142-160 *)
Definition WingFuelCapacity_compute (op : options) (e : env) : list (string * R) :=
  let wing_area := e Aircraft_Wing_AREA in  (* L143 *)
  let fuel_density := e Aircraft_Fuel_DENSITY * GRAV_ENGLISH_LBM in  (* L145 *)
  let volume_fraction := e Aircraft_Fuel_WING_FUEL_FRACTION in  (* L146 *)
  let span := e Aircraft_Wing_SPAN in  (* L147 *)
  let taper_ratio := e Aircraft_Wing_TAPER_RATIO in  (* L148 *)
  let thickness_to_chord := e Aircraft_Wing_THICKNESS_TO_CHORD in  (* L149 *)
  let volume_of_wing := 2 / 3 * wing_area ^ 2 * thickness_to_chord * (1 - taper_ratio / (1 + taper_ratio) ^ 2) / span
      in  (* L151 *)
  let fuel_cap_wing := fuel_density * volume_fraction * volume_of_wing in  (* L158 *)
  let o_Fuel_WING_FUEL_MASS_CAPACITY := fuel_cap_wing / GRAV_ENGLISH_LBM in  (* L160 *)
  [(Aircraft_Fuel_WING_FUEL_MASS_CAPACITY, o_Fuel_WING_FUEL_MASS_CAPACITY)].

(** WingFuelCapacity.compute_partials, /repo/aviary/subsystems/mass/flops_based/fuel_capacity.py L162-216 *)
Definition WingFuelCapacity_partials (op : options) (e : env) : list (string * string * R) :=
  let wing_area := e Aircraft_Wing_AREA in  (* L163 *)
  let fuel_density := e Aircraft_Fuel_DENSITY * GRAV_ENGLISH_LBM in  (* L165 *)
  let volume_fraction := e Aircraft_Fuel_WING_FUEL_FRACTION in  (* L166 *)
  let span := e Aircraft_Wing_SPAN in  (* L167 *)
  let taper_ratio := e Aircraft_Wing_TAPER_RATIO in  (* L168 *)
  let thickness_to_chord := e Aircraft_Wing_THICKNESS_TO_CHORD in  (* L169 *)
  let den := 1 + taper_ratio in  (* L171 *)
  let tr_fact := 1 - taper_ratio / den ^ 2 in  (* L172 *)
  let dfact := - 1 / den ^ 2 + 2 * taper_ratio / den ^ 3 in  (* L173 *)
  let d_Fuel_WING_FUEL_MASS_CAPACITY__Fuel_DENSITY := volume_fraction * (2 / 3) * wing_area ^ 2 * thickness_to_chord *
      tr_fact / span in  (* L175 *)
  let d_Fuel_WING_FUEL_MASS_CAPACITY__Fuel_WING_FUEL_FRACTION := fuel_density * (2 / 3) * wing_area ^ 2 *
      thickness_to_chord * tr_fact / span in  (* L179 *)
  let d_Fuel_WING_FUEL_MASS_CAPACITY__Wing_SPAN := - fuel_density * volume_fraction * (2 / 3) * wing_area ^ 2 *
      thickness_to_chord * tr_fact / span ^ 2 in  (* L183 *)
  let d_Fuel_WING_FUEL_MASS_CAPACITY__Wing_TAPER_RATIO := fuel_density * volume_fraction * (2 / 3) * wing_area ^ 2 *
      thickness_to_chord * dfact / span in  (* L193 *)
  let d_Fuel_WING_FUEL_MASS_CAPACITY__Wing_THICKNESS_TO_CHORD := fuel_density * volume_fraction * (2 / 3) * wing_area
      ^ 2 * tr_fact / span in  (* L203 *)
  let d_Fuel_WING_FUEL_MASS_CAPACITY__Wing_AREA := 2 * fuel_density * volume_fraction * (2 / 3) * wing_area *
      thickness_to_chord * tr_fact / span in  (* L207 *)
  [(Aircraft_Fuel_WING_FUEL_MASS_CAPACITY, Aircraft_Fuel_DENSITY, d_Fuel_WING_FUEL_MASS_CAPACITY__Fuel_DENSITY);
   (Aircraft_Fuel_WING_FUEL_MASS_CAPACITY, Aircraft_Fuel_WING_FUEL_FRACTION,
       d_Fuel_WING_FUEL_MASS_CAPACITY__Fuel_WING_FUEL_FRACTION);
   (Aircraft_Fuel_WING_FUEL_MASS_CAPACITY, Aircraft_Wing_SPAN, d_Fuel_WING_FUEL_MASS_CAPACITY__Wing_SPAN);
   (Aircraft_Fuel_WING_FUEL_MASS_CAPACITY, Aircraft_Wing_TAPER_RATIO,
       d_Fuel_WING_FUEL_MASS_CAPACITY__Wing_TAPER_RATIO);
   (Aircraft_Fuel_WING_FUEL_MASS_CAPACITY, Aircraft_Wing_THICKNESS_TO_CHORD,
       d_Fuel_WING_FUEL_MASS_CAPACITY__Wing_THICKNESS_TO_CHORD);
   (Aircraft_Fuel_WING_FUEL_MASS_CAPACITY, Aircraft_Wing_AREA, d_Fuel_WING_FUEL_MASS_CAPACITY__Wing_AREA)].

(** Inputs, outputs and declared partials: /repo/aviary/subsystems/mass/flops_based/fuel_capacity.py L129-140 *)
Definition WingFuelCapacity (op : options) : comp := {|
  c_ins := [Aircraft_Fuel_DENSITY;
            Aircraft_Fuel_WING_FUEL_FRACTION;
            Aircraft_Wing_AREA;
            Aircraft_Wing_SPAN;
            Aircraft_Wing_TAPER_RATIO;
            Aircraft_Wing_THICKNESS_TO_CHORD];
  c_outs := [Aircraft_Fuel_WING_FUEL_MASS_CAPACITY];
  c_decl := [(Aircraft_Fuel_WING_FUEL_MASS_CAPACITY, Aircraft_Fuel_DENSITY, 0);
             (Aircraft_Fuel_WING_FUEL_MASS_CAPACITY, Aircraft_Fuel_WING_FUEL_FRACTION, 0);
             (Aircraft_Fuel_WING_FUEL_MASS_CAPACITY, Aircraft_Wing_AREA, 0);
             (Aircraft_Fuel_WING_FUEL_MASS_CAPACITY, Aircraft_Wing_SPAN, 0);
             (Aircraft_Fuel_WING_FUEL_MASS_CAPACITY, Aircraft_Wing_TAPER_RATIO, 0);
             (Aircraft_Fuel_WING_FUEL_MASS_CAPACITY, Aircraft_Wing_THICKNESS_TO_CHORD, 0)];
  c_run := WingFuelCapacity_compute op; c_jac := WingFuelCapacity_partials op |}.

(** TransportFuelSystemMass.compute, /repo/aviary/subsystems/mass/flops_based/fuel_system.py L29-38 *)
Definition TransportFuelSystemMass_compute (op : options) (e : env) : list (string * R) :=
  let scaler := e Aircraft_Fuel_FUEL_SYSTEM_MASS_SCALER in  (* L30 *)
  let capacity := e Aircraft_Fuel_MAX_CAPACITY_MASS in  (* L31 *)
  let num_eng := on op Aircraft_Propulsion_TOTAL_NUM_ENGINES in  (* L32 *)
  let num_eng_fact := distributed_engine_count_factor num_eng in  (* L33 *)
  let max_mach := on op Mission_Constraints_MAX_MACH in  (* L34 *)
  let o_Fuel_FUEL_SYSTEM_MASS := 107 / 100 * capacity ** (58 / 100) * num_eng_fact ** (43 / 100) * max_mach ** (34 /
      100) * scaler / GRAV_ENGLISH_LBM in  (* L36 *)
  [(Aircraft_Fuel_FUEL_SYSTEM_MASS, o_Fuel_FUEL_SYSTEM_MASS)].

(** TransportFuelSystemMass.compute_partials, /repo/aviary/subsystems/mass/flops_based/fuel_system.py L40-59 *)
Definition TransportFuelSystemMass_partials (op : options) (e : env) : list (string * string * R) :=
  let scaler := e Aircraft_Fuel_FUEL_SYSTEM_MASS_SCALER in  (* L41 *)
  let capacity := e Aircraft_Fuel_MAX_CAPACITY_MASS in  (* L42 *)
  let num_eng := on op Aircraft_Propulsion_TOTAL_NUM_ENGINES in  (* L43 *)
  let num_eng_fact := distributed_engine_count_factor num_eng in  (* L44 *)
  let max_mach := on op Mission_Constraints_MAX_MACH in  (* L45 *)
  let d_Fuel_FUEL_SYSTEM_MASS__Fuel_FUEL_SYSTEM_MASS_SCALER := 107 / 100 * capacity ** (58 / 100) * num_eng_fact **
      (43 / 100) * max_mach ** (34 / 100) / GRAV_ENGLISH_LBM in  (* L47 *)
  let d_Fuel_FUEL_SYSTEM_MASS__Fuel_MAX_CAPACITY_MASS := 107 / 100 * (58 / 100) * capacity ** (- 42 / 100) * num_eng
      ** (43 / 100) * max_mach ** (34 / 100) * scaler / GRAV_ENGLISH_LBM in  (* L51 *)
  [(Aircraft_Fuel_FUEL_SYSTEM_MASS, Aircraft_Fuel_FUEL_SYSTEM_MASS_SCALER,
      d_Fuel_FUEL_SYSTEM_MASS__Fuel_FUEL_SYSTEM_MASS_SCALER);
   (Aircraft_Fuel_FUEL_SYSTEM_MASS, Aircraft_Fuel_MAX_CAPACITY_MASS,
       d_Fuel_FUEL_SYSTEM_MASS__Fuel_MAX_CAPACITY_MASS)].

(** Inputs, outputs and declared partials: /repo/aviary/subsystems/mass/flops_based/fuel_system.py L20-27 *)
Definition TransportFuelSystemMass (op : options) : comp := {|
  c_ins := [Aircraft_Fuel_FUEL_SYSTEM_MASS_SCALER;
            Aircraft_Fuel_MAX_CAPACITY_MASS];
  c_outs := [Aircraft_Fuel_FUEL_SYSTEM_MASS];
  c_decl := [(Aircraft_Fuel_FUEL_SYSTEM_MASS, Aircraft_Fuel_FUEL_SYSTEM_MASS_SCALER, 0);
             (Aircraft_Fuel_FUEL_SYSTEM_MASS, Aircraft_Fuel_MAX_CAPACITY_MASS, 0)];
  c_run := TransportFuelSystemMass_compute op; c_jac := TransportFuelSystemMass_partials op |}.

(** AltFuelSystemMass.compute, /repo/aviary/subsystems/mass/flops_based/fuel_system.py L81-93 *)
Definition AltFuelSystemMass_compute (op : options) (e : env) : list (string * R) :=
  let number_of_fuel_tanks := on op Aircraft_Fuel_NUM_TANKS in  (* L82 *)
  let total_fuel_capacity := e Aircraft_Fuel_MAX_CAPACITY_MASS in  (* L83 *)
  let scaler := e Aircraft_Fuel_FUEL_SYSTEM_MASS_SCALER in  (* L84 *)
  let fuel_sys_weight := (9786 / 10 * (number_of_fuel_tanks / 13) + 22834 / 10 * (total_fuel_capacity / 208100) ** (2
      / 3) + 350 + 29 / 100000 * total_fuel_capacity) * scaler in  (* L86 *)
  let o_Fuel_FUEL_SYSTEM_MASS := fuel_sys_weight / GRAV_ENGLISH_LBM in  (* L93 *)
  [(Aircraft_Fuel_FUEL_SYSTEM_MASS, o_Fuel_FUEL_SYSTEM_MASS)].

(** AltFuelSystemMass.compute_partials, /repo/aviary/subsystems/mass/flops_based/fuel_system.py L95-117 *)
Definition AltFuelSystemMass_partials (op : options) (e : env) : list (string * string * R) :=
  let number_of_fuel_tanks := on op Aircraft_Fuel_NUM_TANKS in  (* L96 *)
  let total_fuel_capacity := e Aircraft_Fuel_MAX_CAPACITY_MASS in  (* L97 *)
  let scaler := e Aircraft_Fuel_FUEL_SYSTEM_MASS_SCALER in  (* L98 *)
  let d_Fuel_FUEL_SYSTEM_MASS__Fuel_MAX_CAPACITY_MASS := (22834 / 10 * (2 / 3) * (1 / 208100) ** (2 / 3) *
      total_fuel_capacity ** (- 1 / 3) + 29 / 100000) * scaler / GRAV_ENGLISH_LBM in  (* L100 *)
  let d_Fuel_FUEL_SYSTEM_MASS__Fuel_FUEL_SYSTEM_MASS_SCALER := (3 / 10 * 3262 * (number_of_fuel_tanks / 13) + 7 / 10 *
      3262 * (total_fuel_capacity / 208100) ** (2 / 3) + 350 + 29 / 100000 * total_fuel_capacity) / GRAV_ENGLISH_LBM
      in  (* L112 *)
  [(Aircraft_Fuel_FUEL_SYSTEM_MASS, Aircraft_Fuel_MAX_CAPACITY_MASS, d_Fuel_FUEL_SYSTEM_MASS__Fuel_MAX_CAPACITY_MASS);
   (Aircraft_Fuel_FUEL_SYSTEM_MASS, Aircraft_Fuel_FUEL_SYSTEM_MASS_SCALER,
       d_Fuel_FUEL_SYSTEM_MASS__Fuel_FUEL_SYSTEM_MASS_SCALER)].

(** Inputs, outputs and declared partials: /repo/aviary/subsystems/mass/flops_based/fuel_system.py L72-79 *)
Definition AltFuelSystemMass (op : options) : comp := {|
  c_ins := [Aircraft_Fuel_MAX_CAPACITY_MASS;
            Aircraft_Fuel_FUEL_SYSTEM_MASS_SCALER];
  c_outs := [Aircraft_Fuel_FUEL_SYSTEM_MASS];
  c_decl := [(Aircraft_Fuel_FUEL_SYSTEM_MASS, Aircraft_Fuel_MAX_CAPACITY_MASS, 0);
             (Aircraft_Fuel_FUEL_SYSTEM_MASS, Aircraft_Fuel_FUEL_SYSTEM_MASS_SCALER, 0)];
  c_run := AltFuelSystemMass_compute op; c_jac := AltFuelSystemMass_partials op |}.
