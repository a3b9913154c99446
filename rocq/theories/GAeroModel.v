(** GASP aerodynamics: /repo/aviary/subsystems/aerodynamics/gasp_based: common.py, gasp_aero_coeffs.py, interference.py and the
    components of gaspaero.py with partials of their own.

    Components with node arrays are modelled at one node; one engine type.  Warnings that are only printed are left
        out, and so
    is the AnalysisError for a Mach number outside of (0, 1); theorems exclude these runs.  AeroForces and CLFromLift
        are here,
    TimeRamp and TanhRampComp are not.

    Generated by tools/py2coq.py from the source text; see the header of that file for the rules.  Decimal
    literals are exact and numbers are real numbers. *)
From Coq Require Import Reals.
From Verif Require Import Base Comp MathModel CompMore CompFun.
Open Scope list_scope.
Open Scope string_scope.
Local Open Scope R_scope.

(** ** Variable names, /repo/aviary/variable_info/variables.py *)
Definition Aircraft_Design_LIFT_COEFFICIENT_MAX_FLAPS_UP := "aircraft:design:lift_coefficient_max_flaps_up".
Definition Aircraft_Design_MACH := "aircraft:design:mach".
Definition Aircraft_Design_TYPE := "aircraft:design:type".
Definition Aircraft_Fuselage_AVG_DIAMETER := "aircraft:fuselage:avg_diameter".
Definition Aircraft_Fuselage_FORM_FACTOR := "aircraft:fuselage:form_factor".
Definition Aircraft_Fuselage_HYDRAULIC_DIAMETER := "aircraft:fuselage:hydraulic_diameter".
Definition Aircraft_Fuselage_LENGTH := "aircraft:fuselage:length".
Definition Aircraft_Fuselage_LIFT_CURVE_SLOPE_MACH0 := "aircraft:fuselage:lift_curve_slope_mach0".
Definition Aircraft_Fuselage_PLANFORM_AREA := "aircraft:fuselage:planform_area".
Definition Aircraft_HorizontalTail_FORM_FACTOR := "aircraft:horizontal_tail:form_factor".
Definition Aircraft_HorizontalTail_SWEEP := "aircraft:horizontal_tail:sweep".
Definition Aircraft_HorizontalTail_THICKNESS_TO_CHORD := "aircraft:horizontal_tail:thickness_to_chord".
Definition Aircraft_HorizontalTail_VERTICAL_TAIL_MOUNT_LOCATION :=
    "aircraft:horizontal_tail:vertical_tail_mount_location".
Definition Aircraft_Nacelle_AVG_DIAMETER := "aircraft:nacelle:avg_diameter".
Definition Aircraft_Nacelle_AVG_LENGTH := "aircraft:nacelle:avg_length".
Definition Aircraft_Nacelle_FORM_FACTOR := "aircraft:nacelle:form_factor".
Definition Aircraft_Strut_FUSELAGE_INTERFERENCE_FACTOR := "aircraft:strut:fuselage_interference_factor".
Definition Aircraft_Strut_THICKNESS_TO_CHORD := "aircraft:strut:thickness_to_chord".
Definition Aircraft_VerticalTail_FORM_FACTOR := "aircraft:vertical_tail:form_factor".
Definition Aircraft_VerticalTail_SWEEP := "aircraft:vertical_tail:sweep".
Definition Aircraft_VerticalTail_THICKNESS_TO_CHORD := "aircraft:vertical_tail:thickness_to_chord".
Definition Aircraft_Wing_AREA := "aircraft:wing:area".
Definition Aircraft_Wing_AVERAGE_CHORD := "aircraft:wing:average_chord".
Definition Aircraft_Wing_CENTER_DISTANCE := "aircraft:wing:center_distance".
Definition Aircraft_Wing_EXPOSED_AREA := "aircraft:wing:exposed_area".
Definition Aircraft_Wing_FORM_FACTOR := "aircraft:wing:form_factor".
Definition Aircraft_Wing_SPAN := "aircraft:wing:span".
Definition Aircraft_Wing_SWEEP := "aircraft:wing:sweep".
Definition Aircraft_Wing_TAPER_RATIO := "aircraft:wing:taper_ratio".
Definition Aircraft_Wing_THICKNESS_TO_CHORD_ROOT := "aircraft:wing:thickness_to_chord_root".
Definition Aircraft_Wing_THICKNESS_TO_CHORD_TIP := "aircraft:wing:thickness_to_chord_tip".
Definition Aircraft_Wing_THICKNESS_TO_CHORD_UNWEIGHTED := "aircraft:wing:thickness_to_chord_unweighted".
Definition Aircraft_Wing_VERTICAL_MOUNT_LOCATION := "aircraft:wing:vertical_mount_location".
Definition Aircraft_Wing_ZERO_LIFT_ANGLE := "aircraft:wing:zero_lift_angle".
Definition Dynamic_Atmosphere_DYNAMIC_PRESSURE := "dynamic_pressure".
Definition Dynamic_Atmosphere_KINEMATIC_VISCOSITY := "kinematic_viscosity".
Definition Dynamic_Atmosphere_MACH := "mach".
Definition Dynamic_Atmosphere_TEMPERATURE := "temperature".
Definition Dynamic_Vehicle_ANGLE_OF_ATTACK := "angle_of_attack".
Definition Dynamic_Vehicle_DRAG := "drag".
Definition Dynamic_Vehicle_DRAG_COEFFICIENT := "drag_coefficient".
Definition Dynamic_Vehicle_LIFT := "lift".
Definition Dynamic_Vehicle_LIFT_COEFFICIENT := "lift_coefficient".
Definition Mission_GRAVITY := "mission:gravity".
Definition Settings_VERBOSITY := "settings:verbosity".
Definition v_CBODYWF := "CBODYWF".
Definition v_CL_base := "CL_base".
Definition v_CL_full_flaps := "CL_full_flaps".
Definition v_CL_max := "CL_max".
Definition v_CL_max_flaps := "CL_max_flaps".
Definition v_CROOT := "CROOT".
Definition v_TCBODYWF := "TCBODYWF".
Definition v_WBODYWF := "WBODYWF".
Definition v_ZW_RF := "ZW_RF".
Definition v_alpha_stall := "alpha_stall".
Definition v_bbar_alt := "bbar_alt".
Definition v_body_lift_curve_slope := "body_lift_curve_slope".
Definition v_dCL_flaps_full := "dCL_flaps_full".
Definition v_dCL_flaps_model := "dCL_flaps_model".
Definition v_drag_loss_due_to_shielded_wing_area := "drag_loss_due_to_shielded_wing_area".
Definition v_flap_factor := "flap_factor".
Definition v_interference_independent_of_shielded_area := "interference_independent_of_shielded_area".
Definition v_kclge := "kclge".
Definition v_lift_curve_slope := "lift_curve_slope".
Definition v_lift_ratio := "lift_ratio".
Definition v_lift_req := "lift_req".
Definition v_mod_lift_curve_slope := "mod_lift_curve_slope".
Definition v_mu := "mu".
Definition v_num_nodes := "num_nodes".
Definition v_output_alpha := "output_alpha".
Definition v_sigma := "sigma".
Definition v_sigstr := "sigstr".
Definition v_siwb := "siwb".
Definition v_smooth_ufac := "smooth_ufac".
Definition v_ufac := "ufac".
Definition v_wing_fuselage_interference_flat_plate_equivalent := "wing_fuselage_interference_flat_plate_equivalent".
Definition v_wtofd := "wtofd".


(** AeroForces.compute, /repo/aviary/subsystems/aerodynamics/gasp_based/common.py L45-48 (one engine type or one node) *)
Definition AeroForces_compute (op : options) (e : env) : list (string * R) :=
  let CL := e Dynamic_Vehicle_LIFT_COEFFICIENT in  (* L46 *)
  let CD := e Dynamic_Vehicle_DRAG_COEFFICIENT in  (* L46 *)
  let q := e Dynamic_Atmosphere_DYNAMIC_PRESSURE in  (* L46 *)
  let wing_area := e Aircraft_Wing_AREA in  (* L46 *)
  let o_Vehicle_LIFT := q * CL * wing_area in  (* L47 *)
  let o_Vehicle_DRAG := q * CD * wing_area in  (* L48 *)
  [(Dynamic_Vehicle_LIFT, o_Vehicle_LIFT);
   (Dynamic_Vehicle_DRAG, o_Vehicle_DRAG)].

(** AeroForces.compute_partials, /repo/aviary/subsystems/aerodynamics/gasp_based/common.py L50-59 *)
Definition AeroForces_partials (op : options) (e : env) : list (string * string * R) :=
  let CL := e Dynamic_Vehicle_LIFT_COEFFICIENT in  (* L51 *)
  let CD := e Dynamic_Vehicle_DRAG_COEFFICIENT in  (* L51 *)
  let q := e Dynamic_Atmosphere_DYNAMIC_PRESSURE in  (* L51 *)
  let wing_area := e Aircraft_Wing_AREA in  (* L51 *)
  let d_Vehicle_LIFT__Vehicle_LIFT_COEFFICIENT := q * wing_area in  (* L53 *)
  let d_Vehicle_LIFT__Atmosphere_DYNAMIC_PRESSURE := CL * wing_area in  (* L54 *)
  let d_Vehicle_LIFT__Wing_AREA := q * CL in  (* L55 *)
  let d_Vehicle_DRAG__Vehicle_DRAG_COEFFICIENT := q * wing_area in  (* L57 *)
  let d_Vehicle_DRAG__Atmosphere_DYNAMIC_PRESSURE := CD * wing_area in  (* L58 *)
  let d_Vehicle_DRAG__Wing_AREA := q * CD in  (* L59 *)
  [(Dynamic_Vehicle_LIFT, Dynamic_Vehicle_LIFT_COEFFICIENT, d_Vehicle_LIFT__Vehicle_LIFT_COEFFICIENT);
   (Dynamic_Vehicle_LIFT, Dynamic_Atmosphere_DYNAMIC_PRESSURE, d_Vehicle_LIFT__Atmosphere_DYNAMIC_PRESSURE);
   (Dynamic_Vehicle_LIFT, Aircraft_Wing_AREA, d_Vehicle_LIFT__Wing_AREA);
   (Dynamic_Vehicle_DRAG, Dynamic_Vehicle_DRAG_COEFFICIENT, d_Vehicle_DRAG__Vehicle_DRAG_COEFFICIENT);
   (Dynamic_Vehicle_DRAG, Dynamic_Atmosphere_DYNAMIC_PRESSURE, d_Vehicle_DRAG__Atmosphere_DYNAMIC_PRESSURE);
   (Dynamic_Vehicle_DRAG, Aircraft_Wing_AREA, d_Vehicle_DRAG__Wing_AREA)].

(** Inputs, outputs and declared partials: /repo/aviary/subsystems/aerodynamics/gasp_based/common.py L14-43 *)
Definition AeroForces (op : options) : comp := {|
  c_ins := [Dynamic_Vehicle_LIFT_COEFFICIENT;
            Dynamic_Vehicle_DRAG_COEFFICIENT;
            Dynamic_Atmosphere_DYNAMIC_PRESSURE;
            Aircraft_Wing_AREA];
  c_outs := [Dynamic_Vehicle_LIFT;
             Dynamic_Vehicle_DRAG];
  c_decl := [(Dynamic_Vehicle_LIFT, Dynamic_Vehicle_LIFT_COEFFICIENT, 0);
             (Dynamic_Vehicle_LIFT, Dynamic_Atmosphere_DYNAMIC_PRESSURE, 0);
             (Dynamic_Vehicle_LIFT, Aircraft_Wing_AREA, 0);
             (Dynamic_Vehicle_DRAG, Dynamic_Vehicle_DRAG_COEFFICIENT, 0);
             (Dynamic_Vehicle_DRAG, Dynamic_Atmosphere_DYNAMIC_PRESSURE, 0);
             (Dynamic_Vehicle_DRAG, Aircraft_Wing_AREA, 0)];
  c_run := AeroForces_compute op; c_jac := AeroForces_partials op |}.

(** The inputs that are scalars, shared by all nodes. *)
Definition AeroForces_shared : list string := [Aircraft_Wing_AREA].

(** CLFromLift.compute, /repo/aviary/subsystems/aerodynamics/gasp_based/common.py L92-94 (one engine type or one node) *)
Definition CLFromLift_compute (op : options) (e : env) : list (string * R) :=
  let lift_req := e v_lift_req in  (* L93 *)
  let q := e Dynamic_Atmosphere_DYNAMIC_PRESSURE in  (* L93 *)
  let wing_area := e Aircraft_Wing_AREA in  (* L93 *)
  let o_Vehicle_LIFT_COEFFICIENT := lift_req / (q * wing_area) in  (* L94 *)
  [(Dynamic_Vehicle_LIFT_COEFFICIENT, o_Vehicle_LIFT_COEFFICIENT)].

(** CLFromLift.compute_partials, /repo/aviary/subsystems/aerodynamics/gasp_based/common.py L96-102 *)
Definition CLFromLift_partials (op : options) (e : env) : list (string * string * R) :=
  let lift_req := e v_lift_req in  (* L97 *)
  let q := e Dynamic_Atmosphere_DYNAMIC_PRESSURE in  (* L97 *)
  let wing_area := e Aircraft_Wing_AREA in  (* L97 *)
  let d_Vehicle_LIFT_COEFFICIENT__lift_req := 1 / (q * wing_area) in  (* L98 *)
  let d_Vehicle_LIFT_COEFFICIENT__Atmosphere_DYNAMIC_PRESSURE := - lift_req / (q ^ 2 * wing_area) in  (* L99 *)
  let d_Vehicle_LIFT_COEFFICIENT__Wing_AREA := - lift_req / (q * wing_area ^ 2) in  (* L102 *)
  [(Dynamic_Vehicle_LIFT_COEFFICIENT, v_lift_req, d_Vehicle_LIFT_COEFFICIENT__lift_req);
   (Dynamic_Vehicle_LIFT_COEFFICIENT, Dynamic_Atmosphere_DYNAMIC_PRESSURE,
       d_Vehicle_LIFT_COEFFICIENT__Atmosphere_DYNAMIC_PRESSURE);
   (Dynamic_Vehicle_LIFT_COEFFICIENT, Aircraft_Wing_AREA, d_Vehicle_LIFT_COEFFICIENT__Wing_AREA)].

(** Inputs, outputs and declared partials: /repo/aviary/subsystems/aerodynamics/gasp_based/common.py L68-90 *)
Definition CLFromLift (op : options) : comp := {|
  c_ins := [v_lift_req;
            Dynamic_Atmosphere_DYNAMIC_PRESSURE;
            Aircraft_Wing_AREA];
  c_outs := [Dynamic_Vehicle_LIFT_COEFFICIENT];
  c_decl := [(Dynamic_Vehicle_LIFT_COEFFICIENT, v_lift_req, 0);
             (Dynamic_Vehicle_LIFT_COEFFICIENT, Dynamic_Atmosphere_DYNAMIC_PRESSURE, 0);
             (Dynamic_Vehicle_LIFT_COEFFICIENT, Aircraft_Wing_AREA, 0)];
  c_run := CLFromLift_compute op; c_jac := CLFromLift_partials op |}.

(** The inputs that are scalars, shared by all nodes. *)
Definition CLFromLift_shared : list string := [Aircraft_Wing_AREA].

(** AeroFormfactors.compute, /repo/aviary/subsystems/aerodynamics/gasp_based/gasp_aero_coeffs.py L85-136 (one engine type or one node) *)
Definition AeroFormfactors_compute (op : options) (e : env) : list (string * R) :=
  let tc := e Aircraft_Wing_THICKNESS_TO_CHORD_UNWEIGHTED in  (* L86 *)
  let tcvt := e Aircraft_VerticalTail_THICKNESS_TO_CHORD in  (* L86 *)
  let tcht := e Aircraft_HorizontalTail_THICKNESS_TO_CHORD in  (* L86 *)
  let tcstrt := e Aircraft_Strut_THICKNESS_TO_CHORD in  (* L86 *)
  let rlmc4 := e Aircraft_Wing_SWEEP in  (* L86 *)
  let rswpvt := e Aircraft_VerticalTail_SWEEP in  (* L86 *)
  let rswpht := e Aircraft_HorizontalTail_SWEEP in  (* L86 *)
  let sah := e Aircraft_HorizontalTail_VERTICAL_TAIL_MOUNT_LOCATION in  (* L86 *)
  let smn := e Aircraft_Design_MACH in  (* L86 *)
  let dbarn := e Aircraft_Nacelle_AVG_DIAMETER in  (* L86 *)
  let xln := e Aircraft_Nacelle_AVG_LENGTH in  (* L86 *)
  let ckw := 2 * (102 / 100) * (1 + tc * (2 - smn ^ 2) * cos rlmc4 / sqrt (1 - smn ^ 2 * cos rlmc4 ^ 2) + 100 * tc ^
      4) in  (* L88 *)
  let ckvt := 2 * (102 / 100) * (1 + tcvt * (2 - smn ^ 2) * cos rswpvt / sqrt (1 - smn ^ 2 * cos rswpvt ^ 2) + 100 *
      tcvt ^ 4) in  (* L98 *)
  let ckht := 2 * (102 / 100) * (1 + tcht * (2 - smn ^ 2) * cos rswpht / sqrt (1 - smn ^ 2 * cos rswpht ^ 2) + 100 *
      tcht ^ 4) * (1 + 5 / 100 * (1 - sah)) in  (* L110 *)
  let ckstrt := 2 * (102 / 100) * (1 + tcstrt * (2 - smn ^ 2) / sqrt (1 - smn ^ 2) + 100 * tcstrt ^ 4) in  (* L123 *)
  let ckn := 15 / 10 * (1 + 35 / 100 / (xln / dbarn)) in  (* L129 *)
  let o_Wing_FORM_FACTOR := ckw in  (* L131 *)
  let o_VerticalTail_FORM_FACTOR := ckvt in  (* L133 *)
  let o_HorizontalTail_FORM_FACTOR := ckht in  (* L134 *)
  let o_Strut_FUSELAGE_INTERFERENCE_FACTOR := ckstrt in  (* L135 *)
  let o_Nacelle_FORM_FACTOR := ckn in  (* L136 *)
  [(Aircraft_Wing_FORM_FACTOR, o_Wing_FORM_FACTOR);
   (Aircraft_VerticalTail_FORM_FACTOR, o_VerticalTail_FORM_FACTOR);
   (Aircraft_HorizontalTail_FORM_FACTOR, o_HorizontalTail_FORM_FACTOR);
   (Aircraft_Strut_FUSELAGE_INTERFERENCE_FACTOR, o_Strut_FUSELAGE_INTERFERENCE_FACTOR);
   (Aircraft_Nacelle_FORM_FACTOR, o_Nacelle_FORM_FACTOR)].

(** AeroFormfactors.compute_partials, /repo/aviary/subsystems/aerodynamics/gasp_based/gasp_aero_coeffs.py L138-198 *)
Definition AeroFormfactors_partials (op : options) (e : env) : list (string * string * R) :=
  let tc := e Aircraft_Wing_THICKNESS_TO_CHORD_UNWEIGHTED in  (* L139 *)
  let tcvt := e Aircraft_VerticalTail_THICKNESS_TO_CHORD in  (* L139 *)
  let tcht := e Aircraft_HorizontalTail_THICKNESS_TO_CHORD in  (* L139 *)
  let tcstrt := e Aircraft_Strut_THICKNESS_TO_CHORD in  (* L139 *)
  let rlmc4 := e Aircraft_Wing_SWEEP in  (* L139 *)
  let rswpvt := e Aircraft_VerticalTail_SWEEP in  (* L139 *)
  let rswpht := e Aircraft_HorizontalTail_SWEEP in  (* L139 *)
  let sah := e Aircraft_HorizontalTail_VERTICAL_TAIL_MOUNT_LOCATION in  (* L139 *)
  let smn := e Aircraft_Design_MACH in  (* L139 *)
  let dbarn := e Aircraft_Nacelle_AVG_DIAMETER in  (* L139 *)
  let xln := e Aircraft_Nacelle_AVG_LENGTH in  (* L139 *)
  let cos1 := cos rlmc4 in  (* L141 *)
  let A1 := sqrt (1 - smn ^ 2 * cos1 ^ 2) in  (* L142 *)
  let d_Wing_FORM_FACTOR__Wing_THICKNESS_TO_CHORD_UNWEIGHTED := 2 * (102 / 100) * ((2 - smn ^ 2) * cos1 / A1 + 400 *
      tc ^ 3) in  (* L143 *)
  let d_Wing_FORM_FACTOR__Design_MACH := - 2 * (102 / 100) * (tc * smn * cos1) * ((A1 ^ 2 + 1 - 2 * cos1 ^ 2) / A1 ^
      3) in  (* L146 *)
  let d_Wing_FORM_FACTOR__Wing_SWEEP := - 2 * (102 / 100) * (tc * (2 - smn ^ 2) * sin rlmc4) * (1 / A1 ^ 3) in  (* L149 *)
  let cos2 := cos rswpvt in  (* L153 *)
  let A2 := sqrt (1 - smn ^ 2 * cos2 ^ 2) in  (* L154 *)
  let d_VerticalTail_FORM_FACTOR__VerticalTail_THICKNESS_TO_CHORD := 2 * (102 / 100) * ((2 - smn ^ 2) * cos2 / A2 +
      400 * tcvt ^ 3) in  (* L155 *)
  let d_VerticalTail_FORM_FACTOR__Design_MACH := - 2 * (102 / 100) * (tcvt * smn * cos2) * ((A2 ^ 2 + 1 - 2 * cos2 ^
      2) / A2 ^ 3) in  (* L158 *)
  let d_VerticalTail_FORM_FACTOR__VerticalTail_SWEEP := - 2 * (102 / 100) * (tcvt * (2 - smn ^ 2) * sin rswpvt) * (1 /
      A2 ^ 3) in  (* L161 *)
  let cos3 := cos rswpht in  (* L165 *)
  let A3 := sqrt (1 - smn ^ 2 * cos3 ^ 2) in  (* L166 *)
  let d_HorizontalTail_FORM_FACTOR__HorizontalTail_THICKNESS_TO_CHORD := 2 * (102 / 100) * ((2 - smn ^ 2) * cos3 / A3
      + 400 * tcht ^ 3) * (1 + 5 / 100 * (1 - sah)) in  (* L167 *)
  let d_HorizontalTail_FORM_FACTOR__Design_MACH := - 2 * (102 / 100) * (tcht * smn * cos3) * ((A3 ^ 2 + 1 - 2 * cos3 ^
      2) / A3 ^ 3) * (1 + 5 / 100 * (1 - sah)) in  (* L170 *)
  let d_HorizontalTail_FORM_FACTOR__HorizontalTail_SWEEP := - 2 * (102 / 100) * (tcht * (2 - smn ^ 2) * sin rswpht) *
      (1 / A3 ^ 3) * (1 + 5 / 100 * (1 - sah)) in  (* L177 *)
  let d_HorizontalTail_FORM_FACTOR__HorizontalTail_VERTICAL_TAIL_MOUNT_LOCATION := 2 * (102 / 100) * (1 + tcht * (2 -
      smn ^ 2) * cos3 / A3 + 100 * tcht ^ 4) * (- 5 / 100) in  (* L184 *)
  let A4 := sqrt (1 - smn ^ 2) in  (* L189 *)
  let d_Strut_FUSELAGE_INTERFERENCE_FACTOR__Strut_THICKNESS_TO_CHORD := 2 * (102 / 100) * ((2 - smn ^ 2) / A4 + 400 *
      tcstrt ^ 3) in  (* L190 *)
  let d_Strut_FUSELAGE_INTERFERENCE_FACTOR__Design_MACH := - 2 * (102 / 100) * (tcstrt * smn) * ((A4 ^ 2 - 1) / A4 ^
      3) in  (* L193 *)
  let d_Nacelle_FORM_FACTOR__Nacelle_AVG_DIAMETER := 15 / 10 * (35 / 100) / xln in  (* L197 *)
  let d_Nacelle_FORM_FACTOR__Nacelle_AVG_LENGTH := - 15 / 10 * (35 / 100) * dbarn / xln ^ 2 in  (* L198 *)
  [(Aircraft_Wing_FORM_FACTOR, Aircraft_Wing_THICKNESS_TO_CHORD_UNWEIGHTED,
      d_Wing_FORM_FACTOR__Wing_THICKNESS_TO_CHORD_UNWEIGHTED);
   (Aircraft_Wing_FORM_FACTOR, Aircraft_Design_MACH, d_Wing_FORM_FACTOR__Design_MACH);
   (Aircraft_Wing_FORM_FACTOR, Aircraft_Wing_SWEEP, d_Wing_FORM_FACTOR__Wing_SWEEP);
   (Aircraft_VerticalTail_FORM_FACTOR, Aircraft_VerticalTail_THICKNESS_TO_CHORD,
       d_VerticalTail_FORM_FACTOR__VerticalTail_THICKNESS_TO_CHORD);
   (Aircraft_VerticalTail_FORM_FACTOR, Aircraft_Design_MACH, d_VerticalTail_FORM_FACTOR__Design_MACH);
   (Aircraft_VerticalTail_FORM_FACTOR, Aircraft_VerticalTail_SWEEP, d_VerticalTail_FORM_FACTOR__VerticalTail_SWEEP);
   (Aircraft_HorizontalTail_FORM_FACTOR, Aircraft_HorizontalTail_THICKNESS_TO_CHORD,
       d_HorizontalTail_FORM_FACTOR__HorizontalTail_THICKNESS_TO_CHORD);
   (Aircraft_HorizontalTail_FORM_FACTOR, Aircraft_Design_MACH, d_HorizontalTail_FORM_FACTOR__Design_MACH);
   (Aircraft_HorizontalTail_FORM_FACTOR, Aircraft_HorizontalTail_SWEEP,
       d_HorizontalTail_FORM_FACTOR__HorizontalTail_SWEEP);
   (Aircraft_HorizontalTail_FORM_FACTOR, Aircraft_HorizontalTail_VERTICAL_TAIL_MOUNT_LOCATION,
       d_HorizontalTail_FORM_FACTOR__HorizontalTail_VERTICAL_TAIL_MOUNT_LOCATION);
   (Aircraft_Strut_FUSELAGE_INTERFERENCE_FACTOR, Aircraft_Strut_THICKNESS_TO_CHORD,
       d_Strut_FUSELAGE_INTERFERENCE_FACTOR__Strut_THICKNESS_TO_CHORD);
   (Aircraft_Strut_FUSELAGE_INTERFERENCE_FACTOR, Aircraft_Design_MACH,
       d_Strut_FUSELAGE_INTERFERENCE_FACTOR__Design_MACH);
   (Aircraft_Nacelle_FORM_FACTOR, Aircraft_Nacelle_AVG_DIAMETER, d_Nacelle_FORM_FACTOR__Nacelle_AVG_DIAMETER);
   (Aircraft_Nacelle_FORM_FACTOR, Aircraft_Nacelle_AVG_LENGTH, d_Nacelle_FORM_FACTOR__Nacelle_AVG_LENGTH)].

(** Inputs, outputs and declared partials: /repo/aviary/subsystems/aerodynamics/gasp_based/gasp_aero_coeffs.py L18-83 *)
Definition AeroFormfactors (op : options) : comp := {|
  c_ins := [Aircraft_Wing_THICKNESS_TO_CHORD_UNWEIGHTED;
            Aircraft_VerticalTail_THICKNESS_TO_CHORD;
            Aircraft_HorizontalTail_THICKNESS_TO_CHORD;
            Aircraft_Strut_THICKNESS_TO_CHORD;
            Aircraft_Wing_SWEEP;
            Aircraft_VerticalTail_SWEEP;
            Aircraft_HorizontalTail_SWEEP;
            Aircraft_HorizontalTail_VERTICAL_TAIL_MOUNT_LOCATION;
            Aircraft_Design_MACH;
            Aircraft_Nacelle_AVG_DIAMETER;
            Aircraft_Nacelle_AVG_LENGTH];
  c_outs := [Aircraft_Wing_FORM_FACTOR;
             Aircraft_VerticalTail_FORM_FACTOR;
             Aircraft_HorizontalTail_FORM_FACTOR;
             Aircraft_Strut_FUSELAGE_INTERFERENCE_FACTOR;
             Aircraft_Nacelle_FORM_FACTOR];
  c_decl := [(Aircraft_Wing_FORM_FACTOR, Aircraft_Wing_THICKNESS_TO_CHORD_UNWEIGHTED, 0);
             (Aircraft_Wing_FORM_FACTOR, Aircraft_Design_MACH, 0);
             (Aircraft_Wing_FORM_FACTOR, Aircraft_Wing_SWEEP, 0);
             (Aircraft_VerticalTail_FORM_FACTOR, Aircraft_VerticalTail_THICKNESS_TO_CHORD, 0);
             (Aircraft_VerticalTail_FORM_FACTOR, Aircraft_Design_MACH, 0);
             (Aircraft_VerticalTail_FORM_FACTOR, Aircraft_VerticalTail_SWEEP, 0);
             (Aircraft_HorizontalTail_FORM_FACTOR, Aircraft_HorizontalTail_THICKNESS_TO_CHORD, 0);
             (Aircraft_HorizontalTail_FORM_FACTOR, Aircraft_Design_MACH, 0);
             (Aircraft_HorizontalTail_FORM_FACTOR, Aircraft_HorizontalTail_SWEEP, 0);
             (Aircraft_HorizontalTail_FORM_FACTOR, Aircraft_HorizontalTail_VERTICAL_TAIL_MOUNT_LOCATION, 0);
             (Aircraft_Strut_FUSELAGE_INTERFERENCE_FACTOR, Aircraft_Strut_THICKNESS_TO_CHORD, 0);
             (Aircraft_Strut_FUSELAGE_INTERFERENCE_FACTOR, Aircraft_Design_MACH, 0);
             (Aircraft_Nacelle_FORM_FACTOR, Aircraft_Nacelle_AVG_DIAMETER, 0);
             (Aircraft_Nacelle_FORM_FACTOR, Aircraft_Nacelle_AVG_LENGTH, 0)];
  c_run := AeroFormfactors_compute op; c_jac := AeroFormfactors_partials op |}.

(** FormFactor.compute, /repo/aviary/subsystems/aerodynamics/gasp_based/gasp_aero_coeffs.py L230-242 (one engine type or one node) *)
Definition FormFactor_compute (op : options) (e : env) : list (string * R) :=
  let fus_len := e Aircraft_Fuselage_LENGTH in  (* L233 *)
  let cabin_width := e Aircraft_Fuselage_AVG_DIAMETER in  (* L234 *)
  let fffus := 1 + 15 / 10 * (cabin_width / fus_len) ** (15 / 10) + 7 * (cabin_width / fus_len) ^ 3 in  (* L241 *)
  let o_Fuselage_FORM_FACTOR := fffus in  (* L242 *)
  [(Aircraft_Fuselage_FORM_FACTOR, o_Fuselage_FORM_FACTOR)].

(** FormFactor.compute_partials, /repo/aviary/subsystems/aerodynamics/gasp_based/gasp_aero_coeffs.py L244-258 *)
Definition FormFactor_partials (op : options) (e : env) : list (string * string * R) :=
  let fus_len := e Aircraft_Fuselage_LENGTH in  (* L245 *)
  let cabin_width := e Aircraft_Fuselage_AVG_DIAMETER in  (* L246 *)
  let dfffus_dcabin_width := 225 / 100 * (cabin_width / fus_len) ** (5 / 10) / fus_len + 21 * (cabin_width / fus_len)
      ^ 2 / fus_len in  (* L248 *)
  let dfffus_dfus_len := - 225 / 100 * (cabin_width / fus_len) ** (5 / 10) * cabin_width / fus_len ^ 2 - 21 *
      (cabin_width / fus_len) ^ 2 * cabin_width / fus_len ^ 2 in  (* L252 *)
  let d_Fuselage_FORM_FACTOR__Fuselage_AVG_DIAMETER := dfffus_dcabin_width in  (* L257 *)
  let d_Fuselage_FORM_FACTOR__Fuselage_LENGTH := dfffus_dfus_len in  (* L258 *)
  [(Aircraft_Fuselage_FORM_FACTOR, Aircraft_Fuselage_AVG_DIAMETER, d_Fuselage_FORM_FACTOR__Fuselage_AVG_DIAMETER);
   (Aircraft_Fuselage_FORM_FACTOR, Aircraft_Fuselage_LENGTH, d_Fuselage_FORM_FACTOR__Fuselage_LENGTH)].

(** Inputs, outputs and declared partials: /repo/aviary/subsystems/aerodynamics/gasp_based/gasp_aero_coeffs.py L210-228 *)
Definition FormFactor (op : options) : comp := {|
  c_ins := [Aircraft_Fuselage_AVG_DIAMETER;
            Aircraft_Fuselage_LENGTH];
  c_outs := [Aircraft_Fuselage_FORM_FACTOR];
  c_decl := [(Aircraft_Fuselage_FORM_FACTOR, Aircraft_Fuselage_AVG_DIAMETER, 0);
             (Aircraft_Fuselage_FORM_FACTOR, Aircraft_Fuselage_LENGTH, 0)];
  c_run := FormFactor_compute op; c_jac := FormFactor_partials op |}.

(** BWBFormFactor.compute, /repo/aviary/subsystems/aerodynamics/gasp_based/gasp_aero_coeffs.py L289-301 (one engine type or one node) *)
Definition BWBFormFactor_compute (op : options) (e : env) : list (string * R) :=
  let fus_len := e Aircraft_Fuselage_LENGTH in  (* L292 *)
  let diam := e Aircraft_Fuselage_HYDRAULIC_DIAMETER in  (* L293 *)
  let fffus := 1 + 15 / 10 * (diam / fus_len) ** (15 / 10) + 7 * (diam / fus_len) ^ 3 in  (* L300 *)
  let o_Fuselage_FORM_FACTOR := fffus in  (* L301 *)
  [(Aircraft_Fuselage_FORM_FACTOR, o_Fuselage_FORM_FACTOR)].

(** BWBFormFactor.compute_partials, /repo/aviary/subsystems/aerodynamics/gasp_based/gasp_aero_coeffs.py L303-316 *)
Definition BWBFormFactor_partials (op : options) (e : env) : list (string * string * R) :=
  let fus_len := e Aircraft_Fuselage_LENGTH in  (* L304 *)
  let diam := e Aircraft_Fuselage_HYDRAULIC_DIAMETER in  (* L305 *)
  let dfffus_ddiam := 225 / 100 * (diam / fus_len) ** (5 / 10) / fus_len + 21 * (diam / fus_len) ^ 2 / fus_len in  (* L307 *)
  let dfffus_dfus_len := - 225 / 100 * (diam / fus_len) ** (5 / 10) * diam / fus_len ^ 2 - 21 * (diam / fus_len) ^ 2 *
      diam / fus_len ^ 2 in  (* L310 *)
  let d_Fuselage_FORM_FACTOR__Fuselage_HYDRAULIC_DIAMETER := dfffus_ddiam in  (* L315 *)
  let d_Fuselage_FORM_FACTOR__Fuselage_LENGTH := dfffus_dfus_len in  (* L316 *)
  [(Aircraft_Fuselage_FORM_FACTOR, Aircraft_Fuselage_HYDRAULIC_DIAMETER,
      d_Fuselage_FORM_FACTOR__Fuselage_HYDRAULIC_DIAMETER);
   (Aircraft_Fuselage_FORM_FACTOR, Aircraft_Fuselage_LENGTH, d_Fuselage_FORM_FACTOR__Fuselage_LENGTH)].

(** Inputs, outputs and declared partials: /repo/aviary/subsystems/aerodynamics/gasp_based/gasp_aero_coeffs.py L270-287 *)
Definition BWBFormFactor (op : options) : comp := {|
  c_ins := [Aircraft_Fuselage_HYDRAULIC_DIAMETER;
            Aircraft_Fuselage_LENGTH];
  c_outs := [Aircraft_Fuselage_FORM_FACTOR];
  c_decl := [(Aircraft_Fuselage_FORM_FACTOR, Aircraft_Fuselage_HYDRAULIC_DIAMETER, 0);
             (Aircraft_Fuselage_FORM_FACTOR, Aircraft_Fuselage_LENGTH, 0)];
  c_run := BWBFormFactor_compute op; c_jac := BWBFormFactor_partials op |}.

(** RootChord.compute, /repo/aviary/subsystems/aerodynamics/gasp_based/interference.py L25-28 (one engine type or one node) *)
Definition RootChord_compute (op : options) (e : env) : list (string * R) :=
  let SW := e Aircraft_Wing_AREA in  (* L26 *)
  let B := e Aircraft_Wing_SPAN in  (* L26 *)
  let SLM := e Aircraft_Wing_TAPER_RATIO in  (* L26 *)
  let o_CROOT := 2 * SW / (B * (1 + SLM)) in  (* L28 *)
  [(v_CROOT, o_CROOT)].

(** RootChord.compute_partials, /repo/aviary/subsystems/aerodynamics/gasp_based/interference.py L40-45 *)
Definition RootChord_partials (op : options) (e : env) : list (string * string * R) :=
  let SW := e Aircraft_Wing_AREA in  (* L41 *)
  let B := e Aircraft_Wing_SPAN in  (* L41 *)
  let SLM := e Aircraft_Wing_TAPER_RATIO in  (* L41 *)
  let d_CROOT__Wing_AREA := 2 / (B * (1 + SLM)) in  (* L43 *)
  let d_CROOT__Wing_SPAN := - 2 * SW / (B ^ 2 * (1 + SLM)) in  (* L44 *)
  let d_CROOT__Wing_TAPER_RATIO := - 2 * SW / (B * (1 + SLM) ^ 2) in  (* L45 *)
  [(v_CROOT, Aircraft_Wing_AREA, d_CROOT__Wing_AREA);
   (v_CROOT, Aircraft_Wing_SPAN, d_CROOT__Wing_SPAN);
   (v_CROOT, Aircraft_Wing_TAPER_RATIO, d_CROOT__Wing_TAPER_RATIO)].

(** Inputs, outputs and declared partials: /repo/aviary/subsystems/aerodynamics/gasp_based/interference.py L18-38 *)
Definition RootChord (op : options) : comp := {|
  c_ins := [Aircraft_Wing_AREA;
            Aircraft_Wing_SPAN;
            Aircraft_Wing_TAPER_RATIO];
  c_outs := [v_CROOT];
  c_decl := [(v_CROOT, Aircraft_Wing_AREA, 0);
             (v_CROOT, Aircraft_Wing_SPAN, 0);
             (v_CROOT, Aircraft_Wing_TAPER_RATIO, 0)];
  c_run := RootChord_compute op; c_jac := RootChord_partials op |}.

(** CommonVariables.compute, /repo/aviary/subsystems/aerodynamics/gasp_based/interference.py L64-68 (one engine type or one node) *)
Definition CommonVariables_compute (op : options) (e : env) : list (string * R) :=
  let CROOT := e v_CROOT in  (* L65 *)
  let HWING := e Aircraft_Wing_VERTICAL_MOUNT_LOCATION in  (* L65 *)
  let TCR := e Aircraft_Wing_THICKNESS_TO_CHORD_ROOT in  (* L65 *)
  let SWF := e Aircraft_Fuselage_AVG_DIAMETER in  (* L65 *)
  let o_ZW_RF := 2 * HWING - 1 in  (* L67 *)
  let o_wtofd := TCR * CROOT / SWF in  (* L68 *)
  [(v_ZW_RF, o_ZW_RF);
   (v_wtofd, o_wtofd)].

(** CommonVariables.compute_partials, /repo/aviary/subsystems/aerodynamics/gasp_based/interference.py L81-86 *)
Definition CommonVariables_partials (op : options) (e : env) : list (string * string * R) :=
  let CROOT := e v_CROOT in  (* L82 *)
  let HWING := e Aircraft_Wing_VERTICAL_MOUNT_LOCATION in  (* L82 *)
  let TCR := e Aircraft_Wing_THICKNESS_TO_CHORD_ROOT in  (* L82 *)
  let SWF := e Aircraft_Fuselage_AVG_DIAMETER in  (* L82 *)
  let d_wtofd__Wing_THICKNESS_TO_CHORD_ROOT := CROOT / SWF in  (* L84 *)
  let d_wtofd__CROOT := TCR / SWF in  (* L85 *)
  let d_wtofd__Fuselage_AVG_DIAMETER := - TCR * CROOT / SWF ^ 2 in  (* L86 *)
  [(v_wtofd, Aircraft_Wing_THICKNESS_TO_CHORD_ROOT, d_wtofd__Wing_THICKNESS_TO_CHORD_ROOT);
   (v_wtofd, v_CROOT, d_wtofd__CROOT);
   (v_wtofd, Aircraft_Fuselage_AVG_DIAMETER, d_wtofd__Fuselage_AVG_DIAMETER)].

(** Inputs, outputs and declared partials: /repo/aviary/subsystems/aerodynamics/gasp_based/interference.py L55-79 *)
Definition CommonVariables (op : options) : comp := {|
  c_ins := [v_CROOT;
            Aircraft_Wing_VERTICAL_MOUNT_LOCATION;
            Aircraft_Wing_THICKNESS_TO_CHORD_ROOT;
            Aircraft_Fuselage_AVG_DIAMETER];
  c_outs := [v_ZW_RF;
             v_wtofd];
  c_decl := [(v_ZW_RF, Aircraft_Wing_VERTICAL_MOUNT_LOCATION, 2);
             (v_wtofd, Aircraft_Wing_THICKNESS_TO_CHORD_ROOT, 0);
             (v_wtofd, v_CROOT, 0);
             (v_wtofd, Aircraft_Fuselage_AVG_DIAMETER, 0)];
  c_run := CommonVariables_compute op; c_jac := CommonVariables_partials op |}.

(** TopAndBottomWidth.compute, /repo/aviary/subsystems/aerodynamics/gasp_based/interference.py L99-111 (one engine type or one node) *)
Definition TopAndBottomWidth_compute (op : options) (e : env) : list (string * R) :=
  let ZW_RF := e v_ZW_RF in  (* L100 *)
  let wtofd := e v_wtofd in  (* L100 *)
  let SWF := e Aircraft_Fuselage_AVG_DIAMETER in  (* L100 *)
  let WIDTHFTOP :=  (* L102 *)
    if leb 1 (Rabs (ZW_RF + wtofd)) then
      let WIDTHFTOP := 0 in  (* L103 *)
      WIDTHFTOP
    else
      let WIDTHFTOP := SWF * (1 - (ZW_RF + wtofd) ^ 2) ** (5 / 10) in  (* L105 *)
      WIDTHFTOP in
  let WIDTHFBOT :=  (* L106 *)
    if leb 1 (Rabs (ZW_RF - wtofd)) then
      let WIDTHFBOT := 0 in  (* L107 *)
      WIDTHFBOT
    else
      let WIDTHFBOT := SWF * (1 - (ZW_RF - wtofd) ^ 2) ** (5 / 10) in  (* L109 *)
      WIDTHFBOT in
  let o_WBODYWF := 5 / 10 * (WIDTHFTOP + WIDTHFBOT) in  (* L111 *)
  [(v_WBODYWF, o_WBODYWF)].

(** TopAndBottomWidth.compute_partials, /repo/aviary/subsystems/aerodynamics/gasp_based/interference.py L123-145 *)
Definition TopAndBottomWidth_partials (op : options) (e : env) : list (string * string * R) :=
  let ZW_RF := e v_ZW_RF in  (* L124 *)
  let wtofd := e v_wtofd in  (* L124 *)
  let SWF := e Aircraft_Fuselage_AVG_DIAMETER in  (* L124 *)
  let '(dTOP_dZWRF, dTOP_dwtofd, dTOP_dSWF) :=  (* L126 *)
    if leb 1 (Rabs (ZW_RF + wtofd)) then
      let dTOP_dZWRF := 0 in  (* L127 *)
      let dTOP_dwtofd := 0 in  (* L128 *)
      let dTOP_dSWF := 0 in  (* L129 *)
      (dTOP_dZWRF, dTOP_dwtofd, dTOP_dSWF)
    else
      let dTOP_dZWRF := - SWF * (1 - (ZW_RF + wtofd) ^ 2) ** (- 5 / 10) * (ZW_RF + wtofd) in  (* L131 *)
      let dTOP_dwtofd := - SWF * (1 - (ZW_RF + wtofd) ^ 2) ** (- 5 / 10) * (ZW_RF + wtofd) in  (* L132 *)
      let dTOP_dSWF := (1 - (ZW_RF + wtofd) ^ 2) ** (5 / 10) in  (* L133 *)
      (dTOP_dZWRF, dTOP_dwtofd, dTOP_dSWF) in
  let '(dBOT_dZWRF, dBOT_dwtofd, dBOT_dSWF) :=  (* L134 *)
    if leb 1 (Rabs (ZW_RF - wtofd)) then
      let dBOT_dZWRF := 0 in  (* L135 *)
      let dBOT_dwtofd := 0 in  (* L136 *)
      let dBOT_dSWF := 0 in  (* L137 *)
      (dBOT_dZWRF, dBOT_dwtofd, dBOT_dSWF)
    else
      let dBOT_dZWRF := - SWF * (1 - (ZW_RF - wtofd) ^ 2) ** (- 5 / 10) * (ZW_RF - wtofd) in  (* L139 *)
      let dBOT_dwtofd := SWF * (1 - (ZW_RF - wtofd) ^ 2) ** (- 5 / 10) * (ZW_RF - wtofd) in  (* L140 *)
      let dBOT_dSWF := (1 - (ZW_RF - wtofd) ^ 2) ** (5 / 10) in  (* L141 *)
      (dBOT_dZWRF, dBOT_dwtofd, dBOT_dSWF) in
  let d_WBODYWF__ZW_RF := 5 / 10 * (dTOP_dZWRF + dBOT_dZWRF) in  (* L143 *)
  let d_WBODYWF__wtofd := 5 / 10 * (dTOP_dwtofd + dBOT_dwtofd) in  (* L144 *)
  let d_WBODYWF__Fuselage_AVG_DIAMETER := 5 / 10 * (dTOP_dSWF + dBOT_dSWF) in  (* L145 *)
  [(v_WBODYWF, v_ZW_RF, d_WBODYWF__ZW_RF);
   (v_WBODYWF, v_wtofd, d_WBODYWF__wtofd);
   (v_WBODYWF, Aircraft_Fuselage_AVG_DIAMETER, d_WBODYWF__Fuselage_AVG_DIAMETER)].

(** Inputs, outputs and declared partials: /repo/aviary/subsystems/aerodynamics/gasp_based/interference.py L92-121 *)
Definition TopAndBottomWidth (op : options) : comp := {|
  c_ins := [v_ZW_RF;
            v_wtofd;
            Aircraft_Fuselage_AVG_DIAMETER];
  c_outs := [v_WBODYWF];
  c_decl := [(v_WBODYWF, v_ZW_RF, 0);
             (v_WBODYWF, v_wtofd, 0);
             (v_WBODYWF, Aircraft_Fuselage_AVG_DIAMETER, 0)];
  c_run := TopAndBottomWidth_compute op; c_jac := TopAndBottomWidth_partials op |}.

(** BodyRatios.compute, /repo/aviary/subsystems/aerodynamics/gasp_based/interference.py L162-166 (one engine type or one node) *)
Definition BodyRatios_compute (op : options) (e : env) : list (string * R) :=
  let WBODYWF := e v_WBODYWF in  (* L163 *)
  let CROOT := e v_CROOT in  (* L163 *)
  let B := e Aircraft_Wing_SPAN in  (* L163 *)
  let SLM := e Aircraft_Wing_TAPER_RATIO in  (* L163 *)
  let TCR := e Aircraft_Wing_THICKNESS_TO_CHORD_ROOT in  (* L163 *)
  let TCT := e Aircraft_Wing_THICKNESS_TO_CHORD_TIP in  (* L163 *)
  let o_TCBODYWF := TCR - WBODYWF / B * (TCR - TCT) in  (* L165 *)
  let o_CBODYWF := CROOT * (1 - WBODYWF / B * (1 - SLM)) in  (* L166 *)
  [(v_TCBODYWF, o_TCBODYWF);
   (v_CBODYWF, o_CBODYWF)].

(** BodyRatios.compute_partials, /repo/aviary/subsystems/aerodynamics/gasp_based/interference.py L188-199 *)
Definition BodyRatios_partials (op : options) (e : env) : list (string * string * R) :=
  let WBODYWF := e v_WBODYWF in  (* L189 *)
  let CROOT := e v_CROOT in  (* L189 *)
  let B := e Aircraft_Wing_SPAN in  (* L189 *)
  let SLM := e Aircraft_Wing_TAPER_RATIO in  (* L189 *)
  let TCR := e Aircraft_Wing_THICKNESS_TO_CHORD_ROOT in  (* L189 *)
  let TCT := e Aircraft_Wing_THICKNESS_TO_CHORD_TIP in  (* L189 *)
  let d_TCBODYWF__Wing_THICKNESS_TO_CHORD_ROOT := 1 - WBODYWF / B in  (* L191 *)
  let d_TCBODYWF__WBODYWF := - 1 / B * (TCR - TCT) in  (* L192 *)
  let d_TCBODYWF__Wing_SPAN := WBODYWF / B ^ 2 * (TCR - TCT) in  (* L193 *)
  let d_TCBODYWF__Wing_THICKNESS_TO_CHORD_TIP := WBODYWF / B in  (* L194 *)
  let d_CBODYWF__CROOT := 1 - WBODYWF / B * (1 - SLM) in  (* L196 *)
  let d_CBODYWF__WBODYWF := CROOT * (- 1 / B * (1 - SLM)) in  (* L197 *)
  let d_CBODYWF__Wing_SPAN := CROOT * (WBODYWF / B ^ 2 * (1 - SLM)) in  (* L198 *)
  let d_CBODYWF__Wing_TAPER_RATIO := CROOT * (WBODYWF / B) in  (* L199 *)
  [(v_TCBODYWF, Aircraft_Wing_THICKNESS_TO_CHORD_ROOT, d_TCBODYWF__Wing_THICKNESS_TO_CHORD_ROOT);
   (v_TCBODYWF, v_WBODYWF, d_TCBODYWF__WBODYWF);
   (v_TCBODYWF, Aircraft_Wing_SPAN, d_TCBODYWF__Wing_SPAN);
   (v_TCBODYWF, Aircraft_Wing_THICKNESS_TO_CHORD_TIP, d_TCBODYWF__Wing_THICKNESS_TO_CHORD_TIP);
   (v_CBODYWF, v_CROOT, d_CBODYWF__CROOT);
   (v_CBODYWF, v_WBODYWF, d_CBODYWF__WBODYWF);
   (v_CBODYWF, Aircraft_Wing_SPAN, d_CBODYWF__Wing_SPAN);
   (v_CBODYWF, Aircraft_Wing_TAPER_RATIO, d_CBODYWF__Wing_TAPER_RATIO)].

(** Inputs, outputs and declared partials: /repo/aviary/subsystems/aerodynamics/gasp_based/interference.py L151-186 *)
Definition BodyRatios (op : options) : comp := {|
  c_ins := [v_WBODYWF;
            v_CROOT;
            Aircraft_Wing_SPAN;
            Aircraft_Wing_TAPER_RATIO;
            Aircraft_Wing_THICKNESS_TO_CHORD_ROOT;
            Aircraft_Wing_THICKNESS_TO_CHORD_TIP];
  c_outs := [v_TCBODYWF;
             v_CBODYWF];
  c_decl := [(v_TCBODYWF, Aircraft_Wing_THICKNESS_TO_CHORD_ROOT, 0);
             (v_TCBODYWF, v_WBODYWF, 0);
             (v_TCBODYWF, Aircraft_Wing_SPAN, 0);
             (v_TCBODYWF, Aircraft_Wing_THICKNESS_TO_CHORD_TIP, 0);
             (v_CBODYWF, v_CROOT, 0);
             (v_CBODYWF, v_WBODYWF, 0);
             (v_CBODYWF, Aircraft_Wing_SPAN, 0);
             (v_CBODYWF, Aircraft_Wing_TAPER_RATIO, 0)];
  c_run := BodyRatios_compute op; c_jac := BodyRatios_partials op |}.

(** InterferenceDrag.compute, /repo/aviary/subsystems/aerodynamics/gasp_based/interference.py L220-236 (one engine type or one node) *)
Definition InterferenceDrag_compute (op : options) (e : env) : list (string * R) :=
  let WBODYWF := e v_WBODYWF in  (* L221 *)
  let CROOT := e v_CROOT in  (* L221 *)
  let TCBODYWF := e v_TCBODYWF in  (* L221 *)
  let CBODYWF := e v_CBODYWF in  (* L221 *)
  let ZW_RF := e v_ZW_RF in  (* L221 *)
  let SWF := e Aircraft_Fuselage_AVG_DIAMETER in  (* L221 *)
  let XWQLF := e Aircraft_Wing_CENTER_DISTANCE in  (* L221 *)
  let KVWF := 194 / 10000 - 14817 / 100000 * ZW_RF + 13515 / 10000 * ZW_RF ^ 2 in  (* L224 *)
  let KLWF := 13077 / 100000 + 19791 / 10000 * XWQLF + 33325 / 10000 * XWQLF ^ 2 - 10095 / 1000 * XWQLF ^ 3 + 47229 /
      10000 * XWQLF ^ 4 in  (* L226 *)
  let KDTWF := 73543 / 100000 + 28571 / 1000000 * SWF / (TCBODYWF * CBODYWF) in  (* L228 *)
  let FEINTWF := 15 / 10 * TCBODYWF ^ 3 * CBODYWF ^ 2 * KVWF * KLWF * KDTWF in  (* L230 *)
  let AREASHIELDWF := 5 / 10 * (CROOT + CBODYWF) * WBODYWF in  (* L231 *)
  let o_interference_independent_of_shielded_area := FEINTWF in  (* L234 *)
  let o_drag_loss_due_to_shielded_wing_area := AREASHIELDWF in  (* L236 *)
  [(v_interference_independent_of_shielded_area, o_interference_independent_of_shielded_area);
   (v_drag_loss_due_to_shielded_wing_area, o_drag_loss_due_to_shielded_wing_area)].

(** InterferenceDrag.compute_partials, /repo/aviary/subsystems/aerodynamics/gasp_based/interference.py L258-293 *)
Definition InterferenceDrag_partials (op : options) (e : env) : list (string * string * R) :=
  let WBODYWF := e v_WBODYWF in  (* L259 *)
  let CROOT := e v_CROOT in  (* L259 *)
  let TCBODYWF := e v_TCBODYWF in  (* L259 *)
  let CBODYWF := e v_CBODYWF in  (* L259 *)
  let ZW_RF := e v_ZW_RF in  (* L259 *)
  let SWF := e Aircraft_Fuselage_AVG_DIAMETER in  (* L259 *)
  let XWQLF := e Aircraft_Wing_CENTER_DISTANCE in  (* L259 *)
  let KVWF := 194 / 10000 - 14817 / 100000 * ZW_RF + 13515 / 10000 * ZW_RF ^ 2 in  (* L261 *)
  let dKVWF_dZWRF := - 14817 / 100000 + 2 * (13515 / 10000) * ZW_RF in  (* L262 *)
  let KLWF := 13077 / 100000 + 19791 / 10000 * XWQLF + 33325 / 10000 * XWQLF ^ 2 - 10095 / 1000 * XWQLF ^ 3 + 47229 /
      10000 * XWQLF ^ 4 in  (* L263 *)
  let dKLWF_dXWQLF := 19791 / 10000 + 2 * (33325 / 10000) * XWQLF - 3 * (10095 / 1000) * XWQLF ^ 2 + 4 * (47229 /
      10000) * XWQLF ^ 3 in  (* L264 *)
  let KDTWF := 73543 / 100000 + 28571 / 1000000 * SWF / (TCBODYWF * CBODYWF) in  (* L265 *)
  let dKDTWF_dSWF := 28571 / 1000000 / (TCBODYWF * CBODYWF) in  (* L266 *)
  let d_interference_independent_of_shielded_area__TCBODYWF := 15 / 10 * TCBODYWF * CBODYWF ^ 2 * KVWF * KLWF * (3 *
      (73543 / 100000) * TCBODYWF + 2 * (28571 / 1000000) * SWF / CBODYWF) in  (* L270 *)
  let d_interference_independent_of_shielded_area__CBODYWF := 15 / 10 * TCBODYWF ^ 3 * KVWF * KLWF * (2 * (73543 /
      100000) * CBODYWF + 28571 / 1000000 * SWF / TCBODYWF) in  (* L278 *)
  let d_interference_independent_of_shielded_area__ZW_RF := 15 / 10 * TCBODYWF ^ 3 * CBODYWF ^ 2 * dKVWF_dZWRF * KLWF
      * KDTWF in  (* L281 *)
  let d_interference_independent_of_shielded_area__Wing_CENTER_DISTANCE := 15 / 10 * TCBODYWF ^ 3 * CBODYWF ^ 2 * KVWF
      * dKLWF_dXWQLF * KDTWF in  (* L284 *)
  let d_interference_independent_of_shielded_area__Fuselage_AVG_DIAMETER := 15 / 10 * TCBODYWF ^ 3 * CBODYWF ^ 2 *
      KVWF * KLWF * dKDTWF_dSWF in  (* L287 *)
  let d_drag_loss_due_to_shielded_wing_area__CROOT := 5 / 10 * WBODYWF in  (* L291 *)
  let d_drag_loss_due_to_shielded_wing_area__CBODYWF := 5 / 10 * WBODYWF in  (* L292 *)
  let d_drag_loss_due_to_shielded_wing_area__WBODYWF := 5 / 10 * (CROOT + CBODYWF) in  (* L293 *)
  [(v_interference_independent_of_shielded_area, v_TCBODYWF, d_interference_independent_of_shielded_area__TCBODYWF);
   (v_interference_independent_of_shielded_area, v_CBODYWF, d_interference_independent_of_shielded_area__CBODYWF);
   (v_interference_independent_of_shielded_area, v_ZW_RF, d_interference_independent_of_shielded_area__ZW_RF);
   (v_interference_independent_of_shielded_area, Aircraft_Wing_CENTER_DISTANCE,
       d_interference_independent_of_shielded_area__Wing_CENTER_DISTANCE);
   (v_interference_independent_of_shielded_area, Aircraft_Fuselage_AVG_DIAMETER,
       d_interference_independent_of_shielded_area__Fuselage_AVG_DIAMETER);
   (v_drag_loss_due_to_shielded_wing_area, v_CROOT, d_drag_loss_due_to_shielded_wing_area__CROOT);
   (v_drag_loss_due_to_shielded_wing_area, v_CBODYWF, d_drag_loss_due_to_shielded_wing_area__CBODYWF);
   (v_drag_loss_due_to_shielded_wing_area, v_WBODYWF, d_drag_loss_due_to_shielded_wing_area__WBODYWF)].

(** Inputs, outputs and declared partials: /repo/aviary/subsystems/aerodynamics/gasp_based/interference.py L208-256 *)
Definition InterferenceDrag (op : options) : comp := {|
  c_ins := [v_WBODYWF;
            v_CROOT;
            v_TCBODYWF;
            v_CBODYWF;
            v_ZW_RF;
            Aircraft_Fuselage_AVG_DIAMETER;
            Aircraft_Wing_CENTER_DISTANCE];
  c_outs := [v_interference_independent_of_shielded_area;
             v_drag_loss_due_to_shielded_wing_area];
  c_decl := [(v_interference_independent_of_shielded_area, v_TCBODYWF, 0);
             (v_interference_independent_of_shielded_area, v_CBODYWF, 0);
             (v_interference_independent_of_shielded_area, v_ZW_RF, 0);
             (v_interference_independent_of_shielded_area, Aircraft_Fuselage_AVG_DIAMETER, 0);
             (v_interference_independent_of_shielded_area, Aircraft_Wing_CENTER_DISTANCE, 0);
             (v_drag_loss_due_to_shielded_wing_area, v_CROOT, 0);
             (v_drag_loss_due_to_shielded_wing_area, v_CBODYWF, 0);
             (v_drag_loss_due_to_shielded_wing_area, v_WBODYWF, 0)];
  c_run := InterferenceDrag_compute op; c_jac := InterferenceDrag_partials op |}.

(** WingFuselageInterferenceMission.compute, /repo/aviary/subsystems/aerodynamics/gasp_based/interference.py L397-417 (one engine type or one node) *)
Definition WingFuselageInterferenceMission_compute (op : options) (e : env) : list (string * R) :=
  let grav_english := on op Mission_GRAVITY in  (* L398 *)
  let CKW := e Aircraft_Wing_FORM_FACTOR in  (* L399 *)
  let CBARW := e Aircraft_Wing_AVERAGE_CHORD in  (* L399 *)
  let EM := e Dynamic_Atmosphere_MACH in  (* L399 *)
  let T0 := e Dynamic_Atmosphere_TEMPERATURE in  (* L399 *)
  let XKV := e Dynamic_Atmosphere_KINEMATIC_VISCOSITY in  (* L399 *)
  let AREASHIELDWF := e v_interference_independent_of_shielded_area in  (* L399 *)
  let FEINTWF := e v_drag_loss_due_to_shielded_wing_area in  (* L399 *)
  let RELI := sqrt (14 / 10 * grav_english * (5332 / 100)) * EM * sqrt T0 / XKV in  (* L403 *)
  let CFIN := 455 / 1000 / 7 ** (258 / 100) / (1 + 144 / 1000 * EM ^ 2) ** (65 / 100) in  (* L411 *)
  let CDWI := 1 * 1 * CFIN in  (* L412 *)
  let FEW_over_SW := CDWI * CKW * (log10 (RELI * CBARW) / 7) ** (- 26 / 10) in  (* L413 *)
  let FEIWF := FEINTWF - FEW_over_SW * AREASHIELDWF in  (* L415 *)
  let o_wing_fuselage_interference_flat_plate_equivalent := FEIWF in  (* L417 *)
  [(v_wing_fuselage_interference_flat_plate_equivalent, o_wing_fuselage_interference_flat_plate_equivalent)].

(** WingFuselageInterferenceMission.compute_partials, /repo/aviary/subsystems/aerodynamics/gasp_based/interference.py L419-495 *)
Definition WingFuselageInterferenceMission_partials (op : options) (e : env) : list (string * string * R) :=
  let grav_english := on op Mission_GRAVITY in  (* L420 *)
  let CKW := e Aircraft_Wing_FORM_FACTOR in  (* L421 *)
  let CBARW := e Aircraft_Wing_AVERAGE_CHORD in  (* L421 *)
  let EM := e Dynamic_Atmosphere_MACH in  (* L421 *)
  let T0 := e Dynamic_Atmosphere_TEMPERATURE in  (* L421 *)
  let XKV := e Dynamic_Atmosphere_KINEMATIC_VISCOSITY in  (* L421 *)
  let AREASHIELDWF := e v_interference_independent_of_shielded_area in  (* L421 *)
  let FEINTWF := e v_drag_loss_due_to_shielded_wing_area in  (* L421 *)
  let RELI := sqrt (14 / 10 * grav_english * (5332 / 100)) * EM * sqrt T0 / XKV in  (* L423 *)
  let dRELI_dEM := sqrt (14 / 10 * grav_english * (5332 / 100)) * sqrt T0 / XKV in  (* L424 *)
  let CFIN := 455 / 1000 / 7 ** (258 / 100) / (1 + 144 / 1000 * EM ^ 2) ** (65 / 100) in  (* L426 *)
  let dCFIN_dEM := - 65 / 100 * CFIN / (1 + 144 / 1000 * EM ^ 2) * (288 / 1000) * EM in  (* L427 *)
  let CDWI := 1 * 1 * CFIN in  (* L428 *)
  let d_wing_fuselage_interference_flat_plate_equivalent__Wing_FORM_FACTOR := - CDWI * (log10 (RELI * CBARW) / 7) **
      (- 26 / 10) * AREASHIELDWF in  (* L430 *)
  let d_wing_fuselage_interference_flat_plate_equivalent__Wing_AVERAGE_CHORD := 26 / 10 * CDWI * CKW * (log10 (RELI *
      CBARW) / 7) ** (- 36 / 10) * AREASHIELDWF * 1 / (ln 10 * CBARW * 7) in  (* L434 *)
  let d_wing_fuselage_interference_flat_plate_equivalent__Atmosphere_MACH := - CKW * AREASHIELDWF * ((log10 (RELI *
      CBARW) / 7) ** (- 26 / 10) * (1 * 1 * dCFIN_dEM) + CFIN * (- 26 / 10 * (log10 (RELI * CBARW) / 7) ** (- 36 / 10)
      / (ln 10 * RELI * 7) * dRELI_dEM)) in  (* L446 *)
  let d_wing_fuselage_interference_flat_plate_equivalent__Atmosphere_TEMPERATURE := - CDWI * CKW * (- 26 / 10) *
      (log10 (RELI * CBARW) / 7) ** (- 36 / 10) * AREASHIELDWF * 1 / (ln 10 * RELI * 7) * sqrt (14 / 10 * grav_english
      * (5332 / 100)) * EM * (5 / 10) / (XKV * sqrt T0) in  (* L460 *)
  let d_wing_fuselage_interference_flat_plate_equivalent__Atmosphere_KINEMATIC_VISCOSITY := CDWI * CKW * (- 26 / 10) *
      (log10 (RELI * CBARW) / 7) ** (- 36 / 10) * AREASHIELDWF * 1 / (ln 10 * RELI * 7) * sqrt (14 / 10 * grav_english
      * (5332 / 100)) * EM * sqrt T0 / XKV ^ 2 in  (* L476 *)
  let d_wing_fuselage_interference_flat_plate_equivalent__interference_independent_of_shielded_area := - CDWI * CKW *
      (log10 (RELI * CBARW) / 7) ** (- 26 / 10) in  (* L492 *)
  [(v_wing_fuselage_interference_flat_plate_equivalent, Aircraft_Wing_FORM_FACTOR,
      d_wing_fuselage_interference_flat_plate_equivalent__Wing_FORM_FACTOR);
   (v_wing_fuselage_interference_flat_plate_equivalent, Aircraft_Wing_AVERAGE_CHORD,
       d_wing_fuselage_interference_flat_plate_equivalent__Wing_AVERAGE_CHORD);
   (v_wing_fuselage_interference_flat_plate_equivalent, Dynamic_Atmosphere_MACH,
       d_wing_fuselage_interference_flat_plate_equivalent__Atmosphere_MACH);
   (v_wing_fuselage_interference_flat_plate_equivalent, Dynamic_Atmosphere_TEMPERATURE,
       d_wing_fuselage_interference_flat_plate_equivalent__Atmosphere_TEMPERATURE);
   (v_wing_fuselage_interference_flat_plate_equivalent, Dynamic_Atmosphere_KINEMATIC_VISCOSITY,
       d_wing_fuselage_interference_flat_plate_equivalent__Atmosphere_KINEMATIC_VISCOSITY);
   (v_wing_fuselage_interference_flat_plate_equivalent, v_interference_independent_of_shielded_area,
       d_wing_fuselage_interference_flat_plate_equivalent__interference_independent_of_shielded_area)].

(** Inputs, outputs and declared partials: /repo/aviary/subsystems/aerodynamics/gasp_based/interference.py L355-395 *)
Definition WingFuselageInterferenceMission (op : options) : comp := {|
  c_ins := [Aircraft_Wing_FORM_FACTOR;
            Aircraft_Wing_AVERAGE_CHORD;
            Dynamic_Atmosphere_MACH;
            Dynamic_Atmosphere_TEMPERATURE;
            Dynamic_Atmosphere_KINEMATIC_VISCOSITY;
            v_interference_independent_of_shielded_area;
            v_drag_loss_due_to_shielded_wing_area];
  c_outs := [v_wing_fuselage_interference_flat_plate_equivalent];
  c_decl := [(v_wing_fuselage_interference_flat_plate_equivalent, Dynamic_Atmosphere_MACH, 0);
             (v_wing_fuselage_interference_flat_plate_equivalent, Dynamic_Atmosphere_TEMPERATURE, 0);
             (v_wing_fuselage_interference_flat_plate_equivalent, Dynamic_Atmosphere_KINEMATIC_VISCOSITY, 0);
             (v_wing_fuselage_interference_flat_plate_equivalent, Aircraft_Wing_FORM_FACTOR, 0);
             (v_wing_fuselage_interference_flat_plate_equivalent, Aircraft_Wing_AVERAGE_CHORD, 0);
             (v_wing_fuselage_interference_flat_plate_equivalent, v_interference_independent_of_shielded_area, 0);
             (v_wing_fuselage_interference_flat_plate_equivalent, v_drag_loss_due_to_shielded_wing_area, 1)];
  c_run := WingFuselageInterferenceMission_compute op; c_jac := WingFuselageInterferenceMission_partials op |}.

(** The inputs that are scalars, shared by all nodes. *)
Definition WingFuselageInterferenceMission_shared : list string := [Aircraft_Wing_FORM_FACTOR;
    Aircraft_Wing_AVERAGE_CHORD; v_interference_independent_of_shielded_area; v_drag_loss_due_to_shielded_wing_area].

(** BWBBodyLiftCurveSlope.compute, /repo/aviary/subsystems/aerodynamics/gasp_based/gaspaero.py L245-261 (one engine type or one node) *)
Definition BWBBodyLiftCurveSlope_compute (op : options) (e : env) : list (string * R) :=
  let mach := e Dynamic_Atmosphere_MACH in  (* L247 *)
  let eps := 1 / 100000000 in  (* L250 *)
  let CLALPH_B0 := e Aircraft_Fuselage_LIFT_CURVE_SLOPE_MACH0 in  (* L259 *)
  let CLALPH_B := CLALPH_B0 / sqrt (1 - mach ^ 2) in  (* L260 *)
  let o_body_lift_curve_slope := CLALPH_B in  (* L261 *)
  [(v_body_lift_curve_slope, o_body_lift_curve_slope)].

(** BWBBodyLiftCurveSlope.compute_partials, /repo/aviary/subsystems/aerodynamics/gasp_based/gaspaero.py L263-271 *)
Definition BWBBodyLiftCurveSlope_partials (op : options) (e : env) : list (string * string * R) :=
  let mach := e Dynamic_Atmosphere_MACH in  (* L264 *)
  let CLALPH_B0 := e Aircraft_Fuselage_LIFT_CURVE_SLOPE_MACH0 in  (* L265 *)
  let d_body_lift_curve_slope__Atmosphere_MACH := CLALPH_B0 * mach / sqrt (1 - mach ^ 2) ^ 3 in  (* L266 *)
  let d_body_lift_curve_slope__Fuselage_LIFT_CURVE_SLOPE_MACH0 := 1 / sqrt (1 - mach ^ 2) in  (* L269 *)
  [(v_body_lift_curve_slope, Dynamic_Atmosphere_MACH, d_body_lift_curve_slope__Atmosphere_MACH);
   (v_body_lift_curve_slope, Aircraft_Fuselage_LIFT_CURVE_SLOPE_MACH0,
       d_body_lift_curve_slope__Fuselage_LIFT_CURVE_SLOPE_MACH0)].

(** Inputs, outputs and declared partials: /repo/aviary/subsystems/aerodynamics/gasp_based/gaspaero.py L219-243 *)
Definition BWBBodyLiftCurveSlope (op : options) : comp := {|
  c_ins := [Dynamic_Atmosphere_MACH;
            Aircraft_Fuselage_LIFT_CURVE_SLOPE_MACH0];
  c_outs := [v_body_lift_curve_slope];
  c_decl := [(v_body_lift_curve_slope, Dynamic_Atmosphere_MACH, 0);
             (v_body_lift_curve_slope, Aircraft_Fuselage_LIFT_CURVE_SLOPE_MACH0, 0)];
  c_run := BWBBodyLiftCurveSlope_compute op; c_jac := BWBBodyLiftCurveSlope_partials op |}.

(** The inputs that are scalars, shared by all nodes. *)
Definition BWBBodyLiftCurveSlope_shared : list string := [Aircraft_Fuselage_LIFT_CURVE_SLOPE_MACH0].

(** SIWB.compute, /repo/aviary/subsystems/aerodynamics/gasp_based/gaspaero.py L438-451 (one engine type or one node) *)
Definition SIWB_compute (op : options) (e : env) : list (string * R) :=
  let cabin_width := e Aircraft_Fuselage_AVG_DIAMETER in  (* L441 *)
  let wingspan := e Aircraft_Wing_SPAN in  (* L442 *)
  let wfob := cabin_width / wingspan in  (* L449 *)
  let siwb := 1 - 88 / 10000 * wfob - 17364 / 10000 * wfob ^ 2 - 2303 / 1000 * wfob ^ 3 + 60606 / 10000 * wfob ^ 4 in  (* L450 *)
  let o_siwb := siwb in  (* L451 *)
  [(v_siwb, o_siwb)].

(** SIWB.compute_partials, /repo/aviary/subsystems/aerodynamics/gasp_based/gaspaero.py L453-475 *)
Definition SIWB_partials (op : options) (e : env) : list (string * string * R) :=
  let cabin_width := e Aircraft_Fuselage_AVG_DIAMETER in  (* L454 *)
  let wingspan := e Aircraft_Wing_SPAN in  (* L455 *)
  let wfob := cabin_width / wingspan in  (* L457 *)
  let dsiwb_dcabin_width := - 88 / 10000 / wingspan - 2 * (17364 / 10000) * wfob / wingspan - 3 * (2303 / 1000) * wfob
      ^ 2 / wingspan + 4 * (60606 / 10000) * wfob ^ 3 / wingspan in  (* L460 *)
  let dsiwb_dwingspan := 88 / 10000 * cabin_width / wingspan ^ 2 + 2 * (17364 / 10000) * wfob * cabin_width / wingspan
      ^ 2 + 3 * (2303 / 1000) * wfob ^ 2 * cabin_width / wingspan ^ 2 - 4 * (60606 / 10000) * wfob ^ 3 * cabin_width /
      wingspan ^ 2 in  (* L467 *)
  let d_siwb__Fuselage_AVG_DIAMETER := dsiwb_dcabin_width in  (* L474 *)
  let d_siwb__Wing_SPAN := dsiwb_dwingspan in  (* L475 *)
  [(v_siwb, Aircraft_Fuselage_AVG_DIAMETER, d_siwb__Fuselage_AVG_DIAMETER);
   (v_siwb, Aircraft_Wing_SPAN, d_siwb__Wing_SPAN)].

(** Inputs, outputs and declared partials: /repo/aviary/subsystems/aerodynamics/gasp_based/gaspaero.py L419-436 *)
Definition SIWB (op : options) : comp := {|
  c_ins := [Aircraft_Fuselage_AVG_DIAMETER;
            Aircraft_Wing_SPAN];
  c_outs := [v_siwb];
  c_decl := [(v_siwb, Aircraft_Fuselage_AVG_DIAMETER, 0);
             (v_siwb, Aircraft_Wing_SPAN, 0)];
  c_run := SIWB_compute op; c_jac := SIWB_partials op |}.

(** BWBSIWB.compute, /repo/aviary/subsystems/aerodynamics/gasp_based/gaspaero.py L506-519 (one engine type or one node) *)
Definition BWBSIWB_compute (op : options) (e : env) : list (string * R) :=
  let diam := e Aircraft_Fuselage_HYDRAULIC_DIAMETER in  (* L509 *)
  let wingspan := e Aircraft_Wing_SPAN in  (* L510 *)
  let wfob := diam / wingspan in  (* L517 *)
  let siwb := 1 - 88 / 10000 * wfob - 17364 / 10000 * wfob ^ 2 - 2303 / 1000 * wfob ^ 3 + 60606 / 10000 * wfob ^ 4 in  (* L518 *)
  let o_siwb := siwb in  (* L519 *)
  [(v_siwb, o_siwb)].

(** BWBSIWB.compute_partials, /repo/aviary/subsystems/aerodynamics/gasp_based/gaspaero.py L521-543 *)
Definition BWBSIWB_partials (op : options) (e : env) : list (string * string * R) :=
  let diam := e Aircraft_Fuselage_HYDRAULIC_DIAMETER in  (* L522 *)
  let wingspan := e Aircraft_Wing_SPAN in  (* L523 *)
  let wfob := diam / wingspan in  (* L525 *)
  let dsiwb_ddiam := - 88 / 10000 / wingspan - 2 * (17364 / 10000) * wfob / wingspan - 3 * (2303 / 1000) * wfob ^ 2 /
      wingspan + 4 * (60606 / 10000) * wfob ^ 3 / wingspan in  (* L528 *)
  let dsiwb_dwingspan := 88 / 10000 * diam / wingspan ^ 2 + 2 * (17364 / 10000) * wfob * diam / wingspan ^ 2 + 3 *
      (2303 / 1000) * wfob ^ 2 * diam / wingspan ^ 2 - 4 * (60606 / 10000) * wfob ^ 3 * diam / wingspan ^ 2 in  (* L535 *)
  let d_siwb__Fuselage_HYDRAULIC_DIAMETER := dsiwb_ddiam in  (* L542 *)
  let d_siwb__Wing_SPAN := dsiwb_dwingspan in  (* L543 *)
  [(v_siwb, Aircraft_Fuselage_HYDRAULIC_DIAMETER, d_siwb__Fuselage_HYDRAULIC_DIAMETER);
   (v_siwb, Aircraft_Wing_SPAN, d_siwb__Wing_SPAN)].

(** Inputs, outputs and declared partials: /repo/aviary/subsystems/aerodynamics/gasp_based/gaspaero.py L487-504 *)
Definition BWBSIWB (op : options) : comp := {|
  c_ins := [Aircraft_Fuselage_HYDRAULIC_DIAMETER;
            Aircraft_Wing_SPAN];
  c_outs := [v_siwb];
  c_decl := [(v_siwb, Aircraft_Fuselage_HYDRAULIC_DIAMETER, 0);
             (v_siwb, Aircraft_Wing_SPAN, 0)];
  c_run := BWBSIWB_compute op; c_jac := BWBSIWB_partials op |}.

(** UFac.compute, /repo/aviary/subsystems/aerodynamics/gasp_based/gaspaero.py L584-611 (one engine type or one node) *)
Definition UFacTransport_compute (op : options) (e : env) : list (string * R) :=
  let design_type := oe op Aircraft_Design_TYPE in  (* L585 *)
  let lift_ratio := e v_lift_ratio in  (* L586 *)
  let bbar := e v_bbar_alt in  (* L587 *)
  let sigma := e v_sigma in  (* L588 *)
  let sigstr := e v_sigstr in  (* L589 *)
  let wingspan := e Aircraft_Wing_SPAN in  (* L590 *)
  let ufac := (1 + lift_ratio) ^ 2 / (sigstr * (lift_ratio / bbar) ^ 2 + 2 * sigma * lift_ratio / bbar + 1) in  (* L593 *)
  let o_ufac := ufac in  (* L611 *)
  [(v_ufac, o_ufac)].

(** UFac.compute_partials, /repo/aviary/subsystems/aerodynamics/gasp_based/gaspaero.py L613-660 *)
Definition UFacTransport_partials (op : options) (e : env) : list (string * string * R) :=
  let design_type := oe op Aircraft_Design_TYPE in  (* L614 *)
  let lift_ratio := e v_lift_ratio in  (* L615 *)
  let bbar := e v_bbar_alt in  (* L616 *)
  let sigma := e v_sigma in  (* L617 *)
  let sigstr := e v_sigstr in  (* L618 *)
  let numer := (1 + lift_ratio) ^ 2 in  (* L620 *)
  let denom := sigstr * (lift_ratio / bbar) ^ 2 + 2 * sigma * lift_ratio / bbar + 1 in  (* L621 *)
  let ufac := numer / denom in  (* L622 *)
  let dnumer := 2 * (1 + lift_ratio) / bbar in  (* L625 *)
  let ddenom := 2 * sigstr * (lift_ratio / bbar) / bbar + 2 * sigma / bbar in  (* L626 *)
  let dufac_dlift_ratio := (dnumer * denom - numer * ddenom) / denom ^ 2 in  (* L627 *)
  let dufac_dsigstr := - numer * (lift_ratio / bbar) ^ 2 / denom ^ 2 in  (* L629 *)
  let dufac_dsigma := - numer * 2 * lift_ratio / bbar / denom ^ 2 in  (* L630 *)
  let ddenom_dbbar := - 2 * sigstr * (lift_ratio / bbar) * lift_ratio / bbar ^ 2 - 2 * sigma * lift_ratio / bbar ^ 2
      in  (* L632 *)
  let dufac_dbbar := - numer * ddenom_dbbar / denom ^ 2 in  (* L636 *)
  let d_ufac__lift_ratio := dufac_dlift_ratio in  (* L657 *)
  let d_ufac__bbar_alt := dufac_dbbar in  (* L658 *)
  let d_ufac__sigma := dufac_dsigma in  (* L659 *)
  let d_ufac__sigstr := dufac_dsigstr in  (* L660 *)
  [(v_ufac, v_lift_ratio, d_ufac__lift_ratio);
   (v_ufac, v_bbar_alt, d_ufac__bbar_alt);
   (v_ufac, v_sigma, d_ufac__sigma);
   (v_ufac, v_sigstr, d_ufac__sigstr)].

(** Inputs, outputs and declared partials: /repo/aviary/subsystems/aerodynamics/gasp_based/gaspaero.py L555-582 *)
Definition UFacTransport (op : options) : comp := {|
  c_ins := [v_lift_ratio;
            v_bbar_alt;
            v_sigma;
            v_sigstr;
            Aircraft_Wing_SPAN];
  c_outs := [v_ufac];
  c_decl := [(v_ufac, v_lift_ratio, 0);
             (v_ufac, v_bbar_alt, 0);
             (v_ufac, v_sigma, 0);
             (v_ufac, v_sigstr, 0)];
  c_run := UFacTransport_compute op; c_jac := UFacTransport_partials op |}.

(** The inputs that are scalars, shared by all nodes. *)
Definition UFacTransport_shared : list string := [v_bbar_alt; v_sigma; v_sigstr; Aircraft_Wing_SPAN].

(** UFac.compute, /repo/aviary/subsystems/aerodynamics/gasp_based/gaspaero.py L584-611 (one engine type or one node) *)
Definition UFacBWBSharp_compute (op : options) (e : env) : list (string * R) :=
  let design_type := oe op Aircraft_Design_TYPE in  (* L585 *)
  let lift_ratio := e v_lift_ratio in  (* L586 *)
  let bbar := e v_bbar_alt in  (* L587 *)
  let sigma := e v_sigma in  (* L588 *)
  let sigstr := e v_sigstr in  (* L589 *)
  let wingspan := e Aircraft_Wing_SPAN in  (* L590 *)
  let bbar :=  (* L598 *)
    if ltb bbar (1 / 100 * wingspan) then
      let bbar := 1 in  (* L599 *)
      bbar
    else
      bbar in
  let ufac := (1 + lift_ratio) ^ 2 / (sigstr * (lift_ratio / bbar) ^ 2 + 2 * sigma * lift_ratio / bbar + 1) in  (* L600 *)
  let smooth := ob op v_smooth_ufac in  (* L604 *)
  let ufac := Rmin ufac (975 / 1000) in  (* L609 *)
  let o_ufac := ufac in  (* L611 *)
  [(v_ufac, o_ufac)].

(** UFac.compute_partials, /repo/aviary/subsystems/aerodynamics/gasp_based/gaspaero.py L613-660 *)
Definition UFacBWBSharp_partials (op : options) (e : env) : list (string * string * R) :=
  let design_type := oe op Aircraft_Design_TYPE in  (* L614 *)
  let lift_ratio := e v_lift_ratio in  (* L615 *)
  let bbar := e v_bbar_alt in  (* L616 *)
  let sigma := e v_sigma in  (* L617 *)
  let sigstr := e v_sigstr in  (* L618 *)
  let numer := (1 + lift_ratio) ^ 2 in  (* L620 *)
  let denom := sigstr * (lift_ratio / bbar) ^ 2 + 2 * sigma * lift_ratio / bbar + 1 in  (* L621 *)
  let ufac := numer / denom in  (* L622 *)
  let dnumer := 2 * (1 + lift_ratio) / bbar in  (* L625 *)
  let ddenom := 2 * sigstr * (lift_ratio / bbar) / bbar + 2 * sigma / bbar in  (* L626 *)
  let dufac_dlift_ratio := (dnumer * denom - numer * ddenom) / denom ^ 2 in  (* L627 *)
  let dufac_dsigstr := - numer * (lift_ratio / bbar) ^ 2 / denom ^ 2 in  (* L629 *)
  let dufac_dsigma := - numer * 2 * lift_ratio / bbar / denom ^ 2 in  (* L630 *)
  let ddenom_dbbar := - 2 * sigstr * (lift_ratio / bbar) * lift_ratio / bbar ^ 2 - 2 * sigma * lift_ratio / bbar ^ 2
      in  (* L632 *)
  let dufac_dbbar := - numer * ddenom_dbbar / denom ^ 2 in  (* L636 *)
  let smooth := ob op v_smooth_ufac in  (* L639 *)
  let ufac := Rmin ufac (975 / 1000) in  (* L646 *)
  let dufac_dsigstr := (if ltb ufac (975 / 1000) then 1 else 0) * dufac_dsigstr in  (* L647 *)
  let dufac_dsigma := (if ltb ufac (975 / 1000) then 1 else 0) * dufac_dsigma in  (* L650 *)
  let dufac_dbbar := (if ltb ufac (975 / 1000) then 1 else 0) * dufac_dbbar in  (* L653 *)
  let d_ufac__lift_ratio := dufac_dlift_ratio in  (* L657 *)
  let d_ufac__bbar_alt := dufac_dbbar in  (* L658 *)
  let d_ufac__sigma := dufac_dsigma in  (* L659 *)
  let d_ufac__sigstr := dufac_dsigstr in  (* L660 *)
  [(v_ufac, v_lift_ratio, d_ufac__lift_ratio);
   (v_ufac, v_bbar_alt, d_ufac__bbar_alt);
   (v_ufac, v_sigma, d_ufac__sigma);
   (v_ufac, v_sigstr, d_ufac__sigstr)].

(** Inputs, outputs and declared partials: /repo/aviary/subsystems/aerodynamics/gasp_based/gaspaero.py L555-582 *)
Definition UFacBWBSharp (op : options) : comp := {|
  c_ins := [v_lift_ratio;
            v_bbar_alt;
            v_sigma;
            v_sigstr;
            Aircraft_Wing_SPAN];
  c_outs := [v_ufac];
  c_decl := [(v_ufac, v_lift_ratio, 0);
             (v_ufac, v_bbar_alt, 0);
             (v_ufac, v_sigma, 0);
             (v_ufac, v_sigstr, 0)];
  c_run := UFacBWBSharp_compute op; c_jac := UFacBWBSharp_partials op |}.

(** The inputs that are scalars, shared by all nodes. *)
Definition UFacBWBSharp_shared : list string := [v_bbar_alt; v_sigma; v_sigstr; Aircraft_Wing_SPAN].

(** UFac.compute, /repo/aviary/subsystems/aerodynamics/gasp_based/gaspaero.py L584-611 (one engine type or one node) *)
Definition UFacBWBSmooth_compute (op : options) (e : env) : list (string * R) :=
  let design_type := oe op Aircraft_Design_TYPE in  (* L585 *)
  let lift_ratio := e v_lift_ratio in  (* L586 *)
  let bbar := e v_bbar_alt in  (* L587 *)
  let sigma := e v_sigma in  (* L588 *)
  let sigstr := e v_sigstr in  (* L589 *)
  let wingspan := e Aircraft_Wing_SPAN in  (* L590 *)
  let bbar :=  (* L598 *)
    if ltb bbar (1 / 100 * wingspan) then
      let bbar := 1 in  (* L599 *)
      bbar
    else
      bbar in
  let ufac := (1 + lift_ratio) ^ 2 / (sigstr * (lift_ratio / bbar) ^ 2 + 2 * sigma * lift_ratio / bbar + 1) in  (* L600 *)
  let smooth := ob op v_smooth_ufac in  (* L604 *)
  let mu := on op v_mu in  (* L606 *)
  let ufac := smooth_min ufac (975 / 1000) mu in  (* L607 *)
  let o_ufac := ufac in  (* L611 *)
  [(v_ufac, o_ufac)].

(** UFac.compute_partials, /repo/aviary/subsystems/aerodynamics/gasp_based/gaspaero.py L613-660 *)
Definition UFacBWBSmooth_partials (op : options) (e : env) : list (string * string * R) :=
  let design_type := oe op Aircraft_Design_TYPE in  (* L614 *)
  let lift_ratio := e v_lift_ratio in  (* L615 *)
  let bbar := e v_bbar_alt in  (* L616 *)
  let sigma := e v_sigma in  (* L617 *)
  let sigstr := e v_sigstr in  (* L618 *)
  let numer := (1 + lift_ratio) ^ 2 in  (* L620 *)
  let denom := sigstr * (lift_ratio / bbar) ^ 2 + 2 * sigma * lift_ratio / bbar + 1 in  (* L621 *)
  let ufac := numer / denom in  (* L622 *)
  let dnumer := 2 * (1 + lift_ratio) / bbar in  (* L625 *)
  let ddenom := 2 * sigstr * (lift_ratio / bbar) / bbar + 2 * sigma / bbar in  (* L626 *)
  let dufac_dlift_ratio := (dnumer * denom - numer * ddenom) / denom ^ 2 in  (* L627 *)
  let dufac_dsigstr := - numer * (lift_ratio / bbar) ^ 2 / denom ^ 2 in  (* L629 *)
  let dufac_dsigma := - numer * 2 * lift_ratio / bbar / denom ^ 2 in  (* L630 *)
  let ddenom_dbbar := - 2 * sigstr * (lift_ratio / bbar) * lift_ratio / bbar ^ 2 - 2 * sigma * lift_ratio / bbar ^ 2
      in  (* L632 *)
  let dufac_dbbar := - numer * ddenom_dbbar / denom ^ 2 in  (* L636 *)
  let smooth := ob op v_smooth_ufac in  (* L639 *)
  let mu := on op v_mu in  (* L641 *)
  let dufac_dsigstr := d_smooth_min ufac (975 / 1000) mu * dufac_dsigstr in  (* L642 *)
  let dufac_dsigma := d_smooth_min ufac (975 / 1000) mu * dufac_dsigma in  (* L643 *)
  let dufac_dbbar := d_smooth_min ufac (975 / 1000) mu * dufac_dbbar in  (* L644 *)
  let d_ufac__lift_ratio := dufac_dlift_ratio in  (* L657 *)
  let d_ufac__bbar_alt := dufac_dbbar in  (* L658 *)
  let d_ufac__sigma := dufac_dsigma in  (* L659 *)
  let d_ufac__sigstr := dufac_dsigstr in  (* L660 *)
  [(v_ufac, v_lift_ratio, d_ufac__lift_ratio);
   (v_ufac, v_bbar_alt, d_ufac__bbar_alt);
   (v_ufac, v_sigma, d_ufac__sigma);
   (v_ufac, v_sigstr, d_ufac__sigstr)].

(** Inputs, outputs and declared partials: /repo/aviary/subsystems/aerodynamics/gasp_based/gaspaero.py L555-582 *)
Definition UFacBWBSmooth (op : options) : comp := {|
  c_ins := [v_lift_ratio;
            v_bbar_alt;
            v_sigma;
            v_sigstr;
            Aircraft_Wing_SPAN];
  c_outs := [v_ufac];
  c_decl := [(v_ufac, v_lift_ratio, 0);
             (v_ufac, v_bbar_alt, 0);
             (v_ufac, v_sigma, 0);
             (v_ufac, v_sigstr, 0)];
  c_run := UFacBWBSmooth_compute op; c_jac := UFacBWBSmooth_partials op |}.

(** The inputs that are scalars, shared by all nodes. *)
Definition UFacBWBSmooth_shared : list string := [v_bbar_alt; v_sigma; v_sigstr; Aircraft_Wing_SPAN].

(** LiftCoeff.compute, /repo/aviary/subsystems/aerodynamics/gasp_based/gaspaero.py L1635-1658 (one engine type or one node) *)
Definition LiftCoeff_compute (op : options) (e : env) : list (string * R) :=
  let alpha := e Dynamic_Vehicle_ANGLE_OF_ATTACK in  (* L1636 *)
  let lift_curve_slope := e v_lift_curve_slope in  (* L1637 *)
  let lift_ratio := e v_lift_ratio in  (* L1638 *)
  let alpha0 := e Aircraft_Wing_ZERO_LIFT_ANGLE in  (* L1639 *)
  let CL_max_flaps := e v_CL_max_flaps in  (* L1640 *)
  let dCL_flaps_model := e v_dCL_flaps_model in  (* L1641 *)
  let kclge := e v_kclge in  (* L1642 *)
  let flap_factor := e v_flap_factor in  (* L1643 *)
  let o_CL_base := kclge * lift_curve_slope * ((* deg2rad, L69-71 *) let d := alpha - alpha0 in d * PI / 180) * (1 +
      lift_ratio) in  (* L1648 *)
  let o_dCL_flaps_full := dCL_flaps_model * (1 + lift_ratio) in  (* L1649 *)
  let o_alpha_stall := ((* rad2deg, L74-76 *) let r := (CL_max_flaps - dCL_flaps_model) / (kclge * lift_curve_slope)
      in r * 180 / PI) + alpha0 in  (* L1650 *)
  let o_CL_max := CL_max_flaps * (1 + lift_ratio) in  (* L1653 *)
  let o_CL_full_flaps := o_CL_base + o_dCL_flaps_full in  (* L1655 *)
  let o_Vehicle_LIFT_COEFFICIENT := o_CL_base + flap_factor * o_dCL_flaps_full in  (* L1656 *)
  [(v_CL_base, o_CL_base);
   (v_dCL_flaps_full, o_dCL_flaps_full);
   (v_alpha_stall, o_alpha_stall);
   (v_CL_max, o_CL_max);
   (v_CL_full_flaps, o_CL_full_flaps);
   (Dynamic_Vehicle_LIFT_COEFFICIENT, o_Vehicle_LIFT_COEFFICIENT)].

(** LiftCoeff.compute_partials, /repo/aviary/subsystems/aerodynamics/gasp_based/gaspaero.py L1660-1723 *)
Definition LiftCoeff_partials (op : options) (e : env) : list (string * string * R) :=
  let alpha := e Dynamic_Vehicle_ANGLE_OF_ATTACK in  (* L1661 *)
  let lift_curve_slope := e v_lift_curve_slope in  (* L1662 *)
  let lift_ratio := e v_lift_ratio in  (* L1663 *)
  let alpha0 := e Aircraft_Wing_ZERO_LIFT_ANGLE in  (* L1664 *)
  let CL_max_flaps := e v_CL_max_flaps in  (* L1665 *)
  let dCL_flaps_model := e v_dCL_flaps_model in  (* L1667 *)
  let kclge := e v_kclge in  (* L1668 *)
  let flap_factor := e v_flap_factor in  (* L1669 *)
  let d_CL_base__kclge := lift_curve_slope * ((* deg2rad, L69-71 *) let d := alpha - alpha0 in d * PI / 180) * (1 +
      lift_ratio) in  (* L1671 *)
  let d_CL_base__lift_curve_slope := kclge * ((* deg2rad, L69-71 *) let d := alpha - alpha0 in d * PI / 180) * (1 +
      lift_ratio) in  (* L1672 *)
  let d_CL_base__Vehicle_ANGLE_OF_ATTACK := kclge * lift_curve_slope * PI / 180 * (1 + lift_ratio) in  (* L1673 *)
  let d_CL_base__Wing_ZERO_LIFT_ANGLE := - kclge * lift_curve_slope * PI / 180 * (1 + lift_ratio) in  (* L1676 *)
  let d_CL_base__lift_ratio := kclge * lift_curve_slope * ((* deg2rad, L69-71 *) let d := alpha - alpha0 in d * PI /
      180) in  (* L1679 *)
  let d_dCL_flaps_full__dCL_flaps_model := 1 + lift_ratio in  (* L1681 *)
  let d_dCL_flaps_full__lift_ratio := dCL_flaps_model in  (* L1682 *)
  let d_alpha_stall__CL_max_flaps := 180 / PI / (kclge * lift_curve_slope) in  (* L1684 *)
  let d_alpha_stall__dCL_flaps_model := - 180 / PI / (kclge * lift_curve_slope) in  (* L1685 *)
  let d_alpha_stall__kclge := - ((* rad2deg, L74-76 *) let r := (CL_max_flaps - dCL_flaps_model) / (kclge ^ 2 *
      lift_curve_slope) in r * 180 / PI) in  (* L1686 *)
  let d_alpha_stall__lift_curve_slope := - ((* rad2deg, L74-76 *) let r := (CL_max_flaps - dCL_flaps_model) / (kclge *
      lift_curve_slope ^ 2) in r * 180 / PI) in  (* L1689 *)
  let d_alpha_stall__Wing_ZERO_LIFT_ANGLE := 1 in  (* L1692 *)
  let d_CL_max__CL_max_flaps := 1 + lift_ratio in  (* L1694 *)
  let d_CL_max__lift_ratio := CL_max_flaps in  (* L1695 *)
  let d_CL_full_flaps__kclge := d_CL_base__kclge in  (* L1697 *)
  let d_CL_full_flaps__lift_curve_slope := d_CL_base__lift_curve_slope in  (* L1698 *)
  let d_CL_full_flaps__Vehicle_ANGLE_OF_ATTACK := d_CL_base__Vehicle_ANGLE_OF_ATTACK in  (* L1699 *)
  let d_CL_full_flaps__Wing_ZERO_LIFT_ANGLE := d_CL_base__Wing_ZERO_LIFT_ANGLE in  (* L1702 *)
  let d_CL_full_flaps__lift_ratio := d_CL_base__lift_ratio + d_dCL_flaps_full__lift_ratio in  (* L1705 *)
  let d_CL_full_flaps__dCL_flaps_model := d_dCL_flaps_full__dCL_flaps_model in  (* L1708 *)
  let d_Vehicle_LIFT_COEFFICIENT__kclge := d_CL_base__kclge in  (* L1710 *)
  let d_Vehicle_LIFT_COEFFICIENT__lift_curve_slope := d_CL_base__lift_curve_slope in  (* L1711 *)
  let d_Vehicle_LIFT_COEFFICIENT__Vehicle_ANGLE_OF_ATTACK := d_CL_base__Vehicle_ANGLE_OF_ATTACK in  (* L1712 *)
  let d_Vehicle_LIFT_COEFFICIENT__Wing_ZERO_LIFT_ANGLE := d_CL_base__Wing_ZERO_LIFT_ANGLE in  (* L1715 *)
  let d_Vehicle_LIFT_COEFFICIENT__flap_factor := dCL_flaps_model * (1 + lift_ratio) in  (* L1719 *)
  let d_Vehicle_LIFT_COEFFICIENT__lift_ratio := d_CL_base__lift_ratio + flap_factor * d_dCL_flaps_full__lift_ratio in  (* L1720 *)
  let d_Vehicle_LIFT_COEFFICIENT__dCL_flaps_model := flap_factor * (1 + lift_ratio) in  (* L1723 *)
  [(v_CL_base, v_kclge, d_CL_base__kclge);
   (v_CL_base, v_lift_curve_slope, d_CL_base__lift_curve_slope);
   (v_CL_base, Dynamic_Vehicle_ANGLE_OF_ATTACK, d_CL_base__Vehicle_ANGLE_OF_ATTACK);
   (v_CL_base, Aircraft_Wing_ZERO_LIFT_ANGLE, d_CL_base__Wing_ZERO_LIFT_ANGLE);
   (v_CL_base, v_lift_ratio, d_CL_base__lift_ratio);
   (v_dCL_flaps_full, v_dCL_flaps_model, d_dCL_flaps_full__dCL_flaps_model);
   (v_dCL_flaps_full, v_lift_ratio, d_dCL_flaps_full__lift_ratio);
   (v_alpha_stall, v_CL_max_flaps, d_alpha_stall__CL_max_flaps);
   (v_alpha_stall, v_dCL_flaps_model, d_alpha_stall__dCL_flaps_model);
   (v_alpha_stall, v_kclge, d_alpha_stall__kclge);
   (v_alpha_stall, v_lift_curve_slope, d_alpha_stall__lift_curve_slope);
   (v_alpha_stall, Aircraft_Wing_ZERO_LIFT_ANGLE, d_alpha_stall__Wing_ZERO_LIFT_ANGLE);
   (v_CL_max, v_CL_max_flaps, d_CL_max__CL_max_flaps);
   (v_CL_max, v_lift_ratio, d_CL_max__lift_ratio);
   (v_CL_full_flaps, v_kclge, d_CL_full_flaps__kclge);
   (v_CL_full_flaps, v_lift_curve_slope, d_CL_full_flaps__lift_curve_slope);
   (v_CL_full_flaps, Dynamic_Vehicle_ANGLE_OF_ATTACK, d_CL_full_flaps__Vehicle_ANGLE_OF_ATTACK);
   (v_CL_full_flaps, Aircraft_Wing_ZERO_LIFT_ANGLE, d_CL_full_flaps__Wing_ZERO_LIFT_ANGLE);
   (v_CL_full_flaps, v_lift_ratio, d_CL_full_flaps__lift_ratio);
   (v_CL_full_flaps, v_dCL_flaps_model, d_CL_full_flaps__dCL_flaps_model);
   (Dynamic_Vehicle_LIFT_COEFFICIENT, v_kclge, d_Vehicle_LIFT_COEFFICIENT__kclge);
   (Dynamic_Vehicle_LIFT_COEFFICIENT, v_lift_curve_slope, d_Vehicle_LIFT_COEFFICIENT__lift_curve_slope);
   (Dynamic_Vehicle_LIFT_COEFFICIENT, Dynamic_Vehicle_ANGLE_OF_ATTACK,
       d_Vehicle_LIFT_COEFFICIENT__Vehicle_ANGLE_OF_ATTACK);
   (Dynamic_Vehicle_LIFT_COEFFICIENT, Aircraft_Wing_ZERO_LIFT_ANGLE,
       d_Vehicle_LIFT_COEFFICIENT__Wing_ZERO_LIFT_ANGLE);
   (Dynamic_Vehicle_LIFT_COEFFICIENT, v_flap_factor, d_Vehicle_LIFT_COEFFICIENT__flap_factor);
   (Dynamic_Vehicle_LIFT_COEFFICIENT, v_lift_ratio, d_Vehicle_LIFT_COEFFICIENT__lift_ratio);
   (Dynamic_Vehicle_LIFT_COEFFICIENT, v_dCL_flaps_model, d_Vehicle_LIFT_COEFFICIENT__dCL_flaps_model)].

(** Inputs, outputs and declared partials: /repo/aviary/subsystems/aerodynamics/gasp_based/gaspaero.py L1547-1633 *)
Definition LiftCoeff (op : options) : comp := {|
  c_ins := [Dynamic_Vehicle_ANGLE_OF_ATTACK;
            v_lift_curve_slope;
            v_lift_ratio;
            Aircraft_Wing_ZERO_LIFT_ANGLE;
            v_CL_max_flaps;
            v_dCL_flaps_model;
            v_kclge;
            v_flap_factor];
  c_outs := [v_CL_base;
             v_dCL_flaps_full;
             v_alpha_stall;
             v_CL_max;
             v_CL_full_flaps;
             Dynamic_Vehicle_LIFT_COEFFICIENT];
  c_decl := [(v_CL_base, Dynamic_Vehicle_ANGLE_OF_ATTACK, 0);
             (v_CL_base, v_lift_curve_slope, 0);
             (v_CL_base, v_lift_ratio, 0);
             (v_CL_base, Aircraft_Wing_ZERO_LIFT_ANGLE, 0);
             (v_CL_base, v_CL_max_flaps, 0);
             (v_CL_base, v_dCL_flaps_model, 0);
             (v_CL_base, v_kclge, 0);
             (v_CL_base, v_flap_factor, 0);
             (v_dCL_flaps_full, Dynamic_Vehicle_ANGLE_OF_ATTACK, 0);
             (v_dCL_flaps_full, v_lift_curve_slope, 0);
             (v_dCL_flaps_full, v_lift_ratio, 0);
             (v_dCL_flaps_full, Aircraft_Wing_ZERO_LIFT_ANGLE, 0);
             (v_dCL_flaps_full, v_CL_max_flaps, 0);
             (v_dCL_flaps_full, v_dCL_flaps_model, 0);
             (v_dCL_flaps_full, v_kclge, 0);
             (v_dCL_flaps_full, v_flap_factor, 0);
             (v_alpha_stall, Dynamic_Vehicle_ANGLE_OF_ATTACK, 0);
             (v_alpha_stall, v_lift_curve_slope, 0);
             (v_alpha_stall, v_lift_ratio, 0);
             (v_alpha_stall, Aircraft_Wing_ZERO_LIFT_ANGLE, 0);
             (v_alpha_stall, v_CL_max_flaps, 0);
             (v_alpha_stall, v_dCL_flaps_model, 0);
             (v_alpha_stall, v_kclge, 0);
             (v_alpha_stall, v_flap_factor, 0);
             (v_CL_max, Dynamic_Vehicle_ANGLE_OF_ATTACK, 0);
             (v_CL_max, v_lift_curve_slope, 0);
             (v_CL_max, v_lift_ratio, 0);
             (v_CL_max, Aircraft_Wing_ZERO_LIFT_ANGLE, 0);
             (v_CL_max, v_CL_max_flaps, 0);
             (v_CL_max, v_dCL_flaps_model, 0);
             (v_CL_max, v_kclge, 0);
             (v_CL_max, v_flap_factor, 0);
             (v_CL_full_flaps, Dynamic_Vehicle_ANGLE_OF_ATTACK, 0);
             (v_CL_full_flaps, v_lift_curve_slope, 0);
             (v_CL_full_flaps, v_lift_ratio, 0);
             (v_CL_full_flaps, Aircraft_Wing_ZERO_LIFT_ANGLE, 0);
             (v_CL_full_flaps, v_CL_max_flaps, 0);
             (v_CL_full_flaps, v_dCL_flaps_model, 0);
             (v_CL_full_flaps, v_kclge, 0);
             (v_CL_full_flaps, v_flap_factor, 0);
             (Dynamic_Vehicle_LIFT_COEFFICIENT, Dynamic_Vehicle_ANGLE_OF_ATTACK, 0);
             (Dynamic_Vehicle_LIFT_COEFFICIENT, v_lift_curve_slope, 0);
             (Dynamic_Vehicle_LIFT_COEFFICIENT, v_lift_ratio, 0);
             (Dynamic_Vehicle_LIFT_COEFFICIENT, Aircraft_Wing_ZERO_LIFT_ANGLE, 0);
             (Dynamic_Vehicle_LIFT_COEFFICIENT, v_CL_max_flaps, 0);
             (Dynamic_Vehicle_LIFT_COEFFICIENT, v_dCL_flaps_model, 0);
             (Dynamic_Vehicle_LIFT_COEFFICIENT, v_kclge, 0);
             (Dynamic_Vehicle_LIFT_COEFFICIENT, v_flap_factor, 0)];
  c_run := LiftCoeff_compute op; c_jac := LiftCoeff_partials op |}.

(** The inputs that are scalars, shared by all nodes. *)
Definition LiftCoeff_shared : list string := [Aircraft_Wing_ZERO_LIFT_ANGLE; v_CL_max_flaps; v_dCL_flaps_model].

(** BWBLiftCoeff.compute, /repo/aviary/subsystems/aerodynamics/gasp_based/gaspaero.py L1873-1915 (one engine type or one node) *)
Definition BWBLiftCoeff_compute (op : options) (e : env) : list (string * R) :=
  let alpha := e Dynamic_Vehicle_ANGLE_OF_ATTACK in  (* L1876 *)
  let lift_curve_slope := e v_lift_curve_slope in  (* L1877 *)
  let alpha0 := e Aircraft_Wing_ZERO_LIFT_ANGLE in  (* L1878 *)
  let CL_max_flaps := e v_CL_max_flaps in  (* L1879 *)
  let dCL_flaps_model := e v_dCL_flaps_model in  (* L1880 *)
  let kclge := e v_kclge in  (* L1881 *)
  let flap_factor := e v_flap_factor in  (* L1882 *)
  let body_lift_curve_slope := e v_body_lift_curve_slope in  (* L1883 *)
  let wing_area := e Aircraft_Wing_AREA in  (* L1884 *)
  let exp_wing_area := e Aircraft_Wing_EXPOSED_AREA in  (* L1885 *)
  let planform := e Aircraft_Fuselage_PLANFORM_AREA in  (* L1886 *)
  let o_CL_base := kclge * lift_curve_slope * ((* deg2rad, L69-71 *) let d := alpha - alpha0 in d * PI / 180) in  (* L1892 *)
  let o_dCL_flaps_full := dCL_flaps_model in  (* L1893 *)
  let alpha_stall := ((* rad2deg, L74-76 *) let r := (CL_max_flaps - dCL_flaps_model) / (kclge * lift_curve_slope) in
      r * 180 / PI) + alpha0 in  (* L1894 *)
  let o_alpha_stall := alpha_stall in  (* L1897 *)
  let o_CL_max := CL_max_flaps in  (* L1903 *)
  let CLw_full_flaps := o_CL_base + o_dCL_flaps_full in  (* L1905 *)
  let CLw_partial_flaps := o_CL_base + flap_factor * o_dCL_flaps_full in  (* L1907 *)
  let CL_body := planform / wing_area * kclge * body_lift_curve_slope * ((* deg2rad, L69-71 *) let d := alpha - alpha0
      in d * PI / 180) in  (* L1909 *)
  let o_CL_full_flaps := exp_wing_area / wing_area * CLw_full_flaps + CL_body in  (* L1911 *)
  let o_Vehicle_LIFT_COEFFICIENT := exp_wing_area / wing_area * CLw_partial_flaps + CL_body in  (* L1913 *)
  [(v_CL_base, o_CL_base);
   (v_dCL_flaps_full, o_dCL_flaps_full);
   (v_alpha_stall, o_alpha_stall);
   (v_CL_max, o_CL_max);
   (v_CL_full_flaps, o_CL_full_flaps);
   (Dynamic_Vehicle_LIFT_COEFFICIENT, o_Vehicle_LIFT_COEFFICIENT)].

(** BWBLiftCoeff.compute_partials, /repo/aviary/subsystems/aerodynamics/gasp_based/gaspaero.py L1917-2045 *)
Definition BWBLiftCoeff_partials (op : options) (e : env) : list (string * string * R) :=
  let alpha := e Dynamic_Vehicle_ANGLE_OF_ATTACK in  (* L1918 *)
  let lift_curve_slope := e v_lift_curve_slope in  (* L1919 *)
  let alpha0 := e Aircraft_Wing_ZERO_LIFT_ANGLE in  (* L1920 *)
  let CL_max_flaps := e v_CL_max_flaps in  (* L1921 *)
  let dCL_flaps_model := e v_dCL_flaps_model in  (* L1922 *)
  let kclge := e v_kclge in  (* L1923 *)
  let flap_factor := e v_flap_factor in  (* L1924 *)
  let body_lift_curve_slope := e v_body_lift_curve_slope in  (* L1926 *)
  let wing_area := e Aircraft_Wing_AREA in  (* L1927 *)
  let exp_wing_area := e Aircraft_Wing_EXPOSED_AREA in  (* L1928 *)
  let planform := e Aircraft_Fuselage_PLANFORM_AREA in  (* L1929 *)
  let d_CL_base__kclge := lift_curve_slope * ((* deg2rad, L69-71 *) let d := alpha - alpha0 in d * PI / 180) in  (* L1931 *)
  let d_CL_base__lift_curve_slope := kclge * ((* deg2rad, L69-71 *) let d := alpha - alpha0 in d * PI / 180) in  (* L1932 *)
  let d_CL_base__Vehicle_ANGLE_OF_ATTACK := kclge * lift_curve_slope * PI / 180 in  (* L1933 *)
  let d_CL_base__Wing_ZERO_LIFT_ANGLE := - kclge * lift_curve_slope * PI / 180 in  (* L1934 *)
  let d_dCL_flaps_full__dCL_flaps_model := 1 in  (* L1936 *)
  let d_alpha_stall__CL_max_flaps := 180 / PI / (kclge * lift_curve_slope) in  (* L1938 *)
  let d_alpha_stall__dCL_flaps_model := - 180 / PI / (kclge * lift_curve_slope) in  (* L1939 *)
  let d_alpha_stall__kclge := - ((* rad2deg, L74-76 *) let r := (CL_max_flaps - dCL_flaps_model) / (kclge ^ 2 *
      lift_curve_slope) in r * 180 / PI) in  (* L1940 *)
  let d_alpha_stall__lift_curve_slope := - ((* rad2deg, L74-76 *) let r := (CL_max_flaps - dCL_flaps_model) / (kclge *
      lift_curve_slope ^ 2) in r * 180 / PI) in  (* L1943 *)
  let d_alpha_stall__Wing_ZERO_LIFT_ANGLE := 1 in  (* L1946 *)
  let d_CL_max__CL_max_flaps := 1 in  (* L1948 *)
  let dCL_body_dplanform := 1 / wing_area * kclge * body_lift_curve_slope * ((* deg2rad, L69-71 *) let d := alpha -
      alpha0 in d * PI / 180) in  (* L1953 *)
  let dCL_body_dwing_area := - planform / wing_area ^ 2 * kclge * body_lift_curve_slope * ((* deg2rad, L69-71 *) let d
      := alpha - alpha0 in d * PI / 180) in  (* L1954 *)
  let dCL_body_dkclge := planform / wing_area * body_lift_curve_slope * ((* deg2rad, L69-71 *) let d := alpha - alpha0
      in d * PI / 180) in  (* L1957 *)
  let dCL_body_dbody_lift_curve_slope := planform / wing_area * kclge * ((* deg2rad, L69-71 *) let d := alpha - alpha0
      in d * PI / 180) in  (* L1958 *)
  let dCL_body_dalpha := planform / wing_area * kclge * body_lift_curve_slope * PI / 180 in  (* L1959 *)
  let dCL_body_dalpha0 := - planform / wing_area * kclge * body_lift_curve_slope * PI / 180 in  (* L1960 *)
  let dCLw_full_flaps_dkclge := exp_wing_area / wing_area * lift_curve_slope * ((* deg2rad, L69-71 *) let d := alpha -
      alpha0 in d * PI / 180) in  (* L1966 *)
  let dCLw_full_flaps_dlift_curve_slope := exp_wing_area / wing_area * kclge * ((* deg2rad, L69-71 *) let d := alpha -
      alpha0 in d * PI / 180) in  (* L1969 *)
  let dCLw_full_flaps_dalpha := exp_wing_area / wing_area * kclge * lift_curve_slope * PI / 180 in  (* L1972 *)
  let dCLw_full_flaps_dalpha0 := - exp_wing_area / wing_area * kclge * lift_curve_slope * PI / 180 in  (* L1975 *)
  let dCLw_full_flaps_ddCL_flaps_model := exp_wing_area / wing_area in  (* L1978 *)
  let CL_base := kclge * lift_curve_slope * ((* deg2rad, L69-71 *) let d := alpha - alpha0 in d * PI / 180) in  (* L1980 *)
  let dCLw_full_flaps := dCL_flaps_model in  (* L1981 *)
  let CLw_full_flaps := CL_base + dCLw_full_flaps in  (* L1982 *)
  let d_CL_full_flaps__kclge := dCLw_full_flaps_dkclge + dCL_body_dkclge in  (* L1984 *)
  let d_CL_full_flaps__lift_curve_slope := dCLw_full_flaps_dlift_curve_slope in  (* L1985 *)
  let d_CL_full_flaps__Vehicle_ANGLE_OF_ATTACK := dCLw_full_flaps_dalpha + dCL_body_dalpha in  (* L1986 *)
  let d_CL_full_flaps__Wing_ZERO_LIFT_ANGLE := dCLw_full_flaps_dalpha0 + dCL_body_dalpha0 in  (* L1989 *)
  let d_CL_full_flaps__dCL_flaps_model := dCLw_full_flaps_ddCL_flaps_model in  (* L1992 *)
  let d_CL_full_flaps__Fuselage_PLANFORM_AREA := dCL_body_dplanform in  (* L1994 *)
  let d_CL_full_flaps__Wing_AREA := - exp_wing_area / wing_area ^ 2 * CLw_full_flaps + dCL_body_dwing_area in  (* L1995 *)
  let d_CL_full_flaps__Wing_EXPOSED_AREA := 1 / wing_area * CLw_full_flaps in  (* L1998 *)
  let d_CL_full_flaps__Fuselage_PLANFORM_AREA := dCL_body_dplanform in  (* L1999 *)
  let d_CL_full_flaps__body_lift_curve_slope := dCL_body_dbody_lift_curve_slope in  (* L2000 *)
  let dCLw_partial_flaps_dkclge := exp_wing_area / wing_area * lift_curve_slope * ((* deg2rad, L69-71 *) let d :=
      alpha - alpha0 in d * PI / 180) in  (* L2007 *)
  let dCLw_partial_flaps_dlift_curve_slope := exp_wing_area / wing_area * kclge * ((* deg2rad, L69-71 *) let d :=
      alpha - alpha0 in d * PI / 180) in  (* L2010 *)
  let dCLw_partial_flaps_dalpha := exp_wing_area / wing_area * kclge * lift_curve_slope * PI / 180 in  (* L2013 *)
  let dCLw_partial_flaps_dalpha0 := - exp_wing_area / wing_area * kclge * lift_curve_slope * PI / 180 in  (* L2016 *)
  let dCLw_partial_flaps_ddCL_flaps_model := exp_wing_area / wing_area * flap_factor in  (* L2019 *)
  let dCLw_partial_flaps_dflap_factor := exp_wing_area / wing_area * dCL_flaps_model in  (* L2020 *)
  let dCLw_partial_flaps := flap_factor * dCL_flaps_model in  (* L2022 *)
  let CLw_partial_flaps := CL_base + dCLw_partial_flaps in  (* L2023 *)
  let d_Vehicle_LIFT_COEFFICIENT__kclge := dCLw_partial_flaps_dkclge + dCL_body_dkclge in  (* L2025 *)
  let d_Vehicle_LIFT_COEFFICIENT__lift_curve_slope := dCLw_partial_flaps_dlift_curve_slope in  (* L2026 *)
  let d_Vehicle_LIFT_COEFFICIENT__Vehicle_ANGLE_OF_ATTACK := dCLw_partial_flaps_dalpha + dCL_body_dalpha in  (* L2029 *)
  let d_Vehicle_LIFT_COEFFICIENT__Wing_ZERO_LIFT_ANGLE := dCLw_partial_flaps_dalpha0 + dCL_body_dalpha0 in  (* L2032 *)
  let d_Vehicle_LIFT_COEFFICIENT__dCL_flaps_model := dCLw_partial_flaps_ddCL_flaps_model in  (* L2035 *)
  let d_Vehicle_LIFT_COEFFICIENT__Fuselage_PLANFORM_AREA := dCL_body_dplanform in  (* L2037 *)
  let d_Vehicle_LIFT_COEFFICIENT__Wing_AREA := - exp_wing_area / wing_area ^ 2 * CLw_partial_flaps +
      dCL_body_dwing_area in  (* L2038 *)
  let d_Vehicle_LIFT_COEFFICIENT__Wing_EXPOSED_AREA := 1 / wing_area * CLw_partial_flaps in  (* L2041 *)
  let d_Vehicle_LIFT_COEFFICIENT__Fuselage_PLANFORM_AREA := dCL_body_dplanform in  (* L2042 *)
  let d_Vehicle_LIFT_COEFFICIENT__body_lift_curve_slope := dCL_body_dbody_lift_curve_slope in  (* L2043 *)
  let d_Vehicle_LIFT_COEFFICIENT__flap_factor := dCLw_partial_flaps_dflap_factor in  (* L2045 *)
  [(v_CL_base, v_kclge, d_CL_base__kclge);
   (v_CL_base, v_lift_curve_slope, d_CL_base__lift_curve_slope);
   (v_CL_base, Dynamic_Vehicle_ANGLE_OF_ATTACK, d_CL_base__Vehicle_ANGLE_OF_ATTACK);
   (v_CL_base, Aircraft_Wing_ZERO_LIFT_ANGLE, d_CL_base__Wing_ZERO_LIFT_ANGLE);
   (v_dCL_flaps_full, v_dCL_flaps_model, d_dCL_flaps_full__dCL_flaps_model);
   (v_alpha_stall, v_CL_max_flaps, d_alpha_stall__CL_max_flaps);
   (v_alpha_stall, v_dCL_flaps_model, d_alpha_stall__dCL_flaps_model);
   (v_alpha_stall, v_kclge, d_alpha_stall__kclge);
   (v_alpha_stall, v_lift_curve_slope, d_alpha_stall__lift_curve_slope);
   (v_alpha_stall, Aircraft_Wing_ZERO_LIFT_ANGLE, d_alpha_stall__Wing_ZERO_LIFT_ANGLE);
   (v_CL_max, v_CL_max_flaps, d_CL_max__CL_max_flaps);
   (v_CL_full_flaps, v_kclge, d_CL_full_flaps__kclge);
   (v_CL_full_flaps, v_lift_curve_slope, d_CL_full_flaps__lift_curve_slope);
   (v_CL_full_flaps, Dynamic_Vehicle_ANGLE_OF_ATTACK, d_CL_full_flaps__Vehicle_ANGLE_OF_ATTACK);
   (v_CL_full_flaps, Aircraft_Wing_ZERO_LIFT_ANGLE, d_CL_full_flaps__Wing_ZERO_LIFT_ANGLE);
   (v_CL_full_flaps, v_dCL_flaps_model, d_CL_full_flaps__dCL_flaps_model);
   (v_CL_full_flaps, Aircraft_Fuselage_PLANFORM_AREA, d_CL_full_flaps__Fuselage_PLANFORM_AREA);
   (v_CL_full_flaps, Aircraft_Wing_AREA, d_CL_full_flaps__Wing_AREA);
   (v_CL_full_flaps, Aircraft_Wing_EXPOSED_AREA, d_CL_full_flaps__Wing_EXPOSED_AREA);
   (v_CL_full_flaps, v_body_lift_curve_slope, d_CL_full_flaps__body_lift_curve_slope);
   (Dynamic_Vehicle_LIFT_COEFFICIENT, v_kclge, d_Vehicle_LIFT_COEFFICIENT__kclge);
   (Dynamic_Vehicle_LIFT_COEFFICIENT, v_lift_curve_slope, d_Vehicle_LIFT_COEFFICIENT__lift_curve_slope);
   (Dynamic_Vehicle_LIFT_COEFFICIENT, Dynamic_Vehicle_ANGLE_OF_ATTACK,
       d_Vehicle_LIFT_COEFFICIENT__Vehicle_ANGLE_OF_ATTACK);
   (Dynamic_Vehicle_LIFT_COEFFICIENT, Aircraft_Wing_ZERO_LIFT_ANGLE,
       d_Vehicle_LIFT_COEFFICIENT__Wing_ZERO_LIFT_ANGLE);
   (Dynamic_Vehicle_LIFT_COEFFICIENT, v_dCL_flaps_model, d_Vehicle_LIFT_COEFFICIENT__dCL_flaps_model);
   (Dynamic_Vehicle_LIFT_COEFFICIENT, Aircraft_Fuselage_PLANFORM_AREA,
       d_Vehicle_LIFT_COEFFICIENT__Fuselage_PLANFORM_AREA);
   (Dynamic_Vehicle_LIFT_COEFFICIENT, Aircraft_Wing_AREA, d_Vehicle_LIFT_COEFFICIENT__Wing_AREA);
   (Dynamic_Vehicle_LIFT_COEFFICIENT, Aircraft_Wing_EXPOSED_AREA, d_Vehicle_LIFT_COEFFICIENT__Wing_EXPOSED_AREA);
   (Dynamic_Vehicle_LIFT_COEFFICIENT, v_body_lift_curve_slope, d_Vehicle_LIFT_COEFFICIENT__body_lift_curve_slope);
   (Dynamic_Vehicle_LIFT_COEFFICIENT, v_flap_factor, d_Vehicle_LIFT_COEFFICIENT__flap_factor)].

(** Inputs, outputs and declared partials: /repo/aviary/subsystems/aerodynamics/gasp_based/gaspaero.py L1733-1871 *)
Definition BWBLiftCoeff (op : options) : comp := {|
  c_ins := [Dynamic_Vehicle_ANGLE_OF_ATTACK;
            v_lift_curve_slope;
            Aircraft_Wing_ZERO_LIFT_ANGLE;
            v_CL_max_flaps;
            v_dCL_flaps_model;
            v_kclge;
            v_flap_factor;
            v_body_lift_curve_slope;
            Aircraft_Wing_AREA;
            Aircraft_Wing_EXPOSED_AREA;
            Aircraft_Fuselage_PLANFORM_AREA];
  c_outs := [v_CL_base;
             v_dCL_flaps_full;
             v_alpha_stall;
             v_CL_max;
             v_CL_full_flaps;
             Dynamic_Vehicle_LIFT_COEFFICIENT];
  c_decl := [(v_CL_base, v_kclge, 0);
             (v_CL_base, Dynamic_Vehicle_ANGLE_OF_ATTACK, 0);
             (v_CL_base, Aircraft_Wing_ZERO_LIFT_ANGLE, 0);
             (v_CL_base, v_lift_curve_slope, 0);
             (v_dCL_flaps_full, v_dCL_flaps_model, 0);
             (v_alpha_stall, v_lift_curve_slope, 0);
             (v_alpha_stall, v_kclge, 0);
             (v_alpha_stall, v_CL_max_flaps, 0);
             (v_alpha_stall, v_dCL_flaps_model, 0);
             (v_alpha_stall, Aircraft_Wing_ZERO_LIFT_ANGLE, 0);
             (v_CL_max, v_CL_max_flaps, 0);
             (v_CL_full_flaps, Dynamic_Vehicle_ANGLE_OF_ATTACK, 0);
             (v_CL_full_flaps, v_lift_curve_slope, 0);
             (v_CL_full_flaps, v_kclge, 0);
             (v_CL_full_flaps, v_body_lift_curve_slope, 0);
             (v_CL_full_flaps, v_dCL_flaps_model, 0);
             (v_CL_full_flaps, Aircraft_Wing_ZERO_LIFT_ANGLE, 0);
             (v_CL_full_flaps, Aircraft_Wing_AREA, 0);
             (v_CL_full_flaps, Aircraft_Wing_EXPOSED_AREA, 0);
             (v_CL_full_flaps, Aircraft_Fuselage_PLANFORM_AREA, 0);
             (Dynamic_Vehicle_LIFT_COEFFICIENT, Dynamic_Vehicle_ANGLE_OF_ATTACK, 0);
             (Dynamic_Vehicle_LIFT_COEFFICIENT, v_lift_curve_slope, 0);
             (Dynamic_Vehicle_LIFT_COEFFICIENT, v_kclge, 0);
             (Dynamic_Vehicle_LIFT_COEFFICIENT, v_flap_factor, 0);
             (Dynamic_Vehicle_LIFT_COEFFICIENT, v_body_lift_curve_slope, 0);
             (Dynamic_Vehicle_LIFT_COEFFICIENT, v_dCL_flaps_model, 0);
             (Dynamic_Vehicle_LIFT_COEFFICIENT, Aircraft_Wing_ZERO_LIFT_ANGLE, 0);
             (Dynamic_Vehicle_LIFT_COEFFICIENT, Aircraft_Wing_AREA, 0);
             (Dynamic_Vehicle_LIFT_COEFFICIENT, Aircraft_Wing_EXPOSED_AREA, 0);
             (Dynamic_Vehicle_LIFT_COEFFICIENT, Aircraft_Fuselage_PLANFORM_AREA, 0)];
  c_run := BWBLiftCoeff_compute op; c_jac := BWBLiftCoeff_partials op |}.

(** The inputs that are scalars, shared by all nodes. *)
Definition BWBLiftCoeff_shared : list string := [Aircraft_Wing_ZERO_LIFT_ANGLE; v_CL_max_flaps; v_dCL_flaps_model;
    Aircraft_Wing_AREA; Aircraft_Wing_EXPOSED_AREA; Aircraft_Fuselage_PLANFORM_AREA].

(** LiftCoeffClean.compute, /repo/aviary/subsystems/aerodynamics/gasp_based/gaspaero.py L2119-2135 (one engine type or one node) *)
Definition LiftCoeffClean_compute (op : options) (e : env) : list (string * R) :=
  let lift_curve_slope := e v_lift_curve_slope in  (* L2120 *)
  let lift_ratio := e v_lift_ratio in  (* L2121 *)
  let alpha0 := e Aircraft_Wing_ZERO_LIFT_ANGLE in  (* L2122 *)
  let CL_max_flaps := e Aircraft_Design_LIFT_COEFFICIENT_MAX_FLAPS_UP in  (* L2123 *)
  let alpha := e Dynamic_Vehicle_ANGLE_OF_ATTACK in  (* L2129 *)
  let o_Vehicle_LIFT_COEFFICIENT := lift_curve_slope * ((* deg2rad, L69-71 *) let d := alpha - alpha0 in d * PI / 180)
      * (1 + lift_ratio) in  (* L2130 *)
  let o_alpha_stall := ((* rad2deg, L74-76 *) let r := CL_max_flaps / lift_curve_slope in r * 180 / PI) + alpha0 in  (* L2134 *)
  let o_CL_max := CL_max_flaps * (1 + lift_ratio) in  (* L2135 *)
  [(Dynamic_Vehicle_LIFT_COEFFICIENT, o_Vehicle_LIFT_COEFFICIENT);
   (v_alpha_stall, o_alpha_stall);
   (v_CL_max, o_CL_max)].

(** LiftCoeffClean.compute_partials, /repo/aviary/subsystems/aerodynamics/gasp_based/gaspaero.py L2137-2178 *)
Definition LiftCoeffClean_partials (op : options) (e : env) : list (string * string * R) :=
  let lift_curve_slope := e v_lift_curve_slope in  (* L2138 *)
  let lift_ratio := e v_lift_ratio in  (* L2139 *)
  let alpha0 := e Aircraft_Wing_ZERO_LIFT_ANGLE in  (* L2140 *)
  let CL_max_flaps := e Aircraft_Design_LIFT_COEFFICIENT_MAX_FLAPS_UP in  (* L2141 *)
  let d_alpha_stall__Design_LIFT_COEFFICIENT_MAX_FLAPS_UP := 180 / PI / lift_curve_slope in  (* L2143 *)
  let d_alpha_stall__lift_curve_slope := - 180 / PI * CL_max_flaps / lift_curve_slope ^ 2 in  (* L2146 *)
  let d_alpha_stall__Wing_ZERO_LIFT_ANGLE := 1 in  (* L2147 *)
  let d_CL_max__Design_LIFT_COEFFICIENT_MAX_FLAPS_UP := 1 + lift_ratio in  (* L2148 *)
  let d_CL_max__lift_ratio := CL_max_flaps in  (* L2149 *)
  let alpha := e Dynamic_Vehicle_ANGLE_OF_ATTACK in  (* L2166 *)
  let d_Vehicle_LIFT_COEFFICIENT__Vehicle_ANGLE_OF_ATTACK := lift_curve_slope * PI / 180 * (1 + lift_ratio) in  (* L2167 *)
  let d_Vehicle_LIFT_COEFFICIENT__lift_curve_slope := ((* deg2rad, L69-71 *) let d := alpha - alpha0 in d * PI / 180)
      * (1 + lift_ratio) in  (* L2170 *)
  let d_Vehicle_LIFT_COEFFICIENT__lift_ratio := lift_curve_slope * ((* deg2rad, L69-71 *) let d := alpha - alpha0 in d
      * PI / 180) in  (* L2173 *)
  let d_Vehicle_LIFT_COEFFICIENT__Wing_ZERO_LIFT_ANGLE := - lift_curve_slope * PI / 180 * (1 + lift_ratio) in  (* L2176 *)
  [(v_alpha_stall, Aircraft_Design_LIFT_COEFFICIENT_MAX_FLAPS_UP,
      d_alpha_stall__Design_LIFT_COEFFICIENT_MAX_FLAPS_UP);
   (v_alpha_stall, v_lift_curve_slope, d_alpha_stall__lift_curve_slope);
   (v_alpha_stall, Aircraft_Wing_ZERO_LIFT_ANGLE, d_alpha_stall__Wing_ZERO_LIFT_ANGLE);
   (v_CL_max, Aircraft_Design_LIFT_COEFFICIENT_MAX_FLAPS_UP, d_CL_max__Design_LIFT_COEFFICIENT_MAX_FLAPS_UP);
   (v_CL_max, v_lift_ratio, d_CL_max__lift_ratio);
   (Dynamic_Vehicle_LIFT_COEFFICIENT, Dynamic_Vehicle_ANGLE_OF_ATTACK,
       d_Vehicle_LIFT_COEFFICIENT__Vehicle_ANGLE_OF_ATTACK);
   (Dynamic_Vehicle_LIFT_COEFFICIENT, v_lift_curve_slope, d_Vehicle_LIFT_COEFFICIENT__lift_curve_slope);
   (Dynamic_Vehicle_LIFT_COEFFICIENT, v_lift_ratio, d_Vehicle_LIFT_COEFFICIENT__lift_ratio);
   (Dynamic_Vehicle_LIFT_COEFFICIENT, Aircraft_Wing_ZERO_LIFT_ANGLE,
       d_Vehicle_LIFT_COEFFICIENT__Wing_ZERO_LIFT_ANGLE)].

(** Inputs, outputs and declared partials: /repo/aviary/subsystems/aerodynamics/gasp_based/gaspaero.py L2060-2117 *)
Definition LiftCoeffClean (op : options) : comp := {|
  c_ins := [Dynamic_Vehicle_ANGLE_OF_ATTACK;
            v_lift_curve_slope;
            v_lift_ratio;
            Aircraft_Wing_ZERO_LIFT_ANGLE;
            Aircraft_Design_LIFT_COEFFICIENT_MAX_FLAPS_UP];
  c_outs := [Dynamic_Vehicle_LIFT_COEFFICIENT;
             v_alpha_stall;
             v_CL_max];
  c_decl := [(Dynamic_Vehicle_LIFT_COEFFICIENT, Dynamic_Vehicle_ANGLE_OF_ATTACK, 0);
             (Dynamic_Vehicle_LIFT_COEFFICIENT, v_lift_curve_slope, 0);
             (Dynamic_Vehicle_LIFT_COEFFICIENT, v_lift_ratio, 0);
             (Dynamic_Vehicle_LIFT_COEFFICIENT, Aircraft_Wing_ZERO_LIFT_ANGLE, 0);
             (Dynamic_Vehicle_LIFT_COEFFICIENT, Aircraft_Design_LIFT_COEFFICIENT_MAX_FLAPS_UP, 0);
             (v_alpha_stall, Dynamic_Vehicle_ANGLE_OF_ATTACK, 0);
             (v_alpha_stall, v_lift_curve_slope, 0);
             (v_alpha_stall, v_lift_ratio, 0);
             (v_alpha_stall, Aircraft_Wing_ZERO_LIFT_ANGLE, 0);
             (v_alpha_stall, Aircraft_Design_LIFT_COEFFICIENT_MAX_FLAPS_UP, 0);
             (v_CL_max, Dynamic_Vehicle_ANGLE_OF_ATTACK, 0);
             (v_CL_max, v_lift_curve_slope, 0);
             (v_CL_max, v_lift_ratio, 0);
             (v_CL_max, Aircraft_Wing_ZERO_LIFT_ANGLE, 0);
             (v_CL_max, Aircraft_Design_LIFT_COEFFICIENT_MAX_FLAPS_UP, 0)];
  c_run := LiftCoeffClean_compute op; c_jac := LiftCoeffClean_partials op |}.

(** The inputs that are scalars, shared by all nodes. *)
Definition LiftCoeffClean_shared : list string := [Aircraft_Wing_ZERO_LIFT_ANGLE;
    Aircraft_Design_LIFT_COEFFICIENT_MAX_FLAPS_UP].

(** LiftCoeffClean.compute, /repo/aviary/subsystems/aerodynamics/gasp_based/gaspaero.py L2119-2135 (one engine type or one node) *)
Definition LiftCoeffCleanAlpha_compute (op : options) (e : env) : list (string * R) :=
  let lift_curve_slope := e v_lift_curve_slope in  (* L2120 *)
  let lift_ratio := e v_lift_ratio in  (* L2121 *)
  let alpha0 := e Aircraft_Wing_ZERO_LIFT_ANGLE in  (* L2122 *)
  let CL_max_flaps := e Aircraft_Design_LIFT_COEFFICIENT_MAX_FLAPS_UP in  (* L2123 *)
  let CL := e Dynamic_Vehicle_LIFT_COEFFICIENT in  (* L2125 *)
  let clw := CL / (1 + lift_ratio) in  (* L2126 *)
  let o_Vehicle_ANGLE_OF_ATTACK := ((* rad2deg, L74-76 *) let r := clw / lift_curve_slope in r * 180 / PI) + alpha0 in  (* L2127 *)
  let o_alpha_stall := ((* rad2deg, L74-76 *) let r := CL_max_flaps / lift_curve_slope in r * 180 / PI) + alpha0 in  (* L2134 *)
  let o_CL_max := CL_max_flaps * (1 + lift_ratio) in  (* L2135 *)
  [(Dynamic_Vehicle_ANGLE_OF_ATTACK, o_Vehicle_ANGLE_OF_ATTACK);
   (v_alpha_stall, o_alpha_stall);
   (v_CL_max, o_CL_max)].

(** LiftCoeffClean.compute_partials, /repo/aviary/subsystems/aerodynamics/gasp_based/gaspaero.py L2137-2178 *)
Definition LiftCoeffCleanAlpha_partials (op : options) (e : env) : list (string * string * R) :=
  let lift_curve_slope := e v_lift_curve_slope in  (* L2138 *)
  let lift_ratio := e v_lift_ratio in  (* L2139 *)
  let alpha0 := e Aircraft_Wing_ZERO_LIFT_ANGLE in  (* L2140 *)
  let CL_max_flaps := e Aircraft_Design_LIFT_COEFFICIENT_MAX_FLAPS_UP in  (* L2141 *)
  let d_alpha_stall__Design_LIFT_COEFFICIENT_MAX_FLAPS_UP := 180 / PI / lift_curve_slope in  (* L2143 *)
  let d_alpha_stall__lift_curve_slope := - 180 / PI * CL_max_flaps / lift_curve_slope ^ 2 in  (* L2146 *)
  let d_alpha_stall__Wing_ZERO_LIFT_ANGLE := 1 in  (* L2147 *)
  let d_CL_max__Design_LIFT_COEFFICIENT_MAX_FLAPS_UP := 1 + lift_ratio in  (* L2148 *)
  let d_CL_max__lift_ratio := CL_max_flaps in  (* L2149 *)
  let CL := e Dynamic_Vehicle_LIFT_COEFFICIENT in  (* L2152 *)
  let clw := CL / (1 + lift_ratio) in  (* L2153 *)
  let d_Vehicle_ANGLE_OF_ATTACK__Wing_ZERO_LIFT_ANGLE := 1 in  (* L2155 *)
  let d_Vehicle_ANGLE_OF_ATTACK__lift_curve_slope := - 180 / PI * clw / lift_curve_slope ^ 2 in  (* L2156 *)
  let d_Vehicle_ANGLE_OF_ATTACK__Vehicle_LIFT_COEFFICIENT := 180 / PI / (1 + lift_ratio) / lift_curve_slope in  (* L2159 *)
  let d_Vehicle_ANGLE_OF_ATTACK__lift_ratio := - 180 / PI * CL / (1 + lift_ratio) ^ 2 / lift_curve_slope in  (* L2162 *)
  [(v_alpha_stall, Aircraft_Design_LIFT_COEFFICIENT_MAX_FLAPS_UP,
      d_alpha_stall__Design_LIFT_COEFFICIENT_MAX_FLAPS_UP);
   (v_alpha_stall, v_lift_curve_slope, d_alpha_stall__lift_curve_slope);
   (v_alpha_stall, Aircraft_Wing_ZERO_LIFT_ANGLE, d_alpha_stall__Wing_ZERO_LIFT_ANGLE);
   (v_CL_max, Aircraft_Design_LIFT_COEFFICIENT_MAX_FLAPS_UP, d_CL_max__Design_LIFT_COEFFICIENT_MAX_FLAPS_UP);
   (v_CL_max, v_lift_ratio, d_CL_max__lift_ratio);
   (Dynamic_Vehicle_ANGLE_OF_ATTACK, Aircraft_Wing_ZERO_LIFT_ANGLE, d_Vehicle_ANGLE_OF_ATTACK__Wing_ZERO_LIFT_ANGLE);
   (Dynamic_Vehicle_ANGLE_OF_ATTACK, v_lift_curve_slope, d_Vehicle_ANGLE_OF_ATTACK__lift_curve_slope);
   (Dynamic_Vehicle_ANGLE_OF_ATTACK, Dynamic_Vehicle_LIFT_COEFFICIENT,
       d_Vehicle_ANGLE_OF_ATTACK__Vehicle_LIFT_COEFFICIENT);
   (Dynamic_Vehicle_ANGLE_OF_ATTACK, v_lift_ratio, d_Vehicle_ANGLE_OF_ATTACK__lift_ratio)].

(** Inputs, outputs and declared partials: /repo/aviary/subsystems/aerodynamics/gasp_based/gaspaero.py L2060-2117 *)
Definition LiftCoeffCleanAlpha (op : options) : comp := {|
  c_ins := [Dynamic_Vehicle_LIFT_COEFFICIENT;
            v_lift_curve_slope;
            v_lift_ratio;
            Aircraft_Wing_ZERO_LIFT_ANGLE;
            Aircraft_Design_LIFT_COEFFICIENT_MAX_FLAPS_UP];
  c_outs := [Dynamic_Vehicle_ANGLE_OF_ATTACK;
             v_alpha_stall;
             v_CL_max];
  c_decl := [(Dynamic_Vehicle_ANGLE_OF_ATTACK, Dynamic_Vehicle_LIFT_COEFFICIENT, 0);
             (Dynamic_Vehicle_ANGLE_OF_ATTACK, v_lift_curve_slope, 0);
             (Dynamic_Vehicle_ANGLE_OF_ATTACK, v_lift_ratio, 0);
             (Dynamic_Vehicle_ANGLE_OF_ATTACK, Aircraft_Wing_ZERO_LIFT_ANGLE, 0);
             (Dynamic_Vehicle_ANGLE_OF_ATTACK, Aircraft_Design_LIFT_COEFFICIENT_MAX_FLAPS_UP, 0);
             (v_alpha_stall, Dynamic_Vehicle_LIFT_COEFFICIENT, 0);
             (v_alpha_stall, v_lift_curve_slope, 0);
             (v_alpha_stall, v_lift_ratio, 0);
             (v_alpha_stall, Aircraft_Wing_ZERO_LIFT_ANGLE, 0);
             (v_alpha_stall, Aircraft_Design_LIFT_COEFFICIENT_MAX_FLAPS_UP, 0);
             (v_CL_max, Dynamic_Vehicle_LIFT_COEFFICIENT, 0);
             (v_CL_max, v_lift_curve_slope, 0);
             (v_CL_max, v_lift_ratio, 0);
             (v_CL_max, Aircraft_Wing_ZERO_LIFT_ANGLE, 0);
             (v_CL_max, Aircraft_Design_LIFT_COEFFICIENT_MAX_FLAPS_UP, 0)];
  c_run := LiftCoeffCleanAlpha_compute op; c_jac := LiftCoeffCleanAlpha_partials op |}.

(** The inputs that are scalars, shared by all nodes. *)
Definition LiftCoeffCleanAlpha_shared : list string := [Aircraft_Wing_ZERO_LIFT_ANGLE;
    Aircraft_Design_LIFT_COEFFICIENT_MAX_FLAPS_UP].

(** BWBLiftCoeffClean.compute, /repo/aviary/subsystems/aerodynamics/gasp_based/gaspaero.py L2302-2339 (one engine type or one node) *)
Definition BWBLiftCoeffClean_compute (op : options) (e : env) : list (string * R) :=
  let lift_curve_slope := e v_lift_curve_slope in  (* L2305 *)
  let body_lift_curve_slope := e v_body_lift_curve_slope in  (* L2306 *)
  let alpha0 := e Aircraft_Wing_ZERO_LIFT_ANGLE in  (* L2307 *)
  let CL_max_flaps := e Aircraft_Design_LIFT_COEFFICIENT_MAX_FLAPS_UP in  (* L2308 *)
  let wing_area := e Aircraft_Wing_AREA in  (* L2309 *)
  let exp_wing_area := e Aircraft_Wing_EXPOSED_AREA in  (* L2310 *)
  let planform := e Aircraft_Fuselage_PLANFORM_AREA in  (* L2311 *)
  let alpha := e Dynamic_Vehicle_ANGLE_OF_ATTACK in  (* L2324 *)
  let clw := lift_curve_slope * PI / 180 * (alpha - alpha0) in  (* L2325 *)
  let o_Vehicle_LIFT_COEFFICIENT := exp_wing_area / wing_area * clw + planform / wing_area * ((* deg2rad, L69-71 *)
      let d := alpha - alpha0 in d * PI / 180) * body_lift_curve_slope in  (* L2326 *)
  let alpha_stall := ((* rad2deg, L74-76 *) let r := CL_max_flaps / lift_curve_slope in r * 180 / PI) + alpha0 in  (* L2331 *)
  let o_alpha_stall := alpha_stall in  (* L2332 *)
  let o_CL_max := CL_max_flaps in  (* L2339 *)
  [(Dynamic_Vehicle_LIFT_COEFFICIENT, o_Vehicle_LIFT_COEFFICIENT);
   (v_alpha_stall, o_alpha_stall);
   (v_CL_max, o_CL_max)].

(** BWBLiftCoeffClean.compute_partials, /repo/aviary/subsystems/aerodynamics/gasp_based/gaspaero.py L2341-2431 *)
Definition BWBLiftCoeffClean_partials (op : options) (e : env) : list (string * string * R) :=
  let lift_curve_slope := e v_lift_curve_slope in  (* L2342 *)
  let body_lift_curve_slope := e v_body_lift_curve_slope in  (* L2343 *)
  let alpha0 := e Aircraft_Wing_ZERO_LIFT_ANGLE in  (* L2344 *)
  let CL_max_flaps := e Aircraft_Design_LIFT_COEFFICIENT_MAX_FLAPS_UP in  (* L2345 *)
  let wing_area := e Aircraft_Wing_AREA in  (* L2346 *)
  let exp_wing_area := e Aircraft_Wing_EXPOSED_AREA in  (* L2347 *)
  let planform := e Aircraft_Fuselage_PLANFORM_AREA in  (* L2348 *)
  let alpha := e Dynamic_Vehicle_ANGLE_OF_ATTACK in  (* L2396 *)
  let d_Vehicle_LIFT_COEFFICIENT__Wing_EXPOSED_AREA := 1 / wing_area * lift_curve_slope * PI / 180 * (alpha - alpha0)
      in  (* L2401 *)
  let d_Vehicle_LIFT_COEFFICIENT__Fuselage_PLANFORM_AREA := 1 / wing_area * ((* deg2rad, L69-71 *) let d := alpha -
      alpha0 in d * PI / 180) * body_lift_curve_slope in  (* L2404 *)
  let d_Vehicle_LIFT_COEFFICIENT__Wing_AREA := - exp_wing_area / wing_area ^ 2 * lift_curve_slope * PI / 180 * (alpha
      - alpha0) - planform / wing_area ^ 2 * ((* deg2rad, L69-71 *) let d := alpha - alpha0 in d * PI / 180) *
      body_lift_curve_slope in  (* L2407 *)
  let d_Vehicle_LIFT_COEFFICIENT__Wing_ZERO_LIFT_ANGLE := - exp_wing_area / wing_area * lift_curve_slope * PI / 180 -
      planform / wing_area * body_lift_curve_slope * PI / 180 in  (* L2411 *)
  let d_Vehicle_LIFT_COEFFICIENT__Vehicle_ANGLE_OF_ATTACK := exp_wing_area / wing_area * lift_curve_slope * PI / 180 +
      planform / wing_area * body_lift_curve_slope * PI / 180 in  (* L2415 *)
  let d_Vehicle_LIFT_COEFFICIENT__lift_curve_slope := exp_wing_area / wing_area * PI / 180 * (alpha - alpha0) in  (* L2419 *)
  let d_Vehicle_LIFT_COEFFICIENT__body_lift_curve_slope := planform / wing_area * PI / 180 * (alpha - alpha0) in  (* L2422 *)
  let d_alpha_stall__Design_LIFT_COEFFICIENT_MAX_FLAPS_UP := 180 / PI / lift_curve_slope in  (* L2426 *)
  let d_alpha_stall__lift_curve_slope := - 180 / PI * CL_max_flaps / lift_curve_slope ^ 2 in  (* L2429 *)
  let d_alpha_stall__Wing_ZERO_LIFT_ANGLE := 1 in  (* L2430 *)
  let d_CL_max__Design_LIFT_COEFFICIENT_MAX_FLAPS_UP := 1 in  (* L2431 *)
  [(Dynamic_Vehicle_LIFT_COEFFICIENT, Aircraft_Wing_EXPOSED_AREA, d_Vehicle_LIFT_COEFFICIENT__Wing_EXPOSED_AREA);
   (Dynamic_Vehicle_LIFT_COEFFICIENT, Aircraft_Fuselage_PLANFORM_AREA,
       d_Vehicle_LIFT_COEFFICIENT__Fuselage_PLANFORM_AREA);
   (Dynamic_Vehicle_LIFT_COEFFICIENT, Aircraft_Wing_AREA, d_Vehicle_LIFT_COEFFICIENT__Wing_AREA);
   (Dynamic_Vehicle_LIFT_COEFFICIENT, Aircraft_Wing_ZERO_LIFT_ANGLE,
       d_Vehicle_LIFT_COEFFICIENT__Wing_ZERO_LIFT_ANGLE);
   (Dynamic_Vehicle_LIFT_COEFFICIENT, Dynamic_Vehicle_ANGLE_OF_ATTACK,
       d_Vehicle_LIFT_COEFFICIENT__Vehicle_ANGLE_OF_ATTACK);
   (Dynamic_Vehicle_LIFT_COEFFICIENT, v_lift_curve_slope, d_Vehicle_LIFT_COEFFICIENT__lift_curve_slope);
   (Dynamic_Vehicle_LIFT_COEFFICIENT, v_body_lift_curve_slope, d_Vehicle_LIFT_COEFFICIENT__body_lift_curve_slope);
   (v_alpha_stall, Aircraft_Design_LIFT_COEFFICIENT_MAX_FLAPS_UP,
       d_alpha_stall__Design_LIFT_COEFFICIENT_MAX_FLAPS_UP);
   (v_alpha_stall, v_lift_curve_slope, d_alpha_stall__lift_curve_slope);
   (v_alpha_stall, Aircraft_Wing_ZERO_LIFT_ANGLE, d_alpha_stall__Wing_ZERO_LIFT_ANGLE);
   (v_CL_max, Aircraft_Design_LIFT_COEFFICIENT_MAX_FLAPS_UP, d_CL_max__Design_LIFT_COEFFICIENT_MAX_FLAPS_UP)].

(** Inputs, outputs and declared partials: /repo/aviary/subsystems/aerodynamics/gasp_based/gaspaero.py L2194-2300 *)
Definition BWBLiftCoeffClean (op : options) : comp := {|
  c_ins := [Dynamic_Vehicle_ANGLE_OF_ATTACK;
            v_lift_curve_slope;
            v_body_lift_curve_slope;
            Aircraft_Wing_ZERO_LIFT_ANGLE;
            Aircraft_Design_LIFT_COEFFICIENT_MAX_FLAPS_UP;
            Aircraft_Wing_AREA;
            Aircraft_Wing_EXPOSED_AREA;
            Aircraft_Fuselage_PLANFORM_AREA];
  c_outs := [Dynamic_Vehicle_LIFT_COEFFICIENT;
             v_alpha_stall;
             v_CL_max];
  c_decl := [(Dynamic_Vehicle_LIFT_COEFFICIENT, Dynamic_Vehicle_ANGLE_OF_ATTACK, 0);
             (Dynamic_Vehicle_LIFT_COEFFICIENT, v_lift_curve_slope, 0);
             (Dynamic_Vehicle_LIFT_COEFFICIENT, v_body_lift_curve_slope, 0);
             (Dynamic_Vehicle_LIFT_COEFFICIENT, Aircraft_Wing_ZERO_LIFT_ANGLE, 0);
             (Dynamic_Vehicle_LIFT_COEFFICIENT, Aircraft_Design_LIFT_COEFFICIENT_MAX_FLAPS_UP, 0);
             (Dynamic_Vehicle_LIFT_COEFFICIENT, Aircraft_Wing_AREA, 0);
             (Dynamic_Vehicle_LIFT_COEFFICIENT, Aircraft_Wing_EXPOSED_AREA, 0);
             (Dynamic_Vehicle_LIFT_COEFFICIENT, Aircraft_Fuselage_PLANFORM_AREA, 0);
             (v_alpha_stall, Dynamic_Vehicle_ANGLE_OF_ATTACK, 0);
             (v_alpha_stall, v_lift_curve_slope, 0);
             (v_alpha_stall, v_body_lift_curve_slope, 0);
             (v_alpha_stall, Aircraft_Wing_ZERO_LIFT_ANGLE, 0);
             (v_alpha_stall, Aircraft_Design_LIFT_COEFFICIENT_MAX_FLAPS_UP, 0);
             (v_alpha_stall, Aircraft_Wing_AREA, 0);
             (v_alpha_stall, Aircraft_Wing_EXPOSED_AREA, 0);
             (v_alpha_stall, Aircraft_Fuselage_PLANFORM_AREA, 0);
             (v_CL_max, Dynamic_Vehicle_ANGLE_OF_ATTACK, 0);
             (v_CL_max, v_lift_curve_slope, 0);
             (v_CL_max, v_body_lift_curve_slope, 0);
             (v_CL_max, Aircraft_Wing_ZERO_LIFT_ANGLE, 0);
             (v_CL_max, Aircraft_Design_LIFT_COEFFICIENT_MAX_FLAPS_UP, 0);
             (v_CL_max, Aircraft_Wing_AREA, 0);
             (v_CL_max, Aircraft_Wing_EXPOSED_AREA, 0);
             (v_CL_max, Aircraft_Fuselage_PLANFORM_AREA, 0)];
  c_run := BWBLiftCoeffClean_compute op; c_jac := BWBLiftCoeffClean_partials op |}.

(** The inputs that are scalars, shared by all nodes. *)
Definition BWBLiftCoeffClean_shared : list string := [Aircraft_Wing_ZERO_LIFT_ANGLE;
    Aircraft_Design_LIFT_COEFFICIENT_MAX_FLAPS_UP; Aircraft_Wing_AREA; Aircraft_Wing_EXPOSED_AREA;
    Aircraft_Fuselage_PLANFORM_AREA].

(** BWBLiftCoeffClean.compute, /repo/aviary/subsystems/aerodynamics/gasp_based/gaspaero.py L2302-2339 (one engine type or one node) *)
Definition BWBLiftCoeffCleanAlpha_compute (op : options) (e : env) : list (string * R) :=
  let lift_curve_slope := e v_lift_curve_slope in  (* L2305 *)
  let body_lift_curve_slope := e v_body_lift_curve_slope in  (* L2306 *)
  let alpha0 := e Aircraft_Wing_ZERO_LIFT_ANGLE in  (* L2307 *)
  let CL_max_flaps := e Aircraft_Design_LIFT_COEFFICIENT_MAX_FLAPS_UP in  (* L2308 *)
  let wing_area := e Aircraft_Wing_AREA in  (* L2309 *)
  let exp_wing_area := e Aircraft_Wing_EXPOSED_AREA in  (* L2310 *)
  let planform := e Aircraft_Fuselage_PLANFORM_AREA in  (* L2311 *)
  let CL := e Dynamic_Vehicle_LIFT_COEFFICIENT in  (* L2314 *)
  let mod_lift_curve_slope := exp_wing_area / wing_area * lift_curve_slope + planform / wing_area *
      body_lift_curve_slope in  (* L2316 *)
  let o_mod_lift_curve_slope := mod_lift_curve_slope in  (* L2320 *)
  let alpha := ((* rad2deg, L74-76 *) let r := CL / mod_lift_curve_slope in r * 180 / PI) + alpha0 in  (* L2321 *)
  let o_Vehicle_ANGLE_OF_ATTACK := alpha in  (* L2322 *)
  let alpha_stall := ((* rad2deg, L74-76 *) let r := CL_max_flaps / lift_curve_slope in r * 180 / PI) + alpha0 in  (* L2331 *)
  let o_alpha_stall := alpha_stall in  (* L2332 *)
  let o_CL_max := CL_max_flaps in  (* L2339 *)
  [(v_mod_lift_curve_slope, o_mod_lift_curve_slope);
   (Dynamic_Vehicle_ANGLE_OF_ATTACK, o_Vehicle_ANGLE_OF_ATTACK);
   (v_alpha_stall, o_alpha_stall);
   (v_CL_max, o_CL_max)].

(** BWBLiftCoeffClean.compute_partials, /repo/aviary/subsystems/aerodynamics/gasp_based/gaspaero.py L2341-2431 *)
Definition BWBLiftCoeffCleanAlpha_partials (op : options) (e : env) : list (string * string * R) :=
  let lift_curve_slope := e v_lift_curve_slope in  (* L2342 *)
  let body_lift_curve_slope := e v_body_lift_curve_slope in  (* L2343 *)
  let alpha0 := e Aircraft_Wing_ZERO_LIFT_ANGLE in  (* L2344 *)
  let CL_max_flaps := e Aircraft_Design_LIFT_COEFFICIENT_MAX_FLAPS_UP in  (* L2345 *)
  let wing_area := e Aircraft_Wing_AREA in  (* L2346 *)
  let exp_wing_area := e Aircraft_Wing_EXPOSED_AREA in  (* L2347 *)
  let planform := e Aircraft_Fuselage_PLANFORM_AREA in  (* L2348 *)
  let CL := e Dynamic_Vehicle_LIFT_COEFFICIENT in  (* L2351 *)
  let mod_lift_curve_slope := exp_wing_area / wing_area * lift_curve_slope + planform / wing_area *
      body_lift_curve_slope in  (* L2352 *)
  let dmod_dexp_wing_area := 1 / wing_area * lift_curve_slope in  (* L2358 *)
  let dmod_dwing_area := - exp_wing_area / wing_area ^ 2 * lift_curve_slope - planform / wing_area ^ 2 *
      body_lift_curve_slope in  (* L2359 *)
  let dmod_dplanform := 1 / wing_area * body_lift_curve_slope in  (* L2363 *)
  let dmod_dlift_curve_slope := exp_wing_area / wing_area in  (* L2364 *)
  let dmod_dbody_lift_curve_slope := planform / wing_area in  (* L2365 *)
  let d_mod_lift_curve_slope__Wing_EXPOSED_AREA := dmod_dexp_wing_area in  (* L2367 *)
  let d_mod_lift_curve_slope__Wing_AREA := dmod_dwing_area in  (* L2368 *)
  let d_mod_lift_curve_slope__Fuselage_PLANFORM_AREA := dmod_dplanform in  (* L2369 *)
  let d_mod_lift_curve_slope__lift_curve_slope := dmod_dlift_curve_slope in  (* L2370 *)
  let d_mod_lift_curve_slope__body_lift_curve_slope := dmod_dbody_lift_curve_slope in  (* L2371 *)
  let d_Vehicle_ANGLE_OF_ATTACK__Wing_AREA := - 180 / PI * CL / mod_lift_curve_slope ^ 2 * dmod_dwing_area in  (* L2375 *)
  let d_Vehicle_ANGLE_OF_ATTACK__Wing_EXPOSED_AREA := - 180 / PI * CL / mod_lift_curve_slope ^ 2 * dmod_dexp_wing_area
      in  (* L2378 *)
  let d_Vehicle_ANGLE_OF_ATTACK__Fuselage_PLANFORM_AREA := - 180 / PI * CL / mod_lift_curve_slope ^ 2 * dmod_dplanform
      in  (* L2381 *)
  let d_Vehicle_ANGLE_OF_ATTACK__lift_curve_slope := - 180 / PI * CL / mod_lift_curve_slope ^ 2 *
      dmod_dlift_curve_slope in  (* L2384 *)
  let d_Vehicle_ANGLE_OF_ATTACK__body_lift_curve_slope := - 180 / PI * CL / mod_lift_curve_slope ^ 2 *
      dmod_dbody_lift_curve_slope in  (* L2387 *)
  let d_Vehicle_ANGLE_OF_ATTACK__Vehicle_LIFT_COEFFICIENT := 180 / PI / mod_lift_curve_slope in  (* L2391 *)
  let d_Vehicle_ANGLE_OF_ATTACK__Wing_ZERO_LIFT_ANGLE := 1 in  (* L2394 *)
  let d_alpha_stall__Design_LIFT_COEFFICIENT_MAX_FLAPS_UP := 180 / PI / lift_curve_slope in  (* L2426 *)
  let d_alpha_stall__lift_curve_slope := - 180 / PI * CL_max_flaps / lift_curve_slope ^ 2 in  (* L2429 *)
  let d_alpha_stall__Wing_ZERO_LIFT_ANGLE := 1 in  (* L2430 *)
  let d_CL_max__Design_LIFT_COEFFICIENT_MAX_FLAPS_UP := 1 in  (* L2431 *)
  [(v_mod_lift_curve_slope, Aircraft_Wing_EXPOSED_AREA, d_mod_lift_curve_slope__Wing_EXPOSED_AREA);
   (v_mod_lift_curve_slope, Aircraft_Wing_AREA, d_mod_lift_curve_slope__Wing_AREA);
   (v_mod_lift_curve_slope, Aircraft_Fuselage_PLANFORM_AREA, d_mod_lift_curve_slope__Fuselage_PLANFORM_AREA);
   (v_mod_lift_curve_slope, v_lift_curve_slope, d_mod_lift_curve_slope__lift_curve_slope);
   (v_mod_lift_curve_slope, v_body_lift_curve_slope, d_mod_lift_curve_slope__body_lift_curve_slope);
   (Dynamic_Vehicle_ANGLE_OF_ATTACK, Aircraft_Wing_AREA, d_Vehicle_ANGLE_OF_ATTACK__Wing_AREA);
   (Dynamic_Vehicle_ANGLE_OF_ATTACK, Aircraft_Wing_EXPOSED_AREA, d_Vehicle_ANGLE_OF_ATTACK__Wing_EXPOSED_AREA);
   (Dynamic_Vehicle_ANGLE_OF_ATTACK, Aircraft_Fuselage_PLANFORM_AREA,
       d_Vehicle_ANGLE_OF_ATTACK__Fuselage_PLANFORM_AREA);
   (Dynamic_Vehicle_ANGLE_OF_ATTACK, v_lift_curve_slope, d_Vehicle_ANGLE_OF_ATTACK__lift_curve_slope);
   (Dynamic_Vehicle_ANGLE_OF_ATTACK, v_body_lift_curve_slope, d_Vehicle_ANGLE_OF_ATTACK__body_lift_curve_slope);
   (Dynamic_Vehicle_ANGLE_OF_ATTACK, Dynamic_Vehicle_LIFT_COEFFICIENT,
       d_Vehicle_ANGLE_OF_ATTACK__Vehicle_LIFT_COEFFICIENT);
   (Dynamic_Vehicle_ANGLE_OF_ATTACK, Aircraft_Wing_ZERO_LIFT_ANGLE, d_Vehicle_ANGLE_OF_ATTACK__Wing_ZERO_LIFT_ANGLE);
   (v_alpha_stall, Aircraft_Design_LIFT_COEFFICIENT_MAX_FLAPS_UP,
       d_alpha_stall__Design_LIFT_COEFFICIENT_MAX_FLAPS_UP);
   (v_alpha_stall, v_lift_curve_slope, d_alpha_stall__lift_curve_slope);
   (v_alpha_stall, Aircraft_Wing_ZERO_LIFT_ANGLE, d_alpha_stall__Wing_ZERO_LIFT_ANGLE);
   (v_CL_max, Aircraft_Design_LIFT_COEFFICIENT_MAX_FLAPS_UP, d_CL_max__Design_LIFT_COEFFICIENT_MAX_FLAPS_UP)].

(** Inputs, outputs and declared partials: /repo/aviary/subsystems/aerodynamics/gasp_based/gaspaero.py L2194-2300 *)
Definition BWBLiftCoeffCleanAlpha (op : options) : comp := {|
  c_ins := [Dynamic_Vehicle_LIFT_COEFFICIENT;
            v_lift_curve_slope;
            v_body_lift_curve_slope;
            Aircraft_Wing_ZERO_LIFT_ANGLE;
            Aircraft_Design_LIFT_COEFFICIENT_MAX_FLAPS_UP;
            Aircraft_Wing_AREA;
            Aircraft_Wing_EXPOSED_AREA;
            Aircraft_Fuselage_PLANFORM_AREA];
  c_outs := [v_mod_lift_curve_slope;
             Dynamic_Vehicle_ANGLE_OF_ATTACK;
             v_alpha_stall;
             v_CL_max];
  c_decl := [(v_mod_lift_curve_slope, Dynamic_Vehicle_LIFT_COEFFICIENT, 0);
             (v_mod_lift_curve_slope, v_lift_curve_slope, 0);
             (v_mod_lift_curve_slope, v_body_lift_curve_slope, 0);
             (v_mod_lift_curve_slope, Aircraft_Wing_ZERO_LIFT_ANGLE, 0);
             (v_mod_lift_curve_slope, Aircraft_Design_LIFT_COEFFICIENT_MAX_FLAPS_UP, 0);
             (v_mod_lift_curve_slope, Aircraft_Wing_AREA, 0);
             (v_mod_lift_curve_slope, Aircraft_Wing_EXPOSED_AREA, 0);
             (v_mod_lift_curve_slope, Aircraft_Fuselage_PLANFORM_AREA, 0);
             (Dynamic_Vehicle_ANGLE_OF_ATTACK, Dynamic_Vehicle_LIFT_COEFFICIENT, 0);
             (Dynamic_Vehicle_ANGLE_OF_ATTACK, v_lift_curve_slope, 0);
             (Dynamic_Vehicle_ANGLE_OF_ATTACK, v_body_lift_curve_slope, 0);
             (Dynamic_Vehicle_ANGLE_OF_ATTACK, Aircraft_Wing_ZERO_LIFT_ANGLE, 0);
             (Dynamic_Vehicle_ANGLE_OF_ATTACK, Aircraft_Design_LIFT_COEFFICIENT_MAX_FLAPS_UP, 0);
             (Dynamic_Vehicle_ANGLE_OF_ATTACK, Aircraft_Wing_AREA, 0);
             (Dynamic_Vehicle_ANGLE_OF_ATTACK, Aircraft_Wing_EXPOSED_AREA, 0);
             (Dynamic_Vehicle_ANGLE_OF_ATTACK, Aircraft_Fuselage_PLANFORM_AREA, 0);
             (v_alpha_stall, Dynamic_Vehicle_LIFT_COEFFICIENT, 0);
             (v_alpha_stall, v_lift_curve_slope, 0);
             (v_alpha_stall, v_body_lift_curve_slope, 0);
             (v_alpha_stall, Aircraft_Wing_ZERO_LIFT_ANGLE, 0);
             (v_alpha_stall, Aircraft_Design_LIFT_COEFFICIENT_MAX_FLAPS_UP, 0);
             (v_alpha_stall, Aircraft_Wing_AREA, 0);
             (v_alpha_stall, Aircraft_Wing_EXPOSED_AREA, 0);
             (v_alpha_stall, Aircraft_Fuselage_PLANFORM_AREA, 0);
             (v_CL_max, Dynamic_Vehicle_LIFT_COEFFICIENT, 0);
             (v_CL_max, v_lift_curve_slope, 0);
             (v_CL_max, v_body_lift_curve_slope, 0);
             (v_CL_max, Aircraft_Wing_ZERO_LIFT_ANGLE, 0);
             (v_CL_max, Aircraft_Design_LIFT_COEFFICIENT_MAX_FLAPS_UP, 0);
             (v_CL_max, Aircraft_Wing_AREA, 0);
             (v_CL_max, Aircraft_Wing_EXPOSED_AREA, 0);
             (v_CL_max, Aircraft_Fuselage_PLANFORM_AREA, 0)];
  c_run := BWBLiftCoeffCleanAlpha_compute op; c_jac := BWBLiftCoeffCleanAlpha_partials op |}.

(** The inputs that are scalars, shared by all nodes. *)
Definition BWBLiftCoeffCleanAlpha_shared : list string := [Aircraft_Wing_ZERO_LIFT_ANGLE;
    Aircraft_Design_LIFT_COEFFICIENT_MAX_FLAPS_UP; Aircraft_Wing_AREA; Aircraft_Wing_EXPOSED_AREA;
    Aircraft_Fuselage_PLANFORM_AREA].
